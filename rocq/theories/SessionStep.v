(** * What can happen to a session

    A run of a session is a sequence of events: frames from the peer, calls of
    the application, polls of its futures by the executor, and completions of the
    control service.  Any order is possible, and the application may use any
    object (address) at any time; an event that names an object that does not
    exist does nothing.  Nothing below assumes that a future is polled again, or
    that the control service ever completes. *)

From Verif Require Export Session.

Inductive ev : Type :=
(** The peer: connection.rs:418-457 gives the frame of an established session to it. *)
| EvFrame (f : frame)
| EvAttach (frm : attach_t)
(** The connection: [SessionInner::set_error] with this error
    (connection.rs:219-236, and through [end], 444-468). *)
| EvFail (e : perr)
(** The application. *)
| EvEnd                                              (* Session::end *)
| EvAttachSender (frm : attach_t)                    (* SenderLinkBuilder::attach *)
| EvAttachReceiver (frm : attach_t)                  (* ReceiverLinkBuilder::attach *)
| EvDetachSender (h : N) (e : option error_t)        (* Session::detach_sender_link *)
| EvDetachReceiver (h : N) (e : option error_t)      (* Session::detach_receiver_link *)
| EvSend (a : nat) (body : transfer_body) (tag : option bytes) (settled : bool)
         (format : option N)                         (* TransferBuilder::send: a new future *)
| EvPollSend (t : nat)
| EvCancelSend (t : nat)                             (* the future is dropped *)
| EvCloseSender (a : nat) (e : option error_t)       (* SenderLink::close, close_with_error *)
| EvOnClose (a : nat)                                (* SenderLink::on_close *)
| EvOnCredit (a : nat)                               (* SenderLink::on_credit_update *)
| EvSenderMax (a : nat) (n : N)                      (* SenderLink::set_max_message_size *)
| EvWait (d : nat)                                   (* Delivery::wait: a new future *)
| EvPollWait (w : nat)
| EvCancelWait (w : nat)
| EvSettle (d : nat) (st : delivery_state)           (* Delivery::settle *)
| EvUpdate (d : nat) (st : delivery_state)           (* Delivery::update_state *)
| EvDrop (d : nat)                                   (* the [Delivery] is dropped *)
| EvRecv (a : nat) (t : nat)                         (* ReceiverLink::poll_recv, by task t *)
| EvGet (a : nat)                                    (* ReceiverLink::get_delivery *)
| EvCredit (a : nat) (n : N)                         (* ReceiverLink::set_link_credit *)
| EvReceiverMax (a : nat) (n : N)                    (* ReceiverLink::set_max_message_size *)
| EvCloseReceiver (a : nat) (e : option error_t)     (* ReceiverLink::close, close_with_error *)
| EvDisposition (disp : disposition_t)               (* ReceiverLink::send_disposition *)
| EvFreeReceiver (a : nat)                           (* the last handle of the link is dropped *)
(** The control service or the publish service completes the i-th call. *)
| EvCtlOk (i : nat) (edit : attach_t -> attach_t)
| EvCtlErr (i : nat) (e : error_t).

(** What the application gets from [recv] or [get_delivery] on link [a]. *)
Inductive obs : Type :=
| ObItem (a d : nat) (tr : transfer_t)
| ObDetached (a : nat) (e : error_t)
| ObEnd (a : nat).

(** connection.rs:419-443: an attach frame of an established session.  A session
    that has failed is not in the table of the connection any more
    (connection.rs:219-236, 444-468) and gets none. *)
Definition on_attach (frm : attach_t) (s : ses) : ses :=
  match s_error s with
  | Some _ => s
  | None =>
  match handle_attach frm s with
  | Some s => s
  | None =>
      match attach_role frm with
      | RoleReceiver =>
          let '(id, response, s) := new_remote_sender frm s in
          let a := length (s_snds s) in
          let s := set_s_snds (s_snds s ++ [snd_with id frm]) s in
          dispatch (AAttachSender a frm response) s
      | RoleSender =>
          let '(response, a, s) := attach_remote_receiver frm s in
          dispatch (AAttachReceiver a frm response) s
      end
  end
  end.

(** Some slot of the session still holds the receiver link. *)
Definition holds_rcv (a : nat) (l : link) : bool :=
  match l with
  | ROpening (Some (a', _)) | ROpeningLocal (Some (a', _)) | REstablished a' => Nat.eqb a a'
  | _ => false
  end.

(** A condition is waited for: the channel of the new waiter. *)
Definition cond_wait (c : cond) (s : ses) : cond * ses :=
  let '(ch, s) := new_chan s in
  if cd_lock c then (c, fire ch VOk s) else (mk_cond (cd_wait c ++ [ch]) false, s).

(** session.rs:101-128 [Session::end], without [close_session], which is an
    effect on the connection. *)
Definition ses_end (s : ses) : ses :=
  if s_ended s then s
  else
    let s := if s_ending s then s else set_s_ending true (post (FEnd (mk_end None)) s) in
    let '(c, s) := cond_wait (s_closed s) s in
    set_s_closed c s.

Definition noobs {A} (m : er A) : er (A * list obs) := emap (fun a => (a, [])) m.

Definition step (p : profile) (e : ev) (s : ses) : er (ses * list obs) :=
  match e with
  | EvFrame f =>
      ebind (ses_handle_frame p f s) (fun '(s, r) =>
      EOk (match r with inl act => dispatch act s | inr _ => s end, []))
  | EvAttach frm => EOk (on_attach frm s, [])
  | EvFail e => EOk (ses_set_error e s, [])
  | EvEnd => EOk (ses_end s, [])
  | EvAttachSender frm => EOk (snd (attach_local_sender frm s), [])
  | EvAttachReceiver frm => EOk (snd (attach_local_receiver frm s), [])
  | EvDetachSender h e => EOk (ses_detach_sender h e s, [])
  | EvDetachReceiver h e => noobs (ses_detach_receiver h e s)
  | EvSend a body tag settled format =>
      match nth_error (s_snds s) a with
      | Some _ => EOk (set_s_tasks (s_tasks s ++ [mk_stask a tag body settled format false TNew]) s, [])
      | None => EOk (s, []) end
  | EvPollSend t => EOk (poll_send t s, [])
  | EvCancelSend t =>
      EOk (upd_task t (fun k => match tk_st k with TDone _ => k | _ => set_tk_st TGone k end) s, [])
  | EvCloseSender a e => EOk (snd_close a e s, [])
  | EvOnClose a =>
      match nth_error (s_snds s) a with
      | Some l => let '(c, s) := cond_wait (sn_on_close l) s in
                  EOk (upd_snd a (set_sn_on_close c) s, [])
      | None => EOk (s, []) end
  | EvOnCredit a =>
      match nth_error (s_snds s) a with
      | Some l => let '(c, s) := cond_wait (sn_on_credit l) s in
                  EOk (upd_snd a (set_sn_on_credit c) s, [])
      | None => EOk (s, []) end
  | EvSenderMax a n => EOk (upd_snd a (set_sn_max (Some n)) s, [])
  | EvWait d =>
      match nth_error (s_dlvs s) d with
      | Some _ => EOk (set_s_waits (s_waits s ++ [mk_wtask d WNew]) s, [])
      | None => EOk (s, []) end
  | EvPollWait w => EOk (poll_wait w s, [])
  | EvCancelWait w =>
      EOk (upd_wait w (fun k => match wk_st k with WDone _ => k | _ => set_wk_st WGone k end) s, [])
  | EvSettle d st => EOk (dlv_settle d st s, [])
  | EvUpdate d st => EOk (dlv_update d st s, [])
  | EvDrop d => EOk (dlv_drop d s, [])
  | EvRecv a t =>
      match nth_error (s_rcvs s) a with
      | None => EOk (s, [])
      | Some l =>
          let '(r, l') := poll_recv t l in
          EOk (upd_rcv a (fun _ => l') s,
               match r with
               | RPending => []
               | RItem d tr => [ObItem a d tr]
               | RError e => [ObDetached a e]
               | REnd => [ObEnd a]
               end)
      end
  | EvGet a =>
      match nth_error (s_rcvs s) a with
      | None => EOk (s, [])
      | Some l =>
          let '(r, l') := get_delivery l in
          EOk (upd_rcv a (fun _ => l') s,
               match r with Some (d, tr) => [ObItem a d tr] | None => [] end)
      end
  | EvCredit a n => noobs (set_link_credit p a n s)
  | EvReceiverMax a n => EOk (upd_rcv a (set_rc_max n) s, [])
  | EvCloseReceiver a e => noobs (rcv_close a e s)
  | EvDisposition disp => EOk (post (FDisposition disp) s, [])
  | EvFreeReceiver a =>
      match nth_error (s_rcvs s) a with
      | Some l =>
          if existsb (holds_rcv a) (slab_values (s_links s)) then EOk (s, [])
          else EOk (drop_dlvs (map fst (rc_queue l)) (upd_rcv a (set_rc_queue []) s), [])
      | None => EOk (s, []) end
  | EvCtlOk i edit =>
      match nth_error (s_ctl s) i with
      | Some (Some k) => noobs (control_ok p edit k (set_s_ctl (set_nth i None (s_ctl s)) s))
      | _ => EOk (s, []) end
  | EvCtlErr i e =>
      match nth_error (s_ctl s) i with
      | Some (Some k) => noobs (control_err e k (set_s_ctl (set_nth i None (s_ctl s)) s))
      | _ => EOk (s, []) end
  end.

Fixpoint run (p : profile) (evs : list ev) (s : ses) : er (ses * list obs) :=
  match evs with
  | [] => EOk (s, [])
  | e :: evs =>
      ebind (step p e s) (fun '(s, os) =>
      ebind (run p evs s) (fun '(s, os') => EOk (s, os ++ os')))
  end.

(** session.rs:287-315 [SessionInner::new]: [local] if this side sent the first
    [Begin]; [begin] is the frame of the peer; [mfs] is the maximal frame size of
    the peer, a constant of the connection. *)
Definition ses_new (id : N) (local : bool) (remote_channel : N) (mfs : N) (begin : begin_t) : ses :=
  mk_ses id local false false remote_channel mfs 1 (begin_next_outgoing_id begin)
         (begin_outgoing_window begin) (begin_incoming_window begin)
         slab0 [] [] None cond0 [] [] [] [] [] [] [] [] [] [] [].

(** A session that came about in this way. *)
Definition reachable (p : profile) (s : ses) : Prop :=
  exists id local remote_channel mfs begin evs os,
    run p evs (ses_new id local remote_channel mfs begin) = EOk (s, os).
