(** * A session, its links and its deliveries:
    src/session.rs, src/sndlink.rs, src/rcvlink.rs, src/delivery.rs

    Every function takes the session and gives the session after it.  What it
    reads from the connection is a constant of the session; frames are appended
    to [s_out] ([AmqpCodec::encode] never fails, codec/src/io.rs:109-120, so the
    error branch of connection.rs:194-203 [post_frame] is never taken).
    Not modelled anywhere in this file: logging. *)

From Coq Require Import Strings.String.
From Verif Require Export State.

(** ** Access to the tables *)

(** session.rs:1332-1334 [post_frame]. *)
Definition post (f : frame) (s : ses) : ses := set_s_out (s_out s ++ [f]) s.
Definition post_all (fs : list frame) (s : ses) : ses := fold_left (fun s f => post f s) fs s.

Definition upd_snd (a : nat) (f : slink -> slink) (s : ses) : ses :=
  match nth_error (s_snds s) a with
  | Some l => set_s_snds (set_nth a (f l) (s_snds s)) s
  | None => s
  end.
Definition upd_rcv (a : nat) (f : rlink -> rlink) (s : ses) : ses :=
  match nth_error (s_rcvs s) a with
  | Some l => set_s_rcvs (set_nth a (f l) (s_rcvs s)) s
  | None => s
  end.
Definition upd_dlv (a : nat) (f : dlv -> dlv) (s : ses) : ses :=
  match nth_error (s_dlvs s) a with
  | Some l => set_s_dlvs (set_nth a (f l) (s_dlvs s)) s
  | None => s
  end.
Definition upd_task (a : nat) (f : stask -> stask) (s : ses) : ses :=
  match nth_error (s_tasks s) a with
  | Some l => set_s_tasks (set_nth a (f l) (s_tasks s)) s
  | None => s
  end.
Definition upd_wait (a : nat) (f : wtask -> wtask) (s : ses) : ses :=
  match nth_error (s_waits s) a with
  | Some l => set_s_waits (set_nth a (f l) (s_waits s)) s
  | None => s
  end.

(** Creating a channel; sending on it; dropping its sender. *)
Definition new_chan (s : ses) : nat * ses :=
  (length (s_chans s), set_s_chans (s_chans s ++ [CWait]) s).
Definition fire (c : nat) (v : cval) (s : ses) : ses :=
  set_s_chans (put_chan c (CSent v) (s_chans s)) s.
Definition drop_tx (c : nat) (s : ses) : ses :=
  set_s_chans (put_chan c CGone (s_chans s)) s.
Definition fire_opt (c : option nat) (v : cval) (s : ses) : ses :=
  match c with Some c => fire c v s | None => s end.
Definition drop_opt (c : option nat) (s : ses) : ses :=
  match c with Some c => drop_tx c s | None => s end.
Definition fire_all (cs : list nat) (v : cval) (s : ses) : ses :=
  fold_left (fun s c => fire c v s) cs s.

(** A control frame for the control service (control.rs:84-87 and
    dispatcher.rs:51-55). *)
Definition control (k : ctl) (s : ses) : ses := set_s_ctl (s_ctl s ++ [Some k]) s.

(** ** Sender link *)

(** [notify_and_lock_readiness] on both conditions of a sender link. *)
Definition notify_lock_snd (a : nat) (s : ses) : ses :=
  match nth_error (s_snds s) a with
  | Some l =>
      let s := fire_all (cd_wait (sn_on_close l)) VOk s in
      let s := fire_all (cd_wait (sn_on_credit l)) VOk s in
      upd_snd a (fun l => set_sn_on_close (mk_cond [] true) (set_sn_on_credit (mk_cond [] true) l)) s
  | None => s
  end.

(** sndlink.rs:179-202 [SenderLinkInner::new]. *)
Definition snd_new (id : N) (name : bytes) (handle dc : N) (max : option N) : slink :=
  mk_slink id name handle dc 0 0 [] None false max cond0 cond0.

(** [.map(|v| u32::try_from(v).unwrap_or(u32::MAX))]. *)
Definition clamp_u32 (n : N) : N := if n <? two32 then n else two32 - 1.

(** sndlink.rs:204-227 [SenderLinkInner::with]. *)
Definition snd_with (id : N) (frm : attach_t) : slink :=
  let name := match attach_source frm with
              | Some src => or_default [] (source_address src)
              | None => [] end in
  snd_new id name (attach_handle frm) (or_default 0 (attach_initial_delivery_count frm))
          (option_map clamp_u32 (attach_max_message_size frm)).

(** sndlink.rs:245-262 [remote_detached]. *)
Definition snd_remote_detached (a : nat) (e : perr) (s : ses) : ses :=
  match nth_error (s_snds s) a with
  | Some l =>
      let s := fire_all (sn_pending l) (VErr e) s in
      let s := upd_snd a (fun l => set_sn_error (Some e) (set_sn_closed true (set_sn_pending [] l))) s in
      notify_lock_snd a s
  | None => s
  end.

(** sndlink.rs:408-417 [Drop for EstablishedSenderLink]. *)
Definition drop_established_snd (a : nat) (s : ses) : ses :=
  match nth_error (s_snds s) a with
  | Some l =>
      if sn_closed l then s
      else notify_lock_snd a (upd_snd a (set_sn_closed true) s)
  | None => s
  end.

(** sndlink.rs:292-324 [apply_flow]. *)
Definition apply_flow (f : flow_t) (a : nat) (s : ses) : ses :=
  match flow_link_credit f, nth_error (s_snds s) a with
  | Some credit, Some l =>
      let new_credit := wsub (wadd (or_default 0 (flow_delivery_count f)) credit) (sn_dc l) in
      let s := fire_all (sn_pending l) VOk s in
      let s := upd_snd a (fun l => set_sn_pending [] (set_sn_credit new_credit l)) s in
      if 0 <? new_credit then
        let s := fire_all (cd_wait (sn_on_credit l)) VOk s in
        upd_snd a (fun l => set_sn_on_credit (mk_cond [] (cd_lock (sn_on_credit l))) l) s
      else s
  | _, _ => s
  end.

(** ** Receiver link *)

(** rcvlink.rs:224-247 [ReceiverLinkInner::new]. *)
Definition rcv_new (handle rhandle : N) (frm : attach_t) : rlink :=
  mk_rlink (attach_name frm) handle rhandle false None [] [] 0
         (or_default 0 (attach_initial_delivery_count frm)) None None 262144.

(** rcvlink.rs:249-251 [wake]: [LocalWaker::wake] takes the waker. *)
Definition rcv_wake (l : rlink) : rlink :=
  match rc_waker l with
  | Some t => set_rc_waker None (set_rc_parked (filter (fun t' => negb (Nat.eqb t t')) (rc_parked l)) l)
  | None => l
  end.

(** rcvlink.rs:150-171 [remote_detached]. *)
Definition rcv_remote_detached (a : nat) (e : option error_t) (s : ses) : ses :=
  upd_rcv a (fun l => rcv_wake (set_rc_error e (set_rc_closed true l))) s.

(** rcvlink.rs:471-475 [Drop for EstablishedReceiverLink]. *)
Definition drop_established_rcv (a : nat) (s : ses) : ses := upd_rcv a (set_rc_closed true) s.

(** Dropping the value of a slot of [links] (when it is removed or
    overwritten): channels lose their sender, established links are closed. *)
Definition drop_link (l : link) (s : ses) : ses :=
  match l with
  | SEstablished a => drop_established_snd a s
  | SOpeningRemote => s
  | SOpening tx | SClosing tx | RClosing tx => drop_opt tx s
  | ROpening _ => s
  | ROpeningLocal (Some (_, tx)) => drop_tx tx s
  | ROpeningLocal None => s
  | REstablished a => drop_established_rcv a s
  end.
(** Overwrite / remove a slot. *)
Definition put_link (k : N) (l : link) (s : ses) : ses :=
  match slab_get (s_links s) k with
  | Some old => drop_link old (set_s_links (slab_set k l (s_links s)) s)
  | None => s
  end.
Definition remove_link (k : N) (s : ses) : ses :=
  match slab_get (s_links s) k with
  | Some old => drop_link old (set_s_links (slab_remove k (s_links s)) s)
  | None => s
  end.
Definition insert_link (l : link) (s : ses) : N * ses :=
  (slab_key (s_links s), set_s_links (slab_insert l (s_links s)) s).

(** ** Deliveries *)

(** delivery.rs:262-267 [set_error]; the entry stays in the map. *)
Definition di_fail (e : perr) (d : dinner) : dinner := set_di_tx None (set_di_error (Some e) d).
(** delivery.rs:269-279 [handle_disposition]. *)
Definition di_disposition (disp : disposition_t) (d : dinner) : dinner :=
  set_di_tx None
    (set_di_state (match disposition_state disp with Some st => Some st | None => di_state d end)
       (set_di_settled (di_settled d || disposition_settled disp) d)).

(** session.rs:326-335 [unsettled_deliveries]. *)
Definition unsettled (sender : bool) (s : ses) : list (N * dinner) :=
  if sender then s_snd s else s_rcv s.
Definition set_unsettled (sender : bool) (m : list (N * dinner)) (s : ses) : ses :=
  if sender then set_s_snd m s else set_s_rcv m s.

(** [insert]: a replaced entry is dropped, which releases its waiter
    (delivery.rs:282-288). *)
Definition put_unsettled (sender : bool) (id : N) (d : dinner) (s : ses) : ses :=
  let s := match map_get id (unsettled sender s) with
           | Some old => fire_opt (di_tx old) VOk s
           | None => s end in
  set_unsettled sender (map_put id d (unsettled sender s)) s.
(** [remove], likewise. *)
Definition del_unsettled (sender : bool) (id : N) (s : ses) : ses :=
  let s := match map_get id (unsettled sender s) with
           | Some old => fire_opt (di_tx old) VOk s
           | None => s end in
  set_unsettled sender (map_del id (unsettled sender s)) s.

(** delivery.rs:248-256 [DeliveryInner::new]. *)
Definition di_new (handle : N) : dinner := mk_dinner handle false None None None.

(** delivery.rs:40-65 [Delivery::new_rcv]. *)
Definition new_rcv (id handle : N) (tag : bytes) (settled : bool) (s : ses) : nat * ses :=
  let s := if settled then s else put_unsettled false id (di_new handle) s in
  (length (s_dlvs s), set_s_dlvs (s_dlvs s ++ [mk_dlv id tag false settled false true]) s).

Definition role_of (sender : bool) : role := if sender then RoleSender else RoleReceiver.
Definition disp_of (d : dlv) (settled : bool) (st : delivery_state) : frame :=
  FDisposition (mk_disposition (role_of (dl_sender d)) (dl_id d) None settled (Some st) false).

(** delivery.rs:93-116 [settle]. *)
Definition dlv_settle (i : nat) (st : delivery_state) (s : ses) : ses :=
  match nth_error (s_dlvs s) i with
  | Some d =>
      if negb (dl_alive d) || dl_remote d || dl_local d then s
      else post (disp_of d true st) (upd_dlv i (set_dl_local true) s)
  | None => s
  end.
(** delivery.rs:118-137 [update_state]. *)
Definition dlv_update (i : nat) (st : delivery_state) (s : ses) : ses :=
  match nth_error (s_dlvs s) i with
  | Some d =>
      if negb (dl_alive d) || dl_remote d || dl_local d then s else post (disp_of d false st) s
  | None => s
  end.
(** delivery.rs:223-227: the error a dropped delivery is rejected with. *)
Definition internal_error : error_t := mk_err (CondCustom (str "Internal error")) None None.
(** delivery.rs:214-245 [Drop for Delivery]. *)
Definition dlv_drop (i : nat) (s : ses) : ses :=
  match nth_error (s_dlvs s) i with
  | Some d =>
      if negb (dl_alive d) then s else
      let s := upd_dlv i (set_dl_alive false) s in
      match map_get (dl_id d) (unsettled (dl_sender d) s) with
      | Some _ =>
          let s := del_unsettled (dl_sender d) (dl_id d) s in
          if dl_remote d || dl_local d then s
          else post (disp_of d true (DSRejected (mk_rejected (Some internal_error)))) s
      | None => s
      end
  | None => s
  end.

Definition drop_dlvs (ds : list nat) (s : ses) : ses := fold_left (fun s d => dlv_drop d s) ds s.

(** delivery.rs:197-211 [check_inner]: the result and the entry after it
    ([Modified] is taken out). *)
Definition check_inner (d : dinner) : option (option delivery_state + perr) * dinner :=
  match di_state d with
  | Some (DSModified m) => (Some (inl (Some (DSModified m))), set_di_state None d)
  | Some st => (Some (inl (Some st)), d)
  | None => (match di_error d with Some e => Some (inr e) | None => None end, d)
  end.

(** delivery.rs:149-195 [wait], up to the next suspension.  A channel that is
    overwritten at line 168 loses its sender. *)
Definition poll_wait (w : nat) (s : ses) : ses :=
  let finish r s := upd_wait w (set_wk_st (WDone r)) s in
  match nth_error (s_waits s) w with
  | None => s
  | Some t =>
  match nth_error (s_dlvs s) (wk_dlv t) with
  | None => s
  | Some d =>
  match wk_st t with
  | WNew =>
      if dl_local d then finish (inl None) s else
      match map_get (dl_id d) (unsettled (dl_sender d) s) with
      | None => finish (inr (ELinkDetached None)) s
      | Some di =>
          match check_inner di with
          | (Some r, di') =>
              finish r (set_unsettled (dl_sender d)
                          (map_upd (dl_id d) di' (unsettled (dl_sender d) s)) s)
          | (None, _) =>
              let '(c, s) := new_chan s in
              let s := drop_opt (di_tx di) s in
              let s := set_unsettled (dl_sender d)
                         (map_upd (dl_id d) (set_di_tx (Some c) di) (unsettled (dl_sender d) s)) s in
              upd_wait w (set_wk_st (WWait c)) s
          end
      end
  | WWait c =>
      match nth_error (s_chans s) c with
      | Some CGone => finish (inr EConnectionDropped) s
      | Some (CSent _) =>
          match map_get (dl_id d) (unsettled (dl_sender d) s) with
          | None => finish (inr (ELinkDetached None)) s
          | Some di =>
              let s := if di_settled di then upd_dlv (wk_dlv t) (set_dl_remote true) s else s in
              match check_inner di with
              | (Some r, di') =>
                  finish r (set_unsettled (dl_sender d)
                              (map_upd (dl_id d) di' (unsettled (dl_sender d) s)) s)
              | (None, _) => finish (inl None) s
              end
          end
      | _ => s
      end
  | _ => s
  end end end.

(** ** Failing *)

(** Entries of a map that are all dropped after [set_error]. *)
Definition fail_all (m : list (N * dinner)) (s : ses) : ses :=
  fold_left (fun s '(_, d) => fire_opt (di_tx d) VOk s) m s.

(** session.rs:359-374: what [set_error] does to one link. *)
Definition fail_link (e : perr) (s : ses) (l : link) : ses :=
  match l with
  | SEstablished a => snd_remote_detached a e s
  | SClosing tx => fire_opt tx (VErr e) s
  | REstablished a => rcv_remote_detached a None s
  | _ => s
  end.
Definition fail_links (e : perr) (ls : list link) (s : ses) : ses := fold_left (fail_link e) ls s.
Definition drop_links (ls : list link) (s : ses) : ses := fold_left (fun s l => drop_link l s) ls s.

(** session.rs:338-380 [set_error]. *)
Definition ses_set_error (e : perr) (s : ses) : ses :=
  let s := set_s_pending [] (fire_all (map fst (s_pending s)) (VErr e) s) in
  let s := set_s_snd [] (fail_all (s_snd s) s) in
  let s := set_s_rcv [] (fail_all (s_rcv s) s) in
  let s := set_s_names [] s in
  let ls := slab_values (s_links s) in
  let s := fail_links e ls s in
  let s := drop_links ls (set_s_links slab0 s) in
  let s := set_s_ended true (set_s_error (Some e) s) in
  set_s_closed (mk_cond [] true) (fire_all (cd_wait (s_closed s)) VOk s).

(** session.rs:392-405 [get_all_links]. *)
Definition get_all_links (s : ses) : list (nat + nat) :=
  flat_map (fun l => match l with
                     | SEstablished a => [inl a]
                     | REstablished a => [inr a]
                     | _ => [] end) (slab_values (s_links s)).

(** ** Attaching and detaching *)

(** session.rs:412-435 [new_remote_sender]: the key and the response. *)
Definition new_remote_sender (frm : attach_t) (s : ses) : N * attach_t * ses :=
  let '(id, s) := insert_link SOpeningRemote s in
  (id,
   mk_attach (attach_name frm) (as_u32 id) RoleSender
     (attach_snd_settle_mode frm) (attach_rcv_settle_mode frm)
     (attach_source frm) (attach_target frm) None false
     (Some (or_default 0 (attach_initial_delivery_count frm)))
     None None None None,
   s).

Definition set_handle (h : N) (a : attach_t) : attach_t :=
  mk_attach (attach_name a) h (attach_role a) (attach_snd_settle_mode a)
    (attach_rcv_settle_mode a) (attach_source a) (attach_target a) (attach_unsettled a)
    (attach_incomplete_unsettled a) (attach_initial_delivery_count a)
    (attach_max_message_size a) (attach_offered_capabilities a)
    (attach_desired_capabilities a) (attach_properties a).
Definition set_max_size (m : option N) (a : attach_t) : attach_t :=
  mk_attach (attach_name a) (attach_handle a) (attach_role a) (attach_snd_settle_mode a)
    (attach_rcv_settle_mode a) (attach_source a) (attach_target a) (attach_unsettled a)
    (attach_incomplete_unsettled a) (attach_initial_delivery_count a)
    m (attach_offered_capabilities a)
    (attach_desired_capabilities a) (attach_properties a).

(** session.rs:438-458 [attach_local_sender_link]; gives the channel the
    [attach] future awaits (sndlink.rs:473-485). *)
Definition attach_local_sender (frm : attach_t) (s : ses) : nat * ses :=
  let '(c, s) := new_chan s in
  let '(token, s) := insert_link (SOpening (Some c)) s in
  let s := set_s_names (name_put (attach_name frm) token (s_names s)) s in
  (c, post (FAttach (set_handle (as_u32 token) frm)) s).

(** session.rs:461-493 [attach_remote_sender_link]. *)
Definition attach_remote_sender (frm response : attach_t) (a : nat) (s : ses) : er ses :=
  match nth_error (s_snds s) a with
  | None => EOk s
  | Some l =>
      let token := sn_id l in
      let s := match attach_source frm with
               | Some src => match source_address src with
                             | Some addr => set_s_names (name_put addr token (s_names s)) s
                             | None => s end
               | None => s end in
      let s := set_s_rhandles (map_put (attach_handle frm) token (s_rhandles s)) s in
      match slab_get (s_links s) token with
      | None => EPanic EPMissingLink
      | Some _ =>
          let s := put_link token (SEstablished a) s in
          EOk (post (FAttach (set_max_size (sn_max l) (set_handle (as_u32 token) response))) s)
      end
  end.

Definition detach_frame (h : N) (closed : bool) (e : option error_t) : frame :=
  FDetach (mk_detach h closed e).

(** session.rs:496-552 [detach_sender_link]. *)
Definition detach_sender (id : N) (closed : bool) (e : option error_t) (tx : nat) (s : ses) : ses :=
  match slab_get (s_links s) id with
  | Some (SOpening _) =>
      post (detach_frame id closed e) (put_link id (SClosing (Some tx)) s)
  | Some (SEstablished a) =>
      let s := post (detach_frame id closed e) (put_link id (SClosing (Some tx)) s) in
      control (KLocalDetachSender (mk_detach id closed e) a) s
  | _ => fire tx VOk s
  end.

(** session.rs:555-591 [detach_unconfirmed_sender_link]. *)
Definition detach_unconfirmed (frm : attach_t) (a : nat) (e : option error_t) (s : ses) : ses :=
  match nth_error (s_snds s) a with
  | None => s
  | Some l =>
      let token := sn_id l in
      let s := post (FAttach (mk_attach (attach_name frm) (as_u32 token) (attach_role frm)
                                SenderUnsettled ReceiverFirst None None None false None None
                                None None None)) s in
      let s := post (detach_frame (as_u32 token) true e) s in
      remove_link token s
  end.

(** session.rs:612-646 [attach_remote_receiver_link]: response and link. *)
Definition attach_remote_receiver (frm : attach_t) (s : ses) : attach_t * nat * ses :=
  let token := slab_key (s_links s) in
  let a := length (s_rcvs s) in
  let s := set_s_rcvs (s_rcvs s ++ [rcv_new (as_u32 token) (attach_handle frm) frm]) s in
  let s := snd (insert_link (ROpening (Some (a, attach_source frm))) s) in
  let s := set_s_rhandles (map_put (attach_handle frm) token (s_rhandles s)) s in
  (mk_attach (attach_name frm) (as_u32 token) RoleReceiver (attach_snd_settle_mode frm)
     ReceiverFirst (attach_source frm) (attach_target frm) None false (Some 0) None None None None,
   a, s).

(** session.rs:648-673 [attach_local_receiver_link]; the remote handle is not
    known yet and is set to the local one. *)
Definition attach_local_receiver (frm : attach_t) (s : ses) : nat * ses :=
  let '(c, s) := new_chan s in
  let token := slab_key (s_links s) in
  let a := length (s_rcvs s) in
  let s := set_s_rcvs (s_rcvs s ++ [rcv_new (as_u32 token) (as_u32 token) frm]) s in
  let s := snd (insert_link (ROpeningLocal (Some (a, c))) s) in
  let s := set_s_names (name_put (attach_name frm) token (s_names s)) s in
  (c, post (FAttach (set_handle (as_u32 token) frm)) s).

(** session.rs:675-692 [confirm_receiver_link]; rcvlink.rs:86-95 chooses the
    size. *)
Definition confirm_receiver (a : nat) (response : attach_t) (s : ses) : ses :=
  match nth_error (s_rcvs s) a with
  | None => s
  | Some l =>
      let max := if rc_max l =? 0 then None else Some (rc_max l) in
      match slab_get (s_links s) (rc_handle l) with
      | Some (ROpening (Some (a', _))) =>
          let s := put_link (rc_handle l) (REstablished a') s in
          post (FAttach (set_max_size max response)) s
      | _ => s
      end
  end.

(** session.rs:695-769 [detach_receiver_link]. *)
Definition detach_receiver (id : N) (closed : bool) (e : option error_t) (tx : nat) (s : ses)
  : er ses :=
  match slab_get (s_links s) id with
  | Some (ROpening inner) =>
      let s := match inner with
               | Some (a, source) =>
                   match nth_error (s_rcvs s) a with
                   | Some l =>
                       post (FAttach (mk_attach (rc_name l) id RoleReceiver SenderMixed
                                        ReceiverFirst source None None false (Some 0) None None
                                        None None)) s
                   | None => s end
               | None => s end in
      let s := post (detach_frame id closed e) s in
      EOk (remove_link id (fire tx VOk s))
  | Some (REstablished a) =>
      let s := post (detach_frame id closed e) (put_link id (RClosing (Some tx)) s) in
      EOk (control (KLocalDetachReceiver (mk_detach id closed e) a) s)
  | Some (RClosing _) => EOk (remove_link id (fire tx VOk s))
  | Some (ROpeningLocal _) => EPanic EPUnimplemented
  | _ => EOk (fire tx VOk s)
  end.

(** sndlink.rs:264-290 [SenderLinkInner::close]; the channel of its future. *)
Definition snd_close (a : nat) (e : option error_t) (s : ses) : ses :=
  match nth_error (s_snds s) a with
  | None => s
  | Some l =>
      if sn_closed l then s else
      let s := notify_lock_snd a (upd_snd a (set_sn_closed true) s) in
      let '(c, s) := new_chan s in
      detach_sender (as_u32 (sn_id l)) true e c s
  end.

(** rcvlink.rs:267-290 [ReceiverLinkInner::close]. *)
Definition rcv_close (a : nat) (e : option error_t) (s : ses) : er ses :=
  match nth_error (s_rcvs s) a with
  | None => EOk s
  | Some l =>
      let '(c, s) := new_chan s in
      ebind (if rc_closed l then EOk (fire c VOk s) else detach_receiver (rc_handle l) true e c s)
        (fun s => EOk (upd_rcv a (fun l => rcv_wake (set_rc_closed true l)) s))
  end.

(** session.rs:184-208 [Session::detach_receiver_link] and 211-235
    [Session::detach_sender_link]. *)
Definition ses_detach_receiver (h : N) (e : option error_t) (s : ses) : er ses :=
  let '(c, s) := new_chan s in detach_receiver h false e c s.
Definition ses_detach_sender (h : N) (e : option error_t) (s : ses) : ses :=
  let '(c, s) := new_chan s in detach_sender h false e c s.

(** ** Flow *)

(** session.rs:1128-1176 [handle_flow].  All pending transfers are released,
    whatever the window. *)
Definition handle_flow (f : flow_t) (lnk : option nat) (s : ses) : ses :=
  let s := set_s_nin (flow_next_outgoing_id f) s in
  let s := set_s_owin (flow_outgoing_window f) s in
  let s := set_s_iwin (wsub (wadd (or_default 0 (flow_next_incoming_id f)) (flow_incoming_window f))
                            (s_nout s)) s in
  let s := set_s_pending [] (fire_all (map fst (s_pending s)) VOk s) in
  let s := if flow_echo f then
             post (FFlow (mk_flow (if s_local s then Some (s_nin s) else None) (two32 - 1)
                            (s_nout s) (s_iwin s) None None None None false false None)) s
           else s in
  match lnk with Some a => apply_flow f a s | None => s end.

(** session.rs:1178-1193 [rcv_link_flow]. *)
Definition rcv_link_flow (handle dc credit : N) (s : ses) : ses :=
  post (FFlow (mk_flow (Some (s_nin s)) (two32 - 1) (s_nout s) (s_iwin s)
                 (Some handle) (Some dc) (Some credit) None false false None)) s.

(** rcvlink.rs:292-298 [set_link_credit]. *)
Definition set_link_credit (p : profile) (a : nat) (credit : N) (s : ses) : er ses :=
  match nth_error (s_rcvs s) a with
  | None => EOk s
  | Some l =>
      ebind (checked_add p (rc_credit l) credit) (fun c =>
      EOk (rcv_link_flow (rc_handle l) (rc_dc l) credit (upd_rcv a (set_rc_credit c) s)))
  end.

(** ** Sending *)

(** session.rs:1238-1245: how many bytes of the body go into one frame. *)
Definition chunk_size (max_frame_size : N) : N :=
  if 2048 <? max_frame_size then max_frame_size - 2048
  else if max_frame_size =? 0 then two32 - 1 else max_frame_size.

(** session.rs:1293-1310: the frames after the first; [fuel] bounds the loop,
    the length of the body is enough. *)
Fixpoint more_frames (fuel : nat) (max : N) (handle : N) (format : option N) (body : bytes)
  : list frame :=
  match fuel, body with
  | S fuel', _ :: _ =>
      let n := N.to_nat (N.min max (blen body)) in
      let rest := skipn n body in
      FTransfer (mk_transfer_t
        (mk_transfer handle None None format None (match rest with [] => false | _ => true end)
           None None false false true)
        (Some (TBData (firstn n body))))
      :: more_frames fuel' max handle format rest
  | _, _ => []
  end.

(** session.rs:1224-1327: the frames of one delivery. *)
Definition transfer_frames (mfs : N) (handle id : N) (tag : bytes) (body : transfer_body)
           (settled : bool) (format : option N) : list frame :=
  let state := if settled then Some (DSAccepted mk_accepted) else None in
  let format := match format with
                | Some _ => format
                | None => match body with TBData _ => None | TBMessage m => ms_format (msg_parts m) end
                end in
  let stl := if settled then Some true else None in
  let max := chunk_size mfs in
  if max <? tb_size body then
    let data := tb_enc body in
    let n := N.to_nat (N.min max (blen data)) in
    FTransfer (mk_transfer_t
      (mk_transfer handle (Some id) (Some tag) format stl true None state false false true)
      (Some (TBData (firstn n data))))
    :: more_frames (length data) max handle format (skipn n data)
  else
    [FTransfer (mk_transfer_t
       (mk_transfer handle (Some id) (Some tag) format stl false None state false false false)
       (Some body))].

(** session.rs:1222-1329: the part of [send_transfer] after the loop, and
    delivery.rs:348-357, which makes the [Delivery]. *)
Definition transmit (t : nat) (tk : stask) (l : slink) (tag : bytes) (s : ses) : ses :=
  let s := set_s_iwin (s_iwin s - 1) s in
  let id := s_nout s in
  let s := set_s_nout (wadd id 1) s in
  let s := if tk_settled tk then s else put_unsettled true id (di_new (as_u32 (sn_id l))) s in
  let s := post_all (transfer_frames (s_mfs s) (as_u32 (sn_id l)) id tag (tk_body tk)
                       (tk_settled tk) (tk_format tk)) s in
  let d := length (s_dlvs s) in
  let s := set_s_dlvs (s_dlvs s ++ [mk_dlv id tag true (tk_settled tk) false true]) s in
  upd_task t (set_tk_st (TDone (inl d))) s.

(** session.rs:1204-1220: the loop of [send_transfer]. *)
Definition session_loop (t : nat) (tk : stask) (l : slink) (tag : bytes) (s : ses) : ses :=
  if s_iwin s =? 0 then
    let '(c, s) := new_chan s in
    let s := set_s_pending (s_pending s ++ [(c, as_u32 (sn_id l))]) s in
    upd_task t (set_tk_st (TSess tag c)) s
  else transmit t tk l tag s.

(** sndlink.rs:339-368: the loop of [SenderLinkInner::send] and what follows. *)
Definition link_loop (t : nat) (tk : stask) (l : slink) (tag : bytes) (s : ses) : ses :=
  if (sn_credit l =? 0) || match sn_pending l with [] => false | _ => true end then
    let '(c, s) := new_chan s in
    let s := upd_snd (tk_link tk) (fun l => set_sn_pending (sn_pending l ++ [c]) l) s in
    upd_task t (set_tk_st (TLink tag c)) s
  else
    let s := upd_snd (tk_link tk)
               (fun l => set_sn_credit (sn_credit l - 1) (set_sn_dc (wadd (sn_dc l) 1) l)) s in
    session_loop t tk l tag (upd_task t (set_tk_took true) s).

(** One [poll] of a send future: delivery.rs:328-359, sndlink.rs:326-372
    ([get_tag]: 374-388), session.rs:1196-1330. *)
Definition poll_send (t : nat) (s : ses) : ses :=
  let finish e s := upd_task t (set_tk_st (TDone (inr e))) s in
  match nth_error (s_tasks s) t with
  | None => s
  | Some tk =>
  match nth_error (s_snds s) (tk_link tk) with
  | None => s
  | Some l =>
  let resume c (k : ses -> ses) :=
    match nth_error (s_chans s) c with
    | Some (CSent (VErr e)) => finish e s
    | Some (CSent _) => k s
    | Some CGone => finish EConnectionDropped s
    | _ => s
    end in
  match tk_st tk with
  | TNew =>
      match sn_error l with
      | Some e => finish e s
      | None =>
          if sn_closed l then finish EDisconnected s else
          if match sn_max l with Some m => m <? tb_size (tk_body tk) | None => false end
          then finish EBodyTooLarge s else
          match tk_tag tk with
          | Some tag => link_loop t tk l tag s
          | None =>
              let s := upd_snd (tk_link tk) (fun l => set_sn_tag (wadd (sn_tag l) 1) l) s in
              link_loop t tk l (be 4 (sn_tag l)) s
          end
      end
  | TLink tag c => resume c (link_loop t tk l tag)
  | TSess tag c => resume c (session_loop t tk l tag)
  | _ => s
  end end end.

(** ** Incoming frames *)

(** What the dispatcher has to do next (types.rs:24-34 [Action]). *)
Inductive action : Type :=
| ANone
| AAttachSender (a : nat) (frm response : attach_t)
| AAttachReceiver (a : nat) (frm response : attach_t)
| ADetachSender (a : nat) (d : detach_t)
| ADetachReceiver (a : nat) (d : detach_t)
| AFlow (a : nat) (f : flow_t)
| ATransfer (a : nat).

(** session.rs:1091-1126 [settle_deliveries]; the range [from..=to] is empty
    when [from > to]. *)
Definition settle_one (disp : disposition_t) (sender : bool) (s : ses) (no : N) : ses :=
  match map_get no (unsettled sender s) with
  | Some d =>
      let s := fire_opt (di_tx d) VOk s in
      set_unsettled sender (map_upd no (di_disposition disp d) (unsettled sender s)) s
  | None => s
  end.
Definition settle_all (disp : disposition_t) (sender : bool) (nos : list N) (s : ses) : ses :=
  fold_left (settle_one disp sender) nos s.
Definition range (from to : N) : list N :=
  map (fun i => from + N.of_nat i) (seq 0 (N.to_nat (to + 1 - from))).
Definition settle_deliveries (disp : disposition_t) (s : ses) : ses :=
  let sender := match disposition_role disp with RoleReceiver => true | RoleSender => false end in
  let from := disposition_first disp in
  match disposition_last disp with
  | Some to => settle_all disp sender (range from to) s
  | None => settle_one disp sender s from
  end.

(** LinkError conditions of rcvlink.rs:308-446. *)
Definition link_err (c : link_error) (d : option bytes) : error_t :=
  mk_err (CondLink c) d None.

(** rcvlink.rs:301-451 [handle_transfer]. *)
Definition rcv_transfer (p : profile) (tr : transfer_t) (a : nat) (s : ses) : er (ses * action) :=
  let h := tr_head tr in
  let close e s := ebind (rcv_close a (Some e) s) (fun s => EOk (s, ANone)) in
  match nth_error (s_rcvs s) a with
  | None => EOk (s, ANone)
  | Some l =>
  if rc_credit l =? 0 then close (link_err LinkTransferLimitExceeded None) s
  else
  let s := if transfer_more h then s else upd_rcv a (set_rc_credit (rc_credit l - 1)) s in
  match rc_partial l with
  | Some body =>
      let wrong_id :=
        match transfer_delivery_id h with
        | None => false
        | Some id =>
            match last (map Some (rc_queue l)) None with
            | None => true
            | Some (d, _) => match nth_error (s_dlvs s) d with
                             | Some dl => negb (dl_id dl =? id)
                             | None => true end
            end
        end in
      if wrong_id then close (link_err LinkDetachForced (Some (str "delivery_id is wrong"))) s
      else
      match
        match tr_body tr with
        | None => Some body
        | Some b => if rc_max l <? blen body + tb_size b then None else Some (body ++ tb_enc b)
        end
      with
      | None => close (link_err LinkMessageSizeExceeded None) s
      | Some body =>
          if transfer_more h then EOk (upd_rcv a (set_rc_partial (Some body)) s, ANone)
          else
          ebind (checked_add p (rc_dc l) 1) (fun dc =>
          let s := upd_rcv a (fun l => set_rc_dc dc (set_rc_partial None l)) s in
          match rev (rc_queue l) with
          | (d, first) :: prev =>
              let q := rev prev ++ [(d, mk_transfer_t (tr_head first) (Some (TBData body)))] in
              let s := upd_rcv a (set_rc_queue q) s in
              let s := if Nat.eqb (length q) 1 then upd_rcv a rcv_wake s else s in
              EOk (s, ATransfer a)
          | [] => close (link_err LinkDetachForced (Some (str "Internal error"))) s
          end)
      end
  | None =>
      match transfer_delivery_id h with
      | None => close (link_err LinkDetachForced (Some (str "delivery_id is required"))) s
      | Some id =>
          let tag := or_default [] (transfer_delivery_tag h) in
          let settled := or_default false (transfer_settled h) in
          if transfer_more h then
            let body := match tr_body tr with Some b => tb_enc b | None => [] end in
            let s := upd_rcv a (set_rc_partial (Some body)) s in
            let '(d, s) := new_rcv id (rc_handle l) tag settled s in
            EOk (upd_rcv a (fun l => set_rc_queue (rc_queue l ++ [(d, mk_transfer_t h None)]) l) s, ANone)
          else
            ebind (checked_add p (rc_dc l) 1) (fun dc =>
            let s := upd_rcv a (set_rc_dc dc) s in
            let '(d, s) := new_rcv id (rc_handle l) tag settled s in
            let s := upd_rcv a (fun l => set_rc_queue (rc_queue l ++ [(d, tr)]) l) s in
            let s := if Nat.eqb (length (rc_queue l)) 0 then upd_rcv a rcv_wake s else s in
            EOk (s, ATransfer a))
      end
  end end.

(** rcvlink.rs:261-265 [detached]: the deliveries of the queue are dropped. *)
Definition rcv_detached (a : nat) (s : ses) : ses :=
  match nth_error (s_rcvs s) a with
  | Some l =>
      let s := upd_rcv a (fun l => set_rc_closed true (set_rc_queue [] l)) s in
      drop_dlvs (map fst (rc_queue l)) s
  | None => s
  end.

(** session.rs:941-1089 [handle_detach]. *)
Definition fail_unsettled (sender : bool) (h : N) (e : perr) (s : ses) : ses :=
  let m := unsettled sender s in
  let s := fail_all (filter (fun '(_, d) => di_handle d =? h) m) s in
  set_unsettled sender (map_vals (fun d => if di_handle d =? h then di_fail e d else d) m) s.
Definition drain_pending (h : N) (e : perr) (s : ses) : ses :=
  let hit := filter (fun '(_, h') => h' =? h) (s_pending s) in
  let rest := filter (fun '(_, h') => negb (h' =? h)) (s_pending s) in
  set_s_pending rest (fire_all (map fst hit) (VErr e) s).
Definition answer (tx : option nat) (e : option error_t) (s : ses) : ses :=
  fire_opt tx (match e with Some e => VErr (ELinkDetached (Some e)) | None => VOk end) s.

Definition handle_detach (d : detach_t) (s : ses) : ses * action :=
  let handle := detach_handle d in
  let e := detach_error d in
  let idx := match map_get handle (s_rhandles s) with
             | Some i => Some i
             | None => match slab_get (s_links s) handle with
                       | Some _ => Some handle
                       | None => None end
             end in
  match idx with
  | None => (s, ANone)
  | Some idx =>
      let removed s := set_s_rhandles (map_del handle (s_rhandles s)) (remove_link idx s) in
      match slab_get (s_links s) idx with
      | None => (s, ANone)
      | Some (SOpening tx) => (removed (fire_opt tx (VErr (ELinkDetached e)) s), ANone)
      | Some (SEstablished a) =>
          match nth_error (s_snds s) a with
          | None => (s, ANone)
          | Some l =>
              let err := ELinkDetached e in
              let s := set_s_names (name_del (sn_name l) (s_names s)) s in
              let s := drain_pending (sn_rhandle l) err s in
              let s := fail_unsettled true (as_u32 (sn_id l)) err s in
              let s := snd_remote_detached a err s in
              let s := post (detach_frame (as_u32 (sn_id l)) true e) s in
              (removed s, ADetachSender a d)
          end
      | Some SOpeningRemote => (removed s, ANone)
      | Some (SClosing tx) => (removed (answer tx e s), ANone)
      | Some (ROpening _) => (s, ANone)
      | Some (ROpeningLocal item) =>
          match item with
          | Some (a, tx) =>
              (removed (fire tx (VErr (ELinkDetached e)) (rcv_detached a s)), ANone)
          | None => (removed s, ANone)
          end
      | Some (REstablished a) =>
          match nth_error (s_rcvs s) a with
          | None => (s, ANone)
          | Some l =>
              let s := fail_unsettled false (rc_handle l) (ELinkDetached e) s in
              let s := post (detach_frame (rc_handle l) true None) s in
              let s := rcv_remote_detached a e s in
              (removed s, ADetachReceiver a (mk_detach handle (detach_closed d) None))
          end
      | Some (RClosing tx) => (removed (answer tx e s), ANone)
      end
  end.

(** session.rs:790-866 [handle_frame]: the result of the call. *)
Definition ses_handle_frame (p : profile) (f : frame) (s : ses) : er (ses * (action + perr)) :=
  match s_error s with
  | Some _ => EOk (s, inl ANone)
  | None =>
      match f with
      | FFlow flow =>
          match match flow_handle flow with
                | Some h => match map_get h (s_rhandles s) with
                            | Some i => slab_get (s_links s) i
                            | None => None end
                | None => None end
          with
          | Some (SEstablished a) => EOk (s, inl (AFlow a flow))
          | _ => EOk (handle_flow flow None s, inl ANone)
          end
      | FDisposition disp => EOk (settle_deliveries disp s, inl ANone)
      | FTransfer tr =>
          match map_get (transfer_handle (tr_head tr)) (s_rhandles s) with
          | None => EOk (s, inr (EUnknownLink f))
          | Some idx =>
              match slab_get (s_links s) idx with
              | None => EOk (s, inr (EUnknownLink f))
              | Some (REstablished a) =>
                  emap (fun '(s, act) => (s, inl act)) (rcv_transfer p tr a s)
              | Some (RClosing _) => EOk (s, inl ANone)
              | Some (ROpening _) | Some (ROpeningLocal _) => EOk (s, inr (EUnexpectedOpeningState f))
              | Some _ => EOk (s, inr (EUnexpected f))
              end
          end
      | FDetach d => let '(s, act) := handle_detach d s in EOk (s, inl act)
      | _ => EOk (s, inl ANone)
      end
  end.

(** session.rs:869-937 [handle_attach]: [None] if the attach is not an answer
    to a local attach. *)
Definition handle_attach (frm : attach_t) (s : ses) : option ses :=
  match name_get (attach_name frm) (s_names s) with
  | None => None
  | Some index =>
      Some
      match slab_get (s_links s) index with
      | Some (SOpening tx) =>
          let a := length (s_snds s) in
          let s := set_s_rhandles (map_put (attach_handle frm) index (s_rhandles s)) s in
          let s := set_s_snds (s_snds s ++
                     [snd_new index (attach_name frm) (attach_handle frm)
                        (or_default 0 (attach_initial_delivery_count frm))
                        (option_map clamp_u32 (attach_max_message_size frm))]) s in
          let s := set_s_links (slab_set index (SEstablished a) (s_links s)) s in
          fire_opt tx (VSender a) s
      | Some (ROpeningLocal (Some (a, tx))) =>
          let s := set_s_rhandles (map_put (attach_handle frm) index (s_rhandles s)) s in
          let s := set_s_links (slab_set index (REstablished a) (s_links s)) s in
          fire tx (VReceiver a) s
      | _ => s
      end
  end.

(** ** Reading from a receiver link *)

(** rcvlink.rs:117-124 [get_delivery] without its result: what was taken. *)
Definition get_delivery (l : rlink) : option (nat * transfer_t) * rlink :=
  match rc_queue l with
  | x :: q =>
      if match rc_partial l with None => true | Some _ => Nat.ltb 1 (length (rc_queue l)) end
      then (Some x, set_rc_queue q l) else (None, l)
  | [] => (None, l)
  end.

(** rcvlink.rs:183-212 [poll_recv] by task [t]. *)
Inductive recv_result : Type :=
| RPending
| RItem (d : nat) (tr : transfer_t)
| RError (e : error_t)      (* [Some(Err(LinkDetached(Some(err))))] *)
| REnd.                     (* [None] *)
Definition poll_recv (t : nat) (l : rlink) : recv_result * rlink :=
  let at_end l :=
    if rc_closed l then
      match rc_error l with
      | Some e => (RError e, set_rc_error None l)
      | None => (REnd, l) end
    else (RPending, set_rc_waker (Some t) (set_rc_parked (t :: filter (fun t' => negb (Nat.eqb t t')) (rc_parked l)) l)) in
  match rc_partial l, rc_queue l with
  | Some _, [_] => at_end l
  | _, (d, tr) :: q => (RItem d tr, set_rc_queue q l)
  | _, [] => at_end l
  end.

(** ** Control frames: dispatcher.rs:299-376 [handle_control_frame] *)

(** The response to an attach can be edited by the control service through
    [Wrapper::with] (types.rs:148-153): [edit]. *)
Definition control_ok (p : profile) (edit : attach_t -> attach_t) (k : ctl) (s : ses) : er ses :=
  match k with
  | KAttachReceiver _ response a => EOk (control (KAttached (edit response) a) s)
  | KAttachSender frm response a => attach_remote_sender frm (edit response) a s
  | KFlow f a => EOk (handle_flow f (Some a) s)
  | KAttached response a => set_link_credit p a 50 (confirm_receiver a response s)
  | _ => EOk s
  end.
Definition control_err (e : error_t) (k : ctl) (s : ses) : er ses :=
  match k with
  | KAttachReceiver _ _ a | KRemoteDetachReceiver _ a => rcv_close a (Some e) s
  | KAttachSender frm _ a => EOk (detach_unconfirmed frm a (Some e) s)
  | KFlow _ a | KRemoteDetachSender _ a => EOk (snd_close a (Some e) s)
  | KAttached _ a | KTransfer a => rcv_close a (Some e) s
  | _ => EOk s
  end.

(** dispatcher.rs:189-260: the control frame an action becomes.  [fut] of
    [Message::Detached] is left out: its result is ignored.  The publish service
    gets a transfer only if the connection [is_opened] (dispatcher.rs:191); the
    session does not know, so here it always does: the model has calls, and
    failures, that a connection being closed does not have. *)
Definition dispatch (act : action) (s : ses) : ses :=
  match act with
  | ANone => s
  | AAttachSender a frm response => control (KAttachSender frm response a) s
  | AAttachReceiver a frm response => control (KAttachReceiver frm response a) s
  | ADetachSender a d => control (KRemoteDetachSender d a) s
  | ADetachReceiver a d => control (KRemoteDetachReceiver d a) s
  | AFlow a f => control (KFlow f a) s
  | ATransfer a => control (KTransfer a) s
  end.
