(** * Specification vocabulary: handles *)

From Verif Require Export SpecSettle.

(** A link of the session: a sender link or a receiver link. *)
Inductive link_ref : Type := LSender (a : nat) | LReceiver (a : nat).
(** It is attached: this side and the peer both have it open. *)
Definition is_open (x : link_ref) (s : ses) : Prop :=
  match x with LSender a => sender_open a s | LReceiver a => attached a s end.
(** The handle this side has given it: the one in the frames this side sends. *)
Definition own_handle (x : link_ref) (s : ses) (h : N) : Prop :=
  match x with
  | LSender a => exists l, nth_error (s_snds s) a = Some l /\ h = as_u32 (sn_id l)
  | LReceiver a => exists l, nth_error (s_rcvs s) a = Some l /\ h = rc_handle l
  end.
(** The attach frame of the peer, handled between [s] and [s'], is about link
    [x]: it is the new sender or receiver link, or the receiver link whose attach
    it answers. *)
Definition begins_link (x : link_ref) (frm : attach_t) (s s' : ses) : Prop :=
  match x with
  | LSender a => a = length (s_snds s) /\ length (s_snds s') = S (length (s_snds s))
  | LReceiver a =>
      a = length (s_rcvs s) /\ length (s_rcvs s') = S (length (s_rcvs s))
      \/ ~ attached a s /\ attached a s'
  end.
(** What the peer says with handle [h] is for link [x] (and for no other). *)
Definition reaches (p : profile) (h : N) (x : link_ref) (s : ses) : Prop :=
  match x with
  | LSender a =>
      (forall f s' os, flow_handle f = Some h -> step p (EvFrame (FFlow f)) s = EOk (s', os) ->
         s_ctl s' = s_ctl s ++ [Some (KFlow f a)])
      /\ (forall d s' os, detach_handle d = h -> step p (EvFrame (FDetach d)) s = EOk (s', os) ->
            s_ctl s' = s_ctl s ++ [Some (KRemoteDetachSender d a)])
  | LReceiver a =>
      (forall t, transfer_handle (tr_head t) = h ->
         arrival a (EvFrame (FTransfer t)) s = [t]
         /\ forall b, b <> a -> arrival b (EvFrame (FTransfer t)) s = [])
      /\ (forall d s' os, detach_handle d = h -> step p (EvFrame (FDetach d)) s = EOk (s', os) ->
            s_ctl s' = s_ctl s ++ [Some (KRemoteDetachReceiver (mk_detach h (detach_closed d) None) a)])
  end.
(** The frame that answers the peer's detach of link [x]. *)
Definition detach_answer (x : link_ref) (d : detach_t) (s : ses) (f : frame) : Prop :=
  exists h, own_handle x s h
    /\ f = FDetach (mk_detach h true (match x with LSender _ => detach_error d | LReceiver _ => None end)).
(** The call closes link [x]; the future of [detach_sender_link] and of
    [detach_receiver_link] is given the handle. *)
Definition closes (x : link_ref) (e : ev) (s : ses) : Prop :=
  match e, x with
  | EvCloseSender a _, LSender b | EvCloseReceiver a _, LReceiver b => a = b
  | EvDetachSender h _, LSender _ | EvDetachReceiver h _, LReceiver _ => own_handle x s h
  | _, _ => False
  end.
(** What the future of a close gives for the detach frame. *)
Definition close_result (d : detach_t) : cval :=
  match detach_error d with Some e => VErr (ELinkDetached (Some e)) | None => VOk end.
(** No attach frame of the peer with handle [h] still waits for the control
    service, to become a sender link. *)
Definition none_waits (h : N) (s : ses) : Prop :=
  forall frm r a, In (Some (KAttachSender frm r a)) (s_ctl s) -> attach_handle frm <> h.
(** No attach frame in these events has handle [h]. *)
Definition unused_handle (h : N) (evs : list ev) : Prop :=
  forall frm, In (EvAttach frm) evs -> attach_handle frm <> h.

(** What is sent for the flow frame [f]: one flow frame about the session, which
    does not ask for an answer itself, if [f] asks for one; nothing otherwise. *)
Definition flow_answers (f : flow_t) (s s' : ses) : Prop :=
  if flow_echo f then
    exists g, flow_echo g = false /\ flow_handle g = None /\ s_out s' = s_out s ++ [FFlow g]
  else s_out s' = s_out s.
