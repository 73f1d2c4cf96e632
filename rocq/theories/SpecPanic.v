(** * Specification vocabulary: what can panic *)

From Verif Require Export SessionStep.

(** The session has never had more than 2^32 links at the same time, so that its
    handles, which are 32 bits, are exact. *)
Definition few_links (s : ses) : Prop := N.of_nat (length (sl_items (s_links s))) <= 2 ^ 32.

(** The own handle [h] is that of a receiver link that this side is still
    attaching: the peer has not answered yet. *)
Definition still_attaching (h : N) (s : ses) : Prop :=
  exists x, slab_get (s_links s) h = Some (ROpeningLocal x).
(** The own handle [h] is not in use. *)
Definition vacant (h : N) (s : ses) : Prop := slab_get (s_links s) h = None.

(** The service completes the [i]-th call, which is about this. *)
Definition called (i : nat) (k : ctl) (s : ses) : Prop := nth_error (s_ctl s) i = Some (Some k).
(** A call about receiver link [a], whose failure closes the link. *)
Definition about_receiver (k : ctl) (a : nat) : Prop :=
  match k with
  | KAttachReceiver _ _ b | KRemoteDetachReceiver _ b | KAttached _ b | KTransfer b => b = a
  | _ => False
  end.

(** Receiver link [a] is open on its side, and this is its handle. *)
Definition open_receiver (a : nat) (h : N) (s : ses) : Prop :=
  exists l, nth_error (s_rcvs s) a = Some l /\ rc_closed l = false /\ rc_handle l = h.

(** Every way in which the session panics. *)
Inductive panics (p : profile) (s : ses) : ev -> epanic -> Prop :=
(** Arithmetic overflow, only in builds that check for it: the last frame of a
    delivery arrives on a receiver link whose delivery count is 2^32 - 1, ... *)
| pn_count : forall tr i a l, p = Debug -> s_error s = None ->
    map_get (transfer_handle (tr_head tr)) (s_rhandles s) = Some i ->
    slab_get (s_links s) i = Some (REstablished a) -> nth_error (s_rcvs s) a = Some l ->
    rc_dc l + 1 >= 2 ^ 32 -> transfer_more (tr_head tr) = false ->
    panics p s (EvFrame (FTransfer tr)) EPOverflow
(** ... or the credit that is granted in all does not fit. *)
| pn_credit : forall a n l, p = Debug -> nth_error (s_rcvs s) a = Some l ->
    rc_credit l + n >= 2 ^ 32 -> panics p s (EvCredit a n) EPOverflow
| pn_first_credit : forall i edit r a l, p = Debug -> called i (KAttached r a) s ->
    nth_error (s_rcvs s) a = Some l -> rc_credit l + 50 >= 2 ^ 32 ->
    panics p s (EvCtlOk i edit) EPOverflow
(** The service accepts a sender link that the peer attached, and the handle that
    was reserved for it is vacant. *)
| pn_accept : forall i edit frm r a l, called i (KAttachSender frm r a) s ->
    nth_error (s_snds s) a = Some l -> vacant (sn_id l) s ->
    panics p s (EvCtlOk i edit) EPMissingLink
(** A receiver link that is still being attached is detached: by its handle, ... *)
| pn_detach : forall h e, still_attaching h s -> panics p s (EvDetachReceiver h e) EPUnimplemented
(** ... or by closing a link of the same handle. *)
| pn_close : forall a e h, open_receiver a h s -> still_attaching h s ->
    panics p s (EvCloseReceiver a e) EPUnimplemented
| pn_refuse : forall i e k a h, called i k s -> about_receiver k a -> open_receiver a h s ->
    still_attaching h s -> panics p s (EvCtlErr i e) EPUnimplemented.

(** What the peer and the network do to a session. *)
Definition from_peer (e : ev) : Prop :=
  match e with EvFrame _ | EvAttach _ | EvFail _ => True | _ => False end.
