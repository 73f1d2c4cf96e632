(** * Specification vocabulary: what this side says about a delivery *)

From Coq Require Import Strings.String.
From Verif Require Export SpecSettle.

(** The frame is a disposition about the delivery with this id that this side sent
    ([sender]) or received. *)
Definition about (sender : bool) (id : N) (f : frame) : bool :=
  match f with
  | FDisposition d =>
      match disposition_role d, sender with RoleSender, true | RoleReceiver, false => true | _, _ => false end
      && match disposition_last d with
         | None => disposition_first d =? id
         | Some last => (disposition_first d <=? id) && (id <=? last)
         end
  | _ => false
  end.
(** The dispositions on the wire about it, oldest first. *)
Definition said (sender : bool) (id : N) (s : ses) : list frame := filter (about sender id) (s_out s).
(** Whether a disposition settles. *)
Definition settles (f : frame) : bool :=
  match f with FDisposition d => disposition_settled d | _ => false end.
(** The id of delivery [i] is its own: no other delivery of this direction in the
    session ever had it.  (The ids this side gives repeat after 2^32 deliveries;
    those of the peer are the peer's choice.) *)
Definition own_id (i : nat) (x : dlv) (s : ses) : Prop :=
  nth_error (s_dlvs s) i = Some x
  /\ forall j y, nth_error (s_dlvs s) j = Some y -> dl_sender y = dl_sender x -> dl_id y = dl_id x -> j = i.
(** The application sent no disposition of its own ([send_disposition]) about it. *)
Definition no_raw (evs : list ev) (x : dlv) : Prop :=
  forall d, In (EvDisposition d) evs -> about (dl_sender x) (dl_id x) (FDisposition d) = false.
(** The application holds delivery [i], which neither side has settled: [settle] was
    not called, and no [wait] has seen that the peer settled it. *)
Definition held (i : nat) (x : dlv) (s : ses) : Prop :=
  nth_error (s_dlvs s) i = Some x /\ dl_alive x = true /\ dl_local x = false /\ dl_remote x = false.
(** A disposition of this side about one delivery. *)
Definition says (x : dlv) (settled : bool) (st : delivery_state) : frame :=
  FDisposition (mk_disposition (if dl_sender x then RoleSender else RoleReceiver) (dl_id x) None settled (Some st) false).
(** The outcome of a delivery that is dropped. *)
Definition dropped_outcome : delivery_state :=
  DSRejected (mk_rejected (Some (mk_err (CondCustom (str "Internal error")) None None))).
