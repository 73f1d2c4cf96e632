(** * Specification vocabulary: outcomes from one application to the other *)

From Verif Require Export SpecDelivery SpecEndToEnd Outcome.

(** The dispositions among frames, and those a peer reads, whatever the pieces the
    bytes arrive in. *)
Definition disps (fs : list frame) : list disposition_t :=
  flat_map (fun f => match f with FDisposition d => [d] | _ => [] end) fs.
Definition read_dispositions (p : profile) (max : N) (chunks : list bytes) : list disposition_t :=
  disps (map fr_body (rd_frames (read_all (dec_amqp_frame p) max chunks))).
(** The application gave delivery [i] of session [r] this outcome for good ([settle]
    or, when it let go of the delivery without one, the outcome of the dropped), or
    for now ([update_state]). *)
Definition gave_final (evs : list ev) (r : ses) (i : nat) (st : delivery_state) : Prop :=
  In (EvSettle i st) evs
  \/ st = dropped_outcome /\ exists y, nth_error (s_dlvs r) i = Some y /\ dl_alive y = false.
Definition gave_for_now (evs : list ev) (i : nat) (st : delivery_state) : Prop := In (EvUpdate i st) evs.
(** The two sides' handles of one delivery: the id is the same and one side sent it. *)
Definition two_ends (x y : dlv) : Prop := dl_id y = dl_id x /\ dl_sender y = negb (dl_sender x).
(** The dispositions of the session are all about deliveries: none was sent with
    [send_disposition]. *)
Definition no_raw_dispositions (evs : list ev) : Prop := forall d, ~ In (EvDisposition d) evs.
