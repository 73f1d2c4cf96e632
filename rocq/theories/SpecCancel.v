(** * Specification vocabulary: futures that are dropped *)

From Verif Require Export SpecProgress.

(** There is a send future (a future of [Delivery::wait]) at this address. *)
Definition is_send (t : nat) (s : ses) : Prop := (t < length (s_tasks s))%nat.
Definition is_wait (w : nat) (s : ses) : Prop := (w < length (s_waits s))%nat.
(** From [s] to [s'], no link has lost or gained credit, the window of the session
    and its delivery ids are as before and nothing was sent. *)
Definition costless (s s' : ses) : Prop :=
  (forall b n, link_credit b s' n <-> link_credit b s n) /\ s_iwin s' = s_iwin s /\ s_nout s' = s_nout s /\ s_out s' = s_out s.
