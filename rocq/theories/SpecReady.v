(** * Specification vocabulary: waiting for a sender link *)

From Verif Require Export SpecRelease SenderReady.

(** Sender link [a] is closed, or is not and has this much credit: what
    [is_closed] and [credit] tell. *)
Definition snd_closed (a : nat) (s : ses) : Prop :=
  exists l, nth_error (s_snds s) a = Some l /\ sn_closed l = true.
Definition snd_credit (a : nat) (s : ses) (n : N) : Prop :=
  exists l, nth_error (s_snds s) a = Some l /\ sn_closed l = false /\ sn_credit l = n.

(** The future of [ready] is woken and, when polled, returns this. *)
Definition ready_gives (a : nat) (r : rdy) (s : ses) (alive : bool) : Prop :=
  (forall c, r = RdWait c -> ~ still_waits c s) /\ fst (ready_poll a r s) = RdDone alive.
