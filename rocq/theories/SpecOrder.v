(** * Specification vocabulary: the order in which sends are transmitted *)

From Verif Require Export SpecRelease.

(** Send future [t], on sender link [a], is suspended and holds the place [c] in
    the queue of those that wait for credit. *)
Definition queued_at (t a c : nat) (s : ses) : Prop :=
  exists tk tag, nth_error (s_tasks s) t = Some tk /\ tk_link tk = a
    /\ tk_st tk = TLink tag c /\ nth_error (s_chans s) c = Some CWait.
(** It was in the queue and a flow of the peer has woken it; it has not been
    polled since. *)
Definition woken_on (t a : nat) (s : ses) : Prop :=
  exists tk tag c, nth_error (s_tasks s) t = Some tk /\ tk_link tk = a
    /\ tk_st tk = TLink tag c /\ nth_error (s_chans s) c = Some (CSent VOk).
(** It has taken one credit of the link: it waits for the window of the session,
    or it has been transmitted. *)
Definition has_credit (t : nat) (s : ses) : Prop :=
  exists tk, nth_error (s_tasks s) t = Some tk
    /\ ((exists tag c, tk_st tk = TSess tag c) \/ exists i, tk_st tk = TDone (inl i)).
Definition on_link (t a : nat) (s : ses) : Prop :=
  exists tk, nth_error (s_tasks s) t = Some tk /\ tk_link tk = a.
(** It has been transmitted. *)
Definition sent (t : nat) (s : ses) : Prop := exists tk d, send_done s t tk d.
Definition link_credit (a : nat) (s : ses) (n : N) : Prop :=
  exists l, nth_error (s_snds s) a = Some l /\ sn_credit l = n.
(** The futures that wait for credit on link [a], in the order of the queue. *)
Definition queue (a : nat) (s : ses) (ts : list nat) : Prop :=
  exists l cs, nth_error (s_snds s) a = Some l /\ sn_pending l = cs /\ Forall2 (fun t c => queued_at t a c s) ts cs.
