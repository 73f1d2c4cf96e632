(** * Specification vocabulary: how large messages may be *)

From Verif Require Export SpecEnds.

(** The send future at address [t] is for link [a] and has not been polled. *)
Definition not_begun (t : nat) (a : nat) (body : transfer_body) (s : ses) : Prop :=
  exists tk, nth_error (s_tasks s) t = Some tk /\ tk_link tk = a /\ tk_body tk = body /\ tk_st tk = TNew.
(** What the future has completed with. *)
Definition completed_with (t : nat) (r : nat + perr) (s : ses) : Prop :=
  exists tk, nth_error (s_tasks s) t = Some tk /\ tk_st tk = TDone r.
(** Sender link [a] is open: it has no error and is not closed. *)
Definition may_send (a : nat) (s : ses) : Prop :=
  exists l, nth_error (s_snds s) a = Some l /\ sn_error l = None /\ sn_closed l = false.
(** All sends on link [a] whose future has been polled have bodies of at most [m]
    bytes. *)
Definition under_way_fit (m : N) (a : nat) (s : ses) : Prop :=
  forall t tk, nth_error (s_tasks s) t = Some tk -> tk_link tk = a -> tk_st tk <> TNew -> tb_size (tk_body tk) <= m.
(** The attach frame [f] of the peer, as the last of [evs1 ++ [EvAttach f]], has made sender
    link [a]: after it the application has [a + 1] sender links, before it [a]. *)
Definition opened_with (p : profile) (evs1 : list ev) (f : attach_t) (s0 : ses) (a : nat) : Prop :=
  exists s1 s2 os1 os2, run p evs1 s0 = EOk (s1, os1) /\ step p (EvAttach f) s1 = EOk (s2, os2)
    /\ length (s_snds s1) = a /\ length (s_snds s2) = S a.
