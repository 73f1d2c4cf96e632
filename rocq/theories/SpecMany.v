(** * Specification vocabulary: how many links a session has at a time *)

From Verif Require Export SpecTurn.
Import ListNotations.

(** The links that the session has: attached, being attached or being detached. *)
Definition links_now (s : ses) : N := N.of_nat (length (slab_values (s_links s))).
(** At no time there are more than [n] of them. *)
Definition at_most_links (n : N) (p : profile) (evs : list ev) (s : ses) : Prop :=
  forall evs1 evs2 s1 os1, evs = evs1 ++ evs2 -> run p evs1 s = EOk (s1, os1) -> links_now s1 <= n.
(** The control service leaves the handle of the answers that it edits alone. *)
Definition leaves_handles (evs : list ev) : Prop :=
  forall i edit, In (EvCtlOk i edit) evs -> forall r, attach_handle (edit r) = attach_handle r.
