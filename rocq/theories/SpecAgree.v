(** * Specification vocabulary: what the two sides of a session know of each other

    Read with [SessionStep.v] ([run], [step], [ses_new]), [SpecSession.v]
    ([delivery_ids], [flows]) and [SpecConnection.v] ([channel_of]). *)

From Verif Require Export SpecSession SpecConnection.
Import ListNotations.

(** The id of the next delivery after these frames: the first has id 1. *)
Definition next_delivery (sent : list frame) : N := (1 + N.of_nat (length (delivery_ids sent))) mod 2 ^ 32.
(** What the peer last told of its own next delivery: in the last flow frame that
    was handled, at first in its begin frame. *)
Definition last_told (p : profile) (evs : list ev) (s : ses) (b : begin_t) : N :=
  last (map (fun x => flow_next_outgoing_id (fst x)) (flows p evs s)) (begin_next_outgoing_id b).

(** The two sessions talk to each other, and each knows where the other will start
    and that it may send 2^32 - 1 transfers. *)
Definition knows (s t : ses) : Prop :=
  s_rchan s = channel_of t /\ s_nin s = next_delivery (s_out t) /\ s_iwin s = 2 ^ 32 - 1.
Definition paired (s t : ses) : Prop := knows s t /\ knows t s.
