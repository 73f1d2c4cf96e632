(** * Vocabulary of the keep-alive theorems *)

From Verif Require Import Protocol Handshake KeepAlive.

(** The idle time-out the peer announced, in milliseconds: after that long
    without a frame it may drop the connection.  0 if it announced none. *)
Definition asked (o : open_t) : N := match open_idle_time_out o with Some t => t | None => 0 end.

(** The dispatcher is polled at rising times no further than [late] apart. *)
Fixpoint every (late last : N) (polls : list N) : Prop :=
  match polls with
  | [] => True
  | now :: polls => last <= now <= last + late /\ every late now polls
  end.

(** [spaced lo hi from l stop]: each of [l] comes at least [lo] and at most
    [hi] after its predecessor (the first: after [from]), and after the last of
    them no more than [hi] has passed at [stop]. *)
Fixpoint spaced (lo hi from : N) (l : list N) (stop : N) : Prop :=
  match l with
  | [] => stop <= from + hi
  | t :: l => from + lo <= t <= from + hi /\ spaced lo hi t l stop
  end.
