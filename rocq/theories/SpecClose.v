(** * Specification vocabulary: reasons for Close frames *)

From Verif Require Export SpecConnection.
Import ListNotations.

(** How many Close frames an event is a reason for: one for a call of [close] or
    [close_with_error], a service that is not ready for ever, and a protocol
    error; two for a Close of the peer, which is answered and also told to the
    control service as an error. *)
Definition close_reasons (e : cev) : nat :=
  match e with
  | CvClose _ | CvNotReady _ | CvStop _ => 1
  | CvFrame _ (FClose _) => 2
  | _ => 0
  end.
