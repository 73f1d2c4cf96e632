(** * Keep-alive: lib.rs, dispatcher.rs *)

From Coq Require Import ZArith Floats.SpecFloat.
From Verif Require Import Handshake.

(** f32 arithmetic: IEEE 754 binary32 as the standard library specifies it
    ([SpecFloat] is plain Gallina), 24 bits of mantissa, exponents below 128,
    round to nearest even. *)
Definition f32_of_u32 (x : N) : spec_float := binary_normalize 24 128 (Z.of_N x) 0 false.
(** 0.75 and 1000.0. *)
Definition f32_three_quarters : spec_float := S754_finite false 12582912 (-24).
Definition f32_thousand : spec_float := S754_finite false 16384000 (-14).
(** [as usize]: truncated, saturating, 0 for NaN and what is negative. *)
Definition f32_to_usize (x : spec_float) : N :=
  match x with
  | S754_finite false m e =>
      N.min (2 ^ 64 - 1)
        (Z.to_N (if (0 <=? e)%Z then (Zpos m * 2 ^ e)%Z else (Zpos m / 2 ^ (- e))%Z))
  | S754_infinity false => 2 ^ 64 - 1
  | _ => 0
  end.

(** lib.rs:248-255 [timeout_remote_secs]; ntex-util [Seconds::checked_new]
    saturates at 65535. *)
Definition timeout_remote_secs (idle_time_out : N) : N :=
  if 0 <? idle_time_out
  then N.min 65535 (f32_to_usize (SFdiv 24 128 (SFmul 24 128 (f32_of_u32 idle_time_out) f32_three_quarters)
                                    f32_thousand))
  else 0.

(** dispatcher.rs:38-39 [Dispatcher::new], on [Millis::from(Seconds)]
    (server/service.rs:309, client/connection.rs:69, 87): milliseconds between
    keep-alive frames, 0 for none. *)
Definition keep_alive_interval (idle_time_out : N) : N :=
  N.min (N.shiftr (timeout_remote_secs idle_time_out * 1000) 1) 1000.

(** dispatcher.rs:48, 143-151: polled at time [now] with the timer set for
    [deadline]: the next deadline and whether an empty frame is sent. *)
Definition keep_alive_poll (interval deadline now : N) : N * bool :=
  if negb (interval =? 0) && (deadline <=? now) then (now + interval, true) else (deadline, false).

(** The times at which empty frames are sent when the dispatcher is created at
    time [start] and polled at the times [polls]. *)
Fixpoint keep_alive_run (interval deadline : N) (polls : list N) : list N :=
  match polls with
  | [] => []
  | now :: polls =>
      match keep_alive_poll interval deadline now with
      | (deadline, sent) => (if sent then [now] else []) ++ keep_alive_run interval deadline polls
      end
  end.
Definition keep_alive_sent (o : open_t) (start : N) (polls : list N) : list N :=
  let interval := keep_alive_interval (rc_idle_time_out (remote_new o)) in
  keep_alive_run interval (start + interval) polls.
