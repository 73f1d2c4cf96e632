(** * Theorems about keep-alive: C46

    Vocabulary: [SpecKeepAlive.v].  Model: [KeepAlive.v], with the f32
    arithmetic of the code as IEEE 754 specifies it. *)

From Coq Require Import Strings.String.
From Verif Require Import Protocol Handshake KeepAlive SpecKeepAlive KeepAliveProofs.
From Coq Require Import Lia ZifyBool ZifyNat ZifyN.

Definition asks (t : N) : open_t := mk_open (str "peer") None 4096 7 (Some t) None None None None None.

(** ** C46 *)
(** The interval between keep-alive frames is at most half of the announced
    time-out, for every announced value. *)
Theorem C46_half : forall o, 2 * keep_alive_interval (asked o) <= asked o.
Proof. intros o. apply interval_half. Qed.
Print Assumptions C46_half.
(** Not everyone who asks gets keep-alives: for each time-out of 1 to 1333
    milliseconds none is ever sent, however the dispatcher is polled. *)
Theorem C46_refuted_short : forall t, 0 < t <= 1333 -> forall start polls,
  asked (asks t) = t /\ keep_alive_sent (asks t) start polls = [].
Proof. intros t H start polls. split; [reflexivity|]. apply sent_none. change (asked (asks t)) with t. lia. Qed.
Print Assumptions C46_refuted_short.
(** From 1334 milliseconds on keep-alives are sent for every value, and as long
    as the dispatcher is polled at least every [late] milliseconds, with [late]
    at most half of the time-out, no period longer than the time-out passes
    without one.  Missing: the shorter time-outs. *)
Theorem C46_in_time_partial : forall o start late polls,
  1334 <= asked o -> 2 * late <= asked o -> every late start polls ->
  spaced 0 (asked o) start (keep_alive_sent o start polls) (List.last polls start).
Proof. intros o start late polls A L E. apply sent_in_time with late; assumption. Qed.
Print Assumptions C46_in_time_partial.
(** Nor are they sent more often than the interval. *)
Theorem C46_paced : forall o start late polls, 1334 <= asked o -> every late start polls ->
  spaced (keep_alive_interval (asked o)) (keep_alive_interval (asked o) + late) start
    (keep_alive_sent o start polls) (List.last polls start).
Proof. intros o start late polls A E. apply sent_spaced; assumption. Qed.
Print Assumptions C46_paced.
(** A peer that asks for none gets none. *)
Theorem C46_none : forall o start polls, asked o = 0 -> keep_alive_sent o start polls = [].
Proof. intros o start polls H. apply sent_none. lia. Qed.
Print Assumptions C46_none.
Example C46_case :
  map keep_alive_interval [0; 1; 1333; 1334; 2666; 2667; 120000; 4294967295] = [0; 0; 0; 500; 500; 1000; 1000; 1000]
  /\ keep_alive_sent (asks 1334) 0 [100; 500; 900; 1000; 1100; 1600] = [500; 1000; 1600]
  /\ every 500 0 [100; 500; 900; 1000; 1100; 1600].
Proof. repeat split; try (vm_compute; reflexivity); vm_compute; discriminate. Qed.
