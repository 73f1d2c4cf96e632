(** * Theorems about waits on settled deliveries and about two waits at a time: C80

    Vocabulary: [SpecDelivery.v], [SpecRelease.v]. *)

From Coq Require Import Strings.String.
From Verif Require Import Base SpecSession SpecDelivery SpecRelease Scenario MessageOps HereProofs.
Import ListNotations.

(** ** C80 *)
(** The application settles a delivery it holds and that the peer has not settled.
    Whatever happens then, a call of [wait] on it returns [Ok(None)] when it is
    first polled, at once or later. *)
Theorem C80_settled : forall p s i x st s1 os1 evs s2 os2 s3 os3 evs' s4 os4, held i x s -> step p (EvSettle i st) s = EOk (s1, os1) ->
  run p evs s1 = EOk (s2, os2) -> step p (EvWait i) s2 = EOk (s3, os3) -> run p evs' s3 = EOk (s4, os4) ->
  let w := length (s_waits s2) in ~ In (EvPollWait w) evs' -> ~ In (EvCancelWait w) evs' -> wait_gives p w (inl None) s4.
Proof. exact settled_waits. Qed.
Print Assumptions C80_settled.
(** The same for a delivery that was sent as settled. *)
Theorem C80_sent_settled : forall p s t tk i evs s2 os2 s3 os3 evs' s4 os4, reachable p s ->
  nth_error (s_tasks s) t = Some tk -> tk_st tk = TDone (inl i) -> tk_settled tk = true ->
  run p evs s = EOk (s2, os2) -> step p (EvWait i) s2 = EOk (s3, os3) -> run p evs' s3 = EOk (s4, os4) ->
  let w := length (s_waits s2) in ~ In (EvPollWait w) evs' -> ~ In (EvCancelWait w) evs' -> wait_gives p w (inl None) s4.
Proof. exact presettled_waits. Qed.
Print Assumptions C80_sent_settled.
(** A wait that is first polled while another one is pending on the same delivery,
    which this side has not settled, takes its place: it waits, and the
    other one gets an error at its next poll; it does not hang. *)
Theorem C80_displaced : forall p s s' os w w0 i x, reachable p s -> awaits_outcome w0 i s -> nth_error (s_waits s) w = Some (mk_wtask i WNew) ->
  nth_error (s_dlvs s) i = Some x -> dl_local x = false -> step p (EvPollWait w) s = EOk (s', os) ->
  awaits_outcome w i s' /\ wait_gives p w0 (inr EConnectionDropped) s'.
Proof. exact displaced. Qed.
Print Assumptions C80_displaced.

(** A delivery arrives and is accepted; the peer's session-wide rejection follows,
    and then a wait.  A send that is settled from the start.  Two waits for one send. *)
Definition C80_arrived : list ev := receiver_link ++ [EvFrame (FTransfer (transfer_of (Some 0) false false (Some (bytes_of 3))))].
Definition C80_disposition : ev :=
  EvFrame (FDisposition (mk_disposition RoleSender 0 None true (Some (DSReleased mk_released)) false)).
Definition C80_sent : list ev := sender_link ++ credit_event 1 0 5 ++ [EvSend 0 (bytes_of 3) None true None; EvPollSend 0].
Definition C80_two : list ev := sender_link ++ credit_event 1 0 5 ++ send_event 0 0 (bytes_of 3) ++ [EvWait 0; EvPollWait 0; EvWait 0].
Example C80_case :
  (let s := result Debug C80_arrived (start 512 10) in
   (exists x, held 0 x s) /\ runs Debug [EvSettle 0 (DSAccepted mk_accepted); C80_disposition; EvWait 0] s = true
   /\ wait_result 0 (result Debug [EvSettle 0 (DSAccepted mk_accepted); C80_disposition; EvWait 0; EvPollWait 0] s) (inl None)
   /\ wait_result 0 (result Debug [C80_disposition; EvWait 0; EvPollWait 0] s) (inl (Some (DSReleased mk_released))))
  /\ (let s := result Debug C80_sent (start 512 10) in
      reachable Debug s /\ (exists tk, nth_error (s_tasks s) 0 = Some tk /\ tk_st tk = TDone (inl 0%nat) /\ tk_settled tk = true)
      /\ wait_result 0 (result Debug [EvWait 0; EvPollWait 0] s) (inl None))
  /\ (let s := result Debug C80_two (start 512 10) in
      reachable Debug s /\ awaits_outcome 0 0 s /\ nth_error (s_waits s) 1 = Some (mk_wtask 0 WNew)
      /\ (exists x, nth_error (s_dlvs s) 0 = Some x /\ dl_local x = false)
      /\ wait_result 0 (result Debug [EvPollWait 1; EvPollWait 0] s) (inr EConnectionDropped)).
Proof.
  cbv zeta. split; [|split].
  - split; [eexists; split; [vm_compute; reflexivity|vm_compute; auto]|]. split; [vm_compute; reflexivity|].
    split; exists 0%nat; vm_compute; reflexivity.
  - split; [apply runs_reachable; vm_compute; reflexivity|]. split; [eexists; split; [vm_compute; reflexivity|vm_compute; auto]|].
    exists 0%nat; vm_compute; reflexivity.
  - split; [apply runs_reachable; vm_compute; reflexivity|]. split; [exists 0%nat; split; vm_compute; reflexivity|].
    split; [vm_compute; reflexivity|]. split; [eexists; split; vm_compute; reflexivity|]. exists 0%nat; vm_compute; reflexivity.
Qed.
