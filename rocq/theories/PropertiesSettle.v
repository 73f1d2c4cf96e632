(** * Theorems about what this side says of a delivery: C28, C29

    Vocabulary: [SpecDelivery.v] (and [SpecSettle.v], [SpecRelease.v]); model:
    [Engine.v], [State.v], [Session.v], [SessionStep.v]; concrete runs:
    [Scenario.v]. *)

From Coq Require Import Strings.String.
From Verif Require Import SpecDelivery Scenario DispTheorems.
Import ListNotations.
Ltac lit := repeat match goal with |- _ /\ _ => split end; vm_compute; reflexivity.
Ltac own := apply own_nodup; [vm_compute; reflexivity|]; match goal with |- NoDup ?l => let v := eval vm_compute in l in replace l with v by (vm_compute; reflexivity) end;
  repeat constructor; cbn [In]; intuition discriminate.

(** ** C28.  In every history, of the dispositions about a delivery at most one
    settles, and it is the last. *)
Theorem C28_settled_once : forall p id local rc mfs b evs s os i x,
  run p evs (ses_new id local rc mfs b) = EOk (s, os) -> own_id i x s -> no_raw evs x ->
  exists n, map settles (said (dl_sender x) (dl_id x) s) = repeat false n
         \/ map settles (said (dl_sender x) (dl_id x) s) = repeat false n ++ [true].
Proof. exact said_once. Qed.
Print Assumptions C28_settled_once.
(** A delivery that is dropped unsettled is rejected, by one disposition. *)
Theorem C28_dropped_rejected : forall p s s' os i x, reachable p s -> s_error s = None -> own_id i x s -> held i x s ->
  step p (EvDrop i) s = EOk (s', os) -> s_out s' = s_out s ++ [says x true dropped_outcome].
Proof. exact drop_says. Qed.
Print Assumptions C28_dropped_rejected.
(** [settle] and [update_state] say what they are asked to. *)
Theorem C28_settle_says : forall p s s' os i x st, held i x s -> step p (EvSettle i st) s = EOk (s', os) ->
  s_out s' = s_out s ++ [says x true st].
Proof. exact settle_says. Qed.
Print Assumptions C28_settle_says.
Theorem C28_update_says : forall p s s' os i x st, held i x s -> step p (EvUpdate i st) s = EOk (s', os) ->
  s_out s' = s_out s ++ [says x false st] /\ held i x s'.
Proof. exact update_says. Qed.
Print Assumptions C28_update_says.
(** Two deliveries arrive; the first is updated, settled twice and dropped, the
    second is dropped. *)
Definition C28_events : list ev :=
  receiver_link ++ [arrives (Some 0) false 4; arrives (Some 1) false 3; EvRecv 0 7; EvRecv 0 7].
Example C28_case : let s0 := start 512 10 in let s := result Debug C28_events s0 in
  let more := [EvUpdate 0 (DSReceived (mk_received 0 0)); EvSettle 0 (DSAccepted mk_accepted); EvSettle 0 (DSAccepted mk_accepted);
               EvUpdate 0 (DSReceived (mk_received 0 0)); EvDrop 0; EvDrop 1] in
  let s' := result Debug more s in
  runs Debug (C28_events ++ more) s0 = true /\ s_error s = None
  /\ (exists x y, held 0 x s /\ own_id 0 x s /\ held 1 y s /\ own_id 1 y s /\ no_raw (C28_events ++ more) x)
  /\ map settles (said false 0 s') = [false; true] /\ map settles (said false 1 s') = [true].
Proof.
  cbv zeta. split; [vm_compute; reflexivity|]. split; [vm_compute; reflexivity|]. split; [|lit].
  eexists. eexists. split; [split; [vm_compute; reflexivity|]; lit|]. split; [own|]. split; [split; [vm_compute; reflexivity|]; lit|]. split; [own|].
  intros d H. cbv - [about] in H. intuition discriminate.
Qed.

(** ** C29.  When a [wait] that was suspended as the peer settled the delivery has
    returned, nothing is said about the delivery any more. *)
Theorem C29_seen_settled_partial : forall p disp evs1 evs2 s s1 s2 s3 s4 os1 os2 os3 os4 w i x,
  reachable p s -> s_error s = None -> no_wrap disp ->
  step p (EvFrame (FDisposition disp)) s = EOk (s1, os1) -> disposition_settled disp = true ->
  awaits_outcome w i s ->
  run p evs1 s1 = EOk (s2, os2) -> ~ In (EvPollWait w) evs1 -> ~ In (EvCancelWait w) evs1 -> s_error s2 = None ->
  step p (EvPollWait w) s2 = EOk (s3, os3) -> run p evs2 s3 = EOk (s4, os4) ->
  own_id i x s4 -> dl_id x < 2 ^ 32 -> covers disp (dl_sender x) (dl_id x) -> no_raw evs2 x ->
  said (dl_sender x) (dl_id x) s4 = said (dl_sender x) (dl_id x) s2.
Proof. exact peer_settled_quiet. Qed.
Print Assumptions C29_seen_settled_partial.
Definition accepted_by_peer (id : N) : disposition_t :=
  mk_disposition RoleReceiver id None true (Some (DSAccepted mk_accepted)) false.
Definition one_sent : list ev := sender_link ++ credit_event 1 0 5 ++ send_event 0 0 (bytes_of 3).
Example C29_case : let s := result Debug (one_sent ++ [EvWait 0; EvPollWait 0]) (start 512 10) in
  let s1 := result Debug [EvFrame (FDisposition (accepted_by_peer 1)); EvPollWait 0; EvDrop 0] s in
  runs Debug (one_sent ++ [EvWait 0; EvPollWait 0]) (start 512 10) = true /\ s_error s = None
  /\ no_wrap (accepted_by_peer 1) /\ awaits_outcome 0 0 s
  /\ (exists x, own_id 0 x s1 /\ covers (accepted_by_peer 1) (dl_sender x) (dl_id x) /\ dl_alive x = false)
  /\ said true 1 s1 = [].
Proof.
  cbv zeta. split; [lit|]. split; [lit|]. split; [vm_compute; intuition discriminate|]. split; [exists 0%nat; lit|]. split; [|lit].
  eexists. split; [own|]. split; [split; vm_compute; reflexivity | reflexivity].
Qed.
(** Without a [wait] the drop of a delivery that the peer has accepted and settled
    puts a disposition on the wire, which rejects it. *)
Theorem C29_dropped_refuted : forall p, exists evs1 evs2 s1 s2 x,
  run p evs1 (start 512 10) = EOk (s1, []) /\ run p (EvFrame (FDisposition (accepted_by_peer 1)) :: evs2) s1 = EOk (s2, [])
  /\ s_error s2 = None /\ own_id 0 x s2 /\ no_raw evs2 x /\ covers (accepted_by_peer 1) (dl_sender x) (dl_id x)
  /\ said (dl_sender x) (dl_id x) s1 = [] /\ said (dl_sender x) (dl_id x) s2 = [says x true dropped_outcome].
Proof.
  intros p. exists one_sent, [EvDrop 0], (result p one_sent (start 512 10)).
  exists (result p [EvFrame (FDisposition (accepted_by_peer 1)); EvDrop 0] (result p one_sent (start 512 10))). eexists.
  split; [destruct p; vm_compute; reflexivity|]. split; [destruct p; vm_compute; reflexivity|]. split; [destruct p; vm_compute; reflexivity|].
  split; [instantiate (1 := mk_dlv 1 (be 4 0) true false false false); destruct p; own|]. split; [intros d H; cbv in H; intuition discriminate|].
  split; [split; vm_compute; reflexivity|]. split; destruct p; vm_compute; reflexivity.
Qed.
Print Assumptions C29_dropped_refuted.
(** The same happens when the wait began after the peer had settled: it returns
    the outcome at once, and does not note that the peer has settled. *)
Theorem C29_late_wait_refuted : forall p, exists evs1 evs2 s1 s2 x,
  run p evs1 (start 512 10) = EOk (s1, []) /\ In (EvFrame (FDisposition (accepted_by_peer 1))) evs1
  /\ wait_result 0 s1 (inl (Some (DSAccepted mk_accepted))) /\ run p evs2 s1 = EOk (s2, [])
  /\ s_error s2 = None /\ own_id 0 x s2 /\ no_raw evs2 x /\ covers (accepted_by_peer 1) (dl_sender x) (dl_id x)
  /\ said (dl_sender x) (dl_id x) s1 = [] /\ said (dl_sender x) (dl_id x) s2 = [says x true dropped_outcome].
Proof.
  intros p. set (evs := one_sent ++ [EvFrame (FDisposition (accepted_by_peer 1)); EvWait 0; EvPollWait 0]).
  exists evs, [EvDrop 0], (result p evs (start 512 10)), (result p [EvDrop 0] (result p evs (start 512 10))). eexists.
  split; [destruct p; vm_compute; reflexivity|]. split; [unfold evs; apply in_or_app; right; left; reflexivity|].
  split; [exists 0%nat; destruct p; vm_compute; reflexivity|].
  split; [destruct p; vm_compute; reflexivity|]. split; [destruct p; vm_compute; reflexivity|].
  split; [instantiate (1 := mk_dlv 1 (be 4 0) true false false false); destruct p; own|]. split; [intros d H; cbv in H; intuition discriminate|].
  split; [split; vm_compute; reflexivity|]. split; destruct p; vm_compute; reflexivity.
Qed.
Print Assumptions C29_late_wait_refuted.
