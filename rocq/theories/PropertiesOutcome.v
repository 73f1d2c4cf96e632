(** * Theorems about outcomes from one application to the other: C71

    Vocabulary: [SpecOutcome.v].  The session that was sent a delivery, the codec,
    the bytes in any pieces, the peer's codec and the session that sent it are put
    together. *)

From Coq Require Import Strings.String.
From Verif Require Import Base SpecProtocol Framing SpecFraming SpecSession SpecOutcome Scenario.
From Verif Require Import MessageOps WakeProofs DispTheorems SettleTheorems OutcomeProofs.
Import ListNotations.

(** ** C71 *)
(** Whatever a session does: each disposition it sends is about one delivery of its
    application, and carries what the application gave this delivery.  It settles if
    the outcome is final. *)
Theorem C71_given : forall p id local rc mfs b evs r os, run p evs (ses_new id local rc mfs b) = EOk (r, os) -> no_raw_dispositions evs ->
  forall d, In (FDisposition d) (s_out r) ->
  exists i y st, nth_error (s_dlvs r) i = Some y
    /\ ((FDisposition d = says y true st /\ gave_final evs r i st) \/ (FDisposition d = says y false st /\ gave_for_now evs i st)).
Proof. intros p id local rc mfs b evs r os H N d. exact (given p evs id local rc mfs b r os H N d). Qed.
Print Assumptions C71_given.
(** Let any part [fs] of what session [r] has sent reach the peer, in any pieces, and
    let the dispositions that session [s] of the peer handles be among those read.
    An outcome that the application of [s] learns of a delivery, from [wait] or from
    [remote_state], is one that the application of [r] gave its end of the delivery. *)
Theorem C71_outcome : forall p q id local rc mfs b evs r os, run q evs (ses_new id local rc mfs b) = EOk (r, os) -> no_raw_dispositions evs ->
  forall fs unsent channel max chunks rest, s_out r = fs ++ unsent -> Forall (carried channel max) fs -> blen rest < 8 ->
  concat chunks = written channel fs ++ rest ->
  forall id' local' rc' mfs' b' evs' s os', run p evs' (ses_new id' local' rc' mfs' b') = EOk (s, os') ->
  (forall d, In (EvFrame (FDisposition d)) evs' -> In d (read_dispositions p max chunks)) ->
  forall i st, (exists w, nth_error (s_waits s) w = Some (mk_wtask i (WDone (inl (Some st))))) \/ remote_state i s = Some st ->
  exists x j y, nth_error (s_dlvs s) i = Some x /\ nth_error (s_dlvs r) j = Some y /\ two_ends x y
    /\ (gave_final evs r j st \/ gave_for_now evs j st).
Proof.
  intros p q id local rc mfs b evs r os H N fs unsent channel max chunks rest EO CA BR EC id' local' rc' mfs' b' evs' s os' H' A i st L.
  destruct (learned_state p id' local' rc' mfs' b' evs' s os' i st H') as (x & Ex & As); [tauto|].
  rewrite (read_dispositions_back p max channel chunks fs rest CA BR EC) in A.
  destruct (assigned_given evs' evs r x (disps fs) st A) as (j & y & Ey & T & G).
  - intros d Hd. apply disps_in in Hd. apply (given q evs id local rc mfs b r os H N). rewrite EO. apply in_or_app. auto.
  - exact As.
  - exists x, j, y. auto.
Qed.
Print Assumptions C71_outcome.
(** And the other way round: when the application of [r] settles a delivery it holds,
    or updates its state, the last disposition the peer reads makes the peer's
    suspended [wait] for it return what was given; ... *)
Theorem C71_answered : forall p q s r r' os e w i x j y st, reachable p s -> s_error s = None -> awaits_outcome w i s ->
  nth_error (s_dlvs s) i = Some x -> dl_id x < 2 ^ 32 -> held j y r -> two_ends x y ->
  e = EvSettle j st \/ e = EvUpdate j st -> step q e r = EOk (r', os) ->
  forall channel max chunks rest, Forall (carried channel max) (s_out r') -> blen rest < 8 ->
  concat chunks = written channel (s_out r') ++ rest ->
  exists earlier d, read_dispositions p max chunks = earlier ++ [d]
    /\ forall s' os', step p (EvFrame (FDisposition d)) s = EOk (s', os') -> wait_gives p w (inl (Some st)) s'.
Proof.
  intros p q s r r' os e w i x j y st R E W Ex L Hd T Ee H channel max chunks rest CA BR EC.
  assert (X : exists b, s_out r' = s_out r ++ [says y b st]).
  { destruct Ee as [-> | ->]; [exists true; exact (settle_says _ _ _ _ _ _ _ Hd H)|exists false; exact (proj1 (update_says _ _ _ _ _ _ _ Hd H))]. }
  destruct X as (b & X). destruct (says_covers x y b st T L) as (d & Ed & Nw & C & Es & _).
  exists (disps (s_out r)), d. split.
  - rewrite (read_dispositions_back p max channel chunks _ rest CA BR EC), X, Ed. unfold disps. rewrite flat_map_app. reflexivity.
  - intros s' os' S. rewrite <- Es. exact (proj1 (proj1 (proj2 (SettleTheorems.dispositions p d s s' os' R E Nw S)) w i x W Ex L) C).
Qed.
Print Assumptions C71_answered.
(** ... when it lets go of the delivery without having settled it, the peer's wait
    returns the outcome of the dropped; ... *)
Theorem C71_dropped : forall p q s r r' os w i x j y, reachable p s -> s_error s = None -> awaits_outcome w i s ->
  nth_error (s_dlvs s) i = Some x -> dl_id x < 2 ^ 32 -> reachable q r -> s_error r = None -> own_id j y r -> held j y r -> two_ends x y ->
  step q (EvDrop j) r = EOk (r', os) ->
  forall channel max chunks rest, Forall (carried channel max) (s_out r') -> blen rest < 8 ->
  concat chunks = written channel (s_out r') ++ rest ->
  exists earlier d, read_dispositions p max chunks = earlier ++ [d]
    /\ forall s' os', step p (EvFrame (FDisposition d)) s = EOk (s', os') -> wait_gives p w (inl (Some dropped_outcome)) s'.
Proof.
  intros p q s r r' os w i x j y R E W Ex L Rr Er O Hd T H channel max chunks rest CA BR EC.
  pose proof (drop_says q r r' os j y Rr Er O Hd H) as X.
  destruct (says_covers x y true dropped_outcome T L) as (d & Ed & Nw & C & Es & _).
  exists (disps (s_out r)), d. split.
  - rewrite (read_dispositions_back p max channel chunks _ rest CA BR EC), X, Ed. unfold disps. rewrite flat_map_app. reflexivity.
  - intros s' os' S. rewrite <- Es. exact (proj1 (proj1 (proj2 (SettleTheorems.dispositions p d s s' os' R E Nw S)) w i x W Ex L) C).
Qed.
Print Assumptions C71_dropped.
(** ... and one who asks only after it has arrived is told the same, by [remote_state]
    and by a new [wait]. *)
Theorem C71_late : forall p d s s' os i x di st, reachable p s -> s_error s = None -> no_wrap d ->
  step p (EvFrame (FDisposition d)) s = EOk (s', os) -> nth_error (s_dlvs s) i = Some x -> dl_id x < 2 ^ 32 ->
  covers d (dl_sender x) (dl_id x) -> disposition_state d = Some st -> outstanding (dl_sender x) (dl_id x) di s ->
  remote_state i s' = Some st
  /\ (dl_local x = false -> forall s'' os', step p (EvWait i) s' = EOk (s'', os') -> wait_gives p (length (s_waits s')) (inl (Some st)) s'').
Proof.
  intros p d s s' os i x di st R E Nw H Ex L C Es O.
  destruct (arrives_remote p d s s' os i x di st R E Nw H Ex L C Es O) as (Ex' & di' & O' & Es'). split.
  - unfold remote_state. rewrite Ex'. unfold outstanding in O'. rewrite O'. exact Es'.
  - intros Lo s'' os' S. exact (late_wait p s' s'' os' i x di' st Ex' Lo O' Es' S).
Qed.
Print Assumptions C71_late.
(** Not so when the outcome is [modified]: the first wait that returns it takes it
    away.  The peer has settled, and the next wait hangs. *)
Theorem C71_modified_refuted : forall p, exists evs s s2 st x,
  run p evs (start 512 10) = EOk (s, []) /\ s_error s = None
  /\ In (EvFrame (FDisposition (mk_disposition RoleReceiver 1 None true (Some st) false))) evs
  /\ nth_error (s_dlvs s) 0 = Some x /\ dl_id x = 1 /\ dl_sender x = true
  /\ wait_result 0 s (inl (Some st)) /\ remote_state 0 s = None
  /\ run p [EvWait 0; EvPollWait 1] s = EOk (s2, []) /\ awaits_outcome 1 0 s2.
Proof.
  intros p. set (st := DSModified (mk_modified (Some true) None None)).
  set (evs := sender_link ++ credit_event 1 0 5 ++ send_event 0 0 (bytes_of 3)
    ++ [EvWait 0; EvPollWait 0; EvFrame (FDisposition (mk_disposition RoleReceiver 1 None true (Some st) false)); EvPollWait 0]).
  exists evs, (result p evs (start 512 10)), (result p (evs ++ [EvWait 0; EvPollWait 1]) (start 512 10)), st. eexists.
  split; [destruct p; vm_compute; reflexivity|]. split; [destruct p; vm_compute; reflexivity|].
  split; [unfold evs; do 3 (apply in_or_app; right); right; right; left; reflexivity|].
  split; [destruct p; vm_compute; reflexivity|]. split; [reflexivity|]. split; [reflexivity|].
  split; [exists 0%nat; destruct p; vm_compute; reflexivity|]. split; [destruct p; vm_compute; reflexivity|].
  split; [destruct p; vm_compute; reflexivity|]. eexists. split; destruct p; vm_compute; reflexivity.
Qed.
Print Assumptions C71_modified_refuted.
(** [is_remote_settled] is not true of all deliveries that the peer has settled: a
    delivery that the peer sent settled counts as settled by this side only, and
    a settlement that comes later shows only once a wait has returned it. *)
Theorem C71_flag_refuted : forall p, exists t evs s evs1 s1 s2,
  transfer_settled (tr_head t) = Some true /\ run p (evs ++ [EvFrame (FTransfer t)]) (start 512 10) = EOk (s, [])
  /\ length (s_dlvs s) = 1%nat /\ is_remote_settled 0 s = false
  /\ run p evs1 (start 512 10) = EOk (s1, []) /\ awaits_outcome 0 0 (result p (removelast evs1) (start 512 10))
  /\ last evs1 EvEnd = EvFrame (FDisposition (mk_disposition RoleReceiver 1 None true (Some (DSAccepted mk_accepted)) false))
  /\ is_remote_settled 0 s1 = false /\ run p [EvPollWait 0] s1 = EOk (s2, []) /\ is_remote_settled 0 s2 = true.
Proof.
  intros p. set (t := mk_transfer_t (mk_transfer 0 (Some 0) (Some [x07]) None (Some true) false None None false false false) (Some (bytes_of 3))).
  set (evs1 := sender_link ++ credit_event 1 0 5 ++ send_event 0 0 (bytes_of 3)
    ++ [EvWait 0; EvPollWait 0; EvFrame (FDisposition (mk_disposition RoleReceiver 1 None true (Some (DSAccepted mk_accepted)) false))]).
  exists t, receiver_link, (result p (receiver_link ++ [EvFrame (FTransfer t)]) (start 512 10)), evs1, (result p evs1 (start 512 10)), (result p (evs1 ++ [EvPollWait 0]) (start 512 10)).
  split; [reflexivity|]. do 4 (split; [destruct p; vm_compute; reflexivity|]).
  split; [eexists; split; destruct p; vm_compute; reflexivity|].
  do 3 (split; [destruct p; vm_compute; reflexivity|]). destruct p; vm_compute; reflexivity.
Qed.
Print Assumptions C71_flag_refuted.
(** A delivery with id 1 from one session to another, whose application settles it;
    the disposition is read byte by byte, and the sender's wait returns it. *)
Definition C71_sender : list ev := sender_link ++ credit_event 1 0 9 ++ send_event 0 0 (bytes_of 10) ++ [EvWait 0; EvPollWait 0].
Definition C71_receiver : list ev := receiver_link ++ [arrives (Some 1) false 10; EvRecv 0 7].
Definition C71_state : delivery_state := DSAccepted mk_accepted.
Definition C71_received : ses := result Debug C71_receiver (start 512 10).
Definition C71_settled : ses := result Debug (C71_receiver ++ [EvUpdate 0 C71_state; EvSettle 0 C71_state]) (start 512 10).
Definition C71_chunks : list bytes := map (fun b => [b]) (written 3 (s_out C71_settled)).
Definition C71_learned : ses :=
  result Debug (C71_sender ++ map (fun d => EvFrame (FDisposition d)) (read_dispositions Debug 2100 C71_chunks) ++ [EvPollWait 0]) (start 512 10).
Example C71_case : let s := result Debug C71_sender (start 512 10) in
  reachable Debug s /\ s_error s = None /\ awaits_outcome 0 0 s
  /\ (exists x y, nth_error (s_dlvs s) 0 = Some x /\ dl_id x < 2 ^ 32 /\ held 0 y C71_received /\ own_id 0 y C71_received /\ two_ends x y)
  /\ no_raw_dispositions (C71_receiver ++ [EvUpdate 0 C71_state; EvSettle 0 C71_state])
  /\ Forall (carried 3 2100) (s_out C71_settled) /\ concat C71_chunks = written 3 (s_out C71_settled)
  /\ length (read_dispositions Debug 2100 C71_chunks) = 2%nat
  /\ wait_result 0 C71_learned (inl (Some C71_state)) /\ remote_state 0 C71_learned = Some C71_state.
Proof.
  cbv zeta. split; [apply runs_reachable; vm_compute; reflexivity|]. split; [vm_compute; reflexivity|].
  split; [eexists; split; vm_compute; reflexivity|]. split.
  { eexists _, _. split; [vm_compute; reflexivity|]. split; [vm_compute; reflexivity|].
    split; [split; [vm_compute; reflexivity|vm_compute; auto]|]. split; [split; [vm_compute; reflexivity|]|vm_compute; auto].
    intros [|k] z Hz; [reflexivity|]. vm_compute in Hz. destruct k; discriminate Hz. }
  split.
  { intros d Hin. vm_compute in Hin. repeat (destruct Hin as [Hin|Hin]; [discriminate Hin|]). exact Hin. }
  split.
  { match goal with |- Forall _ ?l => let v := eval vm_compute in l in assert (E : l = v) by (vm_compute; reflexivity); rewrite E end.
    repeat apply Forall_cons; try apply Forall_nil; (split; [|right; vm_compute; discriminate]); (split; [vm_compute; reflexivity|]);
      (split; [|vm_compute; reflexivity]); cbn [fr_body legal_frame]; idtac.
    all: unfold legal_attach, legal_flow, legal_transfer; cbn. all: repeat split; try exact I; try (apply sound_data); vm_compute; reflexivity. }
  split.
  { assert (H : forall l : bytes, concat (map (fun b => [b]) l) = l)
      by (induction l as [|a l IH]; [reflexivity|cbn; rewrite IH; reflexivity]).
    apply H. }
  split; [vm_compute; reflexivity|]. split; [exists 0%nat|]; vm_compute; reflexivity.
Qed.
