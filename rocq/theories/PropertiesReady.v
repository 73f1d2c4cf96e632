(** * Theorems about waiting for a sender link: C59

    Vocabulary: [SpecRelease.v], [SpecReady.v]. *)

From Coq Require Import Strings.String.
From Verif Require Import Base SpecReady Scenario ReadyProofs.
Import ListNotations.

(** ** C59 *)
(** Polled for the first time, [ready] tells at once that the link is closed or
    has credit, and only that; otherwise it waits.  It never spins. *)
Theorem C59_ready : forall p a s, reachable p s ->
  (snd_closed a s -> ready_gives a RdNew s false)
  /\ (forall n, snd_credit a s n -> n <> 0 -> ready_gives a RdNew s true)
  /\ (snd_credit a s 0 -> exists s', ready_poll a RdNew s = (RdWait (next_future s), s') /\ still_waits (next_future s) s'
        /\ reachable p s').
Proof.
  intros p a s R. cbn [ready_poll]. unfold ready_gives. repeat split; try discriminate.
  - destruct H as (l & E & C). cbn [ready_poll]. rewrite (turn_done a s l E), C; auto.
  - destruct H as (l & E & C & <-). cbn [ready_poll]. rewrite (turn_done a s l E), C; auto.
  - intros (l & E & C & Z). destruct (turn_cases p a s l R E) as [(C' & _)|[(_ & P & _)|(_ & _ & s' & T & St & _)]]; [congruence| |].
    { rewrite Z in P. discriminate P. }
    exists s'. split; [exact T|]. split.
    + cbn [step] in St. rewrite E in St. destruct (reachable_settled _ _ R a l E) as (_ & S2 & _).
      cbv beta iota zeta delta [cond_wait new_chan] in St. rewrite S2, C in St. apply EOk_inj in St.
      apply (f_equal fst) in St. cbn [fst] in St. subst s'. red. frw. apply new_waits.
    + exact (reachable_step _ _ _ _ _ R St).
Qed.
Print Assumptions C59_ready.
(** While it waits anything may happen.  If then the link is closed or has
    credit, [ready] has been woken and returns; it returns [true] exactly for a
    link that is not closed. *)
Theorem C59_woken : forall p a s1 c s2 evs s3 os, reachable p s1 ->
  ready_poll a RdNew s1 = (RdWait c, s2) -> run p evs s2 = EOk (s3, os) ->
  (snd_closed a s3 -> ready_gives a (RdWait c) s3 false)
  /\ (forall n, snd_credit a s3 n -> n <> 0 -> ready_gives a (RdWait c) s3 true).
Proof.
  intros p a s1 c s2 evs s3 os R T RN. assert (W := woken p a s1 c s2 evs s3 os R T RN).
  assert (X : forall l, nth_error (s_snds s3) a = Some l -> sn_closed l = true \/ sn_credit l <> 0 ->
     ready_gives a (RdWait c) s3 (negb (sn_closed l))).
  { intros l E H. assert (NW : ~ still_waits c s3).
    { intros Ws. destruct (W Ws) as (l' & E' & C & Z). assert (l' = l) as -> by congruence. rewrite C, Z in H. destruct H; congruence. }
    split; [intros c' Ec; injection Ec as <-; exact NW|]. cbn [ready_poll]. unfold still_waits in NW.
    destruct (nth_error (s_chans s3) c) as [[]|]; try (apply turn_done; assumption). destruct (NW eq_refl). }
  split.
  - intros (l & E & C). specialize (X l E (or_introl C)). rewrite C in X. exact X.
  - intros n (l & E & C & Z) NZ. rewrite <- Z in NZ. specialize (X l E (or_intror NZ)). rewrite C in X. exact X.
Qed.
Print Assumptions C59_woken.
(** When the link is no longer attached, for whatever reason - the peer detached
    it, the application did, the session or the connection failed - [ready] has
    been woken and says that the link is gone. *)
Theorem C59_gone : forall p a s1 c s2 evs s3 os, reachable p s1 ->
  ready_poll a RdNew s1 = (RdWait c, s2) -> run p evs s2 = EOk (s3, os) ->
  sender_open a s2 -> ~ sender_open a s3 -> ready_gives a (RdWait c) s3 false.
Proof.
  intros p a s1 c s2 evs s3 os R T RN O NO. destruct (C59_woken p a s1 c s2 evs s3 os R T RN) as [W _]. apply W.
  destruct (nth_error (s_snds s1) a) as [l|] eqn:E.
  - assert (R2 : reachable p s2).
    { destruct (C59_ready p a s1 R) as (_ & _ & H3). cbn [ready_poll] in *.
      destruct (turn_cases p a s1 l R E) as [(C & X)|[(_ & _ & X)|(C & Z & _)]]; [congruence|congruence|].
      destruct H3 as (s' & T' & _ & R'); [exists l; auto|]. assert (s' = s2) as -> by congruence. exact R'. }
    exact (left_shut p evs s2 s3 os a R2 RN O NO).
  - cbn [ready_poll] in T. unfold ready_turn in T. rewrite E in T. discriminate T.
Qed.
Print Assumptions C59_gone.
(** [on_close]: the future has completed when the link is closed or no longer
    attached, also if it was closed before. *)
Theorem C59_on_close : forall p a s1 s2 o evs s3 os l, reachable p s1 -> nth_error (s_snds s1) a = Some l ->
  step p (EvOnClose a) s1 = EOk (s2, o) -> run p evs s2 = EOk (s3, os) ->
  snd_closed a s3 \/ (sender_open a s2 /\ ~ sender_open a s3) -> ~ still_waits (next_future s1) s3.
Proof.
  intros p a s1 s2 o evs s3 os l R E St RN H W. destruct (close_told p a s1 s2 o evs s3 os l R E St RN W) as (l3 & E3 & C3).
  assert (K : snd_closed a s3).
  { destruct H as [H|[O NO]]; [exact H|]. apply (left_shut p evs s2 s3 os a); auto. exact (reachable_step _ _ _ _ _ R St). }
  destruct K as (l' & E' & C'). congruence.
Qed.
Print Assumptions C59_on_close.
(** Two tasks wait for a link without credit; another task sends with the only
    credit that arrives, before they run.  Both were woken.  And one that waits
    when the peer detaches. *)
Example C59_case :
  let s1 := result Debug sender_link (start 512 10) in
  let s2 := snd (ready_poll 0 RdNew s1) in
  let s2' := snd (ready_poll 0 RdNew s2) in
  let evs := credit_event 1 0 1 ++ send_event 0 0 (bytes_of 3) in
  let s3 := result Debug evs s2' in
  let s4 := result Debug (credit_event 1 0 1) s2' in
  let s5 := result Debug [EvFrame (FDetach (mk_detach 0 true None))] s2 in
  reachable Debug s1 /\ snd_credit 0 s1 0 /\ fst (ready_poll 0 RdNew s1) = RdWait 0 /\ fst (ready_poll 0 RdNew s2) = RdWait 1
  /\ runs Debug evs s2' = true /\ snd_credit 0 s3 0 /\ ~ still_waits 0 s3 /\ ~ still_waits 1 s3
  /\ fst (ready_poll 0 (RdWait 0) s3) = RdWait 2
  /\ snd_credit 0 s4 1 /\ fst (ready_poll 0 (RdWait 1) s4) = RdDone true
  /\ runs Debug [EvFrame (FDetach (mk_detach 0 true None))] s2 = true /\ sender_open 0 s2 /\ snd_closed 0 s5 /\ ~ sender_open 0 s5
  /\ fst (ready_poll 0 (RdWait 0) s5) = RdDone false.
Proof.
  cbn zeta. split; [apply runs_reachable; vm_compute; reflexivity|].
  repeat match goal with |- _ /\ _ => split end; try (vm_compute; reflexivity); try (intros H; vm_compute in H; discriminate H).
  - eexists. vm_compute. auto.
  - eexists. vm_compute. auto.
  - eexists. vm_compute. auto.
  - exists 0. vm_compute. reflexivity.
  - eexists. vm_compute. auto.
  - intros (k & H). assert (V : s_links (result Debug [EvFrame (FDetach (mk_detach 0 true None))] (snd (ready_poll 0 RdNew (result Debug sender_link (start 512 10))))) = mk_slab [None] [0]) by (vm_compute; reflexivity).
    rewrite V in H. unfold slab_get in H. cbn [sl_items] in H. destruct (N.to_nat k) as [|[|n]]; discriminate H.
Qed.

(** A link that the peer has asked for is handed to the control service before it
    is attached.  If the session fails before the control service has answered,
    nobody tells the link: it stays open, and [ready] and [on_close] on it wait. *)
Theorem C59_unattached_refuted : exists p evs s1 s2 s3 c,
  run p evs (start 512 10) = EOk (s1, []) /\ s_ctl s1 <> [] /\ snd_credit 0 s1 0
  /\ ready_poll 0 RdNew s1 = (RdWait c, s2)
  /\ run p [EvOnClose 0; EvFail EDisconnected] s2 = EOk (s3, [])
  /\ s_error s3 = Some EDisconnected /\ snd_credit 0 s3 0 /\ still_waits c s3 /\ still_waits (next_future s2) s3.
Proof.
  exists Debug, [EvAttach (attach_of (str "in") 0 RoleReceiver None)].
  do 4 eexists. split; [vm_compute; reflexivity|]. split; [discriminate|]. split; [eexists; vm_compute; auto|].
  split; [vm_compute; reflexivity|]. split; [vm_compute; reflexivity|]. split; [reflexivity|]. split; [eexists; vm_compute; auto|].
  split; vm_compute; reflexivity.
Qed.
Print Assumptions C59_unattached_refuted.
