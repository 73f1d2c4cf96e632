(** * Waiting on a delivery that this side has settled, and two waits at a time *)

From Coq Require Import Lia ZifyBool ZifyNat ZifyN.
From Verif Require Import Base SpecRelease SpecDelivery SendProofs SameProofs FutureProofs SettleProofs.
From Verif Require Export HereRel.
Import ListNotations.

Lemma step_hr : forall p e s s' os, step p e s = EOk (s', os) -> stable hr_rel s s'.
Proof. intros p e s s' os H. destruct e; cbn [step] in H; step_er H. Qed.
Lemma run_hr : forall p evs s s' os, run p evs s = EOk (s', os) -> hr_rel s s'.
Proof.
  intros p evs s s' os H. refine (run_ind (fun z => hr_rel s z) p _ evs s s' os _ H).
  - intros e z z' o K St. intros i x E. destruct (K _ _ E) as (x1 & E1 & I1 & L1). destruct (step_hr _ _ _ _ _ St _ _ E1) as (x2 & E2 & I2 & L2).
    exists x2. split; [exact E2|]. split; [congruence|auto].
  - intros i x E. exists x. auto.
Qed.

(** ** A wait future that is not polled *)
Lemma wait_kept_step : forall p e s s' os w k, nth_error (s_waits s) w = Some k -> e <> EvPollWait w -> e <> EvCancelWait w ->
  step p e s = EOk (s', os) -> nth_error (s_waits s') w = Some k.
Proof.
  intros p e s s' os w k E N1 N2 St. pose proof (step_waits _ _ _ _ _ St) as T. pose proof (waits_grow _ _ _ _ _ St) as G.
  destruct e; try (rewrite T; exact E); cbn [step] in St.
  - destruct (nth_error (s_dlvs s) d); apply EOk_inj, pair_equal_spec in St as [<- _]; [|exact E].
    cbn [s_waits set_s_waits]. rewrite nth_error_app1; [exact E|]. apply nth_error_Some. congruence.
  - apply EOk_inj, pair_equal_spec in St as [<- _].
    destruct (nth_error (s_waits (poll_wait w0 s)) w) as [k'|] eqn:E'.
    + apply waits_other in E'; congruence.
    + apply nth_error_None in E'. assert (w < length (s_waits s))%nat by (apply nth_error_Some; congruence). lia.
  - apply EOk_inj, pair_equal_spec in St as [<- _]. unfold upd_wait. destruct (nth_error (s_waits s) w0); [|exact E]. st_cbn.
    rewrite nth_set_nth_neq by congruence. exact E.
Qed.
Lemma wait_kept_run : forall p evs s s' os w k, nth_error (s_waits s) w = Some k -> ~ In (EvPollWait w) evs -> ~ In (EvCancelWait w) evs ->
  run p evs s = EOk (s', os) -> nth_error (s_waits s') w = Some k.
Proof.
  induction evs as [|e evs IH]; intros s s' os w k E N1 N2 H; cbn [run] in H.
  - apply EOk_inj, pair_equal_spec in H as [<- _]. exact E.
  - destruct (step p e s) as [[s1 o1]|] eqn:St; [|discriminate]. cbn [ebind] in H.
    destruct (run p evs s1) as [[s2 o2]|] eqn:Rn; [|discriminate]. cbn [ebind] in H. apply EOk_inj, pair_equal_spec in H as [<- _].
    eapply IH; [| | |exact Rn]; [|intros I; apply N1; right; exact I|intros I; apply N2; right; exact I].
    eapply wait_kept_step; [exact E| | |exact St]; intros ->; [apply N1|apply N2]; left; reflexivity.
Qed.
Lemma upd_wait_same : forall w f s k, nth_error (s_waits s) w = Some k -> nth_error (s_waits (upd_wait w f s)) w = Some (f k).
Proof. intros w f s k E. unfold upd_wait. rewrite E. st_cbn. rewrite nth_set_nth, Nat.eqb_refl, E. reflexivity. Qed.
Lemma wait_here : forall p s w i x, nth_error (s_waits s) w = Some (mk_wtask i WNew) -> nth_error (s_dlvs s) i = Some x -> dl_local x = true ->
  wait_gives p w (inl None) s.
Proof.
  intros p s w i x Ew Ex L. eexists _, _. split; [reflexivity|]. exists i. unfold poll_wait. rewrite Ew. cbn [wk_dlv wk_st]. rewrite Ex, L.
  rewrite (upd_wait_same _ _ _ _ Ew). reflexivity.
Qed.
Lemma wait_after : forall p s i x evs s2 os2 s3 os3 evs' s4 os4, nth_error (s_dlvs s) i = Some x -> dl_local x = true ->
  run p evs s = EOk (s2, os2) -> step p (EvWait i) s2 = EOk (s3, os3) -> run p evs' s3 = EOk (s4, os4) ->
  ~ In (EvPollWait (length (s_waits s2))) evs' -> ~ In (EvCancelWait (length (s_waits s2))) evs' ->
  wait_gives p (length (s_waits s2)) (inl None) s4.
Proof.
  intros p s i x evs s2 os2 s3 os3 evs' s4 os4 Ex L R2 St R4 N1 N2.
  destruct (run_hr _ _ _ _ _ R2 _ _ Ex) as (x2 & E2 & _ & L2). specialize (L2 L).
  assert (Ew : nth_error (s_waits s3) (length (s_waits s2)) = Some (mk_wtask i WNew)).
  { cbn [step] in St. rewrite E2 in St. apply EOk_inj, pair_equal_spec in St as [<- _]. st_cbn. rewrite nth_error_app2, Nat.sub_diag by lia. reflexivity. }
  destruct (step_hr _ _ _ _ _ St _ _ E2) as (x3 & E3 & _ & L3). specialize (L3 L2).
  destruct (run_hr _ _ _ _ _ R4 _ _ E3) as (x4 & E4 & _ & L4). specialize (L4 L3).
  eapply wait_here; [exact (wait_kept_run _ _ _ _ _ _ _ Ew N1 N2 R4)|exact E4|exact L4].
Qed.
Lemma settled_waits : forall p s i x st s1 os1 evs s2 os2 s3 os3 evs' s4 os4, held i x s -> step p (EvSettle i st) s = EOk (s1, os1) ->
  run p evs s1 = EOk (s2, os2) -> step p (EvWait i) s2 = EOk (s3, os3) -> run p evs' s3 = EOk (s4, os4) ->
  ~ In (EvPollWait (length (s_waits s2))) evs' -> ~ In (EvCancelWait (length (s_waits s2))) evs' ->
  wait_gives p (length (s_waits s2)) (inl None) s4.
Proof.
  intros p s i x st s1 os1 evs s2 os2 s3 os3 evs' s4 os4 (Ex & A & L & Rm) St.
  cbn [step] in St. unfold dlv_settle in St. rewrite Ex, A, L, Rm in St. cbn [negb orb] in St. apply EOk_inj, pair_equal_spec in St as [<- _].
  eapply (wait_after p _ i (set_dl_local true x)); [|reflexivity]. unfold post. st_cbn. rewrite nth_upd_dlv, Nat.eqb_refl, Ex. reflexivity.
Qed.

(** ** Sends that are settled from the start *)
Definition pre_inv (s : ses) : Prop := forall t tk i, nth_error (s_tasks s) t = Some tk -> tk_st tk = TDone (inl i) -> tk_settled tk = true ->
  exists x, nth_error (s_dlvs s) i = Some x /\ dl_local x = true.
Lemma pre_same : forall s s', s_tasks s' = s_tasks s -> hr_rel s s' -> pre_inv s -> pre_inv s'.
Proof.
  intros s s' E K H t tk i Et Es S. rewrite E in Et. destruct (H _ _ _ Et Es S) as (x & Ex & L). destruct (K _ _ Ex) as (x' & Ex' & _ & L').
  exists x'. auto.
Qed.
Lemma pre_upd : forall t f s, (forall k, tk_settled (f k) = tk_settled k /\ forall i, tk_st (f k) = TDone (inl i) -> tk_st k = TDone (inl i)) ->
  pre_inv s -> pre_inv (upd_task t f s).
Proof.
  intros t f s F H u k i Eu Es S. rewrite nth_upd_task in Eu. replace (s_dlvs (upd_task t f s)) with (s_dlvs s) by (frw; reflexivity).
  destruct (Nat.eqb t u); [|exact (H _ _ _ Eu Es S)].
  destruct (nth_error (s_tasks s) t) as [k0|] eqn:E0; [|discriminate Eu]. cbn [option_map] in Eu. apply Some_inj in Eu. subst k.
  destruct (F k0) as [F1 F2]. rewrite F1 in S. exact (H _ _ _ E0 (F2 _ Es) S).
Qed.
Definition task_like (t : nat) (b : bool) (s : ses) : Prop := forall k, nth_error (s_tasks s) t = Some k -> tk_settled k = b.
Lemma pre_transmit : forall t tk l tag s, task_like t (tk_settled tk) s -> pre_inv s -> pre_inv (transmit t tk l tag s).
Proof.
  intros t tk l tag s T H u k i Eu Es S. destruct (transmit_effect t tk l tag s) as (_ & _ & D & _ & Ts). rewrite D. rewrite Ts, nth_upd_task in Eu.
  destruct (Nat.eqb t u).
  - destruct (nth_error (s_tasks s) t) as [k0|] eqn:E0; [|discriminate Eu]. cbn [option_map] in Eu. apply Some_inj in Eu. subst k.
    cbn in Es, S. injection Es as <-. rewrite nth_error_app2, Nat.sub_diag by lia. eexists. split; [reflexivity|]. cbn. rewrite <- (T _ E0). exact S.
  - destruct (H _ _ _ Eu Es S) as (x & Ex & L). exists x. rewrite nth_error_app1 by (apply nth_error_Some; congruence). auto.
Qed.
Lemma pre_session_loop : forall t tk l tag s, task_like t (tk_settled tk) s -> pre_inv s -> pre_inv (session_loop t tk l tag s).
Proof.
  intros t tk l tag s T H. unfold session_loop. destruct (s_iwin s =? 0); [|apply pre_transmit; assumption].
  cbv beta iota zeta delta [new_chan]. apply pre_upd; [intros k; split; [reflexivity|intros i Q; discriminate Q]|]. exact H.
Qed.
Lemma pre_link_loop : forall t tk l tag s, task_like t (tk_settled tk) s -> pre_inv s -> pre_inv (link_loop t tk l tag s).
Proof.
  intros t tk l tag s T H. unfold link_loop.
  assert (U : forall f, pre_inv (upd_snd (tk_link tk) f s)) by (intros f u k i; frw; apply H).
  match goal with |- context [if ?b then _ else _] => destruct b end.
  - cbv beta iota zeta delta [new_chan]. apply pre_upd; [intros k; split; [reflexivity|intros i Q; discriminate Q]|]. intros u k i. frw. apply H.
  - apply pre_session_loop.
    + intros k E. rewrite nth_upd_task, Nat.eqb_refl in E. frw_in E. destruct (nth_error (s_tasks s) t) as [k0|] eqn:E0; [|discriminate E].
      cbn [option_map] in E. apply Some_inj in E. subst k. exact (T _ E0).
    + apply pre_upd; [intros k; split; [reflexivity|intros i Q; exact Q]|]. apply U.
Qed.
Lemma pre_poll_send : forall t s, pre_inv s -> pre_inv (poll_send t s).
Proof.
  intros t s H. unfold poll_send. destruct (nth_error (s_tasks s) t) as [tk|] eqn:E; [|exact H].
  destruct (nth_error (s_snds s) (tk_link tk)) as [l|]; [|exact H]. cbv zeta.
  assert (T : task_like t (tk_settled tk) s) by (intros k Ek; congruence).
  assert (F : forall e, pre_inv (upd_task t (set_tk_st (TDone (inr e))) s))
    by (intros e; apply pre_upd; [intros k; split; [reflexivity|intros i Q; discriminate Q]|exact H]).
  destruct (tk_st tk).
  - destruct (sn_error l); [apply F|]. destruct (sn_closed l); [apply F|]. destruct (match sn_max l with Some _ => _ | None => _ end); [apply F|].
    destruct (tk_tag tk); [apply pre_link_loop; assumption|]. apply pre_link_loop; [intros k; frw; apply T|intros u k i; frw; apply H].
  - destruct (nth_error (s_chans s) c) as [[|[]|]|]; auto; apply pre_link_loop; assumption.
  - destruct (nth_error (s_chans s) c) as [[|[]|]|]; auto; apply pre_session_loop; assumption.
  - exact H.
  - exact H.
Qed.
Lemma pre_step : forall p e s s' os, pre_inv s -> step p e s = EOk (s', os) -> pre_inv s'.
Proof.
  intros p e s s' os H St. pose proof (step_tasks _ _ _ _ _ St) as T. pose proof (step_hr _ _ _ _ _ St) as K.
  destruct e; try (exact (pre_same _ _ T K H)); cbn [step] in St.
  - destruct (nth_error (s_snds s) a); apply EOk_inj, pair_equal_spec in St as [<- _]; [|exact H].
    intros u k i Eu Es S. st_cbn_in Eu. destruct (Nat.lt_ge_cases u (length (s_tasks s))) as [L|L].
    + rewrite nth_error_app1 in Eu by exact L. exact (H _ _ _ Eu Es S).
    + rewrite nth_error_app2 in Eu by exact L. destruct (u - length (s_tasks s))%nat as [|[]]; [|discriminate Eu..].
      cbn in Eu. apply Some_inj in Eu. subst k. discriminate Es.
  - apply EOk_inj, pair_equal_spec in St as [<- _]. apply pre_poll_send, H.
  - apply EOk_inj, pair_equal_spec in St as [<- _]. apply pre_upd; [|exact H].
    intros k. destruct (tk_st k) eqn:Q; (split; [reflexivity|]); intros i Z; cbn in Z; congruence.
Qed.
Lemma pre_reachable : forall p s, reachable p s -> pre_inv s.
Proof.
  intros p s (id & local & rc & mfs & b & evs & os & H). refine (run_ind pre_inv p (pre_step p) evs _ _ _ _ H).
  intros [|t] tk i E; discriminate E.
Qed.
Lemma presettled_waits : forall p s t tk i evs s2 os2 s3 os3 evs' s4 os4, reachable p s ->
  nth_error (s_tasks s) t = Some tk -> tk_st tk = TDone (inl i) -> tk_settled tk = true ->
  run p evs s = EOk (s2, os2) -> step p (EvWait i) s2 = EOk (s3, os3) -> run p evs' s3 = EOk (s4, os4) ->
  ~ In (EvPollWait (length (s_waits s2))) evs' -> ~ In (EvCancelWait (length (s_waits s2))) evs' ->
  wait_gives p (length (s_waits s2)) (inl None) s4.
Proof.
  intros p s t tk i evs s2 os2 s3 os3 evs' s4 os4 R Et Es S. destruct (pre_reachable _ _ R _ _ _ Et Es S) as (x & Ex & L).
  eapply wait_after; eassumption.
Qed.

(** ** Two waits at a time *)
Lemma displaced : forall p s s' os w w0 i x, reachable p s -> awaits_outcome w0 i s -> nth_error (s_waits s) w = Some (mk_wtask i WNew) ->
  nth_error (s_dlvs s) i = Some x -> dl_local x = false -> step p (EvPollWait w) s = EOk (s', os) ->
  awaits_outcome w i s' /\ wait_gives p w0 (inr EConnectionDropped) s'.
Proof.
  intros p s s' os w w0 i x R (c & Ew0 & W) Ew Ex Lx St. cbn [step] in St. apply EOk_inj, pair_equal_spec in St as [<- _].
  destruct (fut_reachable _ _ R) as (_ & B & _ & _ & T). assert (P := T _ _ Ew0). unfold wait_placed in P. cbn [wk_st wk_dlv] in P.
  destruct P as (Bc & x' & Ex' & P). assert (x' = x) as -> by congruence. clear Ex'. specialize (P W). destruct P as (di & G & Tx).
  assert (Nw : w <> w0) by (intros ->; congruence).
  unfold poll_wait at 1 2. rewrite Ew. cbn [wk_dlv wk_st]. rewrite Ex.
  rewrite Lx, G. destruct (clean_reachable _ _ R (dl_sender x) (dl_id x) di G) as [C1 C2]; [congruence|].
  assert (Ck : check_inner di = (None, di)) by (unfold check_inner; rewrite C1, C2; reflexivity). rewrite Ck.
  cbv beta iota zeta delta [new_chan]. rewrite Tx. set (c1 := length (s_chans s)). set (s1 := set_s_chans _ s). set (s2 := drop_opt (Some c) s1).
    set (s3 := set_unsettled _ _ s2).
    assert (E3 : s_waits s3 = s_waits s) by (unfold s3, s2, s1; frw; reflexivity).
    assert (C3 : s_chans s3 = set_nth c CGone (s_chans s ++ [CWait])).
    { transitivity (s_chans s2); [unfold s3; destruct (dl_sender x); reflexivity|]. unfold s2, drop_opt, drop_tx, s1, put_chan. st_cbn.
      rewrite nth_error_app1 by exact Bc. unfold waits_on in W. rewrite W. reflexivity. }
    split.
    + exists c1. split; [rewrite (upd_wait_same w _ _ (mk_wtask i WNew)); [reflexivity|rewrite E3; exact Ew]|].
      frw. rewrite C3, nth_set_nth_neq by (unfold c1; lia). rewrite nth_error_app2 by (unfold c1; lia). unfold c1. rewrite Nat.sub_diag. reflexivity.
    + eexists _, _. split; [reflexivity|]. exists i. 
      set (s4 := upd_wait w _ s3). assert (E4 : nth_error (s_waits s4) w0 = Some (mk_wtask i (WWait c))).
      { unfold s4, upd_wait. rewrite E3, Ew. st_cbn. rewrite nth_set_nth_neq by congruence. exact Ew0. }
      assert (D4 : nth_error (s_dlvs s4) i = Some x) by (unfold s4, s3, s2, s1; frw; exact Ex).
      assert (C4 : nth_error (s_chans s4) c = Some CGone).
      { unfold s4. frw. rewrite C3, nth_set_nth, Nat.eqb_refl, nth_error_app1 by exact Bc. unfold waits_on in W. rewrite W. reflexivity. }
      unfold poll_wait. rewrite E4. cbn [wk_dlv wk_st]. rewrite D4, C4. rewrite (upd_wait_same _ _ _ _ E4). reflexivity.
Qed.
