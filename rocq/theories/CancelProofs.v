(** * Sends and waits that are dropped *)

From Coq Require Import Lia ZifyBool ZifyNat ZifyN.
From Verif Require Export SpecCancel SameProofs FutureProofs.
Import ListNotations.

Definition gone (t : nat) (s : ses) : Prop := exists tk, nth_error (s_tasks s) t = Some tk /\ tk_st tk = TGone.
Lemma gone_step : forall t p e s s' os, gone t s -> step p e s = EOk (s', os) -> gone t s'.
Proof.
  intros t p e s s' os (k & Ek & Es) St. pose proof (step_tasks _ _ _ _ _ St) as T.
  destruct e; try (exists k; rewrite T; split; assumption); cbn [step] in St; clear T.
  - destruct (nth_error (s_snds s) a); apply EOk_inj, pair_equal_spec in St as [<- _]; [|exists k; split; assumption].
    exists k. cbn [s_tasks set_s_tasks]. split; [|exact Es]. rewrite nth_error_app1; [exact Ek|]. apply nth_error_Some. congruence.
  - apply EOk_inj, pair_equal_spec in St as [<- _]. destruct (Nat.eq_dec t0 t) as [->|N].
    + unfold poll_send. rewrite Ek. destruct (nth_error (s_snds s) (tk_link k)); [|exists k; split; assumption].
      rewrite Es. exists k; split; assumption.
    + assert (L : (t < length (s_tasks (poll_send t0 s)))%nat) by (rewrite poll_send_length; apply nth_error_Some; congruence).
      apply nth_error_Some in L. destruct (nth_error (s_tasks (poll_send t0 s)) t) as [k'|] eqn:E'; [|congruence].
      exists k'. split; [exact E'|]. apply tasks_other in E'; [|congruence]. rewrite Ek in E'. apply Some_inj in E'. subst k'. exact Es.
  - apply EOk_inj, pair_equal_spec in St as [<- _]. fold drop_task. rewrite upd_task_at. unfold gone. rewrite wf_tasks.
    destruct (Nat.eq_dec t0 t) as [->|N].
    + unfold at_nth. rewrite Ek. exists (drop_task k). split; [|unfold drop_task; rewrite Es; reflexivity].
      apply nth_set_nth_eq. apply nth_error_Some. congruence.
    + exists k. rewrite at_nth_other by congruence. split; assumption.
Qed.
Lemma drop_gone : forall p t s s' os, (t < length (s_tasks s))%nat -> ~ (exists r, send_result t s r) ->
  step p (EvCancelSend t) s = EOk (s', os) -> gone t s'.
Proof.
  intros p t s s' os L N St. cbn [step] in St. apply EOk_inj, pair_equal_spec in St as [<- _]. fold drop_task.
  rewrite upd_task_at. unfold gone. rewrite wf_tasks. pose proof L as L'. apply nth_error_Some in L'.
  destruct (nth_error (s_tasks s) t) as [k|] eqn:Ek; [|congruence]. unfold at_nth. rewrite Ek.
  exists (drop_task k). split; [apply nth_set_nth_eq; exact L|]. unfold drop_task.
  destruct (tk_st k) as [| | |r|] eqn:Es; try reflexivity. exfalso. apply N. exists r, k. split; assumption.
Qed.
Lemma dropped_never : forall p t evs s s' os, (t < length (s_tasks s))%nat -> ~ (exists r, send_result t s r) ->
  run p (EvCancelSend t :: evs) s = EOk (s', os) -> ~ alive t s' /\ ~ sent t s' /\ ~ (exists r, send_result t s' r).
Proof.
  intros p t evs s s' os L N R. cbn [run] in R. destruct (step p (EvCancelSend t) s) as [[s1 o1]|] eqn:St; [|discriminate R].
  cbn [ebind] in R. destruct (run p evs s1) as [[s2 o2]|] eqn:R2; [|discriminate R]. cbn [ebind] in R.
  apply EOk_inj, pair_equal_spec in R as [<- _].
  assert (G : gone t s2) by (eapply (run_ind (gone t) p); [intros e a b o G S; eapply gone_step; eassumption|eapply drop_gone; eassumption|exact R2]).
  destruct G as (k & Ek & Es). split; [|split].
  - intros (k' & E' & A). rewrite Ek in E'. apply Some_inj in E'. subst k'. exact (A Es).
  - intros (k' & d & E' & D). rewrite Ek in E'. apply Some_inj in E'. subst k'. destruct D as [i [D _]]. rewrite Es in D. discriminate D.
  - intros (r & k' & E' & D). rewrite Ek in E'. apply Some_inj in E'. subst k'. rewrite Es in D. discriminate D.
Qed.

(** Waiting for credit costs nothing. *)
Lemma link_credit_upd : forall a f s b n, (forall l, sn_credit (f l) = sn_credit l) ->
  link_credit b (upd_snd a f s) n <-> link_credit b s n.
Proof.
  intros a f s b n H. unfold link_credit, upd_snd. destruct (nth_error (s_snds s) a) as [l|] eqn:E; [|reflexivity].
  cbn [s_snds set_s_snds]. destruct (Nat.eq_dec a b) as [->|N].
  - rewrite nth_set_nth_eq by (apply nth_error_Some; congruence). rewrite E. split; intros (x & Ex & <-); apply Some_inj in Ex; subst x;
      eexists; (split; [reflexivity|rewrite ?H; reflexivity]).
  - rewrite nth_set_nth_neq by congruence. reflexivity.
Qed.
Lemma task_of_transmit : forall t tk l tag s k, nth_error (s_tasks (transmit t tk l tag s)) t = Some k -> exists d, tk_st k = TDone (inl d).
Proof.
  intros t tk l tag s k E. unfold transmit in E. cbv zeta in E. apply upd_task_cases in E as (k0 & _ & ->).
  rewrite Nat.eqb_refl. eexists. reflexivity.
Qed.
Lemma wait_costless : forall p t a s s' os, step p (EvPollSend t) s = EOk (s', os) -> awaits_credit t a s' -> costless s s'.
Proof.
  intros p t a s s' os St (k & tag & c & Ek & _ & Es & _). cbn [step] in St. apply EOk_inj, pair_equal_spec in St as [<- _].
  assert (R : forall x, costless x x) by (intros x; split; [reflexivity|]; split; [reflexivity|]; split; reflexivity).
  assert (F : forall e, nth_error (s_tasks (upd_task t (set_tk_st (TDone e)) s)) t = Some k -> False).
  { intros e E. apply upd_task_cases in E as (k0 & _ & ->). rewrite Nat.eqb_refl in Es. discriminate Es. }
  assert (S : forall tk l tg x, nth_error (s_tasks (session_loop t tk l tg x)) t = Some k -> False).
  { intros tk l tg x E. unfold session_loop in E. destruct (s_iwin x =? 0).
    - cbv beta iota zeta delta [new_chan] in E. apply upd_task_cases in E as (k0 & _ & ->). rewrite Nat.eqb_refl in Es. discriminate Es.
    - apply task_of_transmit in E as [d E]. rewrite E in Es. discriminate Es. }
  assert (L : forall tk l tg x, nth_error (s_tasks (link_loop t tk l tg x)) t = Some k -> costless s x -> costless s (link_loop t tk l tg x)).
  { intros tk l tg x E (C1 & C2 & C3 & C4). unfold link_loop in *. destruct (_ || _); [|apply S in E; contradiction].
    cbv beta iota zeta delta [new_chan]. repeat split.
    - intros Q. apply C1. unfold link_credit in Q. rewrite (get_snds _ _ _ (H := fr_upd_task _ _ _)) in Q by reflexivity.
      apply link_credit_upd in Q; [exact Q|reflexivity].
    - intros Q. unfold link_credit. rewrite (get_snds _ _ _ (H := fr_upd_task _ _ _)) by reflexivity.
      apply link_credit_upd; [reflexivity|]. apply C1. exact Q.
    - frw. exact C2.
    - frw. exact C3.
    - frw. exact C4. }
  unfold poll_send in *. destruct (nth_error (s_tasks s) t) as [tk|]; [|apply R].
  destruct (nth_error (s_snds s) (tk_link tk)) as [l|] eqn:El; [|apply R].
  destruct (tk_st tk) as [|tg c0|tg c0| |]; try apply R.
  - destruct (sn_error l); [apply F in Ek; contradiction|]. destruct (sn_closed l); [apply F in Ek; contradiction|].
    destruct (match sn_max l with Some m => m <? tb_size (tk_body tk) | None => false end); [apply F in Ek; contradiction|].
    destruct (tk_tag tk) as [tg|]; (apply L; [exact Ek|]); [apply R|].
    split; [intros b n; apply link_credit_upd; reflexivity|]. frw. split; [reflexivity|]. split; reflexivity.
  - destruct (nth_error (s_chans s) c0) as [[|v|]|]; try apply R; try (apply F in Ek; contradiction).
    destruct v; try (apply F in Ek; contradiction); (apply L; [exact Ek|apply R]).
  - destruct (nth_error (s_chans s) c0) as [[|v|]|]; try apply R; try (apply F in Ek; contradiction).
    destruct v; try (apply F in Ek; contradiction); apply S in Ek; contradiction.
Qed.
