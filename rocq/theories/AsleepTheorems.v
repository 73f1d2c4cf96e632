(** * A send that waits for credit sleeps until an event names its link *)

From Coq Require Import Lia ZifyBool ZifyNat ZifyN.
From Verif Require Import Base SpecApart SameProofs OrderFifo ReadyProofs.
From Verif Require Export AsleepProofs.
Import ListNotations.

Lemma asleep_task p e s s' os t tk : nth_error (s_tasks s) t = Some tk -> ~ named e (inl (tk_link tk)) s -> e <> EvCancelSend t ->
  step p e s = EOk (s', os) -> nth_error (s_tasks s') t = Some tk.
Proof.
  intros E N NC St. pose proof (step_tasks _ _ _ _ _ St) as T.
  destruct e; try (rewrite T; exact E); cbn [step] in St.
  - destruct (nth_error (s_snds s) a); apply EOk_inj, pair_equal_spec in St as [<- _]; [|exact E].
    cbn [s_tasks set_s_tasks]. rewrite nth_error_app1; [exact E|]. apply nth_error_Some. congruence.
  - apply EOk_inj, pair_equal_spec in St as [<- _]. destruct (Nat.eq_dec t0 t) as [->|Nu].
    + exfalso. apply N. exists (tk_link tk). split; [reflexivity|]. exists tk. auto.
    + apply (poll_others p); [exact E|auto].
  - apply EOk_inj, pair_equal_spec in St as [<- _]. rewrite nth_upd_task.
    destruct (Nat.eqb_spec t0 t) as [->|Nu]; [congruence|exact E].
Qed.
Lemma asleep_step : forall p e s s' os t a c, reachable p s -> queued_at t a c s -> step p e s = EOk (s', os) ->
  ~ named e (inl a) s -> e <> EvCancelSend t -> queued_at t a c s'.
Proof.
  intros p e s s' os t a c R (tk & tag & E & L & St0 & W) St N NC. subst a.
  destruct (fut_reachable _ _ R) as (_ & _ & U & T & _).
  assert (P := T _ _ E). unfold task_placed in P. rewrite St0 in P. destruct P as [_ P]. specialize (P W).
  assert (O : only_there (tk_link tk) c s) by (intros pl Hp; exact (U _ _ _ P Hp)).
  destruct (qt_step _ _ _ _ _ _ _ (keys_reachable _ _ R) N St O W) as [_ W'].
  exists tk, tag. split; [eapply asleep_task; eauto|]. auto.
Qed.
Lemma asleep_run : forall p evs s s' os t a c, reachable p s -> queued_at t a c s -> unnamed p evs (inl a) s -> ~ In (EvCancelSend t) evs ->
  run p evs s = EOk (s', os) -> queued_at t a c s'.
Proof.
  induction evs as [|e evs IH]; intros s s' os t a c R Q U NC H; cbn [run unnamed] in *.
  - apply EOk_inj, pair_equal_spec in H as [<- _]. exact Q.
  - destruct (step p e s) as [[s1 o1]|] eqn:St; [|discriminate]. cbn [ebind] in H.
    destruct (run p evs s1) as [[s2 o2]|] eqn:Rn; [|discriminate]. cbn [ebind] in H. apply EOk_inj, pair_equal_spec in H as [<- _].
    destruct U as [N U]. eapply IH; [exact (reachable_step _ _ _ _ _ R St)| |exact (U _ _ eq_refl)| |exact Rn].
    + eapply asleep_step; eauto. intros ->. apply NC. left. reflexivity.
    + intros I. apply NC. right. exact I.
Qed.
