(** * Answers to flow frames *)

From Coq Require Import ZifyBool ZifyNat ZifyN.
From Verif Require Export EchoRel SpecHandles.
Import ListNotations.

Lemma step_echo : forall p e s s' os, step p e s = EOk (s', os) -> stable echo_rel s s'.
Proof. intros p e s s' os H. destruct e; cbn [step] in H; step_er H. Qed.
Lemma never_asks : forall p s f, reachable p s -> In (FFlow f) (s_out s) -> flow_echo f = false.
Proof.
  intros p s f (id & local & rc & mfs & b & evs & os & H) Hin.
  assert (X : forallb (fun f => negb (asks_echo f)) (s_out s) = true).
  { refine (run_ind (fun s => forallb (fun f => negb (asks_echo f)) (s_out s) = true) p _ evs _ _ _ _ H); [|reflexivity].
    intros e s1 s2 o Q E. destruct (step_echo _ _ _ _ _ E) as (l & El & F). rewrite El, forallb_app, Q, F. reflexivity. }
  rewrite forallb_forall in X. apply X in Hin. cbn in Hin. destruct (flow_echo f); [discriminate Hin | reflexivity].
Qed.
Lemma flow_answered : forall f o s, flow_answers f s (handle_flow f o s).
Proof.
  intros f o s. unfold flow_answers, handle_flow. cbv zeta.
  set (s1 := set_s_pending [] _). assert (Eo : s_out s1 = s_out s) by (unfold s1; frw; st_cbn; frw; reflexivity). clearbody s1.
  destruct (flow_echo f).
  - eexists. repeat apply conj; cycle 2. { destruct o; [frw|]; unfold post; st_cbn; rewrite Eo; reflexivity. } all: reflexivity.
  - destruct o; [frw|]; exact Eo.
Qed.
Lemma step_flow : forall p f s s' os, s_error s = None -> step p (EvFrame (FFlow f)) s = EOk (s', os) ->
  (exists a, s' = control (KFlow f a) s) \/ (flow_answers f s s' /\ s_ctl s' = s_ctl s).
Proof.
  intros p f s s' os Er H. cbn [step] in H. unfold ses_handle_frame in H. rewrite Er in H.
  assert (X : forall s1, s1 = handle_flow f None s -> EOk (s1, @nil obs) = EOk (s', os) -> flow_answers f s s' /\ s_ctl s' = s_ctl s).
  { intros s1 -> E. apply EOk_inj in E. apply (f_equal fst) in E. cbn [fst] in E. subst s'. split; [apply flow_answered | frw; reflexivity]. }
  repeat match type of H with context [match ?x with _ => _ end] => destruct x; cbn [ebind dispatch] in H; try (right; exact (X _ eq_refl H)) end.
  left. apply EOk_inj in H. apply (f_equal fst) in H. cbn [fst] in H. eauto.
Qed.
Lemma step_flow_ok : forall p i edit f a s s' os, nth_error (s_ctl s) i = Some (Some (KFlow f a)) -> step p (EvCtlOk i edit) s = EOk (s', os) ->
  flow_answers f s s' /\ nth_error (s_ctl s') i = Some None.
Proof.
  intros p i edit f a s s' os E H. cbn [step] in H. rewrite E in H. unfold noobs, emap in H. cbn [control_ok ebind] in H. apply EOk_inj in H. apply (f_equal fst) in H. cbn [fst] in H. subst s'. split.
  - assert (X := flow_answered f (Some a) (set_s_ctl (set_nth i None (s_ctl s)) s)). unfold flow_answers in *.
    set (s1 := handle_flow _ _ _) in *. clearbody s1. st_cbn_in X. exact X.
  - frw. st_cbn. rewrite nth_set_nth, Nat.eqb_refl, E. reflexivity.
Qed.
