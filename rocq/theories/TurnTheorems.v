(** * Attach and detach frames in turn: histories *)

From Coq Require Import ZifyBool ZifyNat ZifyN.
From Verif Require Export TurnProofs.
Import ListNotations.

(** ** Histories *)
Lemma fails_error : forall e s, s_error (ses_set_error e s) = Some e.
Proof.
  intros e s. unfold ses_set_error. cbv zeta.
  match goal with |- s_error (set_s_closed ?c (fire_all ?w ?v ?x)) = _ =>
    assert (F := fr_fire_all w v x Ferror eq_refl); cbn [same] in F; change (s_error (fire_all w v x) = Some e); rewrite F; reflexivity end.
Qed.
Lemma error_back : forall p e s s' os, step p e s = EOk (s', os) -> s_error s' = None -> s_error s = None.
Proof.
  intros p e s s' os H Er. destruct (memf Ferror (ev_fields e)) eqn:M.
  - destruct e; try discriminate M. cbn [step] in H. apply EOk_inj in H. apply (f_equal fst) in H. cbn [fst] in H.
    assert (X := fails_error e s). congruence.
  - assert (Q := step_framed _ _ _ _ _ H Ferror M). cbn [same] in Q. congruence.
Qed.
Lemma turn_new : forall id local rc mfs b, PI (ses_new id local rc mfs b) /\ RI (ses_new id local rc mfs b) /\ TJ (ses_new id local rc mfs b).
Proof.
  intros id local rc mfs b. split; [|split].
  - split; [|split]; intros i; intros; match goal with H : pending_at i _ _ _ _ |- _ => unfold pending_at in H; destruct i; discriminate H end.
  - intros i k r a _ H. destruct i; discriminate H.
  - assert (Z : forall k, slab_get (s_links (ses_new id local rc mfs b)) k = None) by (intros k; cbn; unfold slab_get; cbn; destruct (N.to_nat k); reflexivity). split; [intros k lk H; rewrite Z in H; discriminate H | intros h; rewrite Z; split; [exact I | reflexivity]].
Qed.
Lemma error_run : forall p evs s s' os, run p evs s = EOk (s', os) -> s_error s' = None -> s_error s = None.
Proof.
  intros p. induction evs as [|e evs IH]; intros s s' os H Er; cbn [run] in H.
  - apply EOk_inj in H. congruence.
  - destruct (step p e s) as [[s1 o1]|] eqn:E1; [|discriminate]. cbn [ebind] in H.
    destruct (run p evs s1) as [[s2 o2]|] eqn:E2; [|discriminate]. cbn [ebind] in H.
    apply EOk_inj in H. assert (s' = s2) by congruence. subst s'. eapply error_back; [exact E1|]. eapply IH; eassumption.
Qed.
Lemma TJ_run : forall p evs s s' os, lk_inv [] s -> PI s -> RI s -> TJ s -> N.of_nat (nslots s) + links_opened evs <= 2 ^ 32 ->
  run p evs s = EOk (s', os) -> all_proper p evs s -> s_error s' = None -> TJ s'.
Proof.
  intros p. induction evs as [|e evs IH]; intros s s' os LK PIs RIs J B H Pr Er; cbn [run] in H.
  - apply EOk_inj in H. assert (s' = s) by congruence. subst s'. exact J.
  - cbn [all_proper] in Pr. destruct (step p e s) as [[s1 o1]|] eqn:E1; [|discriminate]. cbn [ebind] in H.
    destruct (run p evs s1) as [[s2 o2]|] eqn:E2; [|discriminate]. cbn [ebind] in H. destruct Pr as [P1 P2].
    apply EOk_inj in H. assert (s' = s2) by congruence. subst s'.
    assert (B1 : N.of_nat (nslots s1) + links_opened evs <= 2 ^ 32).
    { unfold links_opened in *. cbn [filter] in B. destruct (opens_link e) eqn:Eo.
      - assert (X := step_len_open _ _ _ _ _ E1). cbn [length] in B. lia.
      - assert (X := step_len _ _ _ _ _ E1 Eo). unfold stable, len_rel in X. lia. }
    assert (F : slots_fit s) by (unfold slots_fit, nslots, links_opened in *; change two32 with (2 ^ 32); lia).
    assert (F1 : slots_fit s1) by (unfold slots_fit, nslots, links_opened in *; change two32 with (2 ^ 32); lia).
    assert (Er1 : s_error s1 = None) by (eapply error_run; eassumption).
    eapply IH; [exact (step_lk _ _ _ _ _ E1 LK) | eapply PI_step; eassumption | eapply RI_step; eassumption | eapply TJ_step; eassumption
      | exact B1 | exact E2 | exact P2 | exact Er].
Qed.
Lemma in_turn_run : forall p evs id local rc mfs b s os, run p evs (ses_new id local rc mfs b) = EOk (s, os) -> links_opened evs <= 2 ^ 32 ->
  all_proper p evs (ses_new id local rc mfs b) -> s_error s = None -> TJ s.
Proof.
  intros p evs id local rc mfs b s os H B Pr Er. destruct (turn_new id local rc mfs b) as (P & R & T).
  eapply TJ_run; [apply lk_new | exact P | exact R | exact T | cbn; exact B | exact H | exact Pr | exact Er].
Qed.
