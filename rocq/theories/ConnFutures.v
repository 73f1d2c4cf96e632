(** * Futures of [Session::end] *)

From Coq Require Import ZifyBool ZifyNat ZifyN.
From Verif Require Import ReleaseTheorems.
From Verif Require Export ConnMoves.
Import ListNotations.

Lemma run_go : forall p evs c c' os, CI c -> crun p evs c = EOk (c', os) -> ses_go p (c_sess c) (c_sess c').
Proof.
  intros p evs. induction evs as [|e evs IH]; intros c c' os C H.
  - cbn in H. apply EOk_inj in H. assert (c' = c) as -> by congruence. apply ses_go_refl.
  - apply crun_cons in H as (c1 & o1 & o2 & Hs & Hr & ->). eapply ses_go_trans; [exact (step_go _ _ _ _ _ C Hs)|exact (IH _ _ _ (CI_step _ _ _ _ _ C Hs) Hr)].
Qed.
Lemma future_done : forall p s1 s2 evs s3 err s4 os2 os3 os4,
  reachable p s1 -> s_ended s1 = false -> step p EvEnd s1 = EOk (s2, os2) ->
  run p evs s2 = EOk (s3, os3) -> step p (EvFail err) s3 = EOk (s4, os4) -> ~ still_waits (next_future s1) s4.
Proof.
  intros p s1 s2 evs s3 err s4 os2 os3 os4 R D H1 H2 H3 W.
  assert (W2 : still_waits (next_future s1) s2).
  { destruct (fut_reachable _ _ R) as (Wf & _).
    destruct (step_hold _ _ _ _ _ H1 Wf) as [Wf2 _]. destruct (run_hold _ _ _ _ _ Wf2 H2) as [Wf3 [C3 _]].
    destruct (step_hold _ _ _ _ _ H3 Wf3) as [_ [C4 _]].
    assert (L : (next_future s1 < length (s_chans s2))%nat).
    { cbn [step] in H1. apply EOk_inj in H1. apply (f_equal fst) in H1. cbn [fst] in H1. subst s2. unfold ses_end, next_future. rewrite D.
      unfold cond_wait, new_chan, fire, post. destruct (s_ending s1); match goal with |- context [if ?b then _ else _] => destruct b end; st_cbn; cbn [s_chans]; rewrite ?put_chan_len, ?app_length; cbn [length]; lia. }
    apply (chan_back s2 s3); [exact C3|exact L|]. apply (chan_back s3 s4); [exact C4| |exact W]. destruct C3. lia. }
  exact (futures_complete p s1 EvEnd s2 evs s3 err s4 os2 os3 os4 R eq_refl H1 W2 H2 H3 W).
Qed.
Lemma end_completes : forall p c1 a s1 c2 evs c3 os3 s3 en c4 os4, creachable p c1 -> nth_error (c_sess c1) a = Some s1 -> s_ended s1 = false ->
  cstep p (CvEnd a) c1 = EOk (c2, []) -> crun p evs c2 = EOk (c3, os3) -> c_error c3 = None ->
  nth_error (c_sess c3) a = Some s3 -> s_ended s3 = false -> last_begun (s_rchan s3) a c3 ->
  cstep p (CvFrame (s_rchan s3) (FEnd en)) c3 = EOk (c4, os4) ->
  exists s4, nth_error (c_sess c4) a = Some s4 /\ s_error s4 = Some (ESessionEnded (end_error en)) /\ s_ended s4 = true
    /\ ~ still_waits (next_future s1) s4 /\ (forall k, ~ in_table c4 k a).
Proof.
  intros p c1 a s1 c2 evs c3 os3 s3 en c4 os4 R E1 D1 H12 H23 Er E3 D3 Lb H34.
  destruct (end_one p a s1 c1 E1 D1) as (c2' & s2 & X & _ & E2 & S2 & _). assert (c2' = c2) as -> by congruence. clear X.
  assert (C1 := CI_reachable _ _ R). assert (C2 := CI_step _ _ _ _ _ C1 H12). assert (C3 := CI_run _ _ _ _ _ C2 H23).
  destruct (run_go _ _ _ _ _ C2 H23 _ _ E2) as (evs' & os' & x & Rx & Ex). assert (x = s3) as -> by congruence.
  assert (R3 : creachable p c3).
  { destruct R as (chmax & mfs & ev0 & os0 & L & H). exists chmax, mfs, ((ev0 ++ [CvEnd a]) ++ evs). eexists. split; [exact L|]. eapply crun_app; [|exact H23]. eapply crun_app; [exact H|]. cbn [crun]. rewrite H12. reflexivity. }
  assert (Lr := ph_rc c3 (PH_reachable _ _ R3) _ _ E3).
  destruct (routed p (s_rchan s3) (FEnd en) c3 c4 os4 R3 Er eq_refl Lr H34) as [(b & y & Lb' & Ey & Dy & _ & s4 & E4 & T)|(N & _)].
  - assert (b = a) as -> by exact (newest_fun _ _ _ _ Lb' Lb). assert (y = s3) as -> by congruence.
    assert (T' : step p (EvFail (ESessionEnded (end_error en))) s3 = EOk (s4, [])).
    { destruct T as [T|[(k & Hk) Hs]]; [exact T|]. exfalso. subst s4. cbn [cstep] in H34. unfold as_u16 in H34. rewrite N.mod_small in H34 by exact Lr.
      assert (Mg := ci_last c3 C3 _ _ _ (or_intror Hk) Lb).
      destruct (frame_cases _ _ _ _ _ _ H34 eq_refl Er) as [(_ & [Z|(k' & Z & Z')] & _)|[(k' & i & Z & Z' & _)|[(k' & b & Z & Ha & Na)|[(k' & b & s & Z & Z' & Ea & W)|(k' & b & s & Z & Z' & Ea & W)]]]]; try congruence.
      - destruct (ci_slot c3 C3 _ _ Ha) as (s & Es & _). congruence.
      - destruct W as [-> _]. rewrite forget_sess in E4. cbn [put_ses set_c_out set_c_sess c_sess] in E4. assert (b = a) as -> by congruence.
        rewrite (nth_set_nth_eq _ _ _ _ (nth_lt _ _ _ _ E3)) in E4. apply Some_inj in E4. assert (s = s3) as -> by congruence.
        assert (F := fail_fields (ESessionEnded (end_error en)) s3). cbv zeta in F. rewrite E4 in F. destruct F as (_ & _ & _ & _ & _ & F & _). congruence. }
    exists s4. split; [exact E4|]. assert (Q := future_done p s1 s2 evs' s3 _ s4 _ _ _ (sessions_reachable _ _ _ _ R E1) D1 S2 Rx T').
    cbn [step] in T'. apply EOk_inj in T'. apply (f_equal fst) in T'. cbn [fst] in T'. assert (F := fail_fields (ESessionEnded (end_error en)) s3). cbv zeta in F. rewrite T' in F.
    destruct F as (_ & _ & _ & _ & _ & F1 & F2). repeat split; try assumption.
    intros k Hk. destruct (ci_slot c4 (CI_step _ _ _ _ _ C3 H34) _ _ Hk) as (z & Ez & _ & Dz & _). congruence.
  - exfalso. assert (X := N _ _ Lb E3). congruence.
Qed.
