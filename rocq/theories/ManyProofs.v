(** * Handles below the number of links *)

From Coq Require Import ZifyBool ZifyNat ZifyN.
From Verif Require Export ManyRel TurnTheorems.
Import ListNotations.

Lemma RI_step2 : forall p e s s' os, RI s -> step p e s = EOk (s', os) ->
  (forall i edit, e = EvCtlOk i edit -> forall r, attach_handle (edit r) = attach_handle r) -> RI s'.
Proof.
  intros p e s s' os R H P. destruct (step_ra _ _ _ _ _ H) as [Q|[[frm ->]|(i & edit & frm & r & a & -> & C)]].
  - intros i k r a Er Ek. destruct (R i k r a Er (Q i k _ Er Ek)) as (l & El & E).
    destruct (step_rch _ _ _ _ _ H _ _ El) as (l' & El' & I). exists l'. split; [exact El'|]. unfold rcv_ids in I. congruence.
  - exact (RI_step _ _ _ _ _ R H I).
  - apply (RI_step _ _ _ _ _ R H). exact (P i edit eq_refl).
Qed.
Lemma MK_insert : forall n s s' lk, MK n s -> slab_wf (s_links s) -> s_links s' = slab_insert lk (s_links s) -> links_now s' <= n ->
  (forall a l, nth_error (s_snds s') a = Some l -> nth_error (s_snds s) a = Some l \/ sn_id l = slab_key (s_links s)) ->
  (forall a l, nth_error (s_rcvs s') a = Some l -> nth_error (s_rcvs s) a = Some l \/ rc_handle l = as_u32 (slab_key (s_links s))) ->
  (forall a, In (FAttach a) (s_out s') -> In (FAttach a) (s_out s) \/ attach_handle a = as_u32 (slab_key (s_links s))) -> MK n s'.
Proof.
  intros n s s' lk (F & B & S & R & O) W L N HS HR HO. unfold links_now in N. rewrite L in N.
  assert (B' : N.of_nat (nslots s') <= n).
  { unfold nslots in *. rewrite L. assert (X := full_grows _ (s_links s) lk (N.to_nat n) F). lia. }
  assert (K : slab_key (s_links s) < n).
  { assert (G : slab_get (s_links s') (slab_key (s_links s)) = Some lk) by (rewrite L, slab_get_insert by exact W; rewrite N.eqb_refl; reflexivity).
    apply slab_get_lt in G. unfold nslots in B'. lia. }
  assert (K2 := u32_le (slab_key (s_links s))).
  split; [rewrite L; apply full_insert; assumption | split; [exact B' | split; [|split]]].
  - intros a l E. destruct (HS _ _ E) as [E1|E1]; [exact (S _ _ E1) | lia].
  - intros a l E. destruct (HR _ _ E) as [E1|E1]; [exact (R _ _ E1) | lia].
  - intros a E. destruct (HO _ E) as [E1|E1]; [exact (O _ E1) | lia].
Qed.
Lemma nth_snoc : forall A (l : list A) x a y, nth_error (l ++ [x]) a = Some y -> nth_error l a = Some y \/ y = x.
Proof.
  intros A l x a y E. destruct (Nat.lt_ge_cases a (length l)) as [La|La].
  - rewrite nth_error_app1 in E by exact La. auto.
  - rewrite nth_error_app2 in E by exact La. destruct (a - length l)%nat as [|[|m]]; cbn in E; try discriminate E. right. congruence.
Qed.
Lemma in_snoc : forall A (l : list A) x y, In y (l ++ [x]) -> In y l \/ y = x.
Proof. intros A l x y E. apply in_app_or in E as [E|[E|[]]]; auto. Qed.
Lemma MK_step : forall p n e s s' os, lk_inv [] s -> RI s -> MK n s -> step p e s = EOk (s', os) -> links_now s' <= n -> MK n s'.
Proof.
  intros p n e s s' os LK R M H N.
  assert (Q : forall x, stable (mk_rel n) s x -> s' = x -> MK n s') by (intros x T ->; exact (T M)).
  destruct e; try solve [eapply Q; [|reflexivity]; cbn [step] in H; step_er H].
  - cbn [step] in H. apply EOk_inj in H. apply (f_equal fst) in H. cbn [fst] in H. subst s'. revert N Q.
    unfold on_attach. destruct (s_error s) eqn:E0; [intros _ _; exact M|]. destruct (handle_attach frm s) as [s1|] eqn:Ha.
    { intros _ Q. eapply Q; [|reflexivity]. exact (mk_rel_handle_attach n frm s _ Ha). }
    intros N _. destruct (attach_role frm).
    + revert N. unfold attach_remote_receiver. cbn [insert_link fst snd dispatch]. unfold control. intros N.
      eapply (MK_insert n s _ _ M (proj1 LK)); [st_cbn; reflexivity | exact N | | |]; st_cbn; auto.
      intros a l E. apply nth_snoc in E as [E| ->]; auto.
    + revert N. unfold new_remote_sender. cbn [insert_link fst snd dispatch]. unfold control. intros N.
      eapply (MK_insert n s _ _ M (proj1 LK)); [st_cbn; reflexivity | exact N | | |]; st_cbn; auto.
      intros a l E. apply nth_snoc in E as [E| ->]; auto.
  - cbn [step] in H. apply EOk_inj in H. apply (f_equal fst) in H. cbn [fst] in H. subst s'. revert N.
    unfold attach_local_sender. cbn [new_chan insert_link fst snd]. unfold post. intros N.
    eapply (MK_insert n s _ _ M (proj1 LK)); [st_cbn; reflexivity | exact N | | |]; st_cbn; auto.
    intros a E. apply in_snoc in E as [E|E]; [auto|]. right. injection E as ->. reflexivity.
  - cbn [step] in H. apply EOk_inj in H. apply (f_equal fst) in H. cbn [fst] in H. subst s'. revert N.
    unfold attach_local_receiver. cbn [new_chan insert_link fst snd]. unfold post. intros N.
    eapply (MK_insert n s _ _ M (proj1 LK)); [st_cbn; reflexivity | exact N | | |]; st_cbn; auto.
    + intros a l E. apply nth_snoc in E as [E| ->]; auto.
    + intros a E. apply in_snoc in E as [E|E]; [auto|]. right. injection E as ->. reflexivity.
  - cbn [step] in H. destruct (nth_error (s_rcvs s) a) as [l|] eqn:E; [|eapply Q; [|reflexivity]; step_er H].
    assert (C : rcv_ids (snd (poll_recv t l)) = rcv_ids l) by (unfold poll_recv; repeat fr_break; reflexivity).
    destruct (poll_recv t l) as [r l']. apply EOk_inj in H. apply (f_equal fst) in H. cbn [fst] in H. subst s'. eapply mk_put_rcv; eassumption.
  - cbn [step] in H. destruct (nth_error (s_rcvs s) a) as [l|] eqn:E; [|eapply Q; [|reflexivity]; step_er H].
    assert (C : rcv_ids (snd (get_delivery l)) = rcv_ids l) by (unfold get_delivery; repeat fr_break; reflexivity).
    destruct (get_delivery l) as [r l']. apply EOk_inj in H. apply (f_equal fst) in H. cbn [fst] in H. subst s'. eapply mk_put_rcv; eassumption.
  - cbn [step] in H. destruct (nth_error (s_ctl s) i) as [[k|]|] eqn:E; try (eapply Q; [|reflexivity]; solve [step_er H]).
    destruct k; try (eapply Q; [|reflexivity]; solve [unfold control_ok in H; step_er H]).
    cbn [control_ok] in H. destruct (R i (KAttached response a) response a eq_refl E) as (l & El & Hh).
    match type of H with context [confirm_receiver a response ?x] => set (s1 := x) in * end.
    assert (Q1 : stable (mk_rel n) s s1) by (unfold s1; st_solve). clearbody s1.
    assert (Q2 : stable (mk_rel n) s1 (confirm_receiver a response s1)).
    { unfold confirm_receiver. destruct (nth_error (s_rcvs s1) a) as [l1|]; [|st_solve]. cbv zeta.
      destruct (slab_get _ _) as [[| | | |[[a' src]|]| | |]|]; try st_solve.
      eapply stable_trans; [exact _ | | apply mk_post_attach; intros _; cbn [set_max_size attach_handle]; rewrite Hh; exact (proj1 (proj2 (proj2 (proj2 M))) _ _ El)].
      apply mk_rel_put_link. }
    set (s2 := confirm_receiver a response s1) in *. clearbody s2.
    eapply Q; [|reflexivity]. eapply stable_trans; [exact _ | exact Q1 |]. eapply stable_trans; [exact _ | exact Q2 |]. step_er H.
Qed.
Lemma MK_new : forall n id local rc mfs b, MK n (ses_new id local rc mfs b).
Proof.
  intros. split; [exact (slab_full0 _) | split; [cbn; lia|]]. cbn. split; [|split; [|tauto]]; intros a l E; destruct a; discriminate E.
Qed.
Lemma MK_run : forall p n evs s s' os, lk_inv [] s -> RI s -> MK n s -> run p evs s = EOk (s', os) ->
  at_most_links n p evs s -> leaves_handles evs -> MK n s'.
Proof.
  intros p n. induction evs as [|e evs IH]; intros s s' os LK R M H A L; assert (H0 := H); cbn [run] in H.
  - apply EOk_inj in H. assert (s' = s) by congruence. subst s'. exact M.
  - destruct (step p e s) as [[s1 o1]|] eqn:E1; [|discriminate]. cbn [ebind] in H.
    destruct (run p evs s1) as [[s2 o2]|] eqn:E2; [|discriminate]. cbn [ebind] in H.
    apply EOk_inj in H. assert (s' = s2) by congruence. subst s'. eapply (IH s1 s2 o2); [exact (step_lk _ _ _ _ _ E1 LK) | | | exact E2 | |].
    + eapply RI_step2; [exact R | exact E1 |]. intros i edit ->. apply (L i). left. reflexivity.
    + eapply MK_step; try eassumption. apply (A [e] evs s1 (o1 ++ [])); [reflexivity | exact (run_one _ _ _ _ _ E1)].
    + intros evs1 evs2 s3 os3 -> Hr. apply (A (e :: evs1) evs2 s3 (o1 ++ os3) eq_refl). cbn [run]. rewrite E1. cbn [ebind]. rewrite Hr. reflexivity.
    + intros i edit I. apply (L i). right. exact I.
Qed.
Lemma handles_below : forall p n evs id local rc mfs b s os, run p evs (ses_new id local rc mfs b) = EOk (s, os) ->
  at_most_links n p evs (ses_new id local rc mfs b) -> leaves_handles evs ->
  forall a, In (FAttach a) (s_out s) -> attach_handle a < n.
Proof.
  intros p n evs id local rc mfs b s os H A L.
  exact (proj2 (proj2 (proj2 (proj2 (MK_run _ _ _ _ _ _ (lk_new _ _ _ _ _) (proj1 (proj2 (turn_new _ _ _ _ _))) (MK_new _ _ _ _ _ _) H A L))))).
Qed.
