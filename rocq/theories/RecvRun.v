(** * The invariant of a receiver link holds along every run *)

From Coq Require Import ZifyBool ZifyNat ZifyN.
From Verif Require Export RecvTheorems.
Import ListNotations.

Definition ev_ok (a : nat) (Lim : N -> Prop) (e : ev) : Prop :=
  match e with
  | EvCredit _ n => n < 2 ^ 32
  | EvReceiverMax b n => a = b -> forall M, Lim M -> n <= M
  | _ => True
  end.

Lemma credit_ok_same : forall p a s s' T T0 T' G l l', (unheld a s -> unheld a s') ->
  rc_credit l' = rc_credit l -> credit_ok p a s T T0 G l -> credit_ok p a s' T' T0 G l'.
Proof.
  intros p a s s' T T0 T' G l l' U E (j & c & Hc & H). exists j, c. rewrite E. split; [|exact H].
  destruct Hc as [Hc|[Hu Hc]]; auto.
Qed.

Section Step.
Variables (p : profile) (a : nat) (Lim : N -> Prop).
Hypothesis Lim0 : forall M, Lim M -> 262144 <= M.

Lemma rinv_step : forall e s s' os T G O,
  rinv p a Lim T G O s -> ev_ok a Lim e -> lk_inv [] s -> slots_fit s -> slots_fit s' ->
  step p e s = EOk (s', os) ->
  rinv p a Lim (T ++ arrival a e s) (G ++ grant a e s) (O ++ handed a os) s'.
Proof.
  intros e s s' os T G O Inv Ok I B B' H. unfold rinv in *.
  assert (K := step_keeps_objs _ _ _ _ _ H). assert (Uh := step_uh _ _ _ _ _ H).
  destruct (nth_error (s_rcvs s) a) as [l|] eqn:El.
  2: { destruct Inv as (-> & -> & ->). destruct (step_rcv_new _ _ _ _ _ _ I B H El) as (-> & -> & -> & F).
       destruct (nth_error (s_rcvs s') a) as [l|]; [|auto]. destruct (F l eq_refl) as (F1 & F2 & F3 & F4 & _).
       exists [], []. split; [reflexivity|]. split; [left; reflexivity|].
       split; [left; exists [], []; rewrite F3; split; [reflexivity|]; split; [constructor|]; cbn; auto|].
       split; [exists 0, 0; rewrite F1; cbn; auto|].
       split; [rewrite F1; reflexivity|].
       intros M HM. split; [rewrite F4; auto|]. split; [constructor | apply limit_nil]. }
  assert (Un : unheld a s -> unheld a s') by (apply (proj2 Uh); eapply nth_lt; exact El).
  destruct Inv as (T0 & T1 & ET & H1 & H2 & H3 & H4 & H5).
  assert (Held : forall t, arrival a e s = [t] -> ~ unheld a s).
  { intros t E U. unfold arrival in E. destruct e; try discriminate. destruct f; try discriminate.
    destruct (s_error s); [discriminate|]. destruct (map_get _ _) as [i|]; [|discriminate].
    destruct (slab_get (s_links s) i) as [lk|] eqn:Hk; [|discriminate].
    destruct lk as [| | | | | |b|]; try discriminate. destruct (Nat.eqb_spec a b) as [<-|]; [|discriminate].
    assert (X := U _ _ Hk). rewrite holds_est in X. discriminate. }
  assert (D1 : T1 = [] \/ unheld a s') by (destruct H1; auto).
  destruct (step_rcv _ _ _ _ _ _ _ I B H El) as (l' & El' & St). rewrite El'. clear El'.
  destruct St as [V Q _ A0 G0 O0|n C Hn V1 V2 Q _ A0 G0 O0|n E V1 V2 V3 Q _ O0|x q V Q Q' Hq _ Es A0 G0 O0|L A0 G0 O0|t A A0 G0 O0|t R A0 G0 O0].
  - (* kept *)
    rewrite A0, G0, O0, !app_nil_r. unfold rview in V. assert (Vc : rc_credit l' = rc_credit l) by congruence.
    assert (Vp : rc_partial l' = rc_partial l) by congruence. assert (Vm : rc_max l' = rc_max l) by congruence.
    exists T0, T1. rewrite Vc, Vm. refine (conj ET (conj D1 (conj _ (conj _ (conj H4 H5))))).
    + destruct H2 as [H2|H2]; [left; eapply held_keeps; eauto|].
      right. eapply gone_keeps; eauto. apply Un, H2.
    + eapply credit_ok_same; eauto.
  - (* grant *)
    rewrite A0, G0, O0, !app_nil_r. exists T0, T1.
    assert (Ln : n < two32).
    { destruct Hn as [->| ->]; [reflexivity | exact Ok]. }
    destruct (checked_add_spec _ _ _ _ C H4 Ln) as (j1 & J1 & J2 & J3 & J4).
    rewrite V2. refine (conj ET (conj D1 (conj _ (conj _ (conj J4 H5))))).
    + destruct H2 as [H2|H2]; [left; eapply held_keeps; eauto|].
      right. eapply gone_keeps; eauto. apply Un, H2.
    + destruct H3 as (j & c & Hc & E & P1 & P2). exists (j + j1), c. rewrite sum_app. cbn [sum fold_right].
      split; [destruct Hc as [Hc|[Hu Hc]]; auto|]. split; [lia|]. split.
      * intros Pd. rewrite (P1 Pd), (J2 Pd). reflexivity.
      * intros Lt. rewrite P2 by lia. rewrite P2 in E by lia. rewrite J3 by lia. reflexivity.
  - (* max *)
    subst e os. cbn [arrival grant handed flat_map]. rewrite !app_nil_r. exists T0, T1. rewrite V2.
    refine (conj ET (conj D1 (conj _ (conj _ (conj H4 _))))).
    + destruct H2 as [H2|H2]; [left; eapply held_keeps; eauto|].
      right. eapply gone_keeps; eauto. apply Un, H2.
    + eapply credit_ok_same; eauto.
    + intros M HM. split; [|apply H5, HM]. rewrite V1. apply Ok; auto.
  - (* item *)
    rewrite A0, G0, O0, !app_nil_r. unfold rview in V. assert (Vc : rc_credit l' = rc_credit l) by congruence.
    assert (Vp : rc_partial l' = rc_partial l) by congruence. assert (Vm : rc_max l' = rc_max l) by congruence.
    exists T0, T1. rewrite Vc, Vm. refine (conj ET (conj D1 (conj _ (conj _ (conj H4 H5))))).
    + destruct H2 as [(items & part & X1 & X2 & X3)|(_ & X & _)]; [left|congruence].
      rewrite Q in X1. destruct items as [|y items].
      * cbn [app] in X1. unfold open_ok in X3. destruct (opened T0) as [|f g].
        -- destruct X3 as [-> _]. discriminate.
        -- destruct X3 as (d & -> & Xp & _). injection X1 as -> ->. destruct Hq as [Hq|Hq]; congruence.
      * cbn [app] in X1. injection X1 as <- ->. exists items, part. rewrite Q', Vp. split; [reflexivity|].
        rewrite <- app_assoc. split; [eapply deliveries_keep; eauto | eapply open_ok_keeps; eauto].
    + eapply credit_ok_same; eauto.
  - (* lost *)
    rewrite A0, G0, O0, !app_nil_r. destruct L as (V & Q & U & _). unfold rview in V.
    assert (Vc : rc_credit l' = rc_credit l) by congruence.
    assert (Vp : rc_partial l' = rc_partial l) by congruence. assert (Vm : rc_max l' = rc_max l) by congruence.
    exists T0, T1. rewrite Vc, Vm. refine (conj ET (conj D1 (conj _ (conj _ (conj H4 H5))))).
    + right. destruct H2 as [H2|H2]; [eapply held_gone; eauto|].
      destruct H2 as (_ & X & g1 & g2 & X1 & X2). split; [exact U|]. split; [exact Q|].
      exists g1, g2. eauto using deliveries_keep.
    + eapply credit_ok_same; eauto.
  - (* accepted *)
    rewrite A0, G0, O0, !app_nil_r. assert (Nu := Held _ A0).
    destruct H1 as [->|H1]; [|contradiction]. rewrite app_nil_r in ET. subst T0.
    destruct H2 as [H2|H2]; [|elim Nu; apply H2].
    assert (A' := A). destruct A as (Hc & Ec & Em & _ & Ap).
    exists (T ++ [t]), []. rewrite app_nil_r, Em. refine (conj eq_refl (conj (or_introl eq_refl) (conj _ (conj _ (conj _ _))))).
    + left. eapply held_accept; eauto.
    + destruct H3 as (j & c & [Hcc|[Hu _]] & E & P); [|contradiction].
      exists j, (completed (T ++ [t])). split; [left; reflexivity|]. split; [|exact P].
      rewrite completed_snoc, Ec. destruct (says_more t); lia.
    + rewrite Ec. destruct (says_more t); lia.
    + intros M HM. destruct (H5 M HM) as (X1 & X2 & X3). split; [exact X1|].
      destruct H2 as (items & part & Y1 & Y2 & Y3).
      assert (L : limit_ok M (opened T ++ [t])).
      { eapply limit_snoc; [exact X3 | exact Y3|]. intros body Eb b Eb'. rewrite Eb in Ap. destruct Ap as [Ap _].
        specialize (Ap b Eb'). lia. }
      rewrite groups_snoc, opened_snoc. destruct (says_more t).
      * split; [exact X2 | exact L].
      * split; [|apply limit_nil]. apply Forall_app. split; [exact X2|]. constructor; [exact L | constructor].
  - (* refused *)
    rewrite A0, G0, O0, !app_nil_r. assert (Nu := Held _ A0).
    destruct H1 as [->|H1]; [|contradiction]. rewrite app_nil_r in ET. subst T0.
    destruct H2 as [H2|H2]; [|elim Nu; apply H2].
    destruct R as (U & Rc & Rm & Rq & Rp & _). specialize (U B').
    exists T, [t]. rewrite Rm. refine (conj eq_refl (conj (or_intror U) (conj _ (conj _ (conj _ H5))))).
    + destruct Rp as [Rp|Rp]; [left; eapply held_keeps; eauto|].
      right. eapply held_gone; eauto. congruence.
    + destruct H3 as (j & c & [Hcc|[Hu _]] & E & P); [|contradiction].
      destruct Rc as [Rc|(Rc1 & Rc2 & Rc3)].
      * exists j, c. rewrite Rc. auto.
      * exists j, (completed T + 1). split; [right; auto|]. split; [lia | exact P].
    + destruct Rc as [Rc|(_ & _ & Rc)]; lia.
Qed.

Lemma fits : forall (s : ses) k, N.of_nat (nslots s) + k <= 2 ^ 32 -> slots_fit s.
Proof. intros s k H. unfold slots_fit, nslots in *. change two32 with (2 ^ 32). lia. Qed.
Lemma rinv_run : forall evs s s' os T G O,
  rinv p a Lim T G O s -> lk_inv [] s -> N.of_nat (nslots s) + links_opened evs <= 2 ^ 32 ->
  Forall (ev_ok a Lim) evs -> run p evs s = EOk (s', os) ->
  rinv p a Lim (T ++ arrivals p a evs s) (G ++ collect (grant a) p evs s) (O ++ handed a os) s'
  /\ lk_inv [] s' /\ slots_fit s'.
Proof.
  induction evs as [|e evs IH]; intros s s' os T G O Inv I B Ok H; cbn [run] in H.
  - apply EOk_inj in H. injection H as <- <-. cbn. rewrite !app_nil_r.
    split; [exact Inv|]. split; [exact I|]. eapply fits; exact B.
  - destruct (step p e s) as [[s1 o1]|] eqn:E1; [|discriminate]. cbn [ebind] in H.
    destruct (run p evs s1) as [[s2 o2]|] eqn:E2; [|discriminate]. cbn [ebind] in H.
    apply EOk_inj in H. injection H as <- <-. inversion Ok as [|? ? Oe Ok']; subst.
    assert (B1 : N.of_nat (nslots s1) + links_opened evs <= 2 ^ 32).
    { unfold links_opened in *. cbn [filter] in B. destruct (opens_link e) eqn:Eo.
      - assert (X := step_len_open _ _ _ _ _ E1). cbn [length] in B. lia.
      - assert (X := step_len _ _ _ _ _ E1 Eo). unfold stable, len_rel in X. lia. }
    assert (Inv1 : rinv p a Lim (T ++ arrival a e s) (G ++ grant a e s) (O ++ handed a o1) s1).
    { eapply rinv_step; eauto using fits. }
    assert (I1 : lk_inv [] s1) by exact (step_lk _ _ _ _ _ E1 I).
    destruct (IH _ _ _ _ _ _ Inv1 I1 B1 Ok' E2) as [X Y].
    split; [|exact Y]. unfold arrivals in *. cbn [collect]. rewrite E1.
    unfold handed in *. rewrite flat_map_app, !app_assoc. exact X.
Qed.
End Step.

Lemma lk_new : forall id local rch mfs b, lk_inv [] (ses_new id local rch mfs b).
Proof.
  intros. refine (conj _ (conj _ (conj _ _))).
  - apply slab0_wf.
  - intros _ k lk a Hk. cbn [ses_new s_links] in Hk. rewrite slab0_get in Hk. discriminate.
  - intros k a Hk. cbn [ses_new s_links] in Hk. rewrite slab0_get in Hk. discriminate.
  - intros _ k lk Hk. cbn [ses_new s_links] in Hk. rewrite slab0_get in Hk. discriminate.
Qed.
Lemma rinv_reachable : forall p a evs id local rch mfs b s os (Lim : N -> Prop),
  (forall M, Lim M -> 262144 <= M) -> Forall (ev_ok a Lim) evs -> links_opened evs <= 2 ^ 32 ->
  run p evs (ses_new id local rch mfs b) = EOk (s, os) ->
  rinv p a Lim (arrivals p a evs (ses_new id local rch mfs b)) (collect (grant a) p evs (ses_new id local rch mfs b))
     (handed a os) s
  /\ lk_inv [] s /\ slots_fit s.
Proof.
  intros p a evs id local rch mfs b s os Lim L0 Ok B H.
  apply (rinv_run p a Lim L0 evs _ s os [] [] []); auto.
  - unfold rinv. cbn [ses_new s_rcvs]. destruct a; cbn; auto.
  - apply lk_new.
Qed.

(** ** The theorems *)
Lemma no_lim : forall a evs, grants_fit evs -> Forall (ev_ok a (fun _ => False)) evs.
Proof.
  intros a evs H. eapply Forall_impl; [|exact H]. intros e He. destruct e; cbn; auto. intros _ M [].
Qed.
Lemma Forall2_length : forall A B (R : A -> B -> Prop) l m, Forall2 R l m -> length l = length m.
Proof. intros A B R l m H. induction H; cbn; congruence. Qed.
Lemma forall2_firstn : forall A B (R : A -> B -> Prop) l m1 m2, Forall2 R l m1 ->
  Forall2 R l (firstn (length l) (m1 ++ m2)).
Proof.
  intros A B R l m1 m2 H. assert (L := Forall2_length _ _ _ _ _ H). rewrite L, firstn_app, Nat.sub_diag, firstn_all.
  cbn. rewrite app_nil_r. exact H.
Qed.
Lemma in_order : forall p a evs id local rch mfs b s os T,
  run p evs (ses_new id local rch mfs b) = EOk (s, os) -> grants_fit evs -> links_opened evs <= 2 ^ 32 ->
  T = arrivals p a evs (ses_new id local rch mfs b) -> Forall (fun t => says_abort t = false) T ->
  Forall2 (is_delivery s) (handed a os) (firstn (length (handed a os)) (complete T)).
Proof.
  intros p a evs id local rch mfs b s os T H Gf B -> Na.
  destruct (rinv_reachable p a evs id local rch mfs b s os (fun _ => False)) as [R _]; auto using no_lim.
  { intros M []. }
  rewrite complete_groups by exact Na. unfold rinv in R.
  destruct (nth_error (s_rcvs s) a) as [l|].
  - destruct R as (T0 & T1 & ET & _ & Hh & _). rewrite ET.
    assert (Pre : exists g, groups (T0 ++ T1) = groups T0 ++ g).
    { clear. induction T1 as [|t T1 IH] using rev_ind.
      - exists []. rewrite !app_nil_r. reflexivity.
      - destruct IH as [g E]. rewrite app_assoc, groups_snoc, E. destruct (says_more t); [eauto|].
        rewrite <- app_assoc. eauto. }
    destruct Pre as [g3 ->]. destruct Hh as [(items & part & _ & X & _)|(_ & _ & g1 & g2 & -> & X)].
    + apply Forall2_app_l in X as (g1 & g2 & -> & X & _). rewrite <- app_assoc. apply forall2_firstn. exact X.
    + rewrite <- app_assoc. apply forall2_firstn. exact X.
  - destruct R as (_ & _ & ->). constructor.
Qed.

(** Whether a call of [recv] or [get_delivery] on link [a] gave no delivery. *)
Lemma nothing_ready : forall p e s s' os a l, step p e s = EOk (s', os) ->
  ((exists t, e = EvRecv a t) \/ e = EvGet a) -> handed a os = [] -> nth_error (s_rcvs s') a = Some l ->
  not_ready l.
Proof.
  intros p e s s' os a l' H Hr O0 El'. destruct Hr as [[t ->]| ->]; cbn [step] in H.
  - destruct (nth_error (s_rcvs s) a) as [l|] eqn:El.
    + destruct (poll_recv t l) as [r m] eqn:Ep. apply EOk_inj in H. injection H as <- <-.
      rewrite (upd_rcv_self a (fun _ => m) s l El) in El'. injection El' as ->.
      destruct (poll_recv_cases _ _ _ _ Ep) as [V C]. unfold rview in V.
      assert (Vp : rc_partial l' = rc_partial l) by congruence.
      unfold not_ready in *. destruct r; try (destruct C as (-> & C & _); rewrite Vp; exact C). cbn in O0. rewrite Nat.eqb_refl in O0. discriminate.
    + apply EOk_inj in H. injection H as <- <-. congruence.
  - destruct (nth_error (s_rcvs s) a) as [l|] eqn:El.
    + destruct (get_delivery l) as [r m] eqn:Ep. apply EOk_inj in H. injection H as <- <-.
      rewrite (upd_rcv_self a (fun _ => m) s l El) in El'. injection El' as ->.
      destruct (get_delivery_cases _ _ _ Ep) as [V C]. unfold rview in V.
      assert (Vp : rc_partial l' = rc_partial l) by congruence.
      unfold not_ready in *. destruct r as [[d tr]|]; [|destruct C as (-> & C & _); rewrite Vp; exact C].
      cbn in O0. rewrite Nat.eqb_refl in O0. discriminate.
    + apply EOk_inj in H. injection H as <- <-. congruence.
Qed.
Lemma run_snoc : forall p evs e s s' os, run p (evs ++ [e]) s = EOk (s', os) ->
  exists s1 o1 o2, run p evs s = EOk (s1, o1) /\ step p e s1 = EOk (s', o2) /\ os = o1 ++ o2.
Proof.
  induction evs as [|x evs IH]; intros e s s' os H; cbn [app run] in *.
  - destruct (step p e s) as [[s1 o1]|] eqn:E1; [|discriminate]. cbn [ebind] in H.
    apply EOk_inj in H. injection H as <- <-. exists s, [], o1. rewrite app_nil_r. auto.
  - destruct (step p x s) as [[s1 o1]|] eqn:E1; [|discriminate]. cbn [ebind] in *.
    destruct (run p (evs ++ [e]) s1) as [[s2 o2]|] eqn:E2; [|discriminate]. cbn [ebind] in H.
    apply EOk_inj in H. injection H as <- <-. destruct (IH _ _ _ _ E2) as (s3 & o3 & o4 & R & St & ->).
    rewrite R. cbn [ebind]. exists s3, (o1 ++ o3), o4. rewrite app_assoc. auto.
Qed.
Lemma attached_held : forall a s, attached a s -> ~ unheld a s.
Proof. intros a s [k Hk] U. assert (X := U _ _ Hk). rewrite holds_est in X. discriminate. Qed.
Lemma all_handed : forall p a evs e id local rch mfs b s1 o1 s o2 T,
  run p evs (ses_new id local rch mfs b) = EOk (s1, o1) -> step p e s1 = EOk (s, o2) ->
  grants_fit evs -> links_opened evs <= 2 ^ 32 ->
  T = arrivals p a evs (ses_new id local rch mfs b) -> Forall (fun t => says_abort t = false) T ->
  ((exists t, e = EvRecv a t) \/ e = EvGet a) -> handed a o2 = [] -> attached a s1 ->
  length (handed a o1) = length (complete T).
Proof.
  intros p a evs e id local rch mfs b s1 o1 s o2 T H Hs Gf B -> Na Hr O2 At.
  destruct (rinv_reachable p a evs id local rch mfs b s1 o1 (fun _ => False)) as (R & I & Fit); auto using no_lim.
  { intros M []. }
  apply attached_held in At. rewrite complete_groups by exact Na. unfold rinv in R.
  destruct (nth_error (s_rcvs s1) a) as [l|] eqn:El.
  2: { destruct R as (-> & _ & ->). reflexivity. }
  destruct R as (T0 & T1 & ET & [-> |U] & Hh & _); [|contradiction]. rewrite app_nil_r in ET. rewrite ET.
  destruct Hh as [(items & part & X1 & X2 & X3)|(U & _)]; [|contradiction].
  assert (Sr : special e = true) by (destruct Hr as [[t ->]| ->]; reflexivity).
  destruct (step_rcv _ _ _ _ _ _ _ I Fit Hs El) as (l' & El' & St).
  assert (Nr := nothing_ready _ _ _ _ _ _ _ Hs Hr O2 El').
  assert (V : rc_queue l' = rc_queue l /\ rc_partial l' = rc_partial l).
  { destruct St as [V Q _ _ _ _|n _ Hn V1 V2 Q _ _ _ _|n E _ _ V3 Q _ _|x q V Q Q' _ _ _ _ _ O0|L _ _ _|t A A0 _ _|t R A0 _ _].
    - unfold rview in V. split; congruence.
    - auto.
    - auto.
    - congruence.
    - exfalso. destruct L as (_ & _ & U & _). destruct Hr as [[t ->]| ->]; cbn [step] in Hs; rewrite El in Hs.
      + destruct (poll_recv t l). apply EOk_inj in Hs. injection Hs as <- _. apply At. intros k lk Hk.
        apply (U k lk). frw. exact Hk.
      + destruct (get_delivery l). apply EOk_inj in Hs. injection Hs as <- _. apply At. intros k lk Hk.
        apply (U k lk). frw. exact Hk.
    - destruct Hr as [[t' ->]| ->]; discriminate.
    - destruct Hr as [[t' ->]| ->]; discriminate. }
  destruct V as [Vq Vp]. unfold not_ready in Nr. rewrite Vq, Vp in Nr.
  assert (E0 : items = []).
  { unfold open_ok in X3. destruct (opened T0) as [|f g].
    - destruct X3 as [-> Ep]. rewrite Ep, X1, app_nil_r in Nr. exact Nr.
    - destruct X3 as (d & -> & Ep & _). rewrite Ep, X1, app_length in Nr. cbn [length] in Nr.
      destruct items; [reflexivity | cbn [length] in Nr; lia]. }
  subst items. rewrite app_nil_r in X2. exact (Forall2_length _ _ _ _ _ X2).
Qed.
Lemma credit_exact : forall p a evs id local rch mfs b s os l s0,
  s0 = ses_new id local rch mfs b ->
  run p evs s0 = EOk (s, os) -> grants_fit evs -> links_opened evs <= 2 ^ 32 ->
  attached a s -> nth_error (s_rcvs s) a = Some l -> p = Debug \/ granted p a evs s0 < 2 ^ 32 ->
  rc_credit l + completed (arrivals p a evs s0) = granted p a evs s0.
Proof.
  intros p a evs id local rch mfs b s os l s0 -> H Gf B At El Hp.
  destruct (rinv_reachable p a evs id local rch mfs b s os (fun _ => False)) as (R & I & Fit); auto using no_lim.
  { intros M []. }
  apply attached_held in At. unfold rinv in R. rewrite El in R.
  destruct R as (T0 & T1 & ET & [-> |U] & _ & (j & c & [Hc|[U2 _]] & E & P1 & P2) & _); try contradiction.
  rewrite app_nil_r in ET. rewrite ET. unfold granted. unfold sum in *.
  assert (j = 0) by (destruct Hp as [Hp|Hp]; [apply P1, Hp | apply P2, Hp]). subst j c. lia.
Qed.
Lemma handed_granted : forall p a evs id local rch mfs b s os s0,
  s0 = ses_new id local rch mfs b ->
  run p evs s0 = EOk (s, os) -> grants_fit evs -> links_opened evs <= 2 ^ 32 ->
  N.of_nat (length (handed a os)) <= granted p a evs s0.
Proof.
  intros p a evs id local rch mfs b s os s0 -> H Gf B.
  destruct (rinv_reachable p a evs id local rch mfs b s os (fun _ => False)) as (R & I & Fit); auto using no_lim.
  { intros M []. }
  unfold rinv in R. destruct (nth_error (s_rcvs s) a) as [l|].
  2: { destruct R as (_ & _ & ->). cbn. lia. }
  destruct R as (T0 & T1 & ET & _ & Hh & (j & c & Hc & E & _) & _). unfold granted. fold (sum (collect (grant a) p evs (ses_new id local rch mfs b))).
  assert (Lc : completed T0 <= c) by (destruct Hc as [->|[_ ->]]; lia).
  assert (Lh : N.of_nat (length (handed a os)) <= completed T0).
  { rewrite <- groups_completed. destruct Hh as [(items & part & _ & X & _)|(_ & _ & g1 & g2 & -> & X)].
    - apply Forall2_length in X. rewrite app_length in X. lia.
    - apply Forall2_length in X. rewrite app_length. lia. }
  lia.
Qed.
Lemma size_bounded : forall p a evs id local rch mfs b s os T M,
  run p evs (ses_new id local rch mfs b) = EOk (s, os) -> grants_fit evs -> links_opened evs <= 2 ^ 32 ->
  limits_below M a evs ->
  T = arrivals p a evs (ses_new id local rch mfs b) -> Forall (fun t => says_abort t = false) T ->
  (forall t b, In t T -> tr_body t = Some b -> honest b) ->
  forall i x first rest t, nth_error (handed a os) i = Some x -> nth_error (complete T) i = Some (first :: rest) ->
  In t rest -> tr_body t <> None -> blen (body_of (snd x)) <= M.
Proof.
  intros p a evs id local rch mfs b s os T M H Gf B [L0 Ls] -> Na Ho i x first rest t Hi Hg Ht Hb.
  assert (Od := in_order _ a _ _ _ _ _ _ _ _ _ H Gf B eq_refl Na).
  destruct (rinv_reachable p a evs id local rch mfs b s os (fun M' => M' = M)) as (R & I & Fit); auto.
  { intros M' ->. exact L0. }
  { clear - Gf Ls. unfold grants_fit in Gf. rewrite Forall_forall in *. intros e He. specialize (Gf e He). specialize (Ls e He).
    destruct e; cbn; auto. intros E M' ->. auto. }
  rewrite complete_groups in * by exact Na.
  assert (Li : (i < length (handed a os))%nat) by (eapply nth_lt; exact Hi).
  assert (D : is_delivery s x (first :: rest)).
  { clear - Od Hi Hg Li. revert Od Hi Hg Li. generalize (handed a os) as O. generalize (groups (arrivals p a evs (ses_new id local rch mfs b))) as gs.
    intros gs O. revert gs i. induction O as [|y O IH]; intros gs i Od Hi Hg Li; [cbn in Li; lia|].
    cbn [length] in *. destruct gs as [|g gs]; [inversion Od|]. cbn [firstn] in Od. inversion Od; subst.
    destruct i as [|i]; cbn [nth_error] in *; [congruence|]. eapply IH; eauto. lia. }
  destruct D as [Db _]. rewrite Db.
  unfold rinv in R. destruct (nth_error (s_rcvs s) a) as [l|].
  2: { destruct R as (_ & _ & E). rewrite E in Li. cbn in Li. lia. }
  destruct R as (T0 & T1 & ET & _ & Hh & _ & _ & Lm). destruct (Lm M eq_refl) as (_ & LF & _).
  assert (Pre : exists g, groups (T0 ++ T1) = groups T0 ++ g).
  { clear. induction T1 as [|y T1 IH] using rev_ind.
    - exists []. rewrite !app_nil_r. reflexivity.
    - destruct IH as [g E]. rewrite app_assoc, groups_snoc, E. destruct (says_more y); [eauto|].
      rewrite <- app_assoc. eauto. }
  destruct Pre as [g3 Eg]. rewrite ET, Eg in Hg.
  assert (Lg : (length (handed a os) <= length (groups T0))%nat).
  { destruct Hh as [(items & part & _ & X & _)|(_ & _ & g1 & g2 & -> & X)].
    - apply Forall2_length in X. rewrite app_length in X. lia.
    - apply Forall2_length in X. rewrite app_length. lia. }
  rewrite nth_error_app1 in Hg by lia. apply nth_error_In in Hg.
  rewrite Forall_forall in LF. assert (LO := LF _ Hg). eapply LO; [|reflexivity | exact Ht | exact Hb].
  intros y b' Hy. apply Ho. rewrite ET. destruct (grp_in _ _ _ _ Hg Hy) as [[]|Hin]. apply in_or_app. left. exact Hin.
Qed.
