(** * Dispositions of the peer *)

From Coq Require Import ZifyBool ZifyNat ZifyN FinFun.
From Verif Require Export EntRel ReleaseTheorems SpecSettle.
Import ListNotations.

Definition dir_of (disp : disposition_t) : bool := match disposition_role disp with RoleReceiver => true | RoleSender => false end.
Lemma speaks_dir : forall disp b, speaks_of disp b <-> b = dir_of disp.
Proof. intros disp b. unfold speaks_of, dir_of. destruct (disposition_role disp), b; intuition congruence. Qed.
Definition settle_list (disp : disposition_t) : list N :=
  match disposition_last disp with Some to => range (disposition_first disp) to | None => [disposition_first disp] end.
Lemma settle_as_all : forall disp s, settle_deliveries disp s = settle_all disp (dir_of disp) (settle_list disp) s.
Proof. intros. unfold settle_deliveries, settle_list, dir_of. cbv zeta. destruct (disposition_last disp); reflexivity. Qed.
Lemma range_in : forall from to i, In i (range from to) <-> from <= i <= to.
Proof.
  intros. unfold range. rewrite in_map_iff. split.
  - intros (k & <- & H). apply in_seq in H. lia.
  - intros H. exists (N.to_nat (i - from)). split; [lia|]. apply in_seq. lia.
Qed.
Lemma range_nodup : forall from to, NoDup (range from to).
Proof. intros. unfold range. apply Injective_map_NoDup; [intros x y; lia | apply seq_NoDup]. Qed.
Lemma settle_list_nodup : forall disp, NoDup (settle_list disp).
Proof. intros. unfold settle_list. destruct (disposition_last disp); [apply range_nodup|]. constructor; [intros [] | constructor]. Qed.
Lemma settle_list_in : forall disp id, no_wrap disp -> id < two32 -> (In id (settle_list disp) <-> in_ids disp id).
Proof.
  intros disp id (A & B) L. unfold settle_list, in_ids. destruct (disposition_last disp) as [to|].
  - rewrite range_in. revert A B L. generalize (disposition_first disp). intros f A B L. unfold wsub.
    assert (M : forall x, x < two32 -> f <= x -> (x + two32 - f mod two32) mod two32 = x - f).
    { intros x Lx Lf. rewrite (N.mod_small f) by exact A. replace (x + two32 - f) with ((x - f) + 1 * two32) by lia. rewrite N.mod_add by discriminate. apply N.mod_small. lia. }
    rewrite (M to) by lia. destruct (N.le_gt_cases f id) as [G|G].
    + rewrite (M id) by lia. lia.
    + rewrite (N.mod_small f) by exact A. rewrite N.mod_small by lia. lia.
  - cbn [In]. intuition congruence.
Qed.

(** ** The entries *)
Lemma settle_one_get : forall disp b0 s no b id,
  map_get id (unsettled b (settle_one disp b0 s no)) =
  if Bool.eqb b b0 && (id =? no) then option_map (di_disposition disp) (map_get id (unsettled b s)) else map_get id (unsettled b s).
Proof.
  intros. unfold settle_one. destruct (map_get no (unsettled b0 s)) as [d|] eqn:E.
  - cbv zeta. rewrite unsettled_set. assert (X : forall b, unsettled b (fire_opt (di_tx d) VOk s) = unsettled b s) by (intros []; unfold unsettled; frw; reflexivity).
    rewrite !X. destruct (Bool.eqb_spec b b0) as [->|]; cbn [andb]; [|reflexivity].
    rewrite map_get_upd. destruct (N.eqb_spec id no) as [->|]; [|reflexivity]. rewrite E. reflexivity.
  - destruct (Bool.eqb_spec b b0) as [->|]; cbn [andb]; [|reflexivity]. destruct (N.eqb_spec id no) as [->|]; [|reflexivity]. rewrite E. reflexivity.
Qed.
Lemma settle_all_get : forall disp b0 l s b id, NoDup l ->
  map_get id (unsettled b (settle_all disp b0 l s)) =
  if Bool.eqb b b0 && existsb (N.eqb id) l then option_map (di_disposition disp) (map_get id (unsettled b s)) else map_get id (unsettled b s).
Proof.
  intros disp b0 l. unfold settle_all. induction l as [|x l IH]; intros s b id Nd; cbn [fold_left existsb]; [rewrite Bool.andb_false_r; reflexivity|].
  inversion Nd as [|? ? Nx Nl]; subst. rewrite (IH _ _ _ Nl), settle_one_get. destruct (Bool.eqb b b0); cbn [andb]; [|reflexivity].
  destruct (N.eqb_spec id x) as [->|]; cbn [orb]; [|reflexivity].
  replace (existsb (N.eqb x) l) with false; [reflexivity|]. symmetry. apply Bool.not_true_iff_false. intros H. apply existsb_exists in H as (y & Hy & E).
  apply N.eqb_eq in E. subst y. auto.
Qed.
Lemma existsb_in : forall id l, existsb (N.eqb id) l = true <-> In id l.
Proof.
  intros. rewrite existsb_exists. split; [intros (x & H & E); apply N.eqb_eq in E; congruence | intros H; exists id; split; [exact H | apply N.eqb_refl]].
Qed.
(** ** The channels *)
Lemma settle_all_other : forall disp b l s c,
  (forall id d, In id l -> map_get id (unsettled b s) = Some d -> di_tx d <> Some c) ->
  nth_error (s_chans (settle_all disp b l s)) c = nth_error (s_chans s) c.
Proof.
  intros disp b l. unfold settle_all. induction l as [|x l IH]; intros s c H; cbn [fold_left]; [reflexivity|].
  rewrite IH.
  - unfold settle_one. destruct (map_get x (unsettled b s)) as [d|] eqn:E; [|reflexivity]. cbv zeta.
    transitivity (nth_error (s_chans (fire_opt (di_tx d) VOk s)) c); [destruct b; unfold set_unsettled; st_cbn; reflexivity|].
    apply fire_opt_other. apply (H x); [left; reflexivity | exact E].
  - intros id d Hin G. rewrite settle_one_get in G. rewrite Bool.eqb_reflx in G. cbn [andb] in G.
    destruct (id =? x); [|apply (H id); [right; exact Hin | exact G]].
    destruct (map_get id (unsettled b s)) as [d0|]; [|discriminate G]. cbn in G. apply Some_inj in G. subst d. discriminate.
Qed.
Lemma hold_settle_all : forall disp b l s, stable hold0 s (settle_all disp b l s).
Proof.
  intros disp b l. unfold settle_all. induction l as [|x l IH]; intros s; cbn [fold_left]; [apply stable_refl; exact _|].
  eapply stable_trans; [exact _ | |apply IH]. exact _.
Qed.
Lemma settle_all_self : forall disp b l s c id d, In id l -> map_get id (unsettled b s) = Some d -> di_tx d = Some c -> waits_on c s ->
  nth_error (s_chans (settle_all disp b l s)) c = Some (CSent VOk).
Proof.
  intros disp b l. unfold settle_all. induction l as [|x l IH]; intros s c id d Hin G T W; [destruct Hin|]. cbn [fold_left].
  destruct (map_get x (unsettled b s)) as [dx|] eqn:Ex.
  - assert (C : nth_error (s_chans (settle_one disp b s x)) c = nth_error (s_chans (fire_opt (di_tx dx) VOk s)) c).
    { unfold settle_one. rewrite Ex. cbv zeta. destruct b; unfold set_unsettled; st_cbn; reflexivity. }
    destruct (di_tx dx) as [cx|] eqn:Tx; cbn [fire_opt] in C.
    + destruct (Nat.eq_dec c cx) as [<-|Ne].
      * eapply chan_value; [apply hold_chan; apply hold_settle_all|]. rewrite C. apply fire_self, W.
      * destruct Hin as [->|Hin]; [congruence|]. rewrite fire_other in C by exact Ne.
        assert (id <> x) by congruence. apply (IH _ _ id d); auto; [|red; rewrite C; exact W]. rewrite settle_one_get, Bool.eqb_reflx.
        cbn [andb]. destruct (N.eqb_spec id x); [congruence | exact G].
    + destruct Hin as [->|Hin]; [congruence|]. assert (id <> x) by congruence. apply (IH _ _ id d); auto; [|red; rewrite C; exact W]. rewrite settle_one_get, Bool.eqb_reflx.
      cbn [andb]. destruct (N.eqb_spec id x); [congruence | exact G].
  - destruct Hin as [->|Hin]; [congruence|]. assert (E : settle_one disp b s x = s) by (unfold settle_one; rewrite Ex; reflexivity). rewrite E. eauto.
Qed.
(** ** Clean entries *)
Definition all_clean (s : ses) : Prop := forall b id d, map_get id (unsettled b s) = Some d -> clean d.
Lemma ent_clean : forall s s', stable ent_rel s s' -> all_clean s -> all_clean s'.
Proof.
  intros s s' H C b id d' G. destruct (H _ _ _ G) as [(d & G0 & _ & _ & _ & E)|(h & _ & _ & _ & E)]; apply E; [eapply C; eauto|].
  intros T. destruct (T eq_refl).
Qed.
Lemma settle_clean : forall disp s, all_clean s -> all_clean (settle_deliveries disp s).
Proof.
  intros disp s C b id d G. rewrite settle_as_all, settle_all_get in G by apply settle_list_nodup.
  destruct (_ && _)%bool; [|eapply C; eauto]. destruct (map_get id (unsettled b s)); [|discriminate G]. cbn in G. apply Some_inj in G. subst d.
  intros T. destruct (T eq_refl).
Qed.
(** The frames that are no dispositions. *)
Lemma frame_ent : forall p f s s1 r, (forall disp, f <> FDisposition disp) -> ses_handle_frame p f s = EOk (s1, r) -> stable ent_rel s s1.
Proof.
  intros p f s s1 r N H. unfold ses_handle_frame in H. destruct (s_error s). { apply EOk_inj in H. apply (f_equal fst) in H. cbn [fst] in H. subst. apply stable_refl; exact _. }
  destruct f; try solve [st_er H]. destruct (N _ eq_refl).
Qed.
Lemma step_ent : forall p e s s' os, step p e s = EOk (s', os) ->
  stable ent_rel s s' \/ (exists disp, e = EvFrame (FDisposition disp) /\ s_error s = None /\ s' = settle_deliveries disp s /\ os = []).
Proof.
  intros p e s s' os H. destruct e; try (left; solve [cbn [step] in H; step_er H]).
  assert (D : (exists disp, f = FDisposition disp) \/ forall disp, f <> FDisposition disp) by (destruct f; try (right; discriminate); eauto).
  cbn [step] in H. destruct D as [(disp & ->)|N].
  - unfold ses_handle_frame in H. destruct (s_error s) eqn:E.
    + left. cbn in H. apply EOk_inj in H. apply (f_equal fst) in H. cbn [fst] in H. subst s'. apply stable_refl; exact _.
    + right. exists disp. cbn in H. apply EOk_inj in H. injection H as <- <-. auto.
  - left. destruct (ses_handle_frame p f s) as [[s1 r]|] eqn:E; [|discriminate H]. apply (frame_ent _ _ _ _ _ N) in E. cbn [ebind] in H.
    apply EOk_inj in H. apply (f_equal fst) in H. cbn [fst] in H. subst s'. destruct r; [|exact E]. eapply stable_trans; [exact _ | exact E | st_one].
Qed.
Lemma clean_reachable : forall p s, reachable p s -> all_clean s.
Proof.
  intros p s (id & local & rc & mfs & b & evs & os & H). 
  refine (run_ind all_clean p _ evs _ _ _ _ H).
  - intros e s1 s2 os1 I E. destruct (step_ent _ _ _ _ _ E) as [K|(disp & _ & _ & -> & _)]; [eapply ent_clean; eauto | apply settle_clean, I].
  - intros [] i d G; discriminate G.
Qed.
