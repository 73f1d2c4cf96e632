(** * What the futures of a session await *)

From Coq Require Import ZifyBool ZifyNat ZifyN.
From Verif Require Export OneProofs.
Import ListNotations.

Lemma one_cond : forall pl0 a (g : slink -> cond) set s l,
  (forall v l, sn_pending (set v l) = sn_pending l) ->
  (forall v l c, In c (cd_wait (sn_on_close (set v l))) ->
     In c (cd_wait (sn_on_close l)) \/ (PClose a = pl0 /\ g l = sn_on_close l /\ In c (cd_wait v))) ->
  (forall v l c, In c (cd_wait (sn_on_credit (set v l))) ->
     In c (cd_wait (sn_on_credit l)) \/ (PCredit a = pl0 /\ g l = sn_on_credit l /\ In c (cd_wait v))) ->
  nth_error (s_snds s) a = Some l ->
  stable one_rel s (upd_snd a (set (fst (cond_wait (g l) s))) (snd (cond_wait (g l) s))).
Proof.
  intros pl0 a g set s l Hp H1 H2 El. cbv beta iota delta [cond_wait new_chan]. apply (one_add pl0).
  assert (X : forall s1 v, s_snds s1 = s_snds s ->
     (forall c, In c (cd_wait v) -> In c (cd_wait (g l)) \/ c = length (s_chans s)) ->
     stable (add_rel pl0 (length (s_chans s))) s1 (upd_snd a (set v) s1)).
  { intros s1 v E V. apply add_upd_snd. intros l2 c E2. assert (l2 = l) as -> by congruence.
    rewrite Hp. split; [auto|]. split; intros H; [apply H1 in H | apply H2 in H]; destruct H as [H|(<- & Eg & H)]; auto;
      destruct (V c H) as [V1|V1]; rewrite ?Eg in V1; auto. }
  destruct (cd_lock (g l)); cbn [fst snd].
  - eapply stable_trans; [exact _ | |apply X]; [st_chain | frw; reflexivity | auto].
  - apply X; [frw; reflexivity|]. cbn [cd_wait]. intros c H. apply in_app_or in H as [H|[H|[]]]; auto.
Qed.
Lemma step_one : forall p e s s' os, step p e s = EOk (s', os) -> stable one_rel s s'.
Proof.
  intros p e s s' os H. destruct e; cbn [step] in H; try solve [step_er H].
  - destruct (nth_error (s_snds s) a) as [l|] eqn:El; [|step_er H].
    destruct (cond_wait (sn_on_close l) s) as [c s1] eqn:Ec. apply EOk_inj in H. apply (f_equal fst) in H. cbn [fst] in H. subst s'.
    assert (X := one_cond (PClose a) a sn_on_close set_sn_on_close s l). rewrite Ec in X. cbn [fst snd] in X. apply X; auto; intros; right; auto.
  - destruct (nth_error (s_snds s) a) as [l|] eqn:El; [|step_er H].
    destruct (cond_wait (sn_on_credit l) s) as [c s1] eqn:Ec. apply EOk_inj in H. apply (f_equal fst) in H. cbn [fst] in H. subst s'.
    assert (X := one_cond (PCredit a) a sn_on_credit set_sn_on_credit s l). rewrite Ec in X. cbn [fst snd] in X. apply X; auto; intros; right; auto.
Qed.

(** ** Invariant *)
Definition task_placed (s : ses) (tk : stask) : Prop :=
  match tk_st tk with
  | TLink _ c => (c < length (s_chans s))%nat /\ (waits_on c s -> at_place (PLink (tk_link tk)) c s)
  | TSess _ c => (c < length (s_chans s))%nat
      /\ exists l, nth_error (s_snds s) (tk_link tk) = Some l /\ (waits_on c s -> at_place (PSes (as_u32 (sn_id l))) c s)
  | _ => True
  end.
Definition wait_placed (s : ses) (k : wtask) : Prop :=
  match wk_st k with
  | WWait c => (c < length (s_chans s))%nat
      /\ exists d, nth_error (s_dlvs s) (wk_dlv k) = Some d /\ (waits_on c s -> at_place (PEntry (dl_sender d) (dl_id d)) c s)
  | _ => True
  end.
Definition fut_inv (s : ses) : Prop :=
  slab_wf (s_links s) /\ bounded_places s
  /\ (forall pl pl' c, at_place pl c s -> at_place pl' c s -> pl' = pl)
  /\ (forall t tk, nth_error (s_tasks s) t = Some tk -> task_placed s tk)
  /\ (forall w k, nth_error (s_waits s) w = Some k -> wait_placed s k).
Lemma fut_init : forall id local rc mfs b, fut_inv (ses_new id local rc mfs b).
Proof.
  intros. assert (N : forall pl c, ~ at_place pl c (ses_new id local rc mfs b)).
  { intros pl c P. destruct pl as [a|a|a|h|[] i|k|]; cbn in P; try (destruct P as (l & E & _); destruct a; discriminate); try destruct P.
    - destruct H; discriminate.
    - destruct H; discriminate.
    - destruct H as [H _]. change slab0 with (@slab0 link) in H. rewrite slab0_get in H. discriminate. }
  refine (conj (slab0_wf _) (conj _ (conj _ (conj _ _)))).
  - intros pl c P. destruct (N _ _ P).
  - intros pl pl' c P. destruct (N _ _ P).
  - intros [|t] tk H; discriminate.
  - intros [|t] tk H; discriminate.
Qed.
Lemma task_kept : forall s s' tk, slab_wf (s_links s) -> hold_rel s s' -> keeps_objs s s' -> task_placed s tk -> task_placed s' tk.
Proof.
  intros s s' tk W H [O _] T. destruct (H W) as [_ [[L C] K]]. unfold task_placed in *. destruct (tk_st tk) as [|tag c|tag c|r|]; auto.
  - destruct T as [Lc P]. split; [lia|]. intros Wc. apply K; auto. apply P. apply (chan_back s s'); auto. split; auto.
  - destruct T as (Lc & l & El & P). split; [lia|]. apply O in El as (l' & El' & Ei). exists l'. split; [exact El'|].
    assert (sn_id l' = sn_id l) as -> by (unfold snd_ids in Ei; congruence).
    intros Wc. apply K; auto. apply P. apply (chan_back s s'); auto. split; auto.
Qed.
Lemma wait_kept : forall s s' k, slab_wf (s_links s) -> hold_rel s s' -> keeps_objs s s' -> wait_placed s k -> wait_placed s' k.
Proof.
  intros s s' k W H [_ O] T. destruct (H W) as [_ [[L C] K]]. unfold wait_placed in *. destruct (wk_st k) as [|c|r|]; auto.
  destruct T as (Lc & d & Ed & P). split; [lia|]. apply O in Ed as (d' & Ed' & Ei). exists d'. split; [exact Ed'|].
  assert (dl_sender d' = dl_sender d /\ dl_id d' = dl_id d) as [-> ->] by (unfold dlv_ids in Ei; split; congruence).
  intros Wc. apply K; auto. apply P. apply (chan_back s s'); auto. split; auto.
Qed.
Lemma new_waits : forall s, waits_on (length (s_chans s)) (set_s_chans (s_chans s ++ [CWait]) s).
Proof. intros s. unfold waits_on. st_cbn. rewrite nth_error_app2, Nat.sub_diag by lia. reflexivity. Qed.
Lemma session_loop_task : forall t tk l tag s k k', nth_error (s_tasks s) t = Some k -> nth_error (s_snds s) (tk_link k) = Some l ->
  nth_error (s_tasks (session_loop t tk l tag s)) t = Some k' -> task_placed (session_loop t tk l tag s) k'.
Proof.
  intros t tk l tag s k k' Et El E. unfold session_loop in *. destruct (s_iwin s =? 0).
  - unfold new_chan in *. apply upd_task_cases in E as (k0 & E0 & ->). rewrite Nat.eqb_refl. frw_in E0. rewrite Et in E0. injection E0 as <-.
    unfold task_placed. cbn [tk_st set_tk_st]. frw. st_cbn. rewrite app_length. cbn [length]. split; [lia|].
    exists l. split; [exact El|]. intros _. cbn [at_place]. frw. st_cbn. apply in_or_app. right. left. reflexivity.
  - destruct (transmit_effect t tk l tag s) as (_ & _ & _ & _ & Es). rewrite Es in E. apply upd_task_cases in E as (k0 & E0 & ->).
    rewrite Nat.eqb_refl. exact I.
Qed.
Lemma link_loop_task : forall t tk l0 l tag s k k', nth_error (s_tasks s) t = Some k -> nth_error (s_snds s) (tk_link k) = Some l0 ->
  sn_id l0 = sn_id l -> tk_link tk = tk_link k ->
  nth_error (s_tasks (link_loop t tk l tag s)) t = Some k' -> task_placed (link_loop t tk l tag s) k'.
Proof.
  intros t tk l0 l tag s k k' Et El Ei0 Ek E. unfold link_loop in *. match goal with |- context [if ?b then _ else _] => destruct b end.
  - unfold new_chan in *. apply upd_task_cases in E as (k0 & E0 & ->). rewrite Nat.eqb_refl. frw_in E0. rewrite Et in E0. injection E0 as <-.
    unfold task_placed. cbn [tk_st set_tk_st tk_link]. frw. st_cbn. rewrite app_length. cbn [length]. split; [lia|].
    intros _. rewrite Ek. cbn [at_place]. frw. rewrite nth_upd_snd, Nat.eqb_refl. st_cbn. rewrite El. cbn [option_map]. eexists. split; [reflexivity|].
    st_cbn. apply in_or_app. right. left. reflexivity.
  - set (s1 := upd_task t (set_tk_took true) _) in *.
    assert (E1 : nth_error (s_tasks s1) t = Some (set_tk_took true k)).
    { unfold s1, upd_task. frw. rewrite Et. st_cbn. apply nth_set_nth_eq. apply nth_lt in Et. exact Et. }
    assert (El1 : exists l1, nth_error (s_snds s1) (tk_link k) = Some l1 /\ sn_id l1 = sn_id l).
    { unfold s1. frw. rewrite nth_upd_snd. rewrite <- Ek, Nat.eqb_refl, Ek, El. cbn [option_map]. eexists. split; [reflexivity|]. exact Ei0. }
    destruct El1 as (l1 & El1 & Ei). clearbody s1. revert E. unfold session_loop. destruct (s_iwin s1 =? 0).
    + unfold new_chan. intros E. apply upd_task_cases in E as (k0 & E0 & ->). rewrite Nat.eqb_refl. frw_in E0. rewrite E1 in E0. injection E0 as <-.
      unfold task_placed. cbn [tk_st set_tk_st tk_link set_tk_took]. frw. st_cbn. rewrite app_length. cbn [length]. split; [lia|].
      exists l1. split; [exact El1|]. intros _. cbn [at_place]. frw. st_cbn. apply in_or_app. right. left. rewrite Ei. reflexivity.
    + destruct (transmit_effect t tk l tag s1) as (_ & _ & _ & _ & Es). rewrite Es. intros E. apply upd_task_cases in E as (k0 & E0 & ->).
      rewrite Nat.eqb_refl. exact I.
Qed.
Lemma tasks_other : forall t s i k, nth_error (s_tasks (poll_send t s)) i = Some k -> i <> t -> nth_error (s_tasks s) i = Some k.
Proof.
  intros t s i k E Ni. destruct (poll_send_polled t s) as [|tk l e Et El D|tk l tag s0 Et El B|tk l tag c Et El Es].
  - exact E.
  - apply upd_task_cases in E as (k0 & E0 & ->). rewrite (proj2 (Nat.eqb_neq t i)) by congruence. exact E0.
  - assert (Es : s_tasks s0 = s_tasks s) by (inversion B; subst; frw; reflexivity).
    rewrite <- Es. revert E. clear - Ni. unfold link_loop, session_loop. 
    assert (X : forall f s1 x, nth_error (s_tasks (upd_task t f s1)) i = Some x -> nth_error (s_tasks s1) i = Some x).
    { intros f s1 x E. apply upd_task_cases in E as (k0 & E0 & ->). rewrite (proj2 (Nat.eqb_neq t i)) by congruence. exact E0. }
    match goal with |- context [if ?b then _ else _] => destruct b end.
    + unfold new_chan. intros E. apply X in E. frw_in E. exact E.
    + match goal with |- context [if ?b then _ else _] => destruct b end.
      * unfold new_chan. intros E. apply X in E. frw_in E. apply X in E. frw_in E. exact E.
      * intros E. match type of E with context [transmit ?t ?tk ?l ?tag ?s1] => destruct (transmit_effect t tk l tag s1) as (_ & _ & _ & _ & Es) end.
        rewrite Es in E. apply X in E. apply X in E. frw_in E. exact E.
  - revert E. clear - Ni. unfold session_loop.
    assert (X : forall f s1 x, nth_error (s_tasks (upd_task t f s1)) i = Some x -> nth_error (s_tasks s1) i = Some x).
    { intros f s1 x E. apply upd_task_cases in E as (k0 & E0 & ->). rewrite (proj2 (Nat.eqb_neq t i)) by congruence. exact E0. }
    match goal with |- context [if ?b then _ else _] => destruct b end.
    + unfold new_chan. intros E. apply X in E. frw_in E. exact E.
    + intros E. match type of E with context [transmit ?t ?tk ?l ?tag ?s1] => destruct (transmit_effect t tk l tag s1) as (_ & _ & _ & _ & Es) end.
      rewrite Es in E. apply X in E. exact E.
Qed.
Lemma poll_send_task : forall t s k', (forall k, nth_error (s_tasks s) t = Some k -> task_placed s k) ->
  nth_error (s_tasks (poll_send t s)) t = Some k' -> task_placed (poll_send t s) k'.
Proof.
  intros t s k' H E. destruct (poll_send_polled t s) as [|tk l e Et El D|tk l tag s0 Et El B|tk l tag c Et El Es].
  - exact (H _ E).
  - apply upd_task_cases in E as (k0 & E0 & ->). rewrite Nat.eqb_refl. exact I.
  - assert (Es : s_tasks s0 = s_tasks s) by (inversion B; subst; frw; reflexivity).
    destruct (proj1 (begins_objs _ _ _ _ _ B) _ _ El) as (l0 & El0 & Ei).
    eapply (link_loop_task t tk l0 l); [rewrite Es; exact Et | exact El0 | unfold snd_ids in Ei; congruence | reflexivity | exact E].
  - eapply session_loop_task; [exact Et | exact El | exact E].
Qed.
Lemma waits_other : forall w s i k, nth_error (s_waits (poll_wait w s)) i = Some k -> i <> w -> nth_error (s_waits s) i = Some k.
Proof.
  intros w s i k E Ni.
  assert (X : forall f s1 x, nth_error (s_waits (upd_wait w f s1)) i = Some x -> nth_error (s_waits s1) i = Some x).
  { intros f s1 x H. unfold upd_wait in H. destruct (nth_error (s_waits s1) w); [|exact H]. st_cbn_in H.
    rewrite nth_set_nth_neq in H by congruence. exact H. }
  unfold poll_wait in E. destruct (nth_error (s_waits s) w) as [t|]; [|exact E].
  destruct (nth_error (s_dlvs s) (wk_dlv t)) as [d|]; [|exact E]. cbv zeta in E. unfold new_chan in E.
  repeat (fr_break_in E); try exact E; apply X in E; destruct (dl_sender d); unfold set_unsettled in E; frw_in E; exact E.
Qed.
Lemma poll_wait_task : forall w s k', (forall k, nth_error (s_waits s) w = Some k -> wait_placed s k) ->
  nth_error (s_waits (poll_wait w s)) w = Some k' -> wait_placed (poll_wait w s) k'.
Proof.
  intros w s k' H E.
  assert (X : forall f s1 x, nth_error (s_waits (upd_wait w f s1)) w = Some x -> exists k, nth_error (s_waits s1) w = Some k /\ x = f k).
  { intros f s1 x H0. unfold upd_wait in H0. destruct (nth_error (s_waits s1) w) eqn:E1; [|congruence]. st_cbn_in H0.
    rewrite nth_set_nth_eq in H0 by (apply nth_lt in E1; exact E1). injection H0 as <-. eauto. }
  assert (D : forall r s1 x, nth_error (s_waits (upd_wait w (set_wk_st (WDone r)) s1)) w = Some x -> wait_placed (upd_wait w (set_wk_st (WDone r)) s1) x).
  { intros r s1 x H0. apply X in H0 as (k & _ & ->). exact I. }
  unfold poll_wait in *. destruct (nth_error (s_waits s) w) as [t|] eqn:Ew; [|rewrite Ew in E; discriminate].
  assert (Same : nth_error (s_waits s) w = Some k' -> wait_placed s k') by (intros; apply H; congruence).
  destruct (nth_error (s_dlvs s) (wk_dlv t)) as [d|] eqn:Ed; [|auto]. cbv zeta in *.
  destruct (wk_st t) as [|c|r|]; [| |auto..].
  - destruct (dl_local d); [exact (D _ _ _ E)|]. destruct (map_get (dl_id d) (unsettled (dl_sender d) s)) as [di|] eqn:G; [|exact (D _ _ _ E)].
    destruct (check_inner di) as [[r|] di'] eqn:Ck; [exact (D _ _ _ E)|].
    unfold new_chan in *. apply X in E as (k & Ek & ->). unfold wait_placed. cbn [wk_st set_wk_st wk_dlv].
    assert (k = t) as ->. { destruct (dl_sender d); unfold set_unsettled in Ek; frw_in Ek; congruence. }
    assert (Sd : forall b m s1, s_dlvs (set_unsettled b m s1) = s_dlvs s1) by (intros []; reflexivity).
    assert (Sc : forall b m s1, s_chans (set_unsettled b m s1) = s_chans s1) by (intros []; reflexivity).
    assert (Su : forall b f s1, unsettled b (upd_wait w f s1) = unsettled b s1) by (intros []; intros; unfold unsettled; frw; reflexivity).
    assert (Su2 : forall b o s1, unsettled b (drop_opt o s1) = unsettled b s1) by (intros []; intros; unfold unsettled; frw; reflexivity).
    split.
    + frw. rewrite ?Sc. destruct (di_tx di); cbn [drop_opt]; unfold drop_tx; st_cbn; rewrite ?put_chan_len, app_length; cbn [length]; lia.
    + exists d. split; [frw; rewrite ?Sd; frw; exact Ed|]. intros _. cbn [at_place]. rewrite Su, unsettled_set.
      rewrite Bool.eqb_reflx, map_get_upd, N.eqb_refl, Su2.
      assert (unsettled (dl_sender d) (set_s_chans (s_chans s ++ [CWait]) s) = unsettled (dl_sender d) s) as -> by (destruct (dl_sender d); reflexivity).
      rewrite G. eexists. split; [reflexivity|]. reflexivity.
  - destruct (nth_error (s_chans s) c) as [[|v|]|]; [exact (Same E) | | exact (D _ _ _ E) | exact (Same E)].
    destruct (map_get (dl_id d) (unsettled (dl_sender d) s)) as [di|]; [|exact (D _ _ _ E)].
    destruct (check_inner di) as [[r|] di2]; exact (D _ _ _ E).
Qed.
Lemma fut_step : forall p e s s' os, fut_inv s -> step p e s = EOk (s', os) -> fut_inv s'.
Proof.
  intros p e s s' os (W & B & U & T & Wt) H.
  assert (Hh := step_hold _ _ _ _ _ H). assert (Ho := step_one _ _ _ _ _ H). assert (Hk := step_keeps_objs _ _ _ _ _ H).
  assert (F := step_framed _ _ _ _ _ H). destruct (Ho B) as (B' & L & K).
  refine (conj (proj1 (Hh W)) (conj B' (conj _ _))).
  { intros pl pl' c P P'. destruct (K _ _ P) as [Q|[Lc Q]]; [|auto]. destruct (K _ _ P') as [Q'|[Lc Q']]; [eauto|].
    apply B in Q. lia. }
  split.
  - assert (Same : s_tasks s' = s_tasks s -> forall t tk, nth_error (s_tasks s') t = Some tk -> task_placed s' tk).
    { intros E t tk Et. rewrite E in Et. eapply task_kept; eauto. }
    destruct e; try (apply Same; apply (F Ftasks eq_refl)).
    + cbn [step] in H. destruct (nth_error (s_snds s) a) eqn:Ea; apply EOk_inj in H; apply (f_equal fst) in H; cbn [fst] in H; subst s'; [|auto].
      intros t tk Et. st_cbn_in Et. apply nth_snoc in Et as [Et|[-> ->]]; [eapply task_kept; eauto | exact I].
    + cbn [step] in H. apply EOk_inj in H. apply (f_equal fst) in H. cbn [fst] in H. subst s'.
      intros t0 tk Et. destruct (Nat.eq_dec t0 t) as [->|N].
      * apply poll_send_task; eauto.
      * apply tasks_other in Et; [|exact N]. eapply task_kept; eauto.
    + cbn [step] in H. apply EOk_inj in H. apply (f_equal fst) in H. cbn [fst] in H. subst s'.
      intros t0 tk Et. apply upd_task_cases in Et as (k0 & E0 & ->).
      assert (X : task_placed (upd_task t (fun k => match tk_st k with TDone _ => k | _ => set_tk_st TGone k end) s) k0) by (eapply task_kept; eauto).
      destruct (Nat.eqb t t0); [|exact X]. destruct (tk_st k0) eqn:Es; try exact I. exact X.
  - assert (Same : s_waits s' = s_waits s -> forall t tk, nth_error (s_waits s') t = Some tk -> wait_placed s' tk).
    { intros E t tk Et. rewrite E in Et. eapply wait_kept; eauto. }
    destruct e; try (apply Same; apply (F Fwaits eq_refl)).
    + cbn [step] in H. destruct (nth_error (s_dlvs s) d) eqn:Ea; apply EOk_inj in H; apply (f_equal fst) in H; cbn [fst] in H; subst s'; [|auto].
      intros t tk Et. st_cbn_in Et. apply nth_snoc in Et as [Et|[-> ->]]; [eapply wait_kept; eauto | exact I].
    + cbn [step] in H. apply EOk_inj in H. apply (f_equal fst) in H. cbn [fst] in H. subst s'.
      intros t0 tk Et. destruct (Nat.eq_dec t0 w) as [->|N].
      * apply poll_wait_task; eauto.
      * apply waits_other in Et; [|exact N]. eapply wait_kept; eauto.
    + cbn [step] in H. apply EOk_inj in H. apply (f_equal fst) in H. cbn [fst] in H. subst s'.
      intros t0 tk Et. set (s' := upd_wait _ _ _) in *. 
      assert (Ex : exists k0, nth_error (s_waits s) t0 = Some k0 /\ (tk = k0 \/ wk_st tk = WGone)).
      { unfold s', upd_wait in Et. destruct (nth_error (s_waits s) w) as [k1|] eqn:E1; [|eauto]. st_cbn_in Et.
        rewrite nth_set_nth in Et. destruct (Nat.eqb_spec w t0) as [->|]; [|eauto]. rewrite E1 in Et. injection Et as <-.
        exists k1. split; [exact E1|]. destruct (wk_st k1); auto. }
      destruct Ex as (k0 & E0 & [->|Eg]); [eapply wait_kept; eauto|]. unfold wait_placed. rewrite Eg. exact I.
Qed.
Lemma fut_reachable : forall p s, reachable p s -> fut_inv s.
Proof.
  intros p s (id & local & rc & mfs & b & evs & os & H).
  exact (run_ind fut_inv p (fut_step p) evs _ _ _ (fut_init id local rc mfs b) H).
Qed.
