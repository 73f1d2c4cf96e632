(** * Outcomes from one application to the other: proofs *)

From Coq Require Import Strings.String ZifyBool ZifyNat ZifyN.
From Verif Require Import Base Framing SpecFraming StreamProofs ProtocolTheorems SpecOutcome EndToEndProofs SettleTheorems DispTheorems GaveRel.
Import ListNotations.

Definition gave_one (h : list ev) (s : ses) (f : frame) : Prop :=
  exists i x st, nth_error (s_dlvs s) i = Some x
    /\ ((f = disp_of x true st /\ gave_final h s i st) \/ (f = disp_of x false st /\ gave_for_now h i st)).
Definition gave_inv (h : list ev) (s : ses) : Prop :=
  no_raw_dispositions h -> forall f, In f (s_out s) -> kind_of f = KindDisposition -> gave_one h s f.

Lemma gave_keep : forall h h' s s' f, same_dlvs s s' -> gave_one h s f -> gave_one (h ++ h') s' f.
Proof.
  intros h h' s s' f K (i & x & st & E & H). destruct (K _ _ E) as (x' & E' & I & A). exists i, x', st. split; [exact E'|].
  rewrite !(disp_same x x' _ st I). destruct H as [[-> G]|[-> G]].
  - left. split; [reflexivity|]. destruct G as [G|(-> & y & Ey & Ay)]; [left; apply in_or_app; auto|]. right. split; [reflexivity|].
    exists x'. split; [exact E'|]. apply A. congruence.
  - right. split; [reflexivity|]. apply in_or_app. auto.
Qed.
Lemma step_gv : forall p e s s' os, step p e s = EOk (s', os) ->
  stable gv_rel s s' \/ (exists i st, e = EvSettle i st /\ s' = dlv_settle i st s) \/ (exists i st, e = EvUpdate i st /\ s' = dlv_update i st s)
  \/ exists d, e = EvDisposition d.
Proof.
  intros p e s s' os H. destruct e; try (left; solve [cbn [step] in H; step_er H]).
  all: cbn [step] in H; apply EOk_inj in H; apply (f_equal fst) in H; cbn [fst] in H; right; eauto 8.
Qed.
Lemma gave_step : forall p h e s s' os, gave_inv h s -> step p e s = EOk (s', os) -> gave_inv (h ++ [e]) s'.
Proof.
  intros p h e s s' os H S N f Hin D.
  assert (N' : no_raw_dispositions h) by (intros d X; apply (N d), in_or_app; auto).
  specialize (H N').
  destruct (step_gv _ _ _ _ _ S) as [(K & fs & E & F)|[(i & st & -> & ->)|[(i & st & -> & ->)|(d & ->)]]].
  - rewrite E in Hin. apply in_app_or in Hin as [Hin|Hin]; [exact (gave_keep _ _ _ _ _ K (H _ Hin D))|].
    rewrite Forall_forall in F. destruct (F _ Hin D) as (i & x & Ex & A & ->). exists i, x, dropped_outcome. split; [exact Ex|].
    left. split; [reflexivity|]. right. split; [reflexivity|]. eauto.
  - unfold dlv_settle in *. destruct (nth_error (s_dlvs s) i) as [x|] eqn:Ex.
    2:{ refine (gave_keep _ _ _ _ _ _ (H _ Hin D)). intros j y Ey. eauto. }
    destruct (negb (dl_alive x) || dl_remote x || dl_local x)%bool.
    { refine (gave_keep _ _ _ _ _ _ (H _ Hin D)). intros j y Ey. eauto. }
    assert (K : stable gv_rel s (upd_dlv i (set_dl_local true) s)) by exact _. destruct K as [K _].
    unfold post in Hin. st_cbn_in Hin. replace (s_out (upd_dlv i (set_dl_local true) s)) with (s_out s) in Hin by (symmetry; frw; reflexivity).
    apply in_app_or in Hin as [Hin|[<-|[]]].
    + exact (gave_keep _ _ _ _ _ K (H _ Hin D)).
    + exists i, (set_dl_local true x), st. split; [unfold post; st_cbn; rewrite nth_upd_dlv, Nat.eqb_refl, Ex; reflexivity|].
      left. split; [apply disp_same; reflexivity|]. left. apply in_or_app. right. left. reflexivity.
  - unfold dlv_update in *. destruct (nth_error (s_dlvs s) i) as [x|] eqn:Ex.
    2:{ refine (gave_keep _ _ _ _ _ _ (H _ Hin D)). intros j y Ey. eauto. }
    destruct (negb (dl_alive x) || dl_remote x || dl_local x)%bool.
    { refine (gave_keep _ _ _ _ _ _ (H _ Hin D)). intros j y Ey. eauto. }
    unfold post in Hin. st_cbn_in Hin. apply in_app_or in Hin as [Hin|[<-|[]]].
    + refine (gave_keep _ _ _ _ _ _ (H _ Hin D)). intros j y Ey. exists y. auto.
    + exists i, x, st. split; [exact Ex|]. right. split; [reflexivity|]. apply in_or_app. right. left. reflexivity.
  - destruct (N d). apply in_or_app. right. left. reflexivity.
Qed.
Lemma given : forall p evs id local rc mfs b r os, run p evs (ses_new id local rc mfs b) = EOk (r, os) -> no_raw_dispositions evs ->
  forall d, In (FDisposition d) (s_out r) -> gave_one evs r (FDisposition d).
Proof.
  intros p evs id local rc mfs b r os H N d Hin.
  assert (I : gave_inv ([] ++ evs) r).
  { refine (run_hist gave_inv p (gave_step p) evs [] _ _ _ _ H). intros _ f []. }
  exact (I N _ Hin eq_refl).
Qed.

(** ** The wire *)
Lemma disps_in : forall fs d, In d (disps fs) <-> In (FDisposition d) fs.
Proof.
  intros fs d. unfold disps. rewrite in_flat_map. split.
  - intros (f & Hf & Hd). destruct f; cbn [In] in Hd; try contradiction. destruct Hd as [->|[]]. exact Hf.
  - intros H. exists (FDisposition d). split; [exact H|left; reflexivity].
Qed.
Lemma disps_received : forall fs, disps (map received_frame fs) = disps fs.
Proof. induction fs as [|f fs IH]; [reflexivity|]. destruct f; try exact IH. cbn. unfold disps in IH. rewrite IH. reflexivity. Qed.
Lemma read_dispositions_back p max channel chunks fs rest : Forall (carried channel max) fs -> blen rest < 8 ->
  concat chunks = written channel fs ++ rest -> read_dispositions p max chunks = disps fs.
Proof.
  intros F R E. unfold read_dispositions.
  rewrite (amqp_stream p max (map (mk_frame channel) fs) rest chunks).
  - cbn [rd_frames]. rewrite map_map. cbn [received_amqp_frame fr_body]. rewrite map_map. cbn.
    apply disps_received.
  - apply Forall_map. revert F. apply Forall_impl. intros f [H _]. exact H.
  - apply Forall_map. revert F. apply Forall_impl. intros f [_ H]. exact H.
  - exact R.
  - rewrite E. f_equal. unfold written. clear. induction fs as [|f fs IH]; [reflexivity|]. cbn [map flat_map]. rewrite <- IH. reflexivity.
Qed.

(** ** What the other side learns *)
Lemma hist_run : forall p id local rc mfs b evs s os, run p evs (ses_new id local rc mfs b) = EOk (s, os) -> hist_inv evs s.
Proof.
  intros p id local rc mfs b evs s os H. change evs with ([] ++ evs).
  refine (run_hist hist_inv p (hist_step p) evs [] _ _ _ _ H). split; [intros [] i x y G; discriminate G|]. intros x y z G. destruct x; discriminate G.
Qed.
Lemma learned_state : forall p id local rc mfs b evs s os i st,
  run p evs (ses_new id local rc mfs b) = EOk (s, os) -> (remote_state i s = Some st \/ exists w, nth_error (s_waits s) w = Some (mk_wtask i (WDone (inl (Some st))))) ->
  exists x, nth_error (s_dlvs s) i = Some x /\ assigned evs (dl_sender x) (dl_id x) st.
Proof.
  intros p id local rc mfs b evs s os i st H [E|(w & E)]; destruct (hist_run _ _ _ _ _ _ _ _ _ H) as [H1 H2]; [|exact (H2 _ _ _ E)].
  unfold remote_state in E. destruct (nth_error (s_dlvs s) i) as [x|]; [|discriminate E]. exists x. split; [reflexivity|].
  destruct (map_get (dl_id x) (unsettled (dl_sender x) s)) as [di|] eqn:G; [|discriminate E]. exact (H1 _ _ _ _ G E).
Qed.
Lemma assigned_given : forall evs evs' s' x (ds : list disposition_t) st,
  (forall d, In (EvFrame (FDisposition d)) evs -> In d ds) -> (forall d, In d ds -> gave_one evs' s' (FDisposition d)) ->
  assigned evs (dl_sender x) (dl_id x) st ->
  exists j y, nth_error (s_dlvs s') j = Some y /\ two_ends x y /\ (gave_final evs' s' j st \/ gave_for_now evs' j st).
Proof.
  intros evs evs' s' x ds st A G (disp & Hin & Es & (Sp & Id)). destruct (G _ (A _ Hin)) as (j & y & st' & Ey & H).
  exists j, y. split; [exact Ey|].
  assert (X : exists b, FDisposition disp = disp_of y b st' /\ (gave_final evs' s' j st' \/ gave_for_now evs' j st')) by (destruct H as [[X Y]|[X Y]]; eauto).
  destruct X as (b & X & Y). unfold disp_of in X. assert (X' := X). apply (f_equal (fun f => match f with FDisposition d => d | _ => disp end)) in X'.
  rewrite X' in Es, Sp, Id. cbn [disposition_state disposition_last disposition_first] in *. unfold speaks_of in Sp. cbn [disposition_role] in Sp.
  apply Some_inj in Es. subst st'. split; [|exact Y]. split; [congruence|]. destruct (dl_sender x), (dl_sender y); cbn [role_of] in Sp; first [reflexivity|discriminate Sp].
Qed.

(** ** A settlement that arrives *)
Lemma says_covers : forall x y b st, two_ends x y -> dl_id x < two32 ->
  exists d, says y b st = FDisposition d /\ no_wrap d /\ covers d (dl_sender x) (dl_id x) /\ disposition_state d = Some st /\ disposition_settled d = b.
Proof.
  intros x y b st (I & D) L. eexists. split; [reflexivity|]. unfold no_wrap, covers, speaks_of, in_ids. cbn. rewrite I, D.
  repeat split; auto. destruct (dl_sender x); reflexivity.
Qed.
Lemma arrives_remote : forall p d s s' os i x di st, reachable p s -> s_error s = None -> no_wrap d -> step p (EvFrame (FDisposition d)) s = EOk (s', os) ->
  nth_error (s_dlvs s) i = Some x -> dl_id x < two32 -> covers d (dl_sender x) (dl_id x) -> disposition_state d = Some st ->
  outstanding (dl_sender x) (dl_id x) di s ->
  nth_error (s_dlvs s') i = Some x /\ exists di', outstanding (dl_sender x) (dl_id x) di' s' /\ di_state di' = Some st.
Proof.
  intros p d s s' os i x di st R E N H Ex L C Es O.
  destruct (dispositions p d s s' os R E N H) as (A & _ & _ & _ & _ & Ed).
  destruct (proj1 (A (dl_sender x) (dl_id x) L) C di O) as (di' & O' & _ & _ & _ & T). rewrite Es in T.
  split; [rewrite Ed; exact Ex|]. eauto.
Qed.
Lemma late_wait : forall p s s' os i x di st, nth_error (s_dlvs s) i = Some x -> dl_local x = false -> outstanding (dl_sender x) (dl_id x) di s -> di_state di = Some st ->
  step p (EvWait i) s = EOk (s', os) -> wait_gives p (length (s_waits s)) (inl (Some st)) s'.
Proof.
  intros p s s' os i x di st Ex L O Es H. cbn [step] in H. rewrite Ex in H. apply EOk_inj in H. apply (f_equal fst) in H. cbn [fst] in H. subst s'.
  assert (Ew : nth_error (s_waits s ++ [mk_wtask i WNew]) (length (s_waits s)) = Some (mk_wtask i WNew))
    by (rewrite nth_error_app2, Nat.sub_diag by lia; reflexivity).
  unfold wait_gives, wait_result. cbn [step]. eexists _, _. split; [reflexivity|]. exists i.
  unfold poll_wait. st_cbn. rewrite Ew. cbn [wk_dlv wk_st]. rewrite Ex, L.
  replace (unsettled (dl_sender x) (set_s_waits (s_waits s ++ [mk_wtask i WNew]) s)) with (unsettled (dl_sender x) s) by (destruct (dl_sender x); reflexivity).
  unfold outstanding in O. rewrite O.
  assert (C : exists di', check_inner di = (Some (inl (Some st)), di')) by (unfold check_inner; rewrite Es; destruct st; eauto).
  destruct C as (di' & ->). cbv zeta.
  match goal with |- context [upd_wait _ _ ?z] => assert (Ez : s_waits z = s_waits s ++ [mk_wtask i WNew]) by (frw; reflexivity); set (z1 := z) in * end.
  unfold upd_wait. rewrite Ez, Ew. st_cbn. rewrite nth_set_nth, Nat.eqb_refl, Ew. reflexivity.
Qed.
