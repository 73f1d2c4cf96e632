(** * What this side says about a delivery *)

From Coq Require Import ZifyBool ZifyNat ZifyN.
From Verif Require Export SettleTheorems SpecDelivery.
Import ListNotations.

Definition key_of (x : dlv) : bool * N := (dl_sender x, dl_id x).
(** It says nothing more. *)
Definition quiet (x : dlv) : Prop := dl_local x = true \/ dl_remote x = true \/ dl_alive x = false.
Definition grows (x x' : dlv) : Prop := dlv_ids x' = dlv_ids x /\ (quiet x -> quiet x').
Lemma grows_refl : forall x, grows x x.
Proof. split; auto. Qed.
Lemma grows_key : forall x x', grows x x' -> key_of x' = key_of x.
Proof. intros x x' [E _]. unfold key_of, dlv_ids in *. congruence. Qed.
Definition only (i : nat) (k : bool * N) (s : ses) : Prop :=
  forall j y, nth_error (s_dlvs s) j = Some y -> key_of y = k -> j = i.
Definition shape (x : dlv) (fs : list frame) : Prop :=
  exists n, map settles fs = repeat false n \/ (map settles fs = repeat false n ++ [true] /\ quiet x).
Definition heap_rel (s s' : ses) : Prop :=
  forall i x, nth_error (s_dlvs s) i = Some x -> exists x', nth_error (s_dlvs s') i = Some x' /\ grows x x'.
Definition ok_key (k : bool * N) (s : ses) : Prop :=
  ((forall j y, nth_error (s_dlvs s) j = Some y -> key_of y <> k) -> said (fst k) (snd k) s = [])
  /\ (forall i x, nth_error (s_dlvs s) i = Some x -> key_of x = k -> only i k s -> shape x (said (fst k) (snd k) s)).
Definition dsp_rel (s s' : ses) : Prop :=
  heap_rel s s' /\ (forall k, ok_key k s -> ok_key k s')
  /\ (forall k i x, nth_error (s_dlvs s) i = Some x -> key_of x = k -> only i k s' -> quiet x ->
        said (fst k) (snd k) s' = said (fst k) (snd k) s).
Lemma only_back : forall s s' i k, heap_rel s s' -> only i k s' -> only i k s.
Proof.
  intros s s' i k H O j y E K. apply H in E as (y' & E' & G). apply (O _ _ E'). rewrite (grows_key _ _ G). exact K.
Qed.
#[export] Instance dsp_pre : preorder dsp_rel.
Proof.
  split.
  - intros s. split; [|auto]. intros i x E. exists x. split; [exact E | apply grows_refl].
  - intros s s1 s2 (A1 & B1 & C1) (A2 & B2 & C2). refine (conj _ (conj _ _)); [|auto|].
    + intros i x E. apply A1 in E as (x1 & E1 & I1 & Q1). apply A2 in E1 as (x2 & E2 & I2 & Q2). exists x2. split; [exact E2|]. split; [congruence | auto].
    + intros k i x E K O Q. destruct (A1 _ _ E) as (x1 & E1 & G1). assert (K1 := grows_key _ _ G1).
      rewrite (C2 k i x1 E1); [|congruence|exact O|apply G1, Q]. apply (C1 k i x E K); [|exact Q]. exact (only_back _ _ _ _ A2 O).
Qed.
#[export] Instance dsp_sees : sees dsp_rel [Fdlvs; Fout].
Proof.
  intros s s' H. assert (E1 := H Fdlvs eq_refl). assert (E2 := H Fout eq_refl). cbn [same] in *. unfold dsp_rel, heap_rel, ok_key, only, said. rewrite E1, E2.
  split; [|auto]. intros i x E. exists x. split; [exact E | apply grows_refl].
Qed.
(** ** Frames that are no dispositions *)
Lemma dsp_posts : forall s s' fs, s_dlvs s' = s_dlvs s -> s_out s' = s_out s ++ fs -> (forall b id f, In f fs -> about b id f = false) -> stable dsp_rel s s'.
Proof.
  intros s s' fs E1 E2 H. assert (Es : forall b id, said b id s' = said b id s).
  { intros b id. unfold said. rewrite E2, filter_app. assert (X : filter (about b id) fs = []); [|rewrite X, app_nil_r; reflexivity].
    clear E2. induction fs as [|f fs IH]; [reflexivity|]. cbn [filter]. rewrite (H b id f (or_introl eq_refl)). apply IH. intros b' id' g Hg. apply H. right. exact Hg. }
  unfold stable, dsp_rel, heap_rel, ok_key, only. rewrite E1. refine (conj _ (conj _ _)).
  - intros i x E. exists x. split; [exact E | apply grows_refl].
  - intros k. rewrite Es. auto.
  - intros. apply Es.
Qed.
Class no_disp (f : frame) : Prop := get_no_disp : kind_of f <> KindDisposition.
#[export] Hint Extern 1 (no_disp _) => (intro; discriminate) : typeclass_instances.
#[export] Instance dsp_post f s : no_disp f -> stable dsp_rel s (post f s).
Proof.
  intros N. apply (dsp_posts _ _ [f]); try reflexivity. intros b id g [<-|[]]. destruct f; try reflexivity. destruct N. reflexivity.
Qed.
Lemma posted_dsp : forall s s' K, posted s s' K -> memk KindDisposition K = false -> s_dlvs s' = s_dlvs s -> stable dsp_rel s s'.
Proof.
  intros s s' K (fs & E & F) N Ed. apply (dsp_posts _ _ fs Ed E). intros b id f Hin. rewrite Forall_forall in F. specialize (F _ Hin). cbn beta in F.
  destruct f; try reflexivity. cbn [kind_of] in F. congruence.
Qed.
#[export] Instance dsp_transfer mfs h id tag body st fmt s : stable dsp_rel s (post_all (transfer_frames mfs h id tag body st fmt) s).
Proof. eapply posted_dsp; [apply po_transfers | reflexivity | frw; reflexivity]. Qed.
(** ** Deliveries *)
Lemma nth_upd_dlv : forall a f s i, nth_error (s_dlvs (upd_dlv a f s)) i = if Nat.eqb a i then option_map f (nth_error (s_dlvs s) i) else nth_error (s_dlvs s) i.
Proof.
  intros. unfold upd_dlv. destruct (nth_error (s_dlvs s) a) as [x|] eqn:E.
  - st_cbn. rewrite nth_set_nth. destruct (Nat.eqb_spec a i) as [<-|]; [rewrite E|]; reflexivity.
  - destruct (Nat.eqb_spec a i) as [<-|]; [rewrite E|]; reflexivity.
Qed.
Lemma heap_upd : forall a f s, (forall x, grows x (f x)) -> heap_rel s (upd_dlv a f s).
Proof.
  intros a f s H i x E. rewrite nth_upd_dlv, E. destruct (Nat.eqb a i); cbn [option_map]; eauto using grows_refl.
Qed.
Lemma heap_upd_back : forall a f s i x, (forall x, grows x (f x)) -> nth_error (s_dlvs (upd_dlv a f s)) i = Some x ->
  exists x0, nth_error (s_dlvs s) i = Some x0 /\ grows x0 x.
Proof.
  intros a f s i x H E. rewrite nth_upd_dlv in E. destruct (Nat.eqb a i); [|eauto using grows_refl].
  destruct (nth_error (s_dlvs s) i) as [x0|]; [|discriminate E]. apply Some_inj in E. subst x. eauto.
Qed.
Lemma shape_grows : forall x x' fs, grows x x' -> shape x fs -> shape x' fs.
Proof. intros x x' fs [_ Q] (n & [H|[H C]]); exists n; auto. Qed.
Lemma dsp_upd : forall a f s, (forall x, grows x (f x)) -> stable dsp_rel s (upd_dlv a f s).
Proof.
  intros a f s H. assert (Es : forall b id, said b id (upd_dlv a f s) = said b id s) by (intros; unfold said; frw; reflexivity).
  refine (conj (heap_upd a f s H) (conj _ _)); [|intros; apply Es].
  intros k [O1 O2]. split; rewrite Es.
  - intros N. apply O1. intros j y E K. destruct (heap_upd a f s H _ _ E) as (y' & E' & G). apply (N _ _ E'). rewrite (grows_key _ _ G). exact K.
  - intros i x E K O. destruct (heap_upd_back _ _ _ _ _ H E) as (x0 & E0 & G). apply (shape_grows _ _ _ G).
    apply (O2 _ _ E0); [rewrite <- (grows_key _ _ G); exact K|]. exact (only_back _ _ _ _ (heap_upd a f s H) O).
Qed.
Ltac grow := apply dsp_upd; intros x; split; [reflexivity | unfold quiet; st_cbn; intuition congruence].
#[export] Instance dsp_remote a s : stable dsp_rel s (upd_dlv a (set_dl_remote true) s).
Proof. grow. Qed.
#[export] Instance dsp_local a s : stable dsp_rel s (upd_dlv a (set_dl_local true) s).
Proof. grow. Qed.
#[export] Instance dsp_dead a s : stable dsp_rel s (upd_dlv a (set_dl_alive false) s).
Proof. grow. Qed.
(** A new delivery. *)
#[export] Instance dsp_new x s : stable dsp_rel s (set_s_dlvs (s_dlvs s ++ [x]) s).
Proof.
  assert (Hp : heap_rel s (set_s_dlvs (s_dlvs s ++ [x]) s)).
  { intros i y E. exists y. st_cbn. rewrite nth_error_app1 by (apply nth_lt in E; exact E). split; [exact E | apply grows_refl]. }
  assert (Es : forall b id, said b id (set_s_dlvs (s_dlvs s ++ [x]) s) = said b id s) by (intros; reflexivity).
  refine (conj Hp (conj _ _)); [|intros; apply Es]. intros k [O1 O2]. split; rewrite Es.
  - intros N. apply O1. intros j y E K. destruct (Hp _ _ E) as (y' & E' & G). apply (N _ _ E'). rewrite (grows_key _ _ G). exact K.
  - intros i y E K O. st_cbn_in E. destruct (Nat.lt_ge_cases i (length (s_dlvs s))) as [L|G].
    + rewrite nth_error_app1 in E by exact L. apply (O2 i y E K). exact (only_back _ _ _ _ Hp O).
    + rewrite O1; [exists 0%nat; left; reflexivity|]. intros j z Ez Kz. assert (j = i). { apply (O j z); [|exact Kz]. st_cbn. rewrite nth_error_app1 by (apply nth_lt in Ez; exact Ez). exact Ez. }
      apply nth_lt in Ez. lia.
Qed.
(** ** Saying something *)
Lemma about_disp : forall x b st k, about (fst k) (snd k) (disp_of x b st) = true <-> key_of x = k.
Proof.
  intros x b st [kb ki]. unfold about, disp_of, key_of, role_of. cbn [disposition_role disposition_last disposition_first fst snd].
  destruct (dl_sender x), kb; cbn [andb]; split; intros H; try discriminate H; try congruence.
  - apply N.eqb_eq in H. congruence.
  - injection H as ->. apply N.eqb_refl.
  - apply N.eqb_eq in H. congruence.
  - injection H as ->. apply N.eqb_refl.
Qed.
Lemma repeat_app_one : forall A (a : A) n, repeat a n ++ [a] = repeat a (S n).
Proof. intros. change [a] with (repeat a 1). rewrite <- repeat_app. f_equal. lia. Qed.
(** Delivery [i] speaks, and if this settles it is quiet afterwards. *)
Lemma dsp_say : forall i x b st s s', nth_error (s_dlvs s) i = Some x -> ~ quiet x ->
  heap_rel s s' -> (forall j y, nth_error (s_dlvs s') j = Some y -> exists y0, nth_error (s_dlvs s) j = Some y0 /\ grows y0 y) ->
  s_out s' = s_out s ++ [disp_of x b st] ->
  (forall x', nth_error (s_dlvs s') i = Some x' -> b = true -> quiet x') -> stable dsp_rel s s'.
Proof.
  intros i x b st s s' E NQ Hp Bk Eo Q.
  assert (Es : forall k, said (fst k) (snd k) s' = said (fst k) (snd k) s ++ (if about (fst k) (snd k) (disp_of x b st) then [disp_of x b st] else [])).
  { intros k. unfold said. rewrite Eo, filter_app. reflexivity. }
  assert (Ea : forall k, key_of x <> k -> said (fst k) (snd k) s' = said (fst k) (snd k) s).
  { intros k N. rewrite Es. destruct (about (fst k) (snd k) (disp_of x b st)) eqn:A; [apply about_disp in A; congruence | apply app_nil_r]. }
  refine (conj Hp (conj _ _)).
  - intros k [O1 O2]. split.
    + intros N. destruct (Hp _ _ E) as (x' & E' & G). rewrite Ea; [apply O1; intros j y Ey Ky; destruct (Hp _ _ Ey) as (y' & Ey' & Gy); apply (N _ _ Ey'); rewrite (grows_key _ _ Gy); exact Ky|].
      rewrite <- (grows_key _ _ G). exact (N _ _ E').
    + intros j y Ey Ky O. destruct (Bk _ _ Ey) as (y0 & Ey0 & G). assert (Sh : shape y0 (said (fst k) (snd k) s)).
      { apply (O2 _ _ Ey0); [rewrite <- (grows_key _ _ G); exact Ky | exact (only_back _ _ _ _ Hp O)]. }
      rewrite Es. destruct (about (fst k) (snd k) (disp_of x b st)) eqn:A; [|rewrite app_nil_r; exact (shape_grows _ _ _ G Sh)].
      apply about_disp in A. assert (i = j). { destruct (Hp _ _ E) as (x' & E' & G'). apply (O _ _ E'). rewrite (grows_key _ _ G'). exact A. } subst j.
      rewrite E in Ey0. apply Some_inj in Ey0. subst y0. destruct Sh as (n & [Sh|[_ Qx]]); [|contradiction].
      unfold shape. rewrite map_app, Sh. cbn [map settles disp_of disposition_settled]. destruct b.
      * exists n. right. split; [reflexivity|]. exact (Q _ Ey eq_refl).
      * exists (S n). left. apply repeat_app_one.
  - intros k j y Ey Ky O Qy. apply Ea. intros Kx. apply NQ. 
    assert (i = j). { destruct (Hp _ _ E) as (x' & E' & G'). apply (O _ _ E'). rewrite (grows_key _ _ G'). exact Kx. } subst j. rewrite E in Ey. apply Some_inj in Ey. subst y. exact Qy.
Qed.
Lemma alive_quiet : forall x, (negb (dl_alive x) || dl_remote x || dl_local x)%bool = false -> ~ quiet x.
Proof. intros x H [Q|[Q|Q]]; rewrite Q in H; destruct (dl_alive x), (dl_remote x), (dl_local x); discriminate. Qed.
#[export] Instance dsp_rel_dlv_update i st s : stable dsp_rel s (dlv_update i st s).
Proof.
  unfold dlv_update. destruct (nth_error (s_dlvs s) i) as [x|] eqn:E; [|apply stable_refl; exact _].
  destruct (_ || _ || _)%bool eqn:G; [apply stable_refl; exact _|]. apply alive_quiet in G.
  apply (dsp_say i x false st); auto; [|intros j y Ey; exists y; split; [exact Ey | apply grows_refl] | intros x' _ D; discriminate D].
  intros j y Ey. exists y. split; [exact Ey | apply grows_refl].
Qed.
#[export] Instance dsp_rel_dlv_settle i st s : stable dsp_rel s (dlv_settle i st s).
Proof.
  unfold dlv_settle. destruct (nth_error (s_dlvs s) i) as [x|] eqn:E; [|apply stable_refl; exact _].
  destruct (_ || _ || _)%bool eqn:G; [apply stable_refl; exact _|]. apply alive_quiet in G.
  assert (Gr : forall x, grows x (set_dl_local true x)) by (intros y; split; [reflexivity | unfold quiet; st_cbn; intuition congruence]).
  apply (dsp_say i x true st); auto.
  - intros j y Ey. destruct (heap_upd i _ s Gr _ _ Ey) as (y' & Ey' & Gy). exists y'. split; [|exact Gy]. frw. exact Ey'.
  - intros j y Ey. frw_in Ey. exact (heap_upd_back _ _ _ _ _ Gr Ey).
  - change (s_out (upd_dlv i (set_dl_local true) s) ++ [disp_of x true st] = s_out s ++ [disp_of x true st]). frw. reflexivity.
  - intros x' Ex _. frw_in Ex. rewrite nth_upd_dlv, Nat.eqb_refl, E in Ex. cbn in Ex. apply Some_inj in Ex. subst x'. left. reflexivity.
Qed.
#[export] Instance dsp_rel_dlv_drop i s : stable dsp_rel s (dlv_drop i s).
Proof.
  unfold dlv_drop. destruct (nth_error (s_dlvs s) i) as [x|] eqn:E; [|apply stable_refl; exact _].
  destruct (dl_alive x) eqn:Al; cbn [negb]; [|apply stable_refl; exact _]. cbv zeta.
  set (s1 := upd_dlv i (set_dl_alive false) s).
  assert (Gr : forall x, grows x (set_dl_alive false x)) by (intros y; split; [reflexivity | unfold quiet; st_cbn; intuition congruence]).
  destruct (map_get (dl_id x) (unsettled (dl_sender x) s1)); [|unfold s1; exact _].
  destruct (dl_remote x || dl_local x)%bool eqn:G; [unfold s1; st_chain|].
  apply (dsp_say i x true (DSRejected (mk_rejected (Some internal_error)))); auto.
  - apply alive_quiet. rewrite Al. exact G.
  - intros j y Ey. destruct (heap_upd i _ s Gr _ _ Ey) as (y' & Ey' & Gy). exists y'. split; [|exact Gy]. frw. exact Ey'.
  - intros j y Ey. unfold s1 in Ey. frw_in Ey. exact (heap_upd_back _ _ _ _ _ Gr Ey).
  - match goal with |- s_out (post ?f ?s0) = _ => change (s_out (post f s0)) with (s_out s0 ++ [f]) end. unfold s1. frw. reflexivity.
  - intros x' Ex _. unfold s1 in Ex. frw_in Ex. rewrite nth_upd_dlv, Nat.eqb_refl, E in Ex. cbn in Ex. apply Some_inj in Ex. subst x'. right. right. reflexivity.
Qed.
