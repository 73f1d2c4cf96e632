(** * Handles: the theorems *)

From Coq Require Import ZifyBool ZifyNat ZifyN.
From Verif Require Export HandleProofs RecvRun.
Import ListNotations.

(** ** The invariant: what the peer calls [h] is [x] *)
Definition J (h : N) (x : thing) (s : ses) : Prop :=
  (forall k, claims k x s -> map_get h (s_rhandles s) = Some k)
  /\ (forall i frm r a i' frm' r' a', pending_at i frm r a s -> pending_at i' frm' r' a' s ->
        attach_handle frm = h -> attach_handle frm' = h -> i = i')
  /\ (forall i frm r a, pending_at i frm r a s -> attach_handle frm = h ->
        exists l, nth_error (s_snds s) a = Some l /\ forall k, claims k x s -> k = sn_id l)
  /\ (forall i frm r a, pending_at i frm r a s -> x = XSnd a -> attach_handle frm = h)
  /\ ~ unborn x s
  /\ (forall a k, x = XRcv a -> ~ claims k (XLoc a) s).
(** Fewer claims on [x], the same table. *)
Lemma J_less : forall h x s s', J h x s -> lens s s' -> map_get h (s_rhandles s') = map_get h (s_rhandles s) ->
  (forall k y, y = x \/ (exists a, x = XRcv a /\ y = XLoc a) -> claims k y s' -> claims k y s) ->
  (forall i frm r a, pending_at i frm r a s' -> pending_at i frm r a s \/ (attach_handle frm <> h /\ x <> XSnd a)) -> stable keeps_objs s s' ->
  J h x s'.
Proof.
  intros h x s s' (A & B & C & D & U & L) Ln Rh Cl Kp [Ko _]. refine (conj _ (conj _ (conj _ (conj _ (conj _ _))))).
  - intros k Hk. rewrite Rh. apply A. apply Cl; auto.
  - intros i frm r a i' frm' r' a' P P' E E'. apply Kp in P as [P|[P _]]; [|contradiction]. apply Kp in P' as [P'|[P' _]]; [|contradiction]. eauto.
  - intros i frm r a P E. apply Kp in P as [P|[P _]]; [|contradiction]. destruct (C _ _ _ _ P E) as (l & El & Hl).
    destruct (Ko _ _ El) as (l' & El' & Ei). exists l'. split; [exact El'|]. intros k Hk. unfold snd_ids in Ei.
    rewrite (Hl k); [congruence|]. apply Cl; auto.
  - intros i frm r a P E. apply Kp in P as [P|[_ P]]; [eauto | contradiction].
  - intros H. exact (U (unborn_lens _ _ _ Ln H)).
  - intros a k E Hk. apply (L a k E). apply Cl; [|exact Hk]. right. eauto.
Qed.
Lemma born_loc : forall a s, ~ unborn (XRcv a) s -> ~ unborn (XLoc a) s.
Proof. cbn. auto. Qed.
Lemma J_born : forall h x s y, J h x s -> y = x \/ (exists a, x = XRcv a /\ y = XLoc a) -> ~ unborn y s.
Proof. intros h x s y (_ & _ & _ & _ & U & _) [->|(a & -> & ->)]; [exact U | exact U]. Qed.
Lemma claims_put : forall s i lk old k y, slab_get (s_links s) i = Some old -> (exists l, slab_get (slab_set i lk (s_links s)) k = Some l /\ is_in y l) ->
  (k = i /\ is_in y lk) \/ claims k y s.
Proof.
  intros s i lk old k y E (l & G & I). rewrite slab_get_set in G by (rewrite E; discriminate). destruct (N.eqb_spec i k) as [->|].
  - apply Some_inj in G. subst l. auto.
  - right. exists l. auto.
Qed.
Lemma claims_ins : forall s lk k y, (exists l, slab_get (slab_insert lk (s_links s)) k = Some l /\ is_in y l) -> is_in y lk \/ claims k y s.
Proof. intros s lk k y (l & G & I). apply slab_insert_inv in G as [->|G]; [auto | right; exists l; auto]. Qed.
Lemma J_attach : forall p h x frm s s' os, J h x s -> step p (EvAttach frm) s = EOk (s', os) -> attach_handle frm <> h -> J h x s'.
Proof.
  intros p h x frm s s' os Hj H N. assert (Ko := step_keeps_objs _ _ _ _ _ H). assert (Bn := J_born h x s).
  destruct (attach_cases _ _ _ _ _ H) as [-> | i tx E L R Ls Lr Lc Ct | i a tx E L R Ls Lr Lc Ct | r l L R Ls Rh Lr Lc Ct | r L R Ls Lr Lc Ct].
  - exact Hj.
  - eapply J_less; [exact Hj | unfold lens; lia | | | | exact Ko].
    + rewrite R, map_get_put. destruct (N.eqb_spec h (attach_handle frm)); [congruence | reflexivity].
    + intros k y Y Hk. unfold claims in Hk. rewrite L in Hk. destruct (claims_put _ _ _ _ _ _ E Hk) as [[-> I]|Hk']; [|exact Hk'].
      exfalso. apply (Bn y Hj Y). destruct y; cbn in I; try contradiction. subst. cbn. lia.
    + intros i0 f0 r0 a0 P. left. unfold pending_at in *. rewrite Ct in P. exact P.
  - eapply J_less; [exact Hj | unfold lens; lia | | | | exact Ko].
    + rewrite R, map_get_put. destruct (N.eqb_spec h (attach_handle frm)); [congruence | reflexivity].
    + intros k y Y Hk. unfold claims in Hk. rewrite L in Hk. destruct (claims_put _ _ _ _ _ _ E Hk) as [[-> I]|Hk']; [|exact Hk'].
      destruct y; cbn in I; try contradiction. subst a0. destruct Y as [<-|(b & _ & Y)]; [|discriminate Y].
      exfalso. destruct Hj as (_ & _ & _ & _ & _ & X). apply (X a i eq_refl). eexists. split; [exact E|]. reflexivity.
    + intros i0 f0 r0 a0 P. left. unfold pending_at in *. rewrite Ct in P. exact P.
  - assert (Ls' : length (s_snds s') = S (length (s_snds s))) by (rewrite Ls, app_length; cbn; lia).
    eapply J_less; [exact Hj | unfold lens; lia | rewrite R; reflexivity | | | exact Ko].
    + intros k y Y Hk. unfold claims in Hk. rewrite L in Hk. apply claims_ins in Hk as [I|Hk']; [destruct y; contradiction | exact Hk'].
    + intros i0 f0 r0 a0 P. unfold pending_at in *. rewrite Ct in P. destruct (Nat.lt_ge_cases i0 (length (s_ctl s))).
      * rewrite nth_error_app1 in P by assumption. auto.
      * rewrite nth_error_app2 in P by assumption. right. destruct (i0 - length (s_ctl s))%nat as [|[]]; cbn in P; [|discriminate P..].
        injection P as <- <- <-. split; [exact N|]. intros ->. apply (Bn (XSnd (length (s_snds s))) Hj); [auto|]. cbn. lia.
  - eapply J_less; [exact Hj | unfold lens; lia | | | | exact Ko].
    + rewrite R, map_get_put. destruct (N.eqb_spec h (attach_handle frm)); [congruence | reflexivity].
    + intros k y Y Hk. unfold claims in Hk. rewrite L in Hk. apply claims_ins in Hk as [I|Hk']; [|exact Hk'].
      exfalso. apply (Bn y Hj Y). destruct y; cbn in I; try contradiction. subst. cbn. lia.
    + intros i0 f0 r0 a0 P. left. unfold pending_at in *. rewrite Ct in P. destruct (Nat.lt_ge_cases i0 (length (s_ctl s))).
      * rewrite nth_error_app1 in P by assumption. auto.
      * rewrite nth_error_app2 in P by assumption. destruct (i0 - length (s_ctl s))%nat as [|[]]; discriminate P.
Qed.
Lemma J_step : forall p h x e s s' os, J h x s -> step p e s = EOk (s', os) -> (forall frm, e = EvAttach frm -> attach_handle frm <> h) -> J h x s'.
Proof.
  intros p h x e s s' os Hj H N. assert (Ko := step_keeps_objs _ _ _ _ _ H). assert (Bn := fun y => J_born h x s y Hj).
  destruct (step_kas _ _ _ _ _ H) as [(frm & ->)|Kp].
  { eapply J_attach; eauto. }
  destruct (step_clm _ _ _ _ _ H) as [(L & R & C)|[(frm & ->)|[(d & -> & Er)|(i & edit & frm & r & a & -> & P)]]].
  - eapply J_less; [exact Hj | exact L | rewrite R; reflexivity | | intros; left; apply Kp; assumption | exact Ko].
    intros k y Y Hk. destruct (C _ _ Hk) as [Hk'|U]; [exact Hk' | exfalso; exact (Bn y Y U)].
  - eapply J_attach; eauto.
  - destruct (detach_case _ _ _ _ _ Er H) as [(L & R & C)|(idx & Hi & L & R & C)].
    + eapply J_less; [exact Hj | exact L | rewrite R; reflexivity | | intros; left; apply Kp; assumption | exact Ko].
      intros k y Y Hk. destruct (C _ _ Hk) as [Hk'|U]; [exact Hk' | exfalso; exact (Bn y Y U)].
    + destruct (N.eqb_spec h (detach_handle d)) as [->|Nh].
      * assert (No : forall k, ~ claims k x s').
        { intros k Hk. destruct (C _ _ Hk) as [Nk [Hk'|U]]; [|exact (Bn x (or_introl eq_refl) U)]. destruct Hj as (A & _). apply Nk, Hi, A, Hk'. }
        destruct Hj as (A & B & Cc & D & U & Lc). refine (conj _ (conj _ (conj _ (conj _ (conj _ _))))).
        -- intros k Hk. destruct (No k Hk).
        -- intros i frm r a i' frm' r' a' P P'. apply Kp in P, P'. eauto.
        -- intros i frm r a P E. apply Kp in P. destruct (Cc _ _ _ _ P E) as (l & El & _). destruct Ko as [Ko _]. destruct (Ko _ _ El) as (l' & El' & _).
           exists l'. split; [exact El'|]. intros k Hk. destruct (No k Hk).
        -- intros i frm r a P E. apply Kp in P. eauto.
        -- intros X. exact (U (unborn_lens _ _ _ L X)).
        -- intros a k E Hk. destruct (C _ _ Hk) as [_ [Hk'|X]]; [exact (Lc a k E Hk') | subst x; exact (U X)].
      * eapply J_less; [exact Hj | exact L | | | intros; left; apply Kp; assumption | exact Ko].
        -- rewrite R, map_get_del. destruct (N.eqb_spec h (detach_handle d)); [contradiction | reflexivity].
        -- intros k y Y Hk. destruct (C _ _ Hk) as [_ [Hk'|U]]; [exact Hk' | exfalso; exact (Bn y Y U)].
  - assert (X := confirm_case _ _ _ _ _ _ _ _ _ P H). destruct (nth_error (s_snds s) a) as [l|] eqn:El.
    2:{ destruct X as (L & R & C). eapply J_less; [exact Hj | exact L | rewrite R; reflexivity | | intros; left; apply Kp; assumption | exact Ko].
        intros k y Y Hk. destruct (C _ _ Hk) as [Hk'|U]; [exact Hk' | exfalso; exact (Bn y Y U)]. }
    destruct X as (L & R & C).
    assert (Er : ~ exists frm r a, pending_at i frm r a s').
    { intros (f0 & r0 & a0 & Q). assert (nth_error (s_ctl s') i = Some None) as Z.
      { clear - P H. unfold pending_at in P. cbn [step] in H. rewrite P in H. unfold noobs, emap in H. cbn [control_ok] in H.
        destruct (attach_remote_sender _ _ _ _) as [s1|] eqn:E; [|discriminate H]. cbn [ebind] in H. apply EOk_inj in H. apply (f_equal fst) in H. cbn [fst] in H. subst s1.
        assert (F := fr_attach_remote_sender _ _ _ _ _ E Fctl eq_refl). cbn [same] in F. rewrite F. st_cbn. rewrite nth_set_nth, Nat.eqb_refl, P. reflexivity. }
      unfold pending_at in Q. congruence. }
    destruct (N.eqb_spec h (attach_handle frm)) as [Eh|Nh].
    + destruct Hj as (A & B & Cc & D & U & Lc). destruct (Cc _ _ _ _ P (eq_sym Eh)) as (l0 & El0 & Hl). rewrite El in El0. apply Some_inj in El0. subst l0.
      assert (Cl : forall k, claims k x s' -> k = sn_id l).
      { intros k Hk. destruct (C _ _ Hk) as [[-> _]|[[_ Hk']|X]]; [reflexivity | exact (Hl k Hk') | destruct (U X)]. }
      assert (Np : forall i' frm' r' a', pending_at i' frm' r' a' s' -> attach_handle frm' = h -> False).
      { intros i' frm' r' a' Q E. assert (Q0 := Kp _ _ _ _ Q). assert (i' = i) by (eapply B; eauto). subst i'. apply Er. eauto. }
      refine (conj _ (conj _ (conj _ (conj _ (conj _ _))))).
      * intros k Hk. rewrite R, map_get_put. rewrite <- Eh, N.eqb_refl. rewrite (Cl k Hk). reflexivity.
      * intros i1 f1 r1 a1 i2 f2 r2 a2 P1 P2 E1 E2. destruct (Np _ _ _ _ P1 E1).
      * intros i1 f1 r1 a1 P1 E1. destruct (Np _ _ _ _ P1 E1).
      * intros i1 f1 r1 a1 P1 E1. apply Kp in P1. eauto.
      * intros X. exact (U (unborn_lens _ _ _ L X)).
      * intros a0 k E Hk. destruct (C _ _ Hk) as [[_ Z]|[[_ Hk']|X]]; [discriminate Z | exact (Lc _ _ E Hk') | subst x; exact (U X)].
    + eapply J_less; [exact Hj | exact L | | | intros; left; apply Kp; assumption | exact Ko].
      * rewrite R, map_get_put. destruct (N.eqb_spec h (attach_handle frm)); [contradiction | reflexivity].
      * intros k y Y Hk. destruct (C _ _ Hk) as [[-> ->]|[[_ Hk']|X]]; [|exact Hk' | destruct (Bn y Y X)].
        destruct Y as [<-|(b & _ & Z)]; [|discriminate Z]. destruct Hj as (_ & _ & _ & D & _). exfalso. apply Nh. symmetry. exact (D _ _ _ _ P eq_refl).
Qed.
Lemma J_run : forall p h x evs s s' os, J h x s -> run p evs s = EOk (s', os) -> unused_handle h evs -> J h x s'.
Proof.
  intros p h x. induction evs as [|e evs IH]; intros s s' os Hj H N; cbn [run] in H.
  - apply EOk_inj in H. congruence.
  - destruct (step p e s) as [[s1 o1]|] eqn:E1; [|discriminate]. cbn [ebind] in H.
    destruct (run p evs s1) as [[s2 o2]|] eqn:E2; [|discriminate]. cbn [ebind] in H.
    apply EOk_inj in H. assert (s' = s2) by congruence. subst s'. eapply IH; [|exact E2|].
    + eapply J_step; [exact Hj | exact E1|]. intros frm ->. apply N. left. reflexivity.
    + intros frm Hi. apply N. right. exact Hi.
Qed.

(** ** History *)
Lemma pending_hist : forall p evs s s' os, run p evs s = EOk (s', os) -> forall i frm r a, pending_at i frm r a s' ->
  In (EvAttach frm) evs \/ pending_at i frm r a s.
Proof.
  intros p. induction evs as [|e evs IH]; intros s s' os H i frm r a P; cbn [run] in H.
  - apply EOk_inj in H. right. congruence.
  - destruct (step p e s) as [[s1 o1]|] eqn:E1; [|discriminate]. cbn [ebind] in H.
    destruct (run p evs s1) as [[s2 o2]|] eqn:E2; [|discriminate]. cbn [ebind] in H.
    apply EOk_inj in H. assert (s' = s2) by congruence. subst s'. destruct (IH _ _ _ E2 _ _ _ _ P) as [X|X]; [left; right; exact X|].
    destruct (step_kas _ _ _ _ _ E1) as [(f & ->)|K]; [|right; exact (K _ _ _ _ X)].
    destruct (attach_cases _ _ _ _ _ E1) as [-> | ? ? _ _ _ _ _ _ Ct | ? ? ? _ _ _ _ _ _ Ct | r0 l _ _ _ _ _ _ Ct | r0 _ _ _ _ _ Ct]; [auto|..];
      unfold pending_at in *; rewrite Ct in X; auto;
      (destruct (Nat.lt_ge_cases i (length (s_ctl s))); [rewrite nth_error_app1 in X by assumption; auto|]; rewrite nth_error_app2 in X by assumption;
       destruct (i - length (s_ctl s))%nat as [|[]]; cbn in X; try discriminate X).
    injection X as -> _ _. left. left. reflexivity.
Qed.
(** A waiting attach has its link. *)
Definition pend_born (s : ses) : Prop := forall i frm r a, pending_at i frm r a s -> (a < length (s_snds s))%nat.
Lemma pend_born_step : forall p e s s' os, pend_born s -> step p e s = EOk (s', os) -> pend_born s'.
Proof.
  intros p e s s' os B H i frm r a P. assert (Ko := step_keeps_objs _ _ _ _ _ H).
  assert (Ln : (length (s_snds s) <= length (s_snds s'))%nat).
  { destruct Ko as [Ko _]. destruct (length (s_snds s)) as [|n] eqn:En; [lia|]. destruct (nth_error (s_snds s) n) as [l|] eqn:El.
    - destruct (Ko _ _ El) as (l' & El' & _). assert (n < length (s_snds s'))%nat by (apply nth_error_Some; congruence). lia.
    - apply nth_error_None in El. lia. }
  destruct (step_kas _ _ _ _ _ H) as [(f & ->)|K]; [|apply K, B in P; lia].
  destruct (attach_cases _ _ _ _ _ H) as [-> | ? ? _ _ _ _ _ _ Ct | ? ? ? _ _ _ _ _ _ Ct | r0 l _ _ Es _ _ _ Ct | r0 _ _ _ _ _ Ct];
    [exact (B _ _ _ _ P) |..]; unfold pending_at in P; rewrite Ct in P.
  - apply B in P. lia.
  - apply B in P. lia.
  - destruct (Nat.lt_ge_cases i (length (s_ctl s))); [rewrite nth_error_app1 in P by assumption; apply B in P; lia|].
    rewrite nth_error_app2 in P by assumption. destruct (i - length (s_ctl s))%nat as [|[]]; cbn in P; try discriminate P.
    assert (a = length (s_snds s)) as -> by congruence. rewrite Es, app_length. cbn. lia.
  - destruct (Nat.lt_ge_cases i (length (s_ctl s))); [rewrite nth_error_app1 in P by assumption; apply B in P; lia|].
    rewrite nth_error_app2 in P by assumption. destruct (i - length (s_ctl s))%nat as [|[]]; cbn in P; discriminate P.
Qed.
Lemma pend_born_reachable : forall p s, reachable p s -> pend_born s.
Proof.
  intros p s (id & local & rc & mfs & b & evs & os & H). refine (run_ind pend_born p _ evs _ _ _ _ H).
  - intros e s1 s2 o B E. exact (pend_born_step _ _ _ _ _ B E).
  - intros i frm r a P. unfold pending_at in P. cbn in P. destruct i; discriminate P.
Qed.
(** The slots of a run. *)
Lemma run_slots : forall p evs s s' os, lk_inv [] s -> N.of_nat (nslots s) + links_opened evs <= 2 ^ 32 -> run p evs s = EOk (s', os) ->
  lk_inv [] s' /\ N.of_nat (nslots s') <= 2 ^ 32.
Proof.
  intros p. induction evs as [|e evs IH]; intros s s' os I B H; cbn [run] in H.
  - apply EOk_inj in H. assert (s' = s) by congruence. subst s'. split; [exact I | lia].
  - destruct (step p e s) as [[s1 o1]|] eqn:E1; [|discriminate]. cbn [ebind] in H.
    destruct (run p evs s1) as [[s2 o2]|] eqn:E2; [|discriminate]. cbn [ebind] in H.
    apply EOk_inj in H. assert (s' = s2) by congruence. subst s'. eapply IH; [exact (step_lk _ _ _ _ _ E1 I) | | exact E2].
    unfold links_opened in *. cbn [filter] in B. destruct (opens_link e) eqn:Eo.
    + assert (X := step_len_open _ _ _ _ _ E1). cbn [length] in B. lia.
    + assert (X := step_len _ _ _ _ _ E1 Eo). unfold stable, len_rel in X. lia.
Qed.
Lemma start_slots : forall p evs id local rc mfs b s os, run p evs (ses_new id local rc mfs b) = EOk (s, os) -> links_opened evs <= 2 ^ 32 ->
  lk_inv [] s /\ slots_fit s.
Proof.
  intros p evs id local rc mfs b s os H B. destruct (run_slots _ _ _ _ _ (lk_new id local rc mfs b) ltac:(cbn; exact B) H) as [I L].
  split; [exact I|]. unfold slots_fit, nslots in *. change two32 with (2 ^ 32). exact L.
Qed.
Lemma run_app : forall p evs1 evs2 s s1 s2 os1 os2, run p evs1 s = EOk (s1, os1) -> run p evs2 s1 = EOk (s2, os2) -> run p (evs1 ++ evs2) s = EOk (s2, os1 ++ os2).
Proof.
  intros p. induction evs1 as [|e evs1 IH]; intros evs2 s s1 s2 os1 os2 H1 H2; cbn [run app] in *.
  - apply EOk_inj in H1. injection H1 as <- <-. exact H2.
  - destruct (step p e s) as [[s0 o0]|]; [|discriminate]. cbn [ebind] in *. destruct (run p evs1 s0) as [[sx ox]|] eqn:E; [|discriminate]. cbn [ebind] in *.
    apply EOk_inj in H1. injection H1 as <- <-. rewrite (IH _ _ _ _ _ _ E H2). cbn [ebind]. rewrite app_assoc. reflexivity.
Qed.
Lemma run_one : forall p e s s' os, step p e s = EOk (s', os) -> run p [e] s = EOk (s', os ++ []).
Proof. intros p e s s' os H. cbn [run]. rewrite H. reflexivity. Qed.

(** ** An attach begins_link the link *)
Definition thing_of (x : link_ref) : thing := match x with LSender a => XSnd a | LReceiver a => XRcv a end.
Lemma claims_snd_born : forall s k a, lk_inv [] s -> claims k (XSnd a) s -> (a < length (s_snds s))%nat.
Proof.
  intros s k a (_ & _ & Ss & _) (lk & G & I). destruct lk; cbn in I; try contradiction. subst a0. destruct (Ss _ _ G) as (l & El & _). apply nth_error_Some. congruence.
Qed.
Lemma rcv_holds : forall a lk, is_in (XRcv a) lk \/ is_in (XLoc a) lk -> holds_rcv a lk = true.
Proof. intros a [| | | |[[]|]|[[]|]| |] [I|I]; cbn in I; try contradiction; subst; cbn; apply Nat.eqb_refl. Qed.
Lemma claims_rcv_born : forall s k a, lk_inv [] s -> slots_fit s -> claims k (XRcv a) s \/ claims k (XLoc a) s -> (a < length (s_rcvs s))%nat.
Proof.
  intros s k a (_ & Rs & _) F H. assert (exists lk, slab_get (s_links s) k = Some lk /\ holds_rcv a lk = true) as (lk & G & E).
  { destruct H as [(lk & G & I)|(lk & G & I)]; exists lk; (split; [exact G | apply rcv_holds; auto]). }
  destruct (Rs F _ _ _ G E) as (l & El & _). apply nth_error_Some. congruence.
Qed.
Lemma no_pending_J : forall h x s, (forall i frm r a, pending_at i frm r a s -> attach_handle frm <> h) -> pend_born s ->
  (forall k, claims k x s -> map_get h (s_rhandles s) = Some k) -> ~ unborn x s -> (forall a k, x = XRcv a -> ~ claims k (XLoc a) s) ->
  (forall i frm r a, pending_at i frm r a s -> x <> XSnd a) -> J h x s.
Proof.
  intros h x s N B A U L X. refine (conj A (conj _ (conj _ (conj _ (conj U L))))).
  - intros i frm r a i' frm' r' a' P _ E. destruct (N _ _ _ _ P E).
  - intros i frm r a P E. destruct (N _ _ _ _ P E).
  - intros i frm r a P E. destruct (X _ _ _ _ P E).
Qed.
Lemma begins_J : forall p frm x s s' os, step p (EvAttach frm) s = EOk (s', os) -> begins_link x frm s s' -> lk_inv [] s -> slots_fit s' -> pend_born s ->
  (forall i f r a, pending_at i f r a s -> attach_handle f <> attach_handle frm) -> J (attach_handle frm) (thing_of x) s'.
Proof.
  intros p frm x s s' os H Hb I F Pb Np. assert (I' := step_lk _ _ _ _ _ H I). assert (Pb' := pend_born_step _ _ _ _ _ Pb H).
  assert (Fs : slots_fit s).
  { unfold slots_fit in *. assert (length (sl_items (s_links s)) <= length (sl_items (s_links s')))%nat; [|lia].
    destruct (attach_cases _ _ _ _ _ H) as [-> | i tx E L _ _ _ _ _ | i a tx E L _ _ _ _ _ | r l L _ _ _ _ _ _ | r L _ _ _ _ _]; [lia | rewrite L..].
    - rewrite slab_set_length. lia.
    - rewrite slab_set_length. lia.
    - destruct (slab_insert_length _ (s_links s) SOpeningRemote). lia.
    - destruct (slab_insert_length _ (s_links s) (ROpening (Some (length (s_rcvs s), attach_source frm)))). lia. }
  destruct (attach_cases _ _ _ _ _ H) as [-> | i tx E L R Ls Lr Lc Ct | i a tx E L R Ls Lr Lc Ct | r l L R Ls Rh Lr Lc Ct | r L R Ls Lr Lc Ct].
  - destruct x as [a|a]; cbn [begins_link] in Hb; [lia|]. destruct Hb as [[_ Hb]|[Hb Hb']]; [lia | contradiction].
  - destruct x as [a|a].
    + cbn [begins_link] in Hb. destruct Hb as [-> _]. cbn [thing_of]. apply no_pending_J; auto.
      * intros i0 f r a P. unfold pending_at in P. rewrite Ct in P. eauto.
      * intros k Hk. unfold claims in Hk. rewrite L in Hk. destruct (claims_put _ _ _ _ _ _ E Hk) as [[-> _]|Hk'].
        -- rewrite R, map_get_put, N.eqb_refl. reflexivity.
        -- apply claims_snd_born in Hk'; [lia | exact I].
      * cbn. lia.
      * discriminate.
      * intros i0 f r a P X. unfold pending_at in P. rewrite Ct in P. apply Pb in P. injection X as <-. lia.
    + exfalso. cbn [begins_link] in Hb. destruct Hb as [[_ Hb]|[Hb (k & Hk)]]; [lia|]. apply Hb. exists k. rewrite L in Hk.
      rewrite slab_get_set in Hk by (rewrite E; discriminate). destruct (i =? k); [discriminate Hk | exact Hk].
  - destruct x as [b|b]; [cbn [begins_link] in Hb; lia|]. cbn [begins_link] in Hb. destruct Hb as [[_ Hb]|[Hb (k & Hk)]]; [lia|].
    assert (b = a /\ k = i) as [-> ->].
    { rewrite L in Hk. rewrite slab_get_set in Hk by (rewrite E; discriminate). destruct (N.eqb_spec i k) as [->|].
      - apply Some_inj in Hk. split; congruence.
      - exfalso. apply Hb. exists k. exact Hk. }
    cbn [thing_of]. apply no_pending_J; auto.
    + intros i0 f r c P. unfold pending_at in P. rewrite Ct in P. eauto.
    + intros k (lk & G & Ii). rewrite R, map_get_put, N.eqb_refl. f_equal.
      eapply (handle_unique [] s' i k (REstablished a) lk a I' F Hk); [apply holds_est | exact G | apply rcv_holds; auto].
    + cbn. assert (a < length (s_rcvs s'))%nat; [|lia]. apply (claims_rcv_born s' i a I' F). left. exists (REstablished a). split; [exact Hk | reflexivity].
    + intros c k X (lk & G & Ii). injection X as <-. assert (k = i). { symmetry. eapply (handle_unique [] s' i k _ lk a I' F Hk); [apply holds_est | exact G | apply rcv_holds; auto]. }
      subst k. rewrite Hk in G. apply Some_inj in G. subst lk. destruct Ii.
    + discriminate.
  - assert (Ls' : length (s_snds s') = S (length (s_snds s))) by (rewrite Ls, app_length; cbn; lia).
    destruct x as [a|a].
    + cbn [begins_link] in Hb. destruct Hb as [-> _]. cbn [thing_of].
      assert (Nc : forall k, ~ claims k (XSnd (length (s_snds s))) s').
      { intros k Hk. unfold claims in Hk. rewrite L in Hk. apply claims_ins in Hk as [Ii|Hk']; [destruct Ii|]. apply claims_snd_born in Hk'; [lia | exact I]. }
      assert (Cs : forall i f r0 a, pending_at i f r0 a s' -> (pending_at i f r0 a s /\ (i < length (s_ctl s))%nat) \/ (i = length (s_ctl s) /\ f = frm /\ a = length (s_snds s))).
      { intros i f r0 a P. unfold pending_at in *. rewrite Ct in P. destruct (Nat.lt_ge_cases i (length (s_ctl s))); [rewrite nth_error_app1 in P by assumption; auto|].
        rewrite nth_error_app2 in P by assumption. destruct (i - length (s_ctl s))%nat as [|[]] eqn:Ed; cbn in P; try discriminate P. right. injection P as -> _ ->. split; [lia | auto]. }
      refine (conj _ (conj _ (conj _ (conj _ (conj _ _))))).
      * intros k Hk. destruct (Nc k Hk).
      * intros i f r0 a i' f' r0' a' P P' E E'. apply Cs in P as [[P _]|(-> & _)]; [destruct (Np _ _ _ _ P E)|]. apply Cs in P' as [[P' _]|(-> & _)]; [destruct (Np _ _ _ _ P' E') | reflexivity].
      * intros i f r0 a P E. apply Cs in P as [[P _]|(_ & _ & ->)]; [destruct (Np _ _ _ _ P E)|]. exists l. split.
        -- rewrite Ls, nth_error_app2, Nat.sub_diag by lia. reflexivity.
        -- intros k Hk. destruct (Nc k Hk).
      * intros i f r0 a P X. apply Cs in P as [[P _]|(_ & -> & _)]; [|reflexivity]. apply Pb in P. injection X as <-. lia.
      * cbn. lia.
      * discriminate.
    + exfalso. cbn [begins_link] in Hb. destruct Hb as [[_ Hb]|[Hb (k & Hk)]]; [lia|]. apply Hb. exists k. rewrite L in Hk. apply slab_insert_inv in Hk as [Hk|Hk]; [discriminate Hk | exact Hk].
  - destruct x as [a|a]; [cbn [begins_link] in Hb; lia|]. cbn [begins_link] in Hb. destruct Hb as [[-> _]|[Hb (k & Hk)]].
    2:{ exfalso. apply Hb. exists k. rewrite L in Hk. apply slab_insert_inv in Hk as [Hk|Hk]; [discriminate Hk | exact Hk]. }
    assert (Wf : slab_wf (s_links s)) by (destruct I; assumption).
    cbn [thing_of]. apply no_pending_J; auto.
    + intros i0 f r0 c P. unfold pending_at in P. rewrite Ct in P. destruct (Nat.lt_ge_cases i0 (length (s_ctl s))); [rewrite nth_error_app1 in P by assumption; eauto|].
      rewrite nth_error_app2 in P by assumption. destruct (i0 - length (s_ctl s))%nat as [|[]]; discriminate P.
    + intros k (lk & G & Ii). rewrite R, map_get_put, N.eqb_refl. f_equal. rewrite L, slab_get_insert in G by exact Wf. destruct (N.eqb_spec (slab_key (s_links s)) k) as [E|]; [exact E|].
      exfalso. assert (length (s_rcvs s) < length (s_rcvs s))%nat; [|lia]. apply (claims_rcv_born s k _ I Fs). left. exists lk. auto.
    + cbn. lia.
    + intros c k X Hk. injection X as <-. unfold claims in Hk. rewrite L in Hk. apply claims_ins in Hk as [Ii|Hk']; [destruct Ii|].
      assert (length (s_rcvs s) < length (s_rcvs s))%nat; [|lia]. apply (claims_rcv_born s k _ I Fs). auto.
    + discriminate.
Qed.
Lemma open_claims : forall x s, is_open x s -> exists k, claims k (thing_of x) s /\ slab_get (s_links s) k = Some (match x with LSender a => SEstablished a | LReceiver a => REstablished a end).
Proof. intros [a|a] s (k & E); exists k; (split; [|exact E]); eexists; (split; [exact E | reflexivity]). Qed.

(** ** What the frames reach *)
Lemma step_detach_rcv : forall p d s s' os a l i, s_error s = None -> map_get (detach_handle d) (s_rhandles s) = Some i ->
  slab_get (s_links s) i = Some (REstablished a) -> nth_error (s_rcvs s) a = Some l -> step p (EvFrame (FDetach d)) s = EOk (s', os) ->
  s' = control (KRemoteDetachReceiver (mk_detach (detach_handle d) (detach_closed d) None) a)
         (let s1 := rcv_remote_detached a (detach_error d) (post (detach_frame (rc_handle l) true None) (fail_unsettled false (rc_handle l) (ELinkDetached (detach_error d)) s)) in
          set_s_rhandles (map_del (detach_handle d) (s_rhandles s1)) (remove_link i s1)).
Proof.
  intros p d s s' os a l i Er Eh Es El H. cbn [step] in H. unfold ses_handle_frame in H. rewrite Er in H.
  unfold handle_detach in H. rewrite Eh, Es, El in H. cbn [ebind] in H. cbv zeta in *. apply EOk_inj in H. apply (f_equal fst) in H. cbn [fst] in H.
  subst s'. reflexivity.
Qed.
Lemma J_reaches : forall p h x s, J h (thing_of x) s -> lk_inv [] s -> slots_fit s -> s_error s = None -> is_open x s -> reaches p h x s.
Proof.
  intros p h x s (A & _) I F Er Ho. destruct (open_claims _ _ Ho) as (k & Hk & G). assert (Eh := A k Hk). destruct x as [a|a]; cbn [reaches].
  - split.
    + intros f s' os E H. cbn [step] in H. unfold ses_handle_frame in H. rewrite Er, E, Eh, G in H. cbn [ebind] in H.
      apply EOk_inj in H. apply (f_equal fst) in H. cbn [fst dispatch] in H. subst s'. reflexivity.
    + intros d s' os E H. destruct I as (_ & _ & Ss & _). destruct (Ss _ _ G) as (l & El & _).
      assert (Ns : names_sender d a s) by (exists k; rewrite E; auto).
      destruct (step_detach _ _ _ _ _ _ _ Er Ns El H) as (i & _ & ->). unfold control, detach_mid. frw. st_cbn. frw. st_cbn. reflexivity.
  - split.
    + intros t E. unfold arrival. rewrite Er, E, Eh, G, Nat.eqb_refl. split; [reflexivity|]. intros b Nb. destruct (Nat.eqb_spec b a); [contradiction | reflexivity].
    + intros d s' os E H. destruct I as (_ & Rs & _). destruct (Rs F _ _ _ G (holds_est a)) as (l & El & _). rewrite <- E in Eh.
      rewrite (step_detach_rcv _ _ _ _ _ _ _ _ Er Eh G El H). unfold control. cbv zeta. rewrite E. frw. st_cbn. frw. reflexivity.
Qed.

(** ** Distinct handles *)
Lemma open_slot : forall x s h, lk_inv [] s -> slots_fit s -> is_open x s -> own_handle x s h ->
  slab_get (s_links s) h = Some (match x with LSender a => SEstablished a | LReceiver a => REstablished a end).
Proof.
  intros x s h (_ & Rs & Ss & _) F Ho Hh. destruct (open_claims _ _ Ho) as (k & _ & G). assert (Lt : k < two32). { apply slab_get_lt in G. unfold slots_fit in F. lia. }
  destruct x as [a|a].
  - destruct Hh as (l & El & ->). destruct (Ss _ _ G) as (l' & El' & Ei). rewrite El in El'. apply Some_inj in El'. subst l'. rewrite Ei. unfold as_u32. rewrite N.mod_small by exact Lt. exact G.
  - destruct Hh as (l & El & ->). destruct (Rs F _ _ _ G (holds_est a)) as (l' & El' & Ei & _). rewrite El in El'. apply Some_inj in El'. subst l'. rewrite Ei. exact G.
Qed.
Lemma distinct_handles : forall p evs id local rc mfs b s os x y h h', run p evs (ses_new id local rc mfs b) = EOk (s, os) -> links_opened evs <= 2 ^ 32 ->
  is_open x s -> is_open y s -> x <> y -> own_handle x s h -> own_handle y s h' -> h <> h'.
Proof.
  intros p evs id local rc mfs b s os x y h h' H L Hx Hy N Ex Ey E. subst h'. destruct (start_slots _ _ _ _ _ _ _ _ _ H L) as [I F].
  assert (X := open_slot _ _ _ I F Hx Ex). assert (Y := open_slot _ _ _ I F Hy Ey). rewrite X in Y. apply Some_inj in Y. destruct x, y; try discriminate Y; congruence.
Qed.

(** ** Futures of a close *)
Lemma detach_sender_claims : forall id cl e tx s, waits_on tx (detach_sender id cl e tx s) -> claims id (XChan tx) (detach_sender id cl e tx s).
Proof.
  intros id cl e tx s W. unfold detach_sender in *.
  destruct (slab_get (s_links s) id) as [[]|] eqn:E; try (destruct (fire_done tx VOk s W));
  (exists (SClosing (Some tx)); split; [frw; rewrite put_link_get by congruence; rewrite N.eqb_refl|]; reflexivity).
Qed.
Lemma detach_receiver_claims : forall id cl e tx s s' a, slab_get (s_links s) id = Some (REstablished a) -> detach_receiver id cl e tx s = EOk s' -> claims id (XChan tx) s'.
Proof.
  intros id cl e tx s s' a G H. unfold detach_receiver in H. rewrite G in H. apply EOk_inj in H. subst s'.
  exists (RClosing (Some tx)). split; [frw; rewrite put_link_get by congruence; rewrite N.eqb_refl|]; reflexivity.
Qed.
Lemma close_claims : forall p x e s s' os, lk_inv [] s -> slots_fit s -> is_open x s -> closes x e s -> step p e s = EOk (s', os) -> still_waits (next_future s) s' ->
  exists h, own_handle x s h /\ claims h (XChan (next_future s)) s'.
Proof.
  intros p x e s s' os I F Ho C H W. unfold next_future, still_waits in *. destruct (open_claims _ _ Ho) as (k & Hk & G).
  destruct e, x as [a'|a']; try destruct C; cbn [step] in H.
  - apply EOk_inj in H. apply (f_equal fst) in H. cbn [fst] in H. subst s'. unfold ses_detach_sender, new_chan in *.
    exists h. split; [exists x; auto|]. apply detach_sender_claims. exact W.
  - unfold noobs in H. destruct (ses_detach_receiver h e s) as [s1|] eqn:E; [|discriminate H]. cbn in H. apply EOk_inj in H. apply (f_equal fst) in H. cbn [fst] in H. subst s'.
    unfold ses_detach_receiver, new_chan in E. exists h. split; [exists x; auto|]. eapply detach_receiver_claims; [|exact E]. st_cbn.
    exact (open_slot (LReceiver a') s h I F Ho (ex_intro _ x H0)).
  - apply EOk_inj in H. apply (f_equal fst) in H. cbn [fst] in H. subst s'. unfold snd_close in *.
    destruct (nth_error (s_snds s) a) as [l|] eqn:El; [|apply nth_lt in W; lia]. destruct (sn_closed l); [apply nth_lt in W; lia|].
    unfold new_chan in *. set (s1 := notify_lock_snd _ _) in *.
    assert (E1 : length (s_chans s1) = length (s_chans s)).
    { unfold s1. assert (Nl : forall s2, length (s_chans (notify_lock_snd a s2)) = length (s_chans s2)).
      { intros s2. unfold notify_lock_snd. destruct (nth_error (s_snds s2) a); [|reflexivity]. frw. rewrite !fire_all_len. reflexivity. }
      rewrite Nl. frw. reflexivity. }
    rewrite <- E1 in W |- *. exists (as_u32 (sn_id l)). split; [exists l; auto|]. apply detach_sender_claims. exact W.
  - unfold noobs in H. destruct (rcv_close a e s) as [s1|] eqn:E; [|discriminate H]. cbn in H. apply EOk_inj in H. apply (f_equal fst) in H. cbn [fst] in H. subst s'.
    unfold rcv_close in E. destruct (nth_error (s_rcvs s) a) as [l|] eqn:El; [|apply EOk_inj in E; subst s1; apply nth_lt in W; lia].
    unfold new_chan in E. destruct (rc_closed l).
    + cbn [ebind] in E. apply EOk_inj in E. subst s1. frw_in W. destruct (fire_done (length (s_chans s)) VOk _ W).
    + destruct (detach_receiver _ _ _ _ _) as [s2|] eqn:E2; [|discriminate E]. cbn [ebind] in E. apply EOk_inj in E. subst s1.
      exists (rc_handle l). split; [exists l; auto|]. unfold claims. frw. eapply detach_receiver_claims; [|exact E2]. st_cbn.
      exact (open_slot (LReceiver a) s _ I F Ho (ex_intro _ l (conj El eq_refl))).
Qed.
(** A future of a close never becomes one of an attach. *)
Definition no_open (c : nat) (s : ses) : Prop := (c < length (s_chans s))%nat /\ forall k, ~ claims k (XOpen c) s.
Lemma no_open_step : forall p e c s s' os, no_open c s -> step p e s = EOk (s', os) -> no_open c s'.
Proof.
  intros p e c s s' os [L N] H.
  assert (X : (length (s_chans s) <= length (s_chans s'))%nat /\ forall k, claims k (XOpen c) s' -> claims k (XOpen c) s \/ unborn (XOpen c) s).
  { destruct (step_clm _ _ _ _ _ H) as [(Ln & _ & C)|[(frm & ->)|[(d & -> & Er)|(i & edit & frm & r & a & -> & P)]]].
    - unfold lens in Ln. split; [lia | auto].
    - destruct (attach_cases _ _ _ _ _ H) as [-> | i tx E Lk R Ls Lr Lc Ct | i a tx E Lk R Ls Lr Lc Ct | r l Lk R Ls Rh Lr Lc Ct | r Lk R Ls Lr Lc Ct].
      + auto.
      + split; [lia|]. intros k Hk. unfold claims in Hk. rewrite Lk in Hk. destruct (claims_put _ _ _ _ _ _ E Hk) as [[_ []]|Hk']; auto.
      + split; [lia|]. intros k Hk. unfold claims in Hk. rewrite Lk in Hk. destruct (claims_put _ _ _ _ _ _ E Hk) as [[_ []]|Hk']; auto.
      + split; [lia|]. intros k Hk. unfold claims in Hk. rewrite Lk in Hk. apply claims_ins in Hk as [[]|Hk']; auto.
      + split; [lia|]. intros k Hk. unfold claims in Hk. rewrite Lk in Hk. apply claims_ins in Hk as [[]|Hk']; auto.
    - destruct (detach_case _ _ _ _ _ Er H) as [(Ln & _ & C)|(idx & _ & Ln & _ & C)]; unfold lens in Ln; (split; [lia|]); [auto|]. intros k Hk. destruct (C _ _ Hk) as [_ X]. exact X.
    - assert (X := confirm_case _ _ _ _ _ _ _ _ _ P H). destruct (nth_error (s_snds s) a).
      + destruct X as (Ln & _ & C). unfold lens in Ln. split; [lia|]. intros k Hk. destruct (C _ _ Hk) as [[_ Z]|[[_ Z]|Z]]; [discriminate Z | auto | auto].
      + destruct X as (Ln & _ & C). unfold lens in Ln. split; [lia | auto]. }
  destruct X as [L' C]. split; [lia|]. intros k Hk. destruct (C k Hk) as [Hk'|U]; [exact (N k Hk') | cbn in U; lia].
Qed.
Lemma claims_place : forall k c s, claims k (XChan c) s \/ claims k (XOpen c) s -> at_place (PSlot k) c s.
Proof.
  intros k c s [(lk & G & I)|(lk & G & I)]; exists lk; (split; [exact G|]); destruct lk as [| |[]|[]|[[]|]|[[]|]| |[]]; cbn in I; try contradiction; subst; reflexivity.
Qed.
Lemma place_claims : forall k c s, at_place (PSlot k) c s -> claims k (XChan c) s \/ claims k (XOpen c) s.
Proof.
  intros k c s (lk & G & I). destruct lk as [| |[]|[]|[[]|]|[[]|]| |[]]; cbn in I; try discriminate I; apply Some_inj in I; subst;
    (first [left; eexists; split; [exact G | reflexivity] | right; eexists; split; [exact G | reflexivity]]).
Qed.
Lemma close_answer : forall p d c k s s' os, s_error s = None -> map_get (detach_handle d) (s_rhandles s) = Some k -> claims k (XChan c) s -> still_waits c s ->
  step p (EvFrame (FDetach d)) s = EOk (s', os) -> nth_error (s_chans s') c = Some (CSent (close_result d)).
Proof.
  intros p d c k s s' os Er Eh (lk & G & I) W H. cbn [step] in H. unfold ses_handle_frame in H. rewrite Er in H.
  unfold handle_detach in H. rewrite Eh, G in H.
  assert (Ea : nth_error (s_chans (answer (Some c) (detach_error d) s)) c = Some (CSent (close_result d))).
  { unfold answer, fire_opt, close_result. apply fire_self. exact W. }
  assert (Kr : stable chan_rel (answer (Some c) (detach_error d) s) (set_s_rhandles (map_del (detach_handle d) (s_rhandles (answer (Some c) (detach_error d) s))) (remove_link k (answer (Some c) (detach_error d) s)))).
  { eapply stable_trans; [exact _ | apply chan_remove_link | st_chain]. }
  destruct Kr as [_ Kr].
  destruct lk as [| |[]|[c'|]|[[]|]|[[]|]| |[c'|]]; cbn in I; try contradiction; subst c'; cbn [ebind] in H; cbv zeta in H; apply EOk_inj in H; apply (f_equal fst) in H; cbn [fst dispatch] in H; subst s'.
  all: eapply Kr; [exact Ea | discriminate].
Qed.

(** ** The hypotheses of the theorems *)
Section History.
Variables (p : profile) (id : N) (local : bool) (rc mfs : N) (b : begin_t) (evs1 evs2 : list ev) (frm : attach_t) (x : link_ref)
  (s1 s2 s3 : ses) (os1 os2 os3 : list obs).
Hypothesis H1 : run p evs1 (ses_new id local rc mfs b) = EOk (s1, os1).
Hypothesis H2 : step p (EvAttach frm) s1 = EOk (s2, os2).
Hypothesis H3 : run p evs2 s2 = EOk (s3, os3).
Hypothesis Hb : begins_link x frm s1 s2.
Hypothesis Hp : none_waits (attach_handle frm) s1.
Hypothesis Hu : unused_handle (attach_handle frm) evs2.
Hypothesis Hl : links_opened (evs1 ++ EvAttach frm :: evs2) <= 2 ^ 32.
Lemma opened_app : forall l m, links_opened (l ++ m) = links_opened l + links_opened m.
Proof. intros. unfold links_opened. rewrite filter_app, app_length. lia. Qed.
Lemma hist_run2 : run p (evs1 ++ [EvAttach frm]) (ses_new id local rc mfs b) = EOk (s2, os1 ++ os2 ++ []).
Proof. eapply run_app; [exact H1 | exact (run_one _ _ _ _ _ H2)]. Qed.
Lemma hist_run3 : run p (evs1 ++ EvAttach frm :: evs2) (ses_new id local rc mfs b) = EOk (s3, (os1 ++ os2 ++ []) ++ os3).
Proof. change (EvAttach frm :: evs2) with ([EvAttach frm] ++ evs2). rewrite app_assoc. eapply run_app; [exact hist_run2 | exact H3]. Qed.
Lemma hist_slots : lk_inv [] s3 /\ slots_fit s3.
Proof. eapply start_slots; [exact hist_run3 | exact Hl]. Qed.
Lemma hist_J : J (attach_handle frm) (thing_of x) s3.
Proof.
  assert (L := Hl). change (EvAttach frm :: evs2) with ([EvAttach frm] ++ evs2) in L. rewrite !opened_app in L.
  destruct (start_slots _ _ _ _ _ _ _ _ _ H1) as [I1 _]; [lia|].
  destruct (start_slots _ _ _ _ _ _ _ _ _ hist_run2) as [_ F2]; [rewrite opened_app; lia|].
  eapply J_run; [|exact H3|].
  - eapply begins_J; [exact H2 | exact Hb | exact I1 | exact F2 | |].
    + apply (pend_born_reachable p). repeat eexists. exact H1.
    + intros i f r a P. unfold pending_at in P. apply nth_error_In in P. exact (Hp _ _ _ P).
  - exact Hu.
Qed.
Lemma hist_reach : reachable p s3.
Proof. repeat eexists. exact hist_run3. Qed.
(** C38 *)
Lemma routed : s_error s3 = None -> is_open x s3 -> reaches p (attach_handle frm) x s3.
Proof. intros Er Ho. destruct hist_slots as [I F]. exact (J_reaches _ _ _ _ hist_J I F Er Ho). Qed.
(** C39 *)
Lemma answered : forall d s' os, s_error s3 = None -> is_open x s3 -> detach_handle d = attach_handle frm -> step p (EvFrame (FDetach d)) s3 = EOk (s', os) ->
  exists f, detach_answer x d s3 f /\ s_out s' = s_out s3 ++ [f] /\ ~ is_open x s'.
Proof.
  intros d s' os Er Ho Eh H. destruct hist_slots as [I F]. destruct (open_claims _ _ Ho) as (k & Hk & G). assert (A := hist_J). destruct A as (A & _). assert (Em := A k Hk). rewrite <- Eh in Em.
  assert (Un : forall k', claims k' (thing_of x) s3 -> k' = k) by (intros k' Hk'; assert (Z := A k' Hk'); rewrite <- Eh in Z; congruence).
  assert (Cl : ~ is_open x s').
  { intros Ho'. destruct (open_claims _ _ Ho') as (k' & Hk' & G'). destruct (detach_case _ _ _ _ _ Er H) as [(_ & R & _)|(idx & Hi & _ & _ & C)].
    - exfalso. destruct x as [a|a].
      + destruct I as (_ & _ & Ss & _). destruct (Ss _ _ G) as (l & El & _). assert (Ns : names_sender d a s3) by (exists k; auto).
        destruct (step_detach _ _ _ _ _ _ _ Er Ns El H) as (i & _ & ->). unfold control in R. st_cbn_in R. apply (f_equal (map_get (detach_handle d))) in R.
        rewrite map_get_del, N.eqb_refl in R. congruence.
      + destruct I as (_ & Rs & _). destruct (Rs F _ _ _ G (holds_est a)) as (l & El & _). rewrite (step_detach_rcv _ _ _ _ _ _ _ _ Er Em G El H) in R. unfold control in R. cbv zeta in R.
        st_cbn_in R. apply (f_equal (map_get (detach_handle d))) in R. rewrite map_get_del, N.eqb_refl in R. congruence.
    - destruct (C _ _ Hk') as [Nk [Hk''|U]]; [|assert (X := hist_J); destruct X as (_ & _ & _ & _ & X & _); exact (X U)].
      apply Nk. rewrite (Un _ Hk''). exact (Hi _ Em). }
  destruct x as [a|a].
  - destruct I as (_ & _ & Ss & _). destruct (Ss _ _ G) as (l & El & _). assert (Ns : names_sender d a s3) by (exists k; auto).
    destruct (step_detach _ _ _ _ _ _ _ Er Ns El H) as (i & _ & E). eexists. refine (conj _ (conj _ Cl)).
    + exists (as_u32 (sn_id l)). split; [exists l; auto | reflexivity].
    + rewrite E. unfold control. st_cbn. frw.
      match goal with |- s_out (post ?f ?s0) = _ => change (s_out (post f s0)) with (s_out s0 ++ [f]) end. unfold detach_mid. frw. st_cbn. reflexivity.
  - destruct I as (_ & Rs & _). destruct (Rs F _ _ _ G (holds_est a)) as (l & El & _). assert (E := step_detach_rcv _ _ _ _ _ _ _ _ Er Em G El H). eexists. refine (conj _ (conj _ Cl)).
    + exists (rc_handle l). split; [exists l; auto | reflexivity].
    + rewrite E. unfold control. cbv zeta. st_cbn. frw.
      match goal with |- s_out (post ?f ?s0) = _ => change (s_out (post f s0)) with (s_out s0 ++ [f]) end. frw. reflexivity.
Qed.
Lemma close_completes : forall e s4 os4 evs3 s5 os5 d s6 os6, is_open x s3 -> closes x e s3 -> step p e s3 = EOk (s4, os4) -> still_waits (next_future s3) s4 ->
  run p evs3 s4 = EOk (s5, os5) -> unused_handle (attach_handle frm) evs3 -> s_error s5 = None -> still_waits (next_future s3) s5 ->
  detach_handle d = attach_handle frm -> step p (EvFrame (FDetach d)) s5 = EOk (s6, os6) ->
  nth_error (s_chans s6) (next_future s3) = Some (CSent (close_result d)).
Proof.
  intros e s4 os4 evs3 s5 os5 d s6 os6 Ho Hc H4 W4 H5 Hu5 Er W5 Eh H6. destruct hist_slots as [I F]. destruct (open_claims _ _ Ho) as (k & Hk & G).
  assert (Hj := hist_J). destruct Hj as (A & B & C & D & U & L).
  destruct (close_claims _ _ _ _ _ _ I F Ho Hc H4 W4) as (h & Hh & Cc). assert (k = h) as <-.
  { assert (X := open_slot _ _ _ I F Ho Hh). assert (claims h (thing_of x) s3) as Y. { eexists. split; [exact X|]. destruct x; reflexivity. } apply A in Y, Hk. congruence. }
  assert (R3 := hist_reach). assert (R4 := reach_step _ _ _ _ _ R3 H4). assert (Fi := fut_reachable _ _ R4). destruct Fi as (Wf & _ & Un & _).
  assert (Lc : (next_future s3 < length (s_chans s4))%nat) by (apply nth_error_Some; unfold still_waits in W4; congruence).
  assert (Ne : forall f, e <> EvAttach f) by (intros f ->; destruct x; exact Hc).
  assert (Cl : stable clm_rel s3 s4).
  { destruct (step_clm _ _ _ _ _ H4) as [X|[(f & ->)|[(d0 & -> & _)|(i & edit & f & r & a & -> & _)]]]; [exact X | destruct x; destruct Hc ..]. }
  destruct Cl as (Ln & Rh & _). destruct (step_kas _ _ _ _ _ H4) as [(f & ->)|Kp]; [destruct (Ne f eq_refl)|].
  assert (Uk : forall k', claims k' (XChan (next_future s3)) s4 \/ claims k' (XOpen (next_future s3)) s4 -> k' = k).
  { intros k' X. assert (Y := Un _ _ _ (claims_place _ _ _ (or_introl Cc)) (claims_place _ _ _ X)). congruence. }
  assert (J4 : J (attach_handle frm) (XChan (next_future s3)) s4).
  { refine (conj _ (conj _ (conj _ (conj _ (conj _ _))))).
    - intros k' X. rewrite (Uk k' (or_introl X)), Rh. exact (A k Hk).
    - intros i f r a i' f' r' a' P P'. apply Kp in P, P'. eauto.
    - intros i f r a P E. apply Kp in P. destruct (C _ _ _ _ P E) as (l & El & X). assert (Ko := step_keeps_objs _ _ _ _ _ H4). destruct Ko as [Ko _].
      destruct (Ko _ _ El) as (l' & El' & Ei). exists l'. split; [exact El'|]. intros k' Y. rewrite (Uk k' (or_introl Y)). unfold snd_ids in Ei. rewrite (X k Hk). congruence.
    - discriminate.
    - cbn. lia.
    - discriminate. }
  assert (J5 := J_run _ _ _ _ _ _ _ J4 H5 Hu5). destruct J5 as (A5 & _).
  destruct (run_hold _ _ _ _ _ Wf H5) as [_ [_ Hold]].
  assert (P5 := Hold _ _ Lc (claims_place _ _ _ (or_introl Cc)) W5).
  assert (No : no_open (next_future s3) s5).
  { refine (run_ind (no_open (next_future s3)) p _ evs3 _ _ _ _ H5); [intros; eapply no_open_step; eauto|]. split; [exact Lc|].
    intros k' X. assert (k' = k) by (apply Uk; auto). subst k'. destruct X as (lk & G1 & I1). destruct Cc as (lk' & G2 & I2). rewrite G1 in G2. apply Some_inj in G2. subst lk'.
    destruct lk as [| |[]|[]|[[]|]|[[]|]| |[]]; cbn in I1, I2; contradiction. }
  destruct No as [_ No]. destruct (place_claims _ _ _ P5) as [X|X]; [|destruct (No _ X)].
  eapply close_answer; [exact Er | rewrite Eh; exact (A5 _ X) | exact X | exact W5 | exact H6].
Qed.
End History.
