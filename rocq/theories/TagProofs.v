(** * Automatic delivery tags *)

From Verif Require Import BaseProofs.
From Verif Require Export PollProofs.
From Coq Require Import ZifyBool ZifyNat ZifyN.

Lemma step_keeps_tags : forall p e s s' os, step p e s = EOk (s', os) ->
  (forall t, e <> EvPollSend t) -> stable keeps_tags s s'.
Proof.
  intros p e s s' os H Ne.
  destruct e; cbn [step] in H; try solve [step_er H]. elim (Ne t eq_refl).
Qed.

(** [G]: the sends of link [a] that took an automatic tag, in order. *)
Definition tag_of (s : ses) (tk : stask) (n : N) : Prop :=
  match tk_st tk with
  | TNew => False
  | TLink tag _ | TSess tag _ => tag = be 4 (n mod two32)
  | TDone (inl i) => exists d, nth_error (s_dlvs s) i = Some d /\ dl_tag d = be 4 (n mod two32)
  | _ => True
  end.
Definition tags_inv (a : nat) (s : ses) (G : list nat) : Prop :=
  NoDup G
  /\ match nth_error (s_snds s) a with
     | Some l => sn_tag l = N.of_nat (length G) mod two32
     | None => G = []
     end
  /\ (forall k t, nth_error G k = Some t ->
        exists tk, nth_error (s_tasks s) t = Some tk /\ tk_link tk = a /\ tk_tag tk = None
                   /\ tag_of s tk (N.of_nat k))
  /\ (forall t tk, nth_error (s_tasks s) t = Some tk -> tk_link tk = a -> tk_tag tk = None ->
        match tk_st tk with TLink _ _ | TSess _ _ | TDone (inl _) => In t G | _ => True end)
  /\ (forall t tk, nth_error (s_tasks s) t = Some tk -> exists l, nth_error (s_snds s) (tk_link tk) = Some l).

Lemma tags_init : forall a id local rc mfs b, tags_inv a (ses_new id local rc mfs b) [].
Proof.
  intros. unfold tags_inv. refine (conj (NoDup_nil _) (conj _ (conj _ (conj _ _)))).
  - destruct a; reflexivity.
  - intros [|k] t H; discriminate.
  - intros [|t] tk H; discriminate.
  - intros [|t] tk H; discriminate.
Qed.

Definition st_le (s' : ses) (k k' : stask) : Prop :=
  tk_ids k' = tk_ids k
  /\ (k' = k \/ (forall r, tk_st k <> TDone r) /\
        match tk_st k' with
        | TNew => False
        | TLink tag _ | TSess tag _ =>
            match tk_st k with TLink tag0 _ | TSess tag0 _ => tag = tag0 | _ => False end
        | TDone (inl i) =>
            match tk_st k with
            | TLink tag0 _ | TSess tag0 _ => exists d, nth_error (s_dlvs s') i = Some d /\ dl_tag d = tag0
            | _ => False end
        | _ => True
        end).

(** Steps in which no automatic tag is taken on the link. *)
Lemma tags_quiet : forall a s s' G,
  tags_inv a s G -> keeps_objs s s' ->
  (forall l, nth_error (s_snds s) a = Some l ->
     exists l', nth_error (s_snds s') a = Some l' /\ sn_tag l' = sn_tag l) ->
  (forall l', nth_error (s_snds s') a = Some l' -> nth_error (s_snds s) a = None -> sn_tag l' = 0) ->
  (forall t k, nth_error (s_tasks s) t = Some k ->
     exists k', nth_error (s_tasks s') t = Some k' /\ tk_ids k' = tk_ids k
                /\ (tk_link k = a -> tk_tag k = None -> st_le s' k k')) ->
  (forall t k', nth_error (s_tasks s') t = Some k' -> nth_error (s_tasks s) t = None ->
     tk_st k' = TNew /\ exists l, nth_error (s_snds s) (tk_link k') = Some l) ->
  tags_inv a s' G.
Proof.
  intros a s s' G (ND & Nt & HG & Hin & HL) [Ks Kd] Kt1 Kt2 Hk Hnew.
  refine (conj ND (conj _ (conj _ (conj _ _)))).
  - destruct (nth_error (s_snds s) a) as [l|] eqn:El.
    + destruct (Kt1 _ eq_refl) as (l' & -> & ->). exact Nt.
    + destruct (nth_error (s_snds s') a) as [l'|] eqn:El'; [|exact Nt].
      rewrite (Kt2 _ eq_refl eq_refl), Nt. reflexivity.
  - intros k t Ek. destruct (HG _ _ Ek) as (tk & Et & Hl & Htag & Ht).
    destruct (Hk _ _ Et) as (tk' & Et' & Iid & Hs). destruct (Hs Hl Htag) as [I Hle].
    exists tk'. unfold tk_ids in I.
    refine (conj Et' (conj _ (conj _ _))); [congruence|congruence|].
    assert (Up : forall k0, tag_of s k0 (N.of_nat k) -> tag_of s' k0 (N.of_nat k)).
    { intros k0. unfold tag_of. destruct (tk_st k0) as [| | |[i|]|]; auto.
      intros (d & Ed & Eg). apply Kd in Ed as (d' & Ed' & Id). exists d'. unfold dlv_ids in Id.
      split; [exact Ed' | congruence]. }
    destruct Hle as [->|[Act Hle]]; [apply Up; exact Ht|].
    unfold tag_of in *.
    destruct (tk_st tk') as [| | |[i|]|] eqn:Ek'; auto;
      destruct (tk_st tk) as [| | |r|] eqn:Ek0; try contradiction; subst; auto;
      try (elim (Act r eq_refl)).
  - intros t tk' Et' Hl Htag. destruct (nth_error (s_tasks s) t) as [tk|] eqn:Et.
    + destruct (Hk _ _ Et) as (tk2 & Et2 & Iid & Hs). rewrite Et' in Et2. injection Et2 as <-.
      unfold tk_ids in Iid. assert (Hl0 : tk_link tk = a) by congruence.
      assert (Ht0 : tk_tag tk = None) by congruence.
      specialize (Hin _ _ Et Hl0 Ht0). destruct (Hs Hl0 Ht0) as [_ [->|[Act Hle]]]; [exact Hin|].
      destruct (tk_st tk') as [| | |[i|]|]; auto; destruct (tk_st tk) as [| | |r|] eqn:Ek0; try contradiction; auto;
        try (elim (Act r eq_refl)).
    + destruct (Hnew _ _ Et' Et) as [-> _]. exact I.
  - intros t tk' Et'. destruct (nth_error (s_tasks s) t) as [tk|] eqn:Et.
    + destruct (HL _ _ Et) as [l El]. apply Ks in El as (l' & El' & _).
      destruct (Hk _ _ Et) as (tk2 & Et2 & Iid & _). rewrite Et' in Et2. injection Et2 as <-.
      unfold tk_ids in Iid. exists l'. replace (tk_link tk') with (tk_link tk) by congruence. exact El'.
    + destruct (Hnew _ _ Et' Et) as [_ [l El]]. apply Ks in El as (l' & El' & _). eauto.
Qed.

Lemma tags_quiet_step : forall a p e s s' os G, tags_inv a s G -> step p e s = EOk (s', os) ->
  (forall t, e <> EvPollSend t) -> tags_inv a s' G.
Proof.
  intros a p e s s' os G T H Ne.
  assert (Kt := step_keeps_tags _ _ _ _ _ H Ne). assert (Ko := step_keeps_objs _ _ _ _ _ H).
  assert (F := step_framed _ _ _ _ _ H).
  destruct Kt as [Kt1 Kt2].
  apply (tags_quiet a s); auto.
  - intros l' El' En. apply (Kt2 _ _ El'). apply nth_error_None. exact En.
  - intros t k Et.
    assert (X : s_tasks s' = s_tasks s -> exists k', nth_error (s_tasks s') t = Some k' /\ tk_ids k' = tk_ids k
                /\ (tk_link k = a -> tk_tag k = None -> st_le s' k k')).
    { intros E. exists k. rewrite E. repeat split; auto. }
    destruct e; try (apply X; exact (F Ftasks eq_refl)); clear X; cbn [step] in H.
    + destruct (nth_error (s_snds s) a0); apply EOk_inj in H;
        apply (f_equal fst) in H; cbn [fst] in H; subst s'; exists k; st_cbn;
        repeat split; auto using nth_app_old.
    + elim (Ne t0 eq_refl).
    + apply EOk_inj in H. apply (f_equal fst) in H; cbn [fst] in H; subst s'.
      rewrite nth_upd_task, Et. destruct (Nat.eqb_spec t0 t) as [->|].
      * rewrite Et. cbn [option_map]. eexists; split; [reflexivity|].
        destruct (tk_st k) eqn:Ek; (split; [reflexivity|]); intros _ _; split; auto; right; st_cbn; split; auto;
          intros; congruence.
      * exists k. repeat split; auto.
  - intros t k' Et' Et.
    assert (X : s_tasks s' = s_tasks s -> tk_st k' = TNew /\
              exists l, nth_error (s_snds s) (tk_link k') = Some l) by (intros; congruence).
    destruct e; try (apply X; exact (F Ftasks eq_refl)); clear X; cbn [step] in H.
    + destruct (nth_error (s_snds s) a0) eqn:Ea; apply EOk_inj in H;
        apply (f_equal fst) in H; cbn [fst] in H; subst s'; [|congruence].
      st_cbn_in Et'. apply nth_snoc in Et' as [E|[-> ->]]; [congruence|].
      st_cbn. eauto.
    + elim (Ne t0 eq_refl).
    + apply EOk_inj in H. apply (f_equal fst) in H; cbn [fst] in H; subst s'.
      rewrite nth_upd_task, Et in Et'. destruct (Nat.eqb_spec t0 t) as [->|]; [|discriminate].
      rewrite Et in Et'. discriminate.
Qed.

Lemma tags_poll : forall a t s s' tk l st auto took sent tag G, tags_inv a s G ->
  pstep t s s' tk l st auto took sent tag -> keeps_objs s s' ->
  exists G', tags_inv a s' G'.
Proof.
  intros a t s s' tk l st auto took sent tag G T P K.
  destruct P as [Et El Act Ts Sn D Iw Ha Hn _ St].
  destruct (Nat.eq_dec (tk_link tk) a) as [El2|Nl].
  1: destruct auto.
  - (* takes an automatic tag *)
    destruct (Ha eq_refl) as (Est & Etag & ->). clear Ha Hn.
    destruct T as (ND & Nt & HG & Hin & HL). destruct K as [Ks Kd].
    rewrite El2 in El. rewrite El in Nt.
    assert (Nin : ~ In t G).
    { intros Hi. apply In_nth_error in Hi as [k Hk]. apply HG in Hk as (tk' & E1 & _ & _ & Hk).
      rewrite Et in E1. injection E1 as <-. unfold tag_of in Hk. rewrite Est in Hk. exact Hk. }
    assert (Ets' := Ts t). rewrite Nat.eqb_refl in Ets'.
    exists (G ++ [t]). refine (conj _ (conj _ (conj _ (conj _ _)))).
    + apply NoDup_snoc; auto.
    + assert (S1 := Sn a). rewrite El in S1. destruct S1 as (m' & Em & Hm). rewrite Em.
      rewrite <- El2, Nat.eqb_refl in Hm. destruct Hm as (Hm & _). rewrite Hm, Nt, app_length.
      cbn [length]. unfold wadd. rewrite N.add_mod_idemp_l by discriminate. f_equal. lia.
    + intros k u Ek. apply nth_snoc in Ek as [Ek|[-> ->]].
      * destruct (HG _ _ Ek) as (tk' & E1 & E2 & E3 & E4). exists tk'.
        assert (u <> t) by (intros ->; apply Nin; eapply nth_error_In; eauto).
        rewrite Ts. destruct (Nat.eqb_spec t u); [congruence|].
        refine (conj E1 (conj E2 (conj E3 _))).
        unfold tag_of in *. destruct (tk_st tk') as [| | |[i|]|]; auto.
        destruct E4 as (d & Ed & Eg). apply Kd in Ed as (d' & Ed' & Id). exists d'. unfold dlv_ids in Id.
        split; [exact Ed' | congruence].
      * eexists. refine (conj Ets' (conj El2 (conj Etag _))). unfold tag_of. st_cbn.
        destruct St as [[-> Es]|[Es [[c ->]|[[c ->]|[e ->]]]]]; auto; [|congruence..].
        rewrite Es in D. rewrite D. eexists. rewrite nth_end. split; [reflexivity|]. st_cbn. congruence.
    + intros u k Eu. rewrite Ts in Eu. destruct (Nat.eqb_spec t u) as [->|Hne].
      * intros _ _. assert (In u (G ++ [u])) by (apply in_or_app; right; left; reflexivity).
        destruct (tk_st k) as [| | |[]|]; auto.
      * intros H1 H2. specialize (Hin _ _ Eu H1 H2).
        destruct (tk_st k) as [| | |[]|]; auto; apply in_or_app; auto.
    + intros u k Eu. rewrite Ts in Eu. destruct (Nat.eqb_spec t u) as [->|Hne].
      * injection Eu as <-. st_cbn. rewrite El2. apply Ks in El as (l' & El' & _). eauto.
      * destruct (HL _ _ Eu) as [l0 El0]. apply Ks in El0 as (l' & El' & _). eauto.
  - exists G. apply (tags_quiet a s); auto.
    + intros m Em. assert (S1 := Sn a). rewrite Em in S1. destruct S1 as (m' & Em' & Hm).
      exists m'. split; [exact Em'|]. rewrite <- El2, Nat.eqb_refl in Hm. destruct Hm as (Hm & _). exact Hm.
    + intros m' Em' En. assert (S1 := Sn a). rewrite En in S1. congruence.
    + intros u k Eu. rewrite Ts. destruct (Nat.eqb_spec t u) as [->|Hne].
      * rewrite Et in Eu. injection Eu as <-. eexists. split; [reflexivity|]. split; [reflexivity|].
        intros _ Htag. split; [reflexivity|]. right. split; [exact Act|]. st_cbn.
        destruct (Hn eq_refl) as [[e ->]|[E|[c E]]]; [exact I|congruence|].
        assert (E0 : match tk_st tk with TLink tag0 _ | TSess tag0 _ => tag = tag0 | _ => False end)
          by (destruct E as [-> | ->]; reflexivity).
        destruct St as [[-> Es]|[Es [[c' ->]|[[c' ->]|[e ->]]]]]; auto.
        destruct (tk_st tk); try contradiction; subst; rewrite D; eexists; rewrite nth_end;
          split; reflexivity.
      * exists k. repeat split; auto.
    + intros u k' Eu Nu. rewrite Ts in Eu. destruct (Nat.eqb_spec t u) as [->|]; congruence.
  - exists G. apply (tags_quiet a s); auto.
    + intros m Em. assert (S1 := Sn a). rewrite Em in S1. destruct S1 as (m' & Em' & Hm).
      exists m'. split; [exact Em'|]. destruct (Nat.eqb_spec (tk_link tk) a); congruence.
    + intros m' Em' En. assert (S1 := Sn a). rewrite En in S1. congruence.
    + intros u k Eu. rewrite Ts. destruct (Nat.eqb_spec t u) as [->|Hne].
      * rewrite Et in Eu. injection Eu as <-. eexists. split; [reflexivity|]. split; [reflexivity|].
        intros E. congruence.
      * exists k. repeat split; auto.
    + intros u k' Eu Nu. rewrite Ts in Eu. destruct (Nat.eqb_spec t u) as [->|]; congruence.
Qed.

Lemma tags_reachable : forall p s a, reachable p s -> exists G, tags_inv a s G.
Proof.
  intros p s a (id & local & rc & mfs & b & evs & os & H).
  refine (run_ind (fun s => exists G, tags_inv a s G) p _ evs _ _ _ _ H).
  - intros e s1 s2 os' [G T] E.
    destruct (match e with EvPollSend _ => true | _ => false end) eqn:Ee.
    + destruct e; try discriminate. assert (K := step_keeps_objs _ _ _ _ _ E). cbn [step] in E.
      apply EOk_inj in E. apply (f_equal fst) in E; cbn [fst] in E; subst s2.
      destruct (poll_send_pstep t s1) as [->|(tk & l & st & auto & took & sent & tag & P)]; [eauto|].
      eapply tags_poll; eauto.
    + exists G. eapply tags_quiet_step; eauto. intros t ->. discriminate.
  - exists []. apply tags_init.
Qed.

(** ** Two sends of one link *)
Lemma be4_inj : forall i j, i < two32 -> j < two32 -> be 4 i = be 4 j -> i = j.
Proof.
  intros i j Hi Hj E. apply (f_equal be_val) in E. rewrite !be_val_be in E.
  change (256 ^ N.of_nat 4) with two32 in E. rewrite !N.mod_small in E by assumption. exact E.
Qed.

Lemma nth_end' : forall A (a : list A) x b, nth_error (a ++ x :: b) (length a) = Some x.
Proof. induction a as [|y a IH]; intros; cbn; auto. Qed.
Lemma filter_count : forall A (P : A -> bool) l (G : list nat), NoDup G ->
  (forall i, In i G -> exists x, nth_error l i = Some x /\ P x = true) ->
  (length G <= length (filter P l))%nat.
Proof.
  intros A P l G ND H.
  set (I := filter (fun i => match nth_error l i with Some x => P x | None => false end)
                   (seq 0 (length l))).
  assert (E : length I = length (filter P l)).
  { unfold I. clear.
    assert (Gn : forall l2 l1, length (filter (fun i => match nth_error (l1 ++ l2) i with
                     Some x => P x | None => false end) (seq (length l1) (length l2)))
                   = length (filter P l2)).
    { induction l2 as [|x l2 IH]; intros l1; [reflexivity|]. cbn [length seq filter].
      rewrite nth_end'. specialize (IH (l1 ++ [x])). rewrite <- app_assoc in IH.
      rewrite app_length in IH. cbn [length app] in IH. rewrite Nat.add_1_r in IH.
      destruct (P x); cbn [length]; rewrite IH; reflexivity. }
    exact (Gn l []). }
  rewrite <- E. apply NoDup_incl_length; [exact ND|]. intros i Hi. destruct (H i Hi) as (x & Ex & Px).
  unfold I. apply filter_In. rewrite Ex. split; [|exact Px]. apply in_seq. apply nth_lt in Ex. lia.
Qed.

(** How many sends a link has been asked for. *)
Definition sends_on (a : nat) (s : ses) : nat :=
  length (filter (fun k => Nat.eqb (tk_link k) a) (s_tasks s)).

Lemma tags_distinct : forall p s a t1 t2 k1 k2 d1 d2, reachable p s ->
  N.of_nat (sends_on a s) <= 2 ^ 32 ->
  send_done s t1 k1 d1 -> tk_link k1 = a -> tk_tag k1 = None ->
  send_done s t2 k2 d2 -> tk_link k2 = a -> tk_tag k2 = None ->
  t1 <> t2 -> dl_tag d1 <> dl_tag d2.
Proof.
  intros p s a t1 t2 k1 k2 d1 d2 R Hn (E1 & i1 & S1 & D1) L1 T1 (E2 & i2 & S2 & D2) L2 T2 Ne Eq.
  destruct (tags_reachable _ _ a R) as (G & ND & _ & HG & Hin & _).
  assert (Lg : (length G <= sends_on a s)%nat).
  { apply filter_count; [exact ND|]. intros i Hi. apply In_nth_error in Hi as [k Hk].
    destruct (HG _ _ Hk) as (tk & Et & El & _). exists tk. split; [exact Et|].
    apply Nat.eqb_eq. exact El. }
  assert (F : forall t k i d, nth_error (s_tasks s) t = Some k -> tk_link k = a -> tk_tag k = None ->
            tk_st k = TDone (inl i) -> nth_error (s_dlvs s) i = Some d ->
            exists n, nth_error G n = Some t /\ dl_tag d = be 4 (N.of_nat n)).
  { intros t k i d Et Hl Ht Hs Hd. assert (X := Hin _ _ Et Hl Ht). rewrite Hs in X.
    apply In_nth_error in X as [n Hg]. exists n. split; [exact Hg|].
    destruct (HG _ _ Hg) as (k' & Et' & _ & _ & Hk). rewrite Et in Et'. injection Et' as <-.
    unfold tag_of in Hk. rewrite Hs in Hk. destruct Hk as (d' & Ed & Eg). rewrite Hd in Ed.
    injection Ed as <-. rewrite Eg. f_equal. apply N.mod_small. apply nth_lt in Hg.
    change two32 with (2 ^ 32). lia. }
  destruct (F _ _ _ _ E1 L1 T1 S1 D1) as (n1 & G1 & B1).
  destruct (F _ _ _ _ E2 L2 T2 S2 D2) as (n2 & G2 & B2).
  assert (n1 = n2).
  { apply nth_lt in G1 as X1. apply nth_lt in G2 as X2. apply Nat2N.inj. apply be4_inj.
    1,2: change two32 with (2 ^ 32); lia. congruence. }
  subst n2. congruence.
Qed.
