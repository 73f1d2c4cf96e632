(** * Receiver links along a run *)

From Coq Require Import ZifyBool ZifyNat ZifyN.
From Verif Require Export RecvSteps.
Import ListNotations.

(** ** New links *)
Lemma step_rcv_new : forall p e s s' os a,
  lk_inv [] s -> slots_fit s -> step p e s = EOk (s', os) -> nth_error (s_rcvs s) a = None ->
  arrival a e s = [] /\ grant a e s = [] /\ handed a os = []
  /\ (forall l, nth_error (s_rcvs s') a = Some l -> rcv_fresh l).
Proof.
  intros p e s s' os a I B H En.
  assert (Ar : arrival a e s = []).
  { unfold arrival. destruct e; try reflexivity. destruct f; try reflexivity. destruct (s_error s); [reflexivity|].
    destruct (map_get _ _) as [i|]; [|reflexivity]. destruct (slab_get (s_links s) i) as [lk|] eqn:Hk; [|reflexivity].
    destruct lk as [| | | | | |b|]; try reflexivity. destruct (Nat.eqb_spec a b) as [<-|]; [|reflexivity].
    destruct I as (_ & R & _). destruct (R B _ _ _ Hk (holds_est a)) as (l & El & _). congruence. }
  assert (Gr : grant a e s = []).
  { destruct e; try reflexivity; cbn [grant].
    - destruct (Nat.eqb a a0); [|reflexivity]. rewrite En. reflexivity.
    - destruct (nth_error (s_ctl s) i) as [[k|]|]; try reflexivity. destruct k; try reflexivity.
      destruct (Nat.eqb _ _); [|reflexivity]. rewrite En. reflexivity. }
  assert (Len : forall l, length (s_rcvs s') = length (s_rcvs s) -> nth_error (s_rcvs s') a = Some l -> rcv_fresh l).
  { intros l L E. apply nth_lt in E. apply nth_error_None in En. lia. }
  refine (conj Ar (conj Gr _)). destruct (special e) eqn:Hs.
  2: { destruct (step_keeps_rcvs _ _ _ _ _ Hs H) as [[_ K] ->]. split; [reflexivity|].
       intros l E. eapply K; [exact E|]. apply nth_error_None. exact En. }
  destruct e; try discriminate Hs; cbn [step] in H; clear Ar Gr.
  - destruct f as [| | | |tr| |d| | |]; try discriminate Hs; unfold ses_handle_frame in H.
    + destruct (s_error s); [apply EOk_inj in H; injection H as <- <-; split; [reflexivity|]; auto|].
      destruct (map_get _ _) as [i|]; [|apply EOk_inj in H; injection H as <- <-; split; [reflexivity|]; auto].
      destruct (slab_get (s_links s) i) as [lk|] eqn:Hk; [|apply EOk_inj in H; injection H as <- <-; split; [reflexivity|]; auto].
      destruct lk as [| | | | | |b|]; try (apply EOk_inj in H; injection H as <- <-; split; [reflexivity|]; auto).
      destruct (rcv_transfer p tr b s) as [[s1 act]|] eqn:Et; [|discriminate]. cbn [emap ebind] in H.
      apply EOk_inj in H. injection H as <- <-. split; [reflexivity|]. intros l. apply Len.
      assert (Fd : framed s1 (dispatch act s1) [Fctl]) by exact _. rewrite (Fd Frcvs eq_refl).
      exact (proj2 (keeps_but_rcv_transfer p tr b s _ Et)).
    + destruct (s_error s); [apply EOk_inj in H; injection H as <- <-; split; [reflexivity|]; auto|].
      assert (X := proj2 (handle_detach_rcvs d s I B)). destruct (handle_detach d s) as [s1 act].
      cbn [ebind fst] in H, X. apply EOk_inj in H. injection H as <- <-. split; [reflexivity|]. intros l. apply Len.
      assert (Fd : framed s1 (dispatch act s1) [Fctl]) by exact _. rewrite (Fd Frcvs eq_refl). exact X.
  - destruct (nth_error (s_rcvs s) a0) as [m|] eqn:Ea;
      [|apply EOk_inj in H; injection H as <- <-; split; [reflexivity|]; auto].
    destruct (poll_recv t m) as [r m']. apply EOk_inj in H. injection H as <- <-.
    split; [|intros l; apply Len; apply upd_rcv_length].
    destruct r; try reflexivity. apply handed_other. congruence.
  - destruct (nth_error (s_rcvs s) a0) as [m|] eqn:Ea;
      [|apply EOk_inj in H; injection H as <- <-; split; [reflexivity|]; auto].
    destruct (get_delivery m) as [r m']. apply EOk_inj in H. injection H as <- <-.
    split; [|intros l; apply Len; apply upd_rcv_length].
    destruct r as [[d tr]|]; try reflexivity. apply handed_other. congruence.
  - unfold noobs in H. destruct (set_link_credit p a0 n s) as [s1|] eqn:E1; [|discriminate]. cbn [emap ebind] in H.
    apply EOk_inj in H. injection H as <- <-. split; [reflexivity|]. intros l; apply Len.
    unfold set_link_credit in E1. destruct (nth_error _ _); [|apply EOk_inj in E1; subst; reflexivity].
    destruct (checked_add _ _ _); [|discriminate]. cbn [ebind] in E1. apply EOk_inj in E1. subst s1. frw.
    apply upd_rcv_length.
  - apply EOk_inj in H. injection H as <- <-. split; [reflexivity|]. intros l; apply Len. apply upd_rcv_length.
  - destruct (nth_error (s_rcvs s) a0) as [m|] eqn:Ea;
      [|apply EOk_inj in H; injection H as <- <-; split; [reflexivity|]; auto].
    destruct (existsb _ _); apply EOk_inj in H; injection H as <- <-; (split; [reflexivity|]; auto).
    intros l; apply Len. frw. apply upd_rcv_length.
  - destruct (nth_error (s_ctl s) i) as [[k|]|] eqn:Ei;
      try (apply EOk_inj in H; injection H as <- <-; split; [reflexivity|]; auto).
    unfold noobs in H. destruct (control_ok p edit k _) as [s1|] eqn:E1; [|discriminate]. cbn [emap ebind] in H.
    apply EOk_inj in H. injection H as <- <-. split; [reflexivity|]. intros l El.
    assert (Le : (length (s_rcvs s) <= a)%nat) by (apply nth_error_None; exact En).
    assert (Other : (forall r b, k <> KAttached r b) -> rcv_fresh l).
    { intros Hk. assert (K : stable keeps_rcvs s s1).
      { unfold control_ok in E1. destruct k; try (elim (Hk response a0); reflexivity); st_er E1. }
      exact (proj2 K a l El Le). }
    destruct k; try (apply Other; discriminate).
    clear Other. cbn [control_ok] in E1.
    assert (K1 : stable keeps_rcvs s (confirm_receiver a0 response (set_s_ctl (set_nth i None (s_ctl s)) s))) by st_chain.
    assert (K2 : stable rlen_rel s (confirm_receiver a0 response (set_s_ctl (set_nth i None (s_ctl s)) s)))
      by (unfold confirm_receiver; repeat fr_break; st_chain).
    apply Len; [|exact El]. rewrite <- K2.
    clear - E1. revert E1. generalize (confirm_receiver a0 response (set_s_ctl (set_nth i None (s_ctl s)) s)).
    intros s2 E1. unfold set_link_credit in E1. destruct (nth_error _ _); [|apply EOk_inj in E1; subst; reflexivity].
    destruct (checked_add _ _ _); [|discriminate]. cbn [ebind] in E1. apply EOk_inj in E1. subst s1. frw.
    apply upd_rcv_length.
Qed.

(** ** Grouping *)
Fixpoint grp (cur ts : list transfer_t) : list (list transfer_t) * list transfer_t :=
  match ts with
  | [] => ([], cur)
  | t :: ts =>
      if says_more t then grp (cur ++ [t]) ts
      else let '(g, o) := grp [] ts in ((cur ++ [t]) :: g, o)
  end.
Definition groups (ts : list transfer_t) : list (list transfer_t) := fst (grp [] ts).
Definition opened (ts : list transfer_t) : list transfer_t := snd (grp [] ts).
Lemma grp_snoc : forall ts cur t,
  grp cur (ts ++ [t]) = let '(g, o) := grp cur ts in
                        if says_more t then (g, o ++ [t]) else (g ++ [o ++ [t]], []).
Proof.
  induction ts as [|x ts IH]; intros cur t; cbn [app grp].
  - destruct (says_more t); reflexivity.
  - destruct (says_more x).
    + apply IH.
    + rewrite IH. destruct (grp [] ts) as [g o]. destruct (says_more t); reflexivity.
Qed.
Lemma groups_snoc : forall ts t,
  groups (ts ++ [t]) = if says_more t then groups ts else groups ts ++ [opened ts ++ [t]].
Proof. intros ts t. unfold groups, opened. rewrite grp_snoc. destruct (grp [] ts), (says_more t); reflexivity. Qed.
Lemma opened_snoc : forall ts t, opened (ts ++ [t]) = if says_more t then opened ts ++ [t] else [].
Proof. intros ts t. unfold opened. rewrite grp_snoc. destruct (grp [] ts), (says_more t); reflexivity. Qed.
Lemma grp_in : forall ts cur g x, In g (fst (grp cur ts)) -> In x g -> In x cur \/ In x ts.
Proof.
  induction ts as [|t ts IH]; intros cur g x Hg Hx; cbn [grp] in Hg; [destruct Hg|].
  destruct (says_more t).
  - destruct (IH _ _ _ Hg Hx) as [H|H]; [|right; right; exact H].
    apply in_app_or in H as [H|[->|[]]]; [left; exact H | right; left; reflexivity].
  - specialize (IH []). destruct (grp [] ts) as [g' o]. destruct Hg as [<-|Hg].
    + apply in_app_or in Hx as [H|[->|[]]]; [left; exact H | right; left; reflexivity].
    + destruct (IH g x Hg Hx) as [[]|H]. right; right; exact H.
Qed.
Lemma split_grp : forall ts cur, Forall (fun t => says_abort t = false) ts ->
  split_deliveries cur ts = fst (grp cur ts).
Proof.
  induction ts as [|t ts IH]; intros cur H; [reflexivity|]. inversion H as [|? ? Ha H']; subst.
  cbn [split_deliveries grp]. rewrite Ha. cbn [negb]. rewrite Bool.andb_true_r.
  destruct (says_more t); [apply IH; exact H'|]. rewrite IH by exact H'. destruct (grp [] ts). reflexivity.
Qed.
Lemma filter_all : forall A (f : A -> bool) l, (forall x, In x l -> f x = true) -> filter f l = l.
Proof.
  induction l as [|x l IH]; intros H; [reflexivity|]. cbn. rewrite (H x (or_introl eq_refl)).
  f_equal. apply IH. intros y Hy. apply H. right. exact Hy.
Qed.
Lemma complete_groups : forall ts, Forall (fun t => says_abort t = false) ts -> complete ts = groups ts.
Proof.
  intros ts H. unfold complete. rewrite split_grp by exact H. apply filter_all.
  intros g Hg. apply Bool.negb_true_iff. apply Bool.not_true_iff_false. intros E.
  apply existsb_exists in E as (t & Ht & E). destruct (grp_in _ _ _ _ Hg Ht) as [[]|Hin].
  rewrite Forall_forall in H. rewrite (H t Hin) in E. discriminate.
Qed.
Lemma completed_snoc : forall ts t, completed (ts ++ [t]) = completed ts + (if says_more t then 0 else 1).
Proof.
  intros ts t. unfold completed. rewrite filter_app, app_length. cbn [filter].
  destruct (says_more t); cbn [negb length]; lia.
Qed.
Lemma groups_completed : forall ts, N.of_nat (length (groups ts)) = completed ts.
Proof.
  induction ts as [|t ts IH] using rev_ind; [reflexivity|].
  rewrite groups_snoc, completed_snoc. destruct (says_more t); [lia|]. rewrite app_length. cbn [length]. lia.
Qed.

(** ** The invariant *)
Definition dlv_of (s : ses) (d : nat) (first : transfer_t) : Prop :=
  exists x, nth_error (s_dlvs s) d = Some x
    /\ transfer_delivery_id (tr_head first) = Some (dl_id x)
    /\ dl_tag x = match transfer_delivery_tag (tr_head first) with Some t => t | None => [] end
    /\ dl_sender x = false.
Definition open_ok (s : ses) (part : list (nat * transfer_t)) (partial : option bytes) (g : list transfer_t) : Prop :=
  match g with
  | [] => part = [] /\ partial = None
  | first :: _ => exists d, part = [(d, mk_transfer_t (tr_head first) None)]
                    /\ partial = Some (concat (map body_of g)) /\ dlv_of s d first
  end.
Definition held_ok (s : ses) (T : list transfer_t) (O : list (nat * transfer_t)) (l : rlink) : Prop :=
  exists items part, rc_queue l = items ++ part
    /\ Forall2 (is_delivery s) (O ++ items) (groups T) /\ open_ok s part (rc_partial l) (opened T).
Definition gone_ok (a : nat) (s : ses) (T : list transfer_t) (O : list (nat * transfer_t)) (l : rlink) : Prop :=
  unheld a s /\ rc_queue l = []
  /\ exists g1 g2, groups T = g1 ++ g2 /\ Forall2 (is_delivery s) O g1.
Definition limit_ok (M : N) (g : list transfer_t) : Prop :=
  (forall t b, In t g -> tr_body t = Some b -> honest b) ->
  forall first rest t, g = first :: rest -> In t rest -> tr_body t <> None ->
  blen (concat (map body_of g)) <= M.
Definition sum (l : list N) : N := fold_right N.add 0 l.
Definition credit_ok (p : profile) (a : nat) (s : ses) (T T0 : list transfer_t) (G : list N) (l : rlink) : Prop :=
  exists j c, (c = completed T0 \/ unheld a s /\ c = completed T0 + 1)
    /\ rc_credit l + c + j * two32 = sum G /\ (p = Debug -> j = 0) /\ (sum G < two32 -> j = 0).
Definition rinv (p : profile) (a : nat) (Lim : N -> Prop) (T : list transfer_t) (G : list N)
    (O : list (nat * transfer_t)) (s : ses) : Prop :=
  match nth_error (s_rcvs s) a with
  | None => T = [] /\ G = [] /\ O = []
  | Some l =>
      exists T0 T1, T = T0 ++ T1 /\ (T1 = [] \/ unheld a s)
        /\ (held_ok s T0 O l \/ gone_ok a s T0 O l)
        /\ credit_ok p a s T T0 G l /\ rc_credit l < two32
        /\ (forall M, Lim M -> rc_max l <= M /\ Forall (limit_ok M) (groups T0) /\ limit_ok M (opened T0))
  end.

Lemma dlv_of_keeps : forall s s' d t, stable keeps_objs s s' -> dlv_of s d t -> dlv_of s' d t.
Proof.
  intros s s' d t [_ K] (x & E & H1 & H2 & H3). destruct (K d x E) as (x' & E' & C). unfold dlv_ids in C.
  exists x'. refine (conj E' (conj _ (conj _ _))); congruence.
Qed.
Lemma is_delivery_keeps : forall s s' x g, stable keeps_objs s s' -> is_delivery s x g -> is_delivery s' x g.
Proof.
  intros s s' x g K (H1 & first & rest & d & H2 & H3 & H4 & H5 & H6 & H7). split; [exact H1|].
  destruct (proj2 K _ _ H4) as (d' & E' & C). unfold dlv_ids in C.
  exists first, rest, d'. refine (conj H2 (conj H3 (conj E' (conj _ (conj _ _))))); congruence.
Qed.
Lemma deliveries_keep : forall s s' O g, stable keeps_objs s s' ->
  Forall2 (is_delivery s) O g -> Forall2 (is_delivery s') O g.
Proof. intros s s' O g K H. induction H; constructor; eauto using is_delivery_keeps. Qed.
Lemma open_ok_keeps : forall s s' part q g, stable keeps_objs s s' -> open_ok s part q g -> open_ok s' part q g.
Proof.
  intros s s' part q [|first g] K H; [exact H|]. destruct H as (d & H1 & H2 & H3).
  exists d. eauto using dlv_of_keeps.
Qed.
Lemma held_keeps : forall s s' T O l l', stable keeps_objs s s' ->
  rc_queue l' = rc_queue l -> rc_partial l' = rc_partial l -> held_ok s T O l -> held_ok s' T O l'.
Proof.
  intros s s' T O l l' K Hq Hp (items & part & H1 & H2 & H3). exists items, part.
  rewrite Hq, Hp. eauto using deliveries_keep, open_ok_keeps.
Qed.
Lemma gone_keeps : forall a s s' T O l l', stable keeps_objs s s' -> unheld a s' ->
  rc_queue l' = rc_queue l -> gone_ok a s T O l -> gone_ok a s' T O l'.
Proof.
  intros a s s' T O l l' K U Hq (_ & H1 & g1 & g2 & H2 & H3). split; [exact U|]. split; [congruence|].
  exists g1, g2. eauto using deliveries_keep.
Qed.
Lemma Forall2_app_l : forall A B (R : A -> B -> Prop) l1 l2 m, Forall2 R (l1 ++ l2) m ->
  exists m1 m2, m = m1 ++ m2 /\ Forall2 R l1 m1 /\ Forall2 R l2 m2.
Proof.
  intros A B R l1 l2 m H. apply Forall2_app_inv_l in H as (m1 & m2 & H1 & H2 & H3). eauto.
Qed.
Lemma held_gone : forall a s s' T O l l', stable keeps_objs s s' -> unheld a s' -> rc_queue l' = [] ->
  held_ok s T O l -> gone_ok a s' T O l'.
Proof.
  intros a s s' T O l l' K U Hq (items & part & H1 & H2 & H3). split; [exact U|]. split; [exact Hq|].
  apply Forall2_app_l in H2 as (g1 & g2 & E & H2 & _). exists g1, g2. eauto using deliveries_keep.
Qed.
Lemma sum_app : forall l m, sum (l ++ m) = sum l + sum m.
Proof. unfold sum. induction l as [|x l IH]; intros m; cbn [app fold_right]; [lia|]. rewrite IH. lia. Qed.
Lemma concat_snoc : forall g t, concat (map body_of (g ++ [t])) = concat (map body_of g) ++ body_of t.
Proof. intros g t. rewrite map_app, concat_app. cbn. rewrite app_nil_r. reflexivity. Qed.
Lemma held_accept : forall s s' T O l l' t, stable keeps_objs s s' -> accepts s' t l l' ->
  held_ok s T O l -> held_ok s' (T ++ [t]) O l'.
Proof.
  intros s s' T O l l' t K A (items & part & H1 & H2 & H3).
  apply (deliveries_keep s s' _ _ K) in H2. apply (open_ok_keeps s s' _ _ _ K) in H3.
  destruct A as (Hc & _ & _ & _ & A). unfold held_ok. rewrite groups_snoc, opened_snoc.
  destruct (opened T) as [|first g] eqn:Eo.
  - destruct H3 as [-> Ep]. rewrite Ep in A. destruct A as (d & x & D1 & D2 & D3 & D4 & A).
    rewrite app_nil_r in H1.
    assert (Dv : dlv_of s' d t) by (exists x; auto).
    destruct (says_more t).
    + destruct A as [A1 A2]. exists items, [(d, mk_transfer_t (tr_head t) None)].
      split; [congruence|]. split; [exact H2|]. cbn [app open_ok map concat]. exists d.
      rewrite A1, app_nil_r. auto.
    + destruct A as [A1 A2]. exists (items ++ [(d, t)]), []. rewrite app_nil_r.
      split; [congruence|]. split; [|cbn; auto]. rewrite app_assoc. apply Forall2_app; [exact H2|].
      constructor; [|constructor]. split; [cbn; rewrite app_nil_r; reflexivity|].
      exists t, [], x. cbn [fst snd]. auto 10.
  - destruct H3 as (d & Epart & Ep & Dv). rewrite Ep in A. destruct A as [_ A].
    destruct (says_more t).
    + destruct A as [A1 A2]. exists items, part. split; [congruence|]. split; [exact H2|].
      cbn [app open_ok]. exists d. split; [exact Epart|]. split; [|exact Dv].
      rewrite A1. f_equal. symmetry. apply (concat_snoc (first :: g)).
    + destruct A as (A1 & q & d' & f' & A2 & A3). rewrite Epart in H1. rewrite A2 in H1.
      apply app_inj_tail in H1 as [<- E]. injection E as -> ->.
      eexists (q ++ [_]), []. split; [rewrite app_nil_r; exact A3|]. split; [|cbn; auto].
      rewrite app_assoc. apply Forall2_app; [exact H2|]. constructor; [|constructor].
      split; [cbn [snd]; symmetry; apply (concat_snoc (first :: g))|].
      destruct Dv as (x & X1 & X2 & X3 & X4). exists first, (g ++ [t]), x. cbn [fst snd tr_head]. auto 10.
Qed.
Lemma limit_snoc : forall M g t s part partial, limit_ok M g -> open_ok s part partial g ->
  (forall body, partial = Some body -> forall b, tr_body t = Some b -> blen body + tb_size b <= M) ->
  limit_ok M (g ++ [t]).
Proof.
  intros M g t s part partial L Op Hs Hh first rest x E Hx Hb.
  destruct g as [|f g]; cbn [app] in E; injection E as <- <-; [destruct Hx|].
  destruct Op as (_ & _ & Ep & _).
  rewrite (concat_snoc (f :: g)). unfold body_of at 2. destruct (tr_body t) as [b|] eqn:Eb.
  - unfold blen. rewrite app_length, Nat2N.inj_add. fold (blen (concat (map body_of (f :: g)))). fold (blen (tb_enc b)). rewrite <- (Hh t b); [apply (Hs _ Ep b eq_refl) | | exact Eb].
    apply in_or_app. right. left. reflexivity.
  - rewrite app_nil_r. apply in_app_or in Hx as [Hx|[->|[]]]; [|congruence].
    eapply L; eauto. intros y b Hy. apply Hh. apply in_or_app. left. exact Hy.
Qed.
Lemma limit_nil : forall M, limit_ok M [].
Proof. intros M _ first rest t E. discriminate. Qed.
Lemma checked_add_spec : forall p a b c, checked_add p a b = EOk c -> a < two32 -> b < two32 ->
  exists j, c + j * two32 = a + b /\ (p = Debug -> j = 0) /\ (a + b < two32 -> j = 0) /\ c < two32.
Proof.
  intros p a b c H La Lb. unfold checked_add in H. destruct (N.ltb_spec (a + b) two32) as [L|L].
  - apply EOk_inj in H. subst c. exists 0. repeat split; lia.
  - destruct p; [discriminate|]. apply EOk_inj in H. subst c. exists 1.
    assert (X := N.mod_upper_bound (a + b) two32 ltac:(discriminate)).
    assert (Y := N.div_mod' (a + b) two32). unfold wadd.
    assert ((a + b) / two32 = 1) by (symmetry; apply (N.div_unique _ _ _ (a + b - two32)); lia).
    rewrite H in Y. repeat split; try discriminate; lia.
Qed.
