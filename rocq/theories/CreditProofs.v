(** * Link credit and session window *)

From Verif Require Export FitProofs.
From Coq Require Import ZifyBool ZifyNat ZifyN.

(** ** Counting *)
Definition count {A} (P : A -> bool) (l : list A) : nat := length (filter P l).
Lemma count_app : forall A (P : A -> bool) a b, count P (a ++ b) = (count P a + count P b)%nat.
Proof. intros. unfold count. rewrite filter_app, app_length. reflexivity. Qed.
Lemma count_le : forall A (P Q : A -> bool) l,
  (forall x, In x l -> P x = true -> Q x = true) -> (count P l <= count Q l)%nat.
Proof.
  intros A P Q l. unfold count. induction l as [|x l IH]; intros H; [reflexivity|].
  assert (IH' := IH (fun y Hy => H y (or_intror Hy))). cbn [filter].
  destruct (P x) eqn:Px.
  - rewrite (H x (or_introl eq_refl) Px). cbn [length]. lia.
  - destruct (Q x); cbn [length]; lia.
Qed.
Lemma count_set_nth : forall A (P : A -> bool) l t x y, nth_error l t = Some x ->
  (count P (set_nth t y l) + (if P x then 1 else 0) = count P l + (if P y then 1 else 0))%nat.
Proof.
  intros A P. unfold count. induction l as [|z l IH]; intros [|t] x y H; cbn in H; try discriminate.
  - injection H as ->. cbn [set_nth filter]. destruct (P x), (P y); cbn [length]; lia.
  - cbn [set_nth filter]. specialize (IH t x y H). destruct (P z); cbn [length]; lia.
Qed.
Lemma nth_ext_eq : forall A (l l' : list A), (forall u, nth_error l u = nth_error l' u) -> l = l'.
Proof.
  induction l as [|x l IH]; intros [|y l'] H; auto.
  - specialize (H 0%nat); discriminate.
  - specialize (H 0%nat); discriminate.
  - f_equal; [specialize (H 0%nat); cbn in H; congruence|]. apply IH. intros u. exact (H (S u)).
Qed.
Lemma pstep_tasks : forall t s s' tk l st auto took sent tag,
  pstep t s s' tk l st auto took sent tag ->
  s_tasks s' = set_nth t (set_tk_st st (set_tk_took (tk_took tk || took) tk)) (s_tasks s).
Proof.
  intros t s s' tk l st auto took sent tag P. apply nth_ext_eq. intros u.
  rewrite (ps_tasks _ _ _ _ _ _ _ _ _ _ P), nth_set_nth.
  destruct (Nat.eqb t u); [|reflexivity]. rewrite (ps_task _ _ _ _ _ _ _ _ _ _ P). reflexivity.
Qed.

(** ** What a step does to the links' counters *)
Lemma step_keeps_snds : forall p e s s' os, step p e s = EOk (s', os) ->
  (forall t, e <> EvPollSend t) -> (forall i f, e <> EvCtlOk i f) -> stable keeps_snds s s'.
Proof.
  intros p e s s' os H N1 N2.
  destruct e; cbn [step] in H; try solve [step_er H]; try solve [elim (N1 _ eq_refl)];
    elim (N2 _ _ eq_refl).
Qed.

Lemma keeps_handle_none : forall f s, stable keeps_snds s (handle_flow f None s).
Proof. intros. typeclasses eauto. Qed.

Definition core_at (a : nat) (s s' : ses) : Prop :=
  forall l, nth_error (s_snds s) a = Some l ->
    exists l', nth_error (s_snds s') a = Some l' /\ snd_core l' = snd_core l.
Lemma keeps_core : forall s s' a, keeps_snds s s' -> core_at a s s'.
Proof. intros s s' a [K _] l E. apply K in E as (l' & E' & C & _). eauto. Qed.

Lemma handle_flow_split : forall f a s, handle_flow f (Some a) s = apply_flow f a (handle_flow f None s).
Proof. reflexivity. Qed.

Lemma apply_flow_other : forall f a b s, a <> b -> core_at a s (apply_flow f b s).
Proof.
  intros f a b s Ne l E. unfold apply_flow.
  destruct (flow_link_credit f) as [c|]; [|eauto].
  destruct (nth_error (s_snds s) b) as [lb|] eqn:Eb; [|eauto].
  cbv zeta.
  assert (X : forall g s0, nth_error (s_snds s0) a = Some l ->
            nth_error (s_snds (upd_snd b g s0)) a = Some l).
  { intros g s0 E0. rewrite nth_upd_snd. destruct (Nat.eqb_spec b a); congruence. }
  exists l. split; [|reflexivity].
  destruct (_ <? _); [apply X; frw|]; apply X; frw; exact E.
Qed.

Lemma apply_flow_self : forall f a s l c, flow_link_credit f = Some c -> nth_error (s_snds s) a = Some l ->
  exists l', nth_error (s_snds (apply_flow f a s)) a = Some l' /\ sn_dc l' = sn_dc l
    /\ sn_credit l' = wsub (wadd (or_default 0 (flow_delivery_count f)) c) (sn_dc l).
Proof.
  intros f a s l c Ec El. unfold apply_flow. rewrite Ec, El. cbv zeta.
  destruct (_ <? _).
  - rewrite nth_upd_snd, Nat.eqb_refl. frw. rewrite nth_upd_snd, Nat.eqb_refl. frw. rewrite El.
    cbn [option_map]. eexists; split; [reflexivity|]. split; reflexivity.
  - rewrite nth_upd_snd, Nat.eqb_refl. frw. rewrite El.
    cbn [option_map]. eexists; split; [reflexivity|]. split; reflexivity.
Qed.
Lemma apply_flow_none : forall f a s, flow_link_credit f = None -> apply_flow f a s = s.
Proof. intros f a s E. unfold apply_flow. rewrite E. reflexivity. Qed.

(** A step, as seen by the counters of link [a]. *)
Inductive seen (a : nat) (s s' : ses) (e : ev) : Prop :=
| seen_same : credit_flows a (match flow_of e s with Some x => [x] | None => [] end) = [] ->
    core_at a s s' -> seen a s s' e
| seen_flow f c : credit_flows a (match flow_of e s with Some x => [x] | None => [] end) = [f] ->
    flow_link_credit f = Some c ->
    (forall l, nth_error (s_snds s) a = Some l ->
       exists l', nth_error (s_snds s') a = Some l' /\ sn_dc l' = sn_dc l
         /\ sn_credit l' = wsub (wadd (or_default 0 (flow_delivery_count f)) c) (sn_dc l)) ->
    seen a s s' e.

Lemma core_trans : forall a s s1 s2, core_at a s s1 -> core_at a s1 s2 -> core_at a s s2.
Proof.
  intros a s s1 s2 H1 H2 l E. apply H1 in E as (l1 & E1 & C1). apply H2 in E1 as (l2 & E2 & C2).
  exists l2. split; congruence.
Qed.

Lemma step_seen : forall a p e s s' os, step p e s = EOk (s', os) ->
  (forall t, e <> EvPollSend t) -> seen a s s' e.
Proof.
  intros a p e s s' os H Np.
  destruct (match e with EvCtlOk _ _ => true | _ => false end) eqn:Ee.
  - destruct e; try discriminate. cbn [step] in H. cbn [flow_of].
    destruct (nth_error (s_ctl s) i) as [[k|]|] eqn:Ei.
    2,3: apply EOk_inj in H; apply (f_equal fst) in H; cbn [fst] in H; subst s';
         apply seen_same; cbn [flow_of]; rewrite ?Ei; [reflexivity | intros l E; eauto].
    unfold noobs, emap in H.
    destruct (control_ok p edit k (set_s_ctl (set_nth i None (s_ctl s)) s)) as [s1|] eqn:Ek; [|discriminate].
    cbn [ebind] in H. apply EOk_inj in H. apply (f_equal fst) in H; cbn [fst] in H; subst s'.
    destruct k; cbn [control_ok] in Ek.
    all: try (apply seen_same; [cbn [flow_of]; rewrite Ei; reflexivity|]; apply keeps_core;
              match goal with |- keeps_snds ?u ?v => change (stable keeps_snds u v) end;
              repeat (fr_break_in Ek; try discriminate Ek); st_goal_knows;
              try (apply EOk_inj in Ek; subst); st_chain).
    apply EOk_inj in Ek. rewrite handle_flow_split in Ek. subst s1.
    set (s0 := handle_flow f None (set_s_ctl (set_nth i None (s_ctl s)) s)).
    assert (K : core_at a s s0).
    { apply keeps_core. unfold s0. st_get. }
    destruct (Nat.eq_dec a a0) as [->|Ne].
    + destruct (flow_link_credit f) as [c|] eqn:Ec.
      * apply (seen_flow _ _ _ _ f c); [cbn [flow_of]; rewrite Ei; cbn; rewrite Ec, Nat.eqb_refl; reflexivity|exact Ec|].
        intros l E. apply K in E as (l0 & E0 & C). unfold snd_core in C.
        destruct (apply_flow_self f a0 s0 l0 c Ec E0) as (l' & E' & D & Cr).
        exists l'. assert (sn_dc l0 = sn_dc l) by congruence. rewrite Cr, D. split; [exact E'|]. split; congruence.
      * apply seen_same; [cbn [flow_of]; rewrite Ei; cbn; rewrite Ec; reflexivity|].
        rewrite apply_flow_none by exact Ec. exact K.
    + apply seen_same.
      * cbn [flow_of]; rewrite Ei. cbn. destruct (flow_link_credit f); [|reflexivity].
        destruct (Nat.eqb_spec a a0); [congruence|reflexivity].
      * eapply core_trans; [exact K|]. apply apply_flow_other. exact Ne.
  - apply seen_same.
    + destruct e; try discriminate; try reflexivity. cbn [flow_of].
      destruct f; try reflexivity. destruct (s_error s); [reflexivity|].
      destruct (for_sender _ s); reflexivity.
    + apply keeps_core. eapply step_keeps_snds; eauto. intros i f ->. discriminate.
Qed.

(** ** The credit of a link *)
Definition took_on (a : nat) (k : stask) : bool := Nat.eqb (tk_link k) a && tk_took k.
Definition past_credit (k : stask) : Prop :=
  match tk_st k with TSess _ _ | TDone (inl _) => tk_took k = true
                   | TNew | TLink _ _ => tk_took k = false | _ => True end.
Definition took_inv (s : ses) : Prop :=
  forall t k, nth_error (s_tasks s) t = Some k -> past_credit k.

Lemma quiet_tasks : forall p e s s' os, step p e s = EOk (s', os) -> (forall t, e <> EvPollSend t) ->
  (forall a, count (took_on a) (s_tasks s') = count (took_on a) (s_tasks s))
  /\ (took_inv s -> took_inv s').
Proof.
  intros p e s s' os H Np. assert (F := step_framed _ _ _ _ _ H).
  assert (X : s_tasks s' = s_tasks s -> (forall a, count (took_on a) (s_tasks s') = count (took_on a) (s_tasks s))
      /\ (took_inv s -> took_inv s')).
  { intros E. unfold took_inv. rewrite E. auto. }
  destruct e; try (apply X; exact (F Ftasks eq_refl)); clear X F; cbn [step] in H.
  - destruct (nth_error (s_snds s) a); apply EOk_inj in H; apply (f_equal fst) in H; cbn [fst] in H; subst s';
      [|split; auto].
    st_cbn. split.
    + intros b. rewrite count_app. unfold count at 2. cbn [filter].
      replace (took_on b _) with false; [cbn; lia|]. unfold took_on. st_cbn. destruct (Nat.eqb _ _); reflexivity.
    + intros T t k E. st_cbn_in E. apply nth_snoc in E as [E|[-> ->]]; [eauto|]. reflexivity.
  - elim (Np t eq_refl).
  - apply EOk_inj in H; apply (f_equal fst) in H; cbn [fst] in H; subst s'. split.
    + intros b. unfold upd_task. destruct (nth_error (s_tasks s) t) as [k|] eqn:E; [|reflexivity]. st_cbn.
      match goal with |- context [set_nth t ?y _] => assert (C := count_set_nth _ (took_on b) _ t k y E) end.
      match type of C with (_ + (if took_on b k then _ else _) = _ + (if ?q then _ else _))%nat =>
        assert (Eq : q = took_on b k) by (unfold took_on; destruct (tk_st k); reflexivity); rewrite Eq in C end.
      lia.
    + intros T u k E. apply upd_task_cases in E as (k0 & E0 & ->). specialize (T _ _ E0).
      destruct (Nat.eqb t u); [|exact T]. unfold past_credit in *.
      destruct (tk_st k0) eqn:Ek; st_cbn; rewrite ?Ek; auto.
Qed.

Lemma poll_took : forall t s s' tk l st auto took sent tag, took_inv s ->
  pstep t s s' tk l st auto took sent tag ->
  took_inv s' /\ (forall a, N.of_nat (count (took_on a) (s_tasks s'))
      = N.of_nat (count (took_on a) (s_tasks s)) + if took && Nat.eqb (tk_link tk) a then 1 else 0).
Proof.
  intros t s s' tk l st auto took sent tag T P. assert (Pt := pstep_tasks _ _ _ _ _ _ _ _ _ _ P).
  destruct P as [Et El Act Ts Sn D Iw Ha Hn Ca St].
  assert (T0 := T _ _ Et). unfold past_credit in T0.
  assert (Tk : took = true -> tk_took tk = false).
  { intros ->. destruct Ca as [(_ & E & _)|[(E & _)|[(_ & _ & [E|[c E]] & _)|(E & _)]]]; try discriminate;
      rewrite E in T0; exact T0. }
  split.
  - intros u k E. rewrite Ts in E. destruct (Nat.eqb t u); [|eauto]. injection E as <-.
    unfold past_credit. st_cbn.
    destruct Ca as [([e ->] & -> & _)|[(-> & [c ->] & [E|[c' E]])|[(-> & _ & _ & [->|[c ->]])|(-> & [c' E] & [->|[c ->]])]]];
      rewrite ?Bool.orb_true_r, ?Bool.orb_false_r; auto; rewrite E in T0; exact T0.
  - intros a. rewrite Pt.
    match goal with |- context [set_nth t ?y _] => assert (C := count_set_nth _ (took_on a) _ t tk y Et) end.
    match type of C with (_ + (if took_on a tk then _ else _) = _ + (if took_on a ?y then _ else _))%nat =>
      change (took_on a tk) with (Nat.eqb (tk_link tk) a && tk_took tk)%bool in C;
      change (took_on a y) with (Nat.eqb (tk_link tk) a && (tk_took tk || took))%bool in C end.
    destruct took.
    + rewrite (Tk eq_refl) in *. cbn [orb andb] in *. destruct (Nat.eqb (tk_link tk) a); cbn [andb] in C; lia.
    + rewrite Bool.orb_false_r in *. cbn [andb]. lia.
Qed.

Definition cred_inv (a : nat) (d0 limit : N) (s : ses) : Prop :=
  took_inv s /\ exists l, nth_error (s_snds s) a = Some l
    /\ sn_dc l mod two32 = (d0 + N.of_nat (count (took_on a) (s_tasks s))) mod two32
    /\ N.of_nat (count (took_on a) (s_tasks s)) + sn_credit l <= limit.

Lemma cred_poll : forall a d0 L t s, cred_inv a d0 L s -> cred_inv a d0 L (poll_send t s).
Proof.
  intros a d0 L t s (T & l & El & Hd & Hc).
  destruct (poll_send_pstep t s) as [->|(tk & lk & st & auto & took & sent & tag & P)].
  { split; eauto. }
  destruct (poll_took _ _ _ _ _ _ _ _ _ _ T P) as [T' C]. split; [exact T'|].
  destruct P as [Et Elk Act Ts Sn D Iw Ha Hn Ca St].
  assert (S1 := Sn a). rewrite El in S1. destruct S1 as (l' & El' & Hl). exists l'. rewrite C.
  refine (conj El' _).
  destruct (Nat.eqb_spec (tk_link tk) a) as [Ea|Ne].
  - rewrite Ea, El in Elk. injection Elk as <-.
    destruct Hl as (_ & Hcr & Hdc & _). rewrite Hcr, Hdc.
    destruct took; cbn [andb]; [|rewrite N.add_0_r; auto].
    assert (sn_credit l <> 0)
      by (destruct Ca as [(_ & E & _)|[(E & _)|[(_ & E & _)|(E & _)]]]; congruence).
    split; [|clear - Hc H; lia]. unfold wadd. rewrite N.mod_mod by discriminate.
    rewrite <- N.add_mod_idemp_l, Hd, N.add_mod_idemp_l by discriminate. f_equal. clear. lia.
  - subst l'. rewrite Bool.andb_false_r, N.add_0_r. auto.
Qed.

Lemma cred_step : forall a d0 L p e s s' os, cred_inv a d0 L s -> step p e s = EOk (s', os) ->
  let fs := credit_flows a (match flow_of e s with Some x => [x] | None => [] end) in
  (forall f, In f fs -> flow_delivery_count f <> None \/ d0 = 0) ->
  forall limits, Forall2 (credit_limit d0) fs limits -> nondecreasing L limits ->
  cred_inv a d0 (last limits L) s'.
Proof.
  intros a d0 L p e s s' os I H fs Hdc limits Hf Hn.
  destruct (match e with EvPollSend _ => true | _ => false end) eqn:Ee.
  - destruct e; try discriminate. cbn [step] in H.
    apply EOk_inj in H. apply (f_equal fst) in H; cbn [fst] in H; subst s'.
    unfold fs in Hf. cbn in Hf. inversion Hf; subst. cbn [last]. apply cred_poll, I.
  - assert (Np : forall t, e <> EvPollSend t) by (intros t ->; discriminate).
    destruct (quiet_tasks _ _ _ _ _ H Np) as [C T]. destruct I as (T0 & l & El & Hd & Hc).
    split; [auto|]. rewrite C.
    destruct (step_seen a _ _ _ _ _ H Np) as [Es K|f c Es Ec K].
    + unfold fs in Hf. rewrite Es in Hf. inversion Hf; subst. cbn [last].
      apply K in El as (l' & El' & Co). unfold snd_core in Co. exists l'.
      assert (sn_dc l' = sn_dc l) by congruence. assert (sn_credit l' = sn_credit l) by congruence.
      refine (conj El' _). split; congruence.
    + unfold fs in Hf, Hdc. rewrite Es in Hf, Hdc. inversion Hf as [|? L1 ? ? Hlim Hr]; subst.
      inversion Hr; subst. cbn [last nondecreasing] in *. destruct Hn as [HL _].
      apply K in El as (l' & El' & Dc & Cr). exists l'. rewrite Dc, Cr.
      refine (conj El' (conj Hd _)).
      set (T1 := N.of_nat (count (took_on a) (s_tasks s))) in *.
      clearbody T1. assert (HT : T1 <= L1) by (clear - Hc HL; lia).
      assert (X : wsub (wadd (or_default 0 (flow_delivery_count f)) c) (sn_dc l) <= L1 - T1); [|clear - X HT; lia].
      apply wsub_le. unfold credit_limit in Hlim. rewrite Ec in Hlim. change (2 ^ 32) with two32 in Hlim.
      rewrite <- N.add_mod_idemp_l, Hd, N.add_mod_idemp_l by discriminate.
      replace (d0 + T1 + (L1 - T1)) with (d0 + L1) by (clear - HT; lia). rewrite Hlim. unfold wadd.
      rewrite N.mod_mod by discriminate. f_equal. f_equal.
      destruct (flow_delivery_count f) eqn:Edc; [reflexivity|].
      destruct (Hdc f (or_introl eq_refl)) as [E|E]; [elim (E Edc) | symmetry; exact E].
Qed.

Lemma credit_flows_app : forall a x y, credit_flows a (x ++ y) = credit_flows a x ++ credit_flows a y.
Proof. intros. apply flat_map_app. Qed.
Lemma nondecreasing_app : forall l1 l2 b, nondecreasing b (l1 ++ l2) ->
  nondecreasing b l1 /\ nondecreasing (last l1 b) l2.
Proof.
  induction l1 as [|x l1 IH]; intros l2 b H; [split; [exact I|exact H]|].
  cbn [app nondecreasing] in *. destruct H as [H1 H2]. apply IH in H2 as [H2 H3].
  split; [split; auto|]. destruct l1; [exact H3|]. 
  replace (last (x :: n :: l1) b) with (last (n :: l1) x); [exact H3|].
  clear. revert n. induction l1 as [|y l1 IH]; intros n; [reflexivity|]. exact (IH y).
Qed.
Lemma last_app2 : forall (l1 l2 : list N) b, last (l1 ++ l2) b = last l2 (last l1 b).
Proof.
  intros l1 l2 b. revert l1. induction l2 as [|x l2 IH]; intros l1; [rewrite app_nil_r; reflexivity|].
  change (x :: l2) with ([x] ++ l2). rewrite app_assoc, IH, last_last.
  destruct l2 as [|y l2]; [reflexivity|]. cbn [app].
  clear. change (last (x :: y :: l2) (last l1 b)) with (last (y :: l2) (last l1 b)).
  generalize (last l1 b). intros c. revert y. induction l2 as [|z l2 IH]; intros y; [reflexivity|]. exact (IH z).
Qed.

Lemma cred_run : forall a d0 p evs s s' os L, cred_inv a d0 L s -> run p evs s = EOk (s', os) ->
  let fs := credit_flows a (flows p evs s) in
  (forall f, In f fs -> flow_delivery_count f <> None \/ d0 = 0) ->
  forall limits, Forall2 (credit_limit d0) fs limits -> nondecreasing L limits ->
  cred_inv a d0 (last limits L) s'.
Proof.
  intros a d0 p. induction evs as [|e evs IH]; intros s s' os L I H fs Hdc limits Hf Hn.
  - unfold fs in Hf. inversion Hf; subst. cbn [run] in H. apply EOk_inj in H.
    apply (f_equal fst) in H; cbn [fst] in H; subst s'. exact I.
  - cbn [run] in H. destruct (step p e s) as [[s1 o1]|] eqn:E1; [|discriminate]. cbn [ebind] in H.
    destruct (run p evs s1) as [[s2 o2]|] eqn:E2; [|discriminate]. cbn [ebind] in H.
    apply EOk_inj in H. apply (f_equal fst) in H; cbn [fst] in H; subst s2.
    unfold fs in *. cbn [flows] in *. rewrite E1, credit_flows_app in *.
    apply Forall2_app_inv_l in Hf as (l1 & l2 & F1 & F2 & ->).
    apply nondecreasing_app in Hn as [N1 N2]. rewrite last_app2.
    eapply IH; [|exact E2| |exact F2|exact N2].
    + eapply cred_step; eauto. intros f Hi. apply Hdc, in_or_app. auto.
    + intros f Hi. apply Hdc, in_or_app. auto.
Qed.

Lemma took_reachable : forall p s, reachable p s -> took_inv s.
Proof.
  intros p s (id & local & rc & mfs & b & evs & os & H).
  refine (run_ind took_inv p _ evs _ _ _ _ H).
  - intros e s1 s2 os' T E.
    destruct (match e with EvPollSend _ => true | _ => false end) eqn:Ee.
    + destruct e; try discriminate. cbn [step] in E.
      apply EOk_inj in E. apply (f_equal fst) in E; cbn [fst] in E; subst s2.
      destruct (poll_send_pstep t s1) as [->|(tk & lk & st & auto & took & sent & tag & P)]; [auto|].
      eapply poll_took; eauto.
    + apply (quiet_tasks _ _ _ _ _ E); auto. intros t ->. discriminate.
  - intros [|t] k E; discriminate.
Qed.

Lemma credit_respected : forall p s0 evs s os a l0 limits,
  reachable p s0 -> nth_error (s_snds s0) a = Some l0 -> sn_credit l0 = 0 -> sends_on a s0 = 0%nat ->
  run p evs s0 = EOk (s, os) ->
  (forall f, In f (credit_flows a (flows p evs s0)) -> flow_delivery_count f <> None \/ sn_dc l0 = 0) ->
  Forall2 (credit_limit (sn_dc l0)) (credit_flows a (flows p evs s0)) limits ->
  nondecreasing 0 limits ->
  N.of_nat (sent_on a s) <= last limits 0.
Proof.
  intros p s0 evs s os a l0 limits R E0 C0 S0 H Hdc Hf Hn.
  assert (T0 : count (took_on a) (s_tasks s0) = 0%nat).
  { assert (X := count_le _ (took_on a) (fun k => Nat.eqb (tk_link k) a) (s_tasks s0)).
    unfold sends_on in S0. unfold count in *. rewrite S0 in X. apply Nat.le_0_r. apply X.
    intros k _ Hk. unfold took_on in Hk. apply andb_prop in Hk. apply Hk. }
  assert (I : cred_inv a (sn_dc l0) 0 s0).
  { split; [apply (took_reachable p), R|]. exists l0. rewrite T0, C0. cbn. rewrite N.add_0_r. auto with arith.
    repeat split; auto. lia. }
  destruct (cred_run _ _ _ _ _ _ _ _ I H Hdc _ Hf Hn) as (T & l & _ & _ & Hc).
  assert (X : (sent_on a s <= count (took_on a) (s_tasks s))%nat); [|lia].
  unfold sent_on. apply count_le. intros k Hk Hp. apply andb_prop in Hp as [P1 P2].
  apply In_nth_error in Hk as [t Ht]. specialize (T _ _ Ht). unfold took_on. rewrite P1.
  unfold past_credit in T. destruct (tk_st k) as [| | |[]|]; try discriminate. exact T.
Qed.
