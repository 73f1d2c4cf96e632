(** * The value decoder on arbitrary input: the induction *)

From Verif Require Import Base BaseProofs Types Encode Decode Spec EncodeProofs Roundtrip
  VariantRoundtrip DecodeProofs VariantDecode.
From Coq Require Import ZifyBool ZifyNat ZifyN.

Lemma map_insert_cases {K V} (eqb : K -> K -> bool) k (v : V) m :
  (exists m1 k' v' m2, m = m1 ++ (k', v') :: m2 /\ eqb k' k = true /\
     map_insert eqb k v m = m1 ++ (k', v) :: m2)
  \/ (Forall (fun kv => eqb (fst kv) k = false) m /\ map_insert eqb k v m = m ++ [(k, v)]).
Proof.
  induction m as [|[k' v'] m IH]; [right; split; [constructor|reflexivity]|].
  cbn [map_insert]. destruct (eqb k' k) eqn:E.
  - left. exists [], k', v', m. auto.
  - destruct IH as [[m1 [k2 [v2 [m2 [-> [E2 ->]]]]]]|[H ->]].
    + left. exists ((k', v') :: m1), k2, v2, m2. auto.
    + right. split; [constructor; assumption|reflexivity].
Qed.

Lemma FOP_snoc {A} (R : A -> A -> Prop) l x :
  ForallOrdPairs R l -> Forall (fun y => R y x) l -> ForallOrdPairs R (l ++ [x]).
Proof.
  induction 1 as [|y l Hy _ IH]; intros Hx; cbn [app].
  - constructor; constructor.
  - inversion Hx; subst. constructor; [|auto].
    apply Forall_app. split; [assumption|]. constructor; [assumption|constructor].
Qed.

Definition wire_dec : variant -> Prop :=
  wire_form (fun _ => True)
    (fun a => match a_ctor a with CFormatCode b => b <> x00 | CDescribed _ _ => True end).

Lemma PV_unfold v c :
  PV v c <-> (1 <= c)%nat /\ legal v /\ wire_dec v /\ sz_variant v <= 3 * N.of_nat c.
Proof. reflexivity. Qed.

Definition MapInv (m : list (variant * variant)) (c : nat) : Prop :=
  Forall (fun kv => legal (fst kv) /\ legal (snd kv)) m /\
  Forall (fun kv => wire_dec (fst kv) /\ wire_dec (snd kv)) m /\
  Forall (fun kv => hashable (fst kv) = true) m /\
  distinct_keys m /\
  pairs_size sz_variant sz_variant m <= 3 * N.of_nat c.

Lemma pairs_size_app {K V} (f : K -> N) (g : V -> N) m m' :
  pairs_size f g (m ++ m') = pairs_size f g m + pairs_size f g m'.
Proof.
  unfold pairs_size. induction m as [|[k v] m IH]; cbn [app]; [cbn; lia|].
  cbn [sum_by]. cbn. fold (sum_by (fun '(k, v) => f k + g v)).
  change ((fix go (l : list (K * V)) : N :=
      match l with
      | [] => 0
      | x :: t => (let '(k0, v0) := x in f k0 + g v0) + go t
      end)) with (sum_by (fun kv : K * V => match kv with (k, v) => f k + g v end)) in *.
  rewrite IH. lia.
Qed.

Lemma pairs_size_cons {K V} (f : K -> N) (g : V -> N) k v m :
  pairs_size f g ((k, v) :: m) = f k + g v + pairs_size f g m.
Proof. reflexivity. Qed.

Lemma MapInv_insert m c k ck v cv :
  MapInv m c -> PV k ck -> PV v cv -> hashable k = true ->
  MapInv (map_insert key_eqb k v m) (c + ck + cv).
Proof.
  intros [H1 [H2 [H3 [H4 H5]]]] [_ [Lk [Wk Sk]]] [_ [Lv [Wv Sv]]] Hh.
  fold wire_dec in Wk, Wv.
  destruct (map_insert_cases key_eqb k v m) as [[m1 [k' [v' [m2 [-> [_ ->]]]]]]|[Hf ->]].
  - rewrite Forall_app in H1, H2, H3. destruct H1 as [A1 B1], H2 as [A2 B2], H3 as [A3 B3].
    inversion B1 as [|? ? [C1 D1] E1]; subst. inversion B2 as [|? ? [C2 D2] E2]; subst.
    inversion B3 as [|? ? C3 E3]; subst. cbn [fst snd] in *.
    unfold MapInv. rewrite !Forall_app. repeat split; auto.
    + unfold distinct_keys in *. rewrite map_app in *. exact H4.
    + rewrite pairs_size_app, pairs_size_cons in *. lia.
  - unfold MapInv. rewrite !Forall_app. repeat split; auto.
    + unfold distinct_keys in *. rewrite map_app. cbn [map fst]. apply FOP_snoc; [exact H4|].
      clear - Hf. induction Hf; constructor; auto.
    + rewrite pairs_size_app, pairs_size_cons. change (pairs_size sz_variant sz_variant []) with 0. lia.
Qed.

Lemma gx_fuel0 {A} (Q : panic -> Prop) n n' (P : A -> nat -> Prop) d d' d'' :
  gx Q n n' P d d' -> gx Q n 0 P d d''.
Proof.
  intros H inp Hi. specialize (H inp Hi). destruct (d inp) as [[a rest]| | |]; auto.
  destruct H as [pre [E [Hp _]]]. exists pre. split; [exact E|]. split; [exact Hp|]. intros x Hx. lia.
Qed.

Lemma seq_sum {A} (P : A -> nat -> Prop) (R : A -> Prop) (sz : A -> N) l c :
  (forall a c, P a c -> R a /\ sz a <= 3 * N.of_nat c) ->
  seq P l c -> Forall R l /\ sum_by sz l <= 3 * N.of_nat c.
Proof.
  intros H. induction 1 as [|a l c c' Ha _ [IH1 IH2]]; [split; [constructor|cbn; lia]|].
  destruct (H _ _ Ha) as [H1 H2]. split; [constructor; assumption|].
  cbn. fold (sum_by sz l). lia.
Qed.

(** Described values: the part after the descriptor. *)
Lemma gx_described_tail p g g' d :
  legal_descriptor d ->
  gx (value_panic p) g g' PV (dec_variant p g) (dec_variant p g') ->
  (forall b inp v rest, dec_variant p g (b :: inp) = Ok (v, rest) -> compound_kind b = KOther ->
     is_compound v = false) ->
  gx (value_panic p) g g' (fun v c => legal v /\ wire_dec v /\ sz_variant v <= sz_descriptor d + 3 * N.of_nat c)
    (fun inp =>
       _ <- check_len 1 inp ;;
        code <- index 0 inp ;;
        match compound_kind code with
        | KList0 => inp' <- advance 1 inp ;; Ok (VDescribedCompound d [x45], inp')
        | KWidth8 =>
            _ <- check_len 2 inp ;;
            b1 <- index 1 inp ;;
            let size := Byte.to_N b1 in
            _ <- check_len (2 + size) inp ;;
            '(data, inp) <- split_to (2 + size) inp ;;
            Ok (VDescribedCompound d data, inp)
        | KWidth32 =>
            _ <- check_len 5 inp ;;
            let size := be_val (firstn 4 (skipn 1 inp)) in
            _ <- check_len (5 + size) inp ;;
            '(data, inp) <- split_to (5 + size) inp ;;
            Ok (VDescribedCompound d data, inp)
        | KOther => '(v, inp) <- dec_variant p g inp ;; Ok (VDescribed d v, inp)
        end)
    (fun inp =>
       _ <- check_len 1 inp ;;
        code <- index 0 inp ;;
        match compound_kind code with
        | KList0 => inp' <- advance 1 inp ;; Ok (VDescribedCompound d [x45], inp')
        | KWidth8 =>
            _ <- check_len 2 inp ;;
            b1 <- index 1 inp ;;
            let size := Byte.to_N b1 in
            _ <- check_len (2 + size) inp ;;
            '(data, inp) <- split_to (2 + size) inp ;;
            Ok (VDescribedCompound d data, inp)
        | KWidth32 =>
            _ <- check_len 5 inp ;;
            let size := be_val (firstn 4 (skipn 1 inp)) in
            _ <- check_len (5 + size) inp ;;
            '(data, inp) <- split_to (5 + size) inp ;;
            Ok (VDescribedCompound d data, inp)
        | KOther => '(v, inp) <- dec_variant p g' inp ;; Ok (VDescribed d v, inp)
        end).
Proof.
  intros Hd IH Hnc [|code inp] Hi; [exact I|].
  rewrite check_len_ok by (rewrite blen_cons; lia). cbn [bind index nth_error].
  assert (Hchk : forall x, check_len 1 ((code :: inp) ++ x) = Ok tt)
    by (intros x; apply check_len_ok; rewrite blen_app, blen_cons; lia).
  destruct (compound_kind code) eqn:Ecc.
  - (* list0 *)
    assert (Hcode : code = x45) by (destruct code; try discriminate Ecc; reflexivity). subst code.
    change (x45 :: inp) with ([x45] ++ inp). rewrite advance_app' by reflexivity. cbn [bind].
    exists [x45]. split; [reflexivity|]. split.
    + split; [constructor; exact Hd|]. split.
      * constructor; [exact I|left; reflexivity].
      * cbn [sz_variant]. rewrite blen_cons, blen_nil. cbn [length]. lia.
    + intros x _. rewrite <- app_assoc. rewrite check_len_ok by (rewrite blen_app, blen_cons; lia).
      cbn [bind index nth_error app]. rewrite Ecc.
      change (x45 :: inp ++ x) with ([x45] ++ inp ++ x). rewrite advance_app' by reflexivity.
      reflexivity.
  - (* one-byte size *)
    assert (Hcode : code = xc0 \/ code = xc1 \/ code = xe0)
      by (destruct code; try discriminate Ecc; auto).
      assert (G : gx (value_panic p) g g'
         (fun v c => legal v /\ wire_dec v /\ sz_variant v <= sz_descriptor d + 3 * N.of_nat c)
         (fun inp => _ <- check_len 2 inp ;;
            b1 <- index 1 inp ;;
            let size := Byte.to_N b1 in
            _ <- check_len (2 + size) inp ;;
            '(data, inp) <- split_to (2 + size) inp ;;
            match data with c :: _ => if Byte.eqb c code then Ok (VDescribedCompound d data, inp) else Err InvalidSize | [] => Err InvalidSize end)
         (fun inp => _ <- check_len 2 inp ;;
            b1 <- index 1 inp ;;
            let size := Byte.to_N b1 in
            _ <- check_len (2 + size) inp ;;
            '(data, inp) <- split_to (2 + size) inp ;;
            match data with c :: _ => if Byte.eqb c code then Ok (VDescribedCompound d data, inp) else Err InvalidSize | [] => Err InvalidSize end)).
      { clear inp Hi Hchk.
        intros [|b0 [|b1 inp]] Hi; try exact I.
        rewrite check_len_ok by (rewrite !blen_cons; lia). cbn [bind index nth_error]. cbv zeta.
        unfold check_len at 1. destruct (N.ltb_spec (blen (b0 :: b1 :: inp)) (2 + Byte.to_N b1)); [exact I|].
        cbn [bind].
        destruct (split_to_total (2 + Byte.to_N b1) (b0 :: b1 :: inp) ltac:(assumption)) as [data [rest E]].
        rewrite E. cbn [bind]. apply split_to_inv in E. destruct E as [E Hl].
        destruct data as [|c data]; [exact I|]. cbn [app] in E. injection E as <- E.
        destruct data as [|b1' data].
        { rewrite blen_cons, blen_nil in Hl. lia. }
        cbn [app] in E. injection E as <- ->.
        destruct (Byte.eqb b0 code) eqn:Eb; [|exact I]. apply byte_eqb_eq in Eb. subst b0.
        rewrite !blen_cons in Hl.
        exists (code :: b1 :: data). split; [reflexivity|]. split.
        - split; [constructor; exact Hd|]. split.
          + constructor; [exact I|]. right. left. exists code, data. split; [exact Hcode|].
            pose proof (to_N_lt b1). split; [lia|]. f_equal. f_equal. apply to_N_inj.
            rewrite byte_of_small by lia. lia.
          + cbn [sz_variant]. rewrite !blen_cons. cbn [length]. unfold blen. lia.
        - intros x _. rewrite <- !app_comm_cons.
          rewrite check_len_ok by (rewrite !blen_cons; lia). cbn [bind index nth_error]. cbv zeta.
          rewrite check_len_ok by (rewrite !blen_cons, !blen_app; lia). cbn [bind].
          change (code :: b1 :: (data ++ rest) ++ x) with ((code :: b1 :: (data ++ rest)) ++ x).
          rewrite !app_comm_cons, <- app_assoc.
          rewrite split_to_app' by (rewrite !blen_cons; lia). cbn [bind].
          rewrite (proj2 (byte_eqb_eq code code) eq_refl). reflexivity. }
      specialize (G (code :: inp) Hi).
      assert (K : forall inp0, (_ <- check_len 2 (code :: inp0) ;;
            b1 <- index 1 (code :: inp0) ;;
            let size := Byte.to_N b1 in
            _ <- check_len (2 + size) (code :: inp0) ;;
            '(data, inp) <- split_to (2 + size) (code :: inp0) ;;
            match data with c :: _ => if Byte.eqb c code then Ok (VDescribedCompound d data, inp) else Err InvalidSize | [] => Err InvalidSize end)
          = (_ <- check_len 2 (code :: inp0) ;;
            b1 <- index 1 (code :: inp0) ;;
            let size := Byte.to_N b1 in
            _ <- check_len (2 + size) (code :: inp0) ;;
            '(data, inp) <- split_to (2 + size) (code :: inp0) ;;
             Ok (VDescribedCompound d data, inp))).
      { intros inp0. destruct (check_len 2 (code :: inp0)); cbn [bind]; auto.
        destruct (index 1 (code :: inp0)); cbn [bind]; auto. cbv zeta.
        destruct (check_len _ (code :: inp0)); cbn [bind]; auto.
        destruct (split_to _ (code :: inp0)) as [[data r]| | |] eqn:E; cbn [bind]; auto.
        apply split_to_inv in E. destruct E as [E Hl].
        destruct data as [|c data]; [rewrite blen_nil in Hl; lia|].
        cbn [app] in E. injection E as <- _. rewrite (proj2 (byte_eqb_eq code code) eq_refl).
        reflexivity. }
      cbv beta in G. rewrite K in G.
      match type of G with match ?t with _ => _ end =>
           destruct t as [[v rest]| | |]; auto end.
      destruct G as [pre [E [Hp Hx]]]. exists pre. split; [exact E|]. split; [exact Hp|].
      intros x Hl. specialize (Hx x Hl). rewrite <- app_comm_cons in Hx. rewrite K in Hx.
      rewrite Hchk. cbn [bind index nth_error]. rewrite <- app_comm_cons. cbn [index nth_error bind].
      rewrite Ecc. exact Hx.
  - (* four-byte size *)
    assert (Hcode : code = xd0 \/ code = xd1 \/ code = xf0)
      by (destruct code; try discriminate Ecc; auto).
      assert (K : forall a body, length a = 4%nat ->
         (_ <- check_len 5 (code :: a ++ body) ;;
          let size := be_val (firstn 4 (skipn 1 (code :: a ++ body))) in
          _ <- check_len (5 + size) (code :: a ++ body) ;;
          '(data, inp) <- split_to (5 + size) (code :: a ++ body) ;;
          Ok (VDescribedCompound d data, inp))
         = (_ <- check_len (5 + be_val a) (code :: a ++ body) ;;
            '(data, inp) <- split_to (5 + be_val a) (code :: a ++ body) ;;
             Ok (VDescribedCompound d data, inp))).
      { intros a body Ha. rewrite check_len_ok
          by (rewrite blen_cons, blen_app, (blen_length a), Ha; lia). cbn [bind]. cbv zeta.
        rewrite skipn_cons, skipn_O, (firstn_exact 4) by exact Ha. reflexivity. }
      destruct (N.lt_ge_cases (blen (code :: inp)) 5) as [Hlt|Hge].
      { assert (Hc5 : check_len 5 (code :: inp) = Err (Incomplete 5)).
        { unfold check_len. destruct (N.ltb_spec (blen (code :: inp)) 5); [reflexivity|lia]. }
        rewrite Hc5. exact I. }
      assert (Hsplit : exists a body, inp = a ++ body /\ length a = 4%nat).
      { exists (firstn 4 inp), (skipn 4 inp). split; [symmetry; apply firstn_skipn|].
        rewrite blen_cons in Hge. unfold blen in Hge. rewrite firstn_length. lia. }
      destruct Hsplit as [a [body [-> Ha]]].
      assert (G : match (_ <- check_len (5 + be_val a) (code :: a ++ body) ;;
            '(data, inp) <- split_to (5 + be_val a) (code :: a ++ body) ;;
             Ok (VDescribedCompound d data, inp)) with
          | Ok (v, rest) => exists pre, code :: a ++ body = pre ++ rest /\
               (legal v /\ wire_dec v /\ sz_variant v <= sz_descriptor d + 3 * N.of_nat (length pre)) /\
               forall x, (_ <- check_len (5 + be_val a) (code :: a ++ body ++ x) ;;
            '(data, inp) <- split_to (5 + be_val a) (code :: a ++ body ++ x) ;;
             Ok (VDescribedCompound d data, inp)) = Ok (v, rest ++ x)
          | Err _ => True
          | Panic q => value_panic p q
          | NoFuel => False
          end).
      { unfold check_len at 1.
        destruct (N.ltb_spec (blen (code :: a ++ body)) (5 + be_val a)) as [Hl|Hl]; [exact I|]. cbn [bind].
        rewrite blen_cons, blen_app, (blen_length a), Ha in Hl.
        assert (Hb : exists b1 rest, body = b1 ++ rest /\ blen b1 = be_val a).
        { exists (firstn (N.to_nat (be_val a)) body), (skipn (N.to_nat (be_val a)) body).
          split; [symmetry; apply firstn_skipn|]. unfold blen in *. rewrite firstn_length. lia. }
        destruct Hb as [b1 [rest [-> Hb1]]].
        replace (code :: a ++ b1 ++ rest) with ((code :: a ++ b1) ++ rest)
          by (rewrite <- app_comm_cons, app_assoc; reflexivity).
        rewrite split_to_app'
          by (rewrite blen_cons, blen_app, (blen_length a), Ha; lia).
        cbn [bind]. exists (code :: a ++ b1). split; [reflexivity|]. split.
        - split; [constructor; exact Hd|]. split.
          + constructor; [exact I|]. right. right. exists code, a, b1.
            split; [exact Hcode|]. split; [exact Ha|]. split; [symmetry; exact Hb1|reflexivity].
          + cbn [sz_variant]. rewrite blen_length. lia.
        - intros x. replace (code :: a ++ (b1 ++ rest) ++ x) with ((code :: a ++ b1) ++ rest ++ x)
            by (rewrite <- app_comm_cons, !app_assoc; reflexivity).
          rewrite check_len_ok by (rewrite blen_app, blen_cons, blen_app, (blen_length a), Ha; lia).
          cbn [bind]. rewrite split_to_app'
            by (rewrite blen_cons, blen_app, (blen_length a), Ha; lia). reflexivity. }
      rewrite K by exact Ha.
      match type of G with match ?t with _ => _ end =>
           destruct t as [[v rest]| | |]; auto end.
      destruct G as [pre [E [Hp Hx]]]. exists pre. split; [exact E|]. split; [exact Hp|].
      intros x _. rewrite Hchk. cbn [bind index nth_error]. rewrite <- app_comm_cons, <- app_assoc.
      cbn [index nth_error bind]. rewrite Ecc, K by exact Ha. apply Hx.
  - (* not compound *)
    pose proof (Hnc code inp) as Hnc'. specialize (IH (code :: inp) Hi).
    assert (G : match ('(v, inp0) <- dec_variant p g (code :: inp) ;; Ok (VDescribed d v, inp0)) with
          | Ok (v, rest) => exists pre, code :: inp = pre ++ rest /\
               (legal v /\ wire_dec v /\ sz_variant v <= sz_descriptor d + 3 * N.of_nat (length pre)) /\
               forall x, (length ((code :: inp) ++ x) < g')%nat ->
                 ('(v, inp0) <- dec_variant p g' ((code :: inp) ++ x) ;; Ok (VDescribed d v, inp0))
                  = Ok (v, rest ++ x)
          | Err _ => True
          | Panic q => value_panic p q
          | NoFuel => False
          end).
    { destruct (dec_variant p g (code :: inp)) as [[v rest]| | |] eqn:E; cbn [bind]; auto.
      destruct IH as [pre [E2 [[H1 [H2 [H3 H4]]] Hx]]]. exists pre. split; [exact E2|]. split.
      - split; [constructor; assumption|]. split.
        + constructor; [exact I| |exact H3]. apply (Hnc' v rest eq_refl Ecc).
        + cbn [sz_variant]. lia.
      - intros x Hl. rewrite Hx by exact Hl. reflexivity. }
    match type of G with match ?t with _ => _ end =>
           destruct t as [[v rest]| | |]; auto end.
    destruct G as [pre [E [Hp Hx]]]. exists pre. split; [exact E|]. split; [exact Hp|].
    intros x Hl. rewrite Hchk. cbn [bind index nth_error]. rewrite <- app_comm_cons.
    cbn [index nth_error bind]. rewrite Ecc. apply Hx, Hl.
Qed.

Lemma gx_shrink {A} Q n n' m m' (P : A -> nat -> Prop) d d' :
  (n <= m)%nat -> (n' <= m')%nat -> gx Q m m' P d d' -> gx Q n n' P d d'.
Proof.
  intros Hn Hn' H inp Hi. specialize (H inp ltac:(lia)).
  destruct (d inp) as [[a rest]| | |]; auto.
  destruct H as [pre [E [Hp Hx]]]. exists pre. split; [exact E|]. split; [exact Hp|].
  intros x Hl. apply Hx. lia.
Qed.

Lemma vp_overflow p q : overflow_only p q -> value_panic p q.
Proof. unfold value_panic. auto. Qed.

Ltac scalar_case lem :=
  eapply gx_bind; [apply lem|]; cbn beta; intros a c Hc; apply gx_ret;
  apply PV_unfold; repeat match goal with H : _ /\ _ |- _ => destruct H end;
  split; [lia|]; split; [constructor; assumption|];
  split; [apply W_Scalar; exact I|]; cbn [sz_variant];
  unfold sz_le, sz_bool, sz_u8, sz_u16, sz_i8, sz_i16, sz_f32, sz_f64, sz_char, sz_datetime,
    sz_uuid in *; lia.

Lemma gx_variant p : forall f f',
  gx (value_panic p) f f' PV (dec_variant p f) (dec_variant p f').
Proof.
  induction f as [|g IH]; intros f'; [intros inp Hi; lia|].
  assert (G : forall g', gx (value_panic p) (S g) (S g') PV (dec_variant p (S g)) (dec_variant p (S g'))).
  2:{ destruct f' as [|g']; [eapply gx_fuel0; apply (G 0%nat)|apply G]. }
  clear f'. intros g'. specialize (IH g').
  cbn [dec_variant]. eapply gx_bind; [apply gx_read_byte|]. cbn beta. intros fmt c ->.
  cbn [Nat.sub]. rewrite !Nat.sub_0_r.
  assert (Hover : forall q, overflow_only p q -> value_panic p q) by apply vp_overflow.
  by_format fmt;
    try (apply gx_ret; apply PV_unfold; split; [lia|]; split; [constructor; reflexivity|];
         split; [apply W_Scalar; exact I|]; vm_compute; discriminate).
  - (* described *)
    apply gx_bind with (P := fun d c => legal_descriptor d /\ sz_descriptor d <= 1 + N.of_nat c /\ (1 <= c)%nat).
    { apply gx_decode_with. intros b. eapply gx_weaken; [apply gx_descriptor|]. cbn beta.
      intros d c [H1 H2]. split; [exact H1|]. split; lia. }
    cbn beta. intros d c [Hd [Hs Hc]].
    destruct g as [|g0]; [intros inp Hi; lia|].
    eapply gx_shrink with (m := S g0) (m' := g'); [lia|lia|].
    eapply gx_weaken; [apply (gx_described_tail p (S g0) g' d Hd IH (noncompound_dec p g0))|].
    cbn beta. intros v c' [H1 [H2 H3]]. apply PV_unfold. split; [lia|]. split; [exact H1|].
    split; [exact H2|]. lia.
  - (* list0 *)
    apply gx_ret; apply PV_unfold; split; [lia|]; split; [constructor; constructor|];
         split; [constructor; constructor|]; vm_compute; discriminate.
  - scalar_case gx_u8.
  - scalar_case gx_i8.
  - scalar_case gx_u32.
  - scalar_case gx_u64.
  - scalar_case gx_i32.
  - scalar_case gx_i64.
  - scalar_case gx_bool.
  - scalar_case gx_u16.
  - scalar_case gx_i16.
  - scalar_case gx_u32.
  - scalar_case gx_i32.
  - scalar_case gx_f32.
  - scalar_case gx_char.
  - scalar_case gx_be_read.
  - scalar_case gx_u64.
  - scalar_case gx_i64.
  - scalar_case gx_f64.
  - (* timestamp *)
    eapply gx_bind; [apply gx_datetime|]; cbn beta; intros t c [H1 [H2 ->]]; apply gx_ret.
    apply PV_unfold. split; [lia|]. split; [constructor; assumption|].
    split; [constructor; assumption|]. cbn [sz_variant]. unfold sz_datetime. lia.
  - scalar_case gx_be_read.
  - scalar_case gx_be_read.
  - scalar_case gx_uuid.
  - scalar_case gx_binary.
  - scalar_case gx_string.
  - scalar_case gx_symbol.
  - scalar_case gx_binary.
  - scalar_case gx_string.
  - scalar_case gx_symbol.
  - (* list8 *)
    eapply gx_bind; [apply gx_list with (P := PV); [exact Hover| |exact IH]|].
    { intros a c [H _]. exact H. }
    cbn beta. intros l c [c' [Hs Hc]]. apply gx_ret.
    apply seq_sum with (R := fun v => legal v /\ wire_dec v) (sz := sz_variant) in Hs.
    2:{ intros a c0 [_ [H1 [H2 H3]]]. auto. }
    destruct Hs as [HF HS]. apply PV_unfold. split; [lia|].
    split; [constructor; eapply Forall_impl; [|exact HF]; cbn beta; tauto|].
    split; [constructor; eapply Forall_impl; [|exact HF]; cbn beta; tauto|].
    cbn [sz_variant]. unfold sz_compound. destruct Hc as [Hc| ->].
    + destruct (255 <? _); lia.
    + change (sum_by sz_variant []) with 0. change (255 <? 0 + 1) with false. cbv iota. lia.
  - (* map8 *)
    eapply gx_bind; [apply gx_hashmap with (PK := PV) (PV := PV) (Inv := MapInv);
      [exact Hover|left; right; reflexivity|exact IH|exact IH| | |]|].
    { intros a c [H _]. exact H. }
    { repeat split; try constructor. discriminate. }
    { intros. apply MapInv_insert; assumption. }
    cbn beta. intros m c [c' [[H1 [H2 [H3 [H4 H5]]]] Hc]]. apply gx_ret.
    apply PV_unfold. split; [lia|]. split; [constructor; assumption|].
    split; [constructor; exact H2|]. cbn [sz_variant]. unfold sz_map, sz_compound.
    destruct (255 <? _); lia.
  - (* list32 *)
    eapply gx_bind; [apply gx_list with (P := PV); [exact Hover| |exact IH]|].
    { intros a c [H _]. exact H. }
    cbn beta. intros l c [c' [Hs Hc]]. apply gx_ret.
    apply seq_sum with (R := fun v => legal v /\ wire_dec v) (sz := sz_variant) in Hs.
    2:{ intros a c0 [_ [H1 [H2 H3]]]. auto. }
    destruct Hs as [HF HS]. apply PV_unfold. split; [lia|].
    split; [constructor; eapply Forall_impl; [|exact HF]; cbn beta; tauto|].
    split; [constructor; eapply Forall_impl; [|exact HF]; cbn beta; tauto|].
    cbn [sz_variant]. unfold sz_compound. destruct Hc as [Hc| ->].
    + destruct (255 <? _); lia.
    + change (sum_by sz_variant []) with 0. change (255 <? 0 + 1) with false. cbv iota. lia.
  - (* map32 *)
    eapply gx_bind; [apply gx_hashmap with (PK := PV) (PV := PV) (Inv := MapInv);
      [exact Hover|left; right; reflexivity|exact IH|exact IH| | |]|].
    { intros a c [H _]. exact H. }
    { repeat split; try constructor. discriminate. }
    { intros. apply MapInv_insert; assumption. }
    cbn beta. intros m c [c' [[H1 [H2 [H3 [H4 H5]]]] Hc]]. apply gx_ret.
    apply PV_unfold. split; [lia|]. split; [constructor; assumption|].
    split; [constructor; exact H2|]. cbn [sz_variant]. unfold sz_map, sz_compound.
    destruct (255 <? _); lia.
  - (* array8 *)
    eapply gx_bind; [apply gx_array, Hover|]. cbn beta. intros a c [H1 [H2 [H3 [H4 H5]]]]. apply gx_ret.
    apply PV_unfold. split; [lia|]. split; [constructor; assumption|].
    split; [constructor; exact H3|]. cbn [sz_variant]. lia.
  - (* array32 *)
    eapply gx_bind; [apply gx_array, Hover|]. cbn beta. intros a c [H1 [H2 [H3 [H4 H5]]]]. apply gx_ret.
    apply PV_unfold. split; [lia|]. split; [constructor; assumption|].
    split; [constructor; exact H3|]. cbn [sz_variant]. lia.
Qed.

Lemma gx_decode_variant p n n' :
  gx (value_panic p) n n' PV (decode_variant p) (decode_variant p).
Proof.
  intros inp Hi. unfold decode_variant at 1.
  pose proof (gx_variant p (S (length inp)) (S (length inp)) inp ltac:(lia)) as G.
  destruct (dec_variant p (S (length inp)) inp) as [[v rest]| | |] eqn:E; auto.
  destruct G as [pre [E2 [Hp _]]]. exists pre. split; [exact E2|]. split; [exact Hp|].
  intros x _. pose proof (gx_variant p (S (length inp)) (S (length (inp ++ x))) inp ltac:(lia)) as G.
  rewrite E in G. destruct G as [pre' [_ [_ G]]]. unfold decode_variant. apply G. lia.
Qed.
