(** * Which inputs can make the value decoder panic *)

From Verif Require Import Base BaseProofs Types Encode Decode Spec EncodeProofs Roundtrip
  VariantRoundtrip DecodeProofs VariantDecode VariantDecode2.
From Coq Require Import ZifyBool ZifyNat ZifyN.

(** The panics possible on an input. *)
Definition bad (p : profile) (q : panic) (x : bytes) : Prop :=
  q = POverflow /\ p = Debug /\ undersized x \/ q = PHashMapKey /\ mentions_map x.

Lemma bad_ctx p q pre x post : bad p q x -> bad p q (pre ++ x ++ post).
Proof.
  intros [[H1 [H2 [H|H]]]|[H1 H]]; [left|left|right].
  - split; [exact H1|]. split; [exact H2|]. left. destruct H as [b [c [a [Hc ->]]]].
    exists (pre ++ b), c, (a ++ post). split; [exact Hc|]. rewrite <- !app_assoc. reflexivity.
  - split; [exact H1|]. split; [exact H2|]. right. destruct H as [b [c [d [a [Hc [Hd ->]]]]]].
    exists (pre ++ b), c, d, (a ++ post). split; [exact Hc|]. split; [exact Hd|].
    rewrite <- !app_assoc. reflexivity.
  - split; [exact H1|]. unfold mentions_map in *. rewrite !in_app_iff. tauto.
Qed.
Lemma bad_pre p q pre x : bad p q x -> bad p q (pre ++ x).
Proof. intros H. rewrite <- (app_nil_r x). apply bad_ctx, H. Qed.

(** A decoder consumes a prefix, and panics only on inputs that are [bad] when
    preceded by [pre]. *)
Definition px {A} p (pre : bytes) (d : parser A) : Prop :=
  forall inp, match d inp with
  | Ok (_, rest) => exists used, inp = used ++ rest
  | Panic q => bad p q (pre ++ inp)
  | _ => True
  end.

Lemma px_gx {A} p pre (P : A -> nat -> Prop) d :
  (forall n, gx (fun _ => False) n n P d d) -> px p pre d.
Proof.
  intros H inp. specialize (H (S (length inp)) inp ltac:(lia)).
  destruct (d inp) as [[a rest]| | |]; try tauto. destruct H as [u [E _]]. eauto.
Qed.

Lemma px_bind {A B} p pre (d1 : parser A) (d2 : A -> parser B) :
  px p pre d1 -> (forall a, px p [] (d2 a)) ->
  px p pre (fun inp => '(a, inp0) <- d1 inp ;; d2 a inp0).
Proof.
  intros H1 H2 inp. specialize (H1 inp). destruct (d1 inp) as [[a rest]| | |]; cbn [bind]; auto.
  destruct H1 as [u ->]. specialize (H2 a rest).
  destruct (d2 a rest) as [[b rest']| | |]; auto.
  - destruct H2 as [u' ->]. exists (u ++ u'). apply app_assoc.
  - rewrite app_assoc. apply bad_pre. exact H2.
Qed.

Lemma px_ret {A} p pre (a : A) : px p pre (fun inp => Ok (a, inp)).
Proof. intros inp. exists []. reflexivity. Qed.
Lemma px_err {A} p pre e : px p pre (fun inp => @Err (A * bytes) e).
Proof. intros inp. exact I. Qed.

Lemma px_nil {A} p pre (d : parser A) : px p [] d -> px p pre d.
Proof.
  intros H inp. specialize (H inp). destruct (d inp) as [[a rest]| | |]; auto.
  apply bad_pre. exact H.
Qed.

Lemma px_check {A} p pre n (d : parser A) : px p pre d -> px p pre (fun inp => _ <- check_len n inp ;; d inp).
Proof.
  intros H inp. unfold check_len. destruct (_ <? _); cbn [bind]; [exact I|apply H].
Qed.

Lemma px_compound8 p c : In c [xc0; xc1; xe0] -> px p [c] (decode_compound8 p).
Proof.
  intros Hc inp. unfold decode_compound8, check_len. destruct (N.ltb_spec (blen inp) 2) as [|Hl]; cbn [bind]; [exact I|].
  destruct inp as [|b0 [|b1 inp]]; [exfalso; cbv in Hl; congruence|exfalso; cbv in Hl; congruence|].
  cbn [index nth_error bind]. unfold usub. destruct (N.leb_spec 1 (Byte.to_N b0)) as [H|H]; cbn [bind].
  - change (b0 :: b1 :: inp) with ([b0; b1] ++ inp). rewrite advance_app' by reflexivity. cbn [bind].
    exists [b0; b1]. reflexivity.
  - destruct p; cbn [bind].
    + left. split; [reflexivity|]. split; [reflexivity|]. left. exists [], c, (b1 :: inp).
      split; [exact Hc|]. assert (E : b0 = x00) by (apply to_N_inj; change (Byte.to_N x00) with 0; lia).
      rewrite E. reflexivity.
    + change (b0 :: b1 :: inp) with ([b0; b1] ++ inp). rewrite advance_app' by reflexivity. cbn [bind].
      exists [b0; b1]. reflexivity.
Qed.

Lemma px_compound32 p c : In c [xd0; xd1; xf0] -> px p [c] (decode_compound32 p).
Proof.
  intros Hc inp. unfold decode_compound32, check_len. destruct (N.ltb_spec (blen inp) 8) as [|Hl]; cbn [bind]; [exact I|].
  destruct inp as [|a0 [|a1 [|a2 [|a3 [|a4 [|a5 [|a6 [|a7 inp]]]]]]]];
    try (exfalso; cbv in Hl; congruence).
  unfold usub. change (firstn 4 (a0 :: a1 :: a2 :: a3 :: a4 :: a5 :: a6 :: a7 :: inp)) with [a0; a1; a2; a3].
  assert (HA : forall (k : bytes -> res ((N * N) * bytes)),
    (inp' <- advance 8 (a0 :: a1 :: a2 :: a3 :: a4 :: a5 :: a6 :: a7 :: inp) ;; k inp') = k inp).
  { intros k. change (a0 :: a1 :: a2 :: a3 :: a4 :: a5 :: a6 :: a7 :: inp)
      with ([a0; a1; a2; a3; a4; a5; a6; a7] ++ inp). rewrite advance_app' by reflexivity. reflexivity. }
  destruct (N.leb_spec 4 (be_val [a0; a1; a2; a3])) as [H|H]; cbn [bind].
  - rewrite HA. exists [a0; a1; a2; a3; a4; a5; a6; a7]. reflexivity.
  - destruct p; cbn [bind].
    + left. split; [reflexivity|]. split; [reflexivity|]. right.
      unfold be_val in H. cbn [fold_left] in H.
      pose proof (to_N_lt a0); pose proof (to_N_lt a1); pose proof (to_N_lt a2); pose proof (to_N_lt a3).
      assert (E0 : a0 = x00) by (apply to_N_inj; change (Byte.to_N x00) with 0; lia).
      assert (E1 : a1 = x00) by (apply to_N_inj; change (Byte.to_N x00) with 0; lia).
      assert (E2 : a2 = x00) by (apply to_N_inj; change (Byte.to_N x00) with 0; lia).
      subst. exists [], c, a3, (a4 :: a5 :: a6 :: a7 :: inp). split; [exact Hc|].
      split; [change (Byte.to_N x00) with 0 in H; lia|reflexivity].
    + rewrite HA. exists [a0; a1; a2; a3; a4; a5; a6; a7]. reflexivity.
Qed.

Lemma px_list_header p fmt : px p [fmt] (dec_list_header p fmt).
Proof.
  destruct fmt; unfold dec_list_header; try apply px_err.
  - apply px_ret.
  - apply px_compound8. cbn; tauto.
  - apply px_compound32. cbn; tauto.
Qed.
Lemma px_map_header p fmt : px p [fmt] (dec_map_header p fmt).
Proof.
  destruct fmt; unfold dec_map_header; try apply px_err.
  - apply px_compound8. cbn; tauto.
  - apply px_compound32. cbn; tauto.
Qed.
Lemma px_array_header p fmt : px p [fmt] (dec_array_header p fmt).
Proof.
  destruct fmt; unfold dec_array_header; try apply px_err.
  - apply px_compound8. cbn; tauto.
  - apply px_compound32. cbn; tauto.
Qed.

Lemma px_n {A} p (d : parser A) : px p [] d -> forall f count, px p [] (dec_n d f count).
Proof.
  intros H. induction f as [|f IH]; intros count inp; cbn [dec_n].
  - destruct (count =? 0); [exists []; reflexivity|exact I].
  - destruct (count =? 0); [exists []; reflexivity|].
    apply (px_bind p [] d (fun a inp0 => '(l, inp1) <- dec_n d f (count - 1) inp0 ;; Ok (a :: l, inp1)) H).
    intros a. apply px_bind; [apply IH|]. intros l. apply px_ret.
Qed.

Lemma px_list {A} p (d : parser A) fmt : px p [] d -> px p [fmt] (dec_list p d fmt).
Proof.
  intros H. unfold dec_list. apply px_bind; [apply px_list_header|]. intros [sz count] inp.
  apply (px_n p d H).
Qed.

(** Inside the entries of a map the only further panic is hashing. *)
Lemma map_loop_panic {K V} p hash_ok eqb (dk : parser K) (dv : parser V) :
  px p [] dk -> px p [] dv -> forall f count acc inp q,
  dec_map_loop hash_ok eqb dk dv f count acc inp = Panic q -> q = PHashMapKey \/ bad p q inp.
Proof.
  intros Hk Hv. induction f as [|f IH]; intros count acc inp q E; cbn [dec_map_loop] in E.
  - destruct (count =? 0); discriminate.
  - destruct (count =? 0); [discriminate|].
    pose proof (Hk inp) as G. destruct (dk inp) as [[k r1]| | |]; cbn [bind] in E; try discriminate.
    + destruct G as [u1 ->]. pose proof (Hv r1) as G.
      destruct (dv r1) as [[v r2]| | |]; cbn [bind] in E; try discriminate.
      * destruct G as [u2 ->]. destruct (hash_ok k); [|injection E as <-; left; reflexivity].
        apply IH in E. destruct E as [E|E]; [left; exact E|right]. apply bad_pre, bad_pre, E.
      * injection E as <-. right. apply bad_pre. exact G.
    + injection E as <-. right. exact G.
Qed.

Lemma px_hashmap {K V} p hash_ok eqb (dk : parser K) (dv : parser V) fmt :
  px p [] dk -> px p [] dv -> px p [fmt] (dec_hashmap p hash_ok eqb dk dv fmt).
Proof.
  intros Hk Hv inp. unfold dec_hashmap. pose proof (px_map_header p fmt inp) as G.
  destruct (dec_map_header p fmt inp) as [[[size count] r]| | |] eqn:EH; cbn [bind]; auto.
  destruct G as [u ->]. unfold check_len. destruct (N.ltb_spec (blen r) size) as [|Hs]; cbn [bind]; [exact I|].
  destruct (split_to_total size r Hs) as [a [rest E]]. rewrite E. cbn [bind].
  apply split_to_inv in E. destruct E as [-> _].
  destruct (dec_map_loop hash_ok eqb dk dv (S (length a)) (count / 2) [] a) as [[m ?]| | |] eqn:EL;
    cbn [bind]; auto.
  - exists (u ++ a). apply app_assoc.
  - apply (map_loop_panic p hash_ok eqb dk dv Hk Hv) in EL. destruct EL as [->|EL].
    + right. split; [reflexivity|]. unfold mentions_map.
      assert (HF : fmt = xc1 \/ fmt = xd1).
      { destruct fmt; cbn [dec_map_header] in EH; try discriminate EH; auto. }
      cbn [app In]. tauto.
    + rewrite app_assoc. apply bad_ctx. exact EL.
Qed.

Lemma px_array p fmt : px p [fmt] (dec_array p fmt).
Proof.
  unfold dec_array. apply px_bind; [apply px_array_header|]. intros [size count] inp.
  unfold check_len. destruct (N.ltb_spec (blen inp) size) as [|Hs]; cbn [bind]; [exact I|].
  destruct (split_to_total size inp Hs) as [a [rest E]]. rewrite E. cbn [bind].
  apply split_to_inv in E. destruct E as [-> _].
  assert (G : px p [] (decode_with dec_ctor)).
  { apply px_gx with (P := fun _ _ => True). intros n. apply gx_decode_with. intros b.
    eapply gx_weaken; [apply gx_ctor|auto]. }
  specialize (G a). destruct (decode_with dec_ctor a) as [[c r]| | |]; cbn [bind]; auto.
  - exists a. reflexivity.
  - rewrite <- (app_nil_l (a ++ rest)). change ([] ++ [] ++ a ++ rest) with ([] ++ a ++ rest).
    apply bad_ctx. exact G.
Qed.

Ltac px_scalar lem :=
  apply px_bind; [eapply px_gx; intros n; apply lem|intros ?; apply px_ret].

Lemma px_variant p : forall f, px p [] (dec_variant p f).
Proof.
  induction f as [|f IH]; [intros inp; exact I|].
  intros inp. cbn [dec_variant]. destruct inp as [|fmt inp]; [exact I|].
  rewrite read_byte_cons. cbn [bind].
  match goal with |- match ?t with _ => _ end => remember t as r eqn:Er end.
  assert (G : match r with
     | Ok (_, rest) => exists used, inp = used ++ rest
     | Panic q => bad p q ([fmt] ++ inp)
     | _ => True
     end).
  2:{ destruct r as [[v rest]| | |]; auto. destruct G as [u ->]. exists (fmt :: u). reflexivity. }
  subst r. revert inp.
  match goal with |- forall inp, match @?d inp with _ => _ end => change (px p [fmt] d) end.
  destruct fmt; cbv beta iota; try apply px_err; try apply px_ret.
  - (* described *)
    apply px_bind.
    { apply px_gx with (P := fun _ _ => True). intros n. apply gx_decode_with. intros b.
      eapply gx_weaken; [apply gx_descriptor|auto]. }
    intros d inp. destruct inp as [|code inp]; [exact I|].
    rewrite check_len_ok by (rewrite blen_cons; lia). cbn [bind].
    unfold index at 1. cbn [nth_error bind].
    assert (HT : forall n : N, match (_ <- check_len n (code :: inp) ;;
        '(data, inp0) <- split_to n (code :: inp) ;; Ok (VDescribedCompound d data, inp0)) with
       | Ok (_, rest) => exists used, code :: inp = used ++ rest
       | Panic q => bad p q ([] ++ code :: inp)
       | _ => True
       end).
    { intros n. unfold check_len. destruct (N.ltb_spec (blen (code :: inp)) n) as [|Hs]; cbn [bind]; [exact I|].
      destruct (split_to_total n (code :: inp) Hs) as [a [rest E]]. rewrite E. cbn [bind].
      apply split_to_inv in E. destruct E as [E _]. eauto. }
    destruct (compound_kind code).
    + change (code :: inp) with ([code] ++ inp). rewrite advance_app' by reflexivity. cbn [bind].
      exists [code]. reflexivity.
    + unfold check_len at 1. destruct (N.ltb_spec (blen (code :: inp)) 2) as [|Hl]; cbn [bind]; [exact I|].
      destruct inp as [|b1 inp]; [exfalso; cbv in Hl; congruence|].
      unfold index. cbn [nth_error bind]. apply HT.
    + unfold check_len at 1. destruct (N.ltb_spec (blen (code :: inp)) 5) as [|Hl]; cbn [bind]; [exact I|].
      apply HT.
    + apply (px_bind p [] (dec_variant p f) (fun v inp0 => Ok (VDescribed d v, inp0)) IH).
      intros v. apply px_ret.
  - px_scalar gx_u8.
  - px_scalar gx_i8.
  - px_scalar gx_u32.
  - px_scalar gx_u64.
  - px_scalar gx_i32.
  - px_scalar gx_i64.
  - px_scalar gx_bool.
  - px_scalar gx_u16.
  - px_scalar gx_i16.
  - px_scalar gx_u32.
  - px_scalar gx_i32.
  - px_scalar gx_f32.
  - px_scalar gx_char.
  - px_scalar gx_be_read.
  - px_scalar gx_u64.
  - px_scalar gx_i64.
  - px_scalar gx_f64.
  - px_scalar gx_datetime.
  - px_scalar gx_be_read.
  - px_scalar gx_be_read.
  - px_scalar gx_uuid.
  - px_scalar gx_binary.
  - px_scalar gx_string.
  - px_scalar gx_symbol.
  - px_scalar gx_binary.
  - px_scalar gx_string.
  - px_scalar gx_symbol.
  - apply px_bind; [apply px_list, IH|]. intros l. apply px_ret.
  - apply px_bind; [apply px_hashmap; exact IH|]. intros l. apply px_ret.
  - apply px_bind; [apply px_list, IH|]. intros l. apply px_ret.
  - apply px_bind; [apply px_hashmap; exact IH|]. intros l. apply px_ret.
  - apply px_bind; [apply px_array|]. intros l. apply px_ret.
  - apply px_bind; [apply px_array|]. intros l. apply px_ret.
Qed.

Lemma decode_variant_panic p inp q : decode_variant p inp = Panic q -> bad p q inp.
Proof.
  intros E. pose proof (px_variant p (S (length inp)) inp) as G. unfold decode_variant in E.
  rewrite E in G. exact G.
Qed.

Lemma decode_variant_fuel p inp : decode_variant p inp <> NoFuel.
Proof.
  intros E. pose proof (gx_decode_variant p (S (length inp)) 0 inp ltac:(lia)) as G.
  rewrite E in G. exact G.
Qed.
