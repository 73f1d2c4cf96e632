(** * The value round trip *)

From Verif Require Import Base BaseProofs Types Encode Decode Spec EncodeProofs Roundtrip.
From Coq Require Import ZifyBool ZifyNat ZifyN.

Ltac step_variant :=
  cbn [dec_variant]; rewrite read_byte_cons; cbn [bind].

Lemma blen_length b : blen b = N.of_nat (length b).
Proof. reflexivity. Qed.

Lemma length_flat_map_le {A} (e : A -> bytes) l :
  Forall (fun x => (1 <= length (e x))%nat) l -> (length l <= length (flat_map e l))%nat.
Proof.
  induction 1 as [|x l Hx _ IH]; cbn [flat_map length]; [lia|]. rewrite app_length. lia.
Qed.

Lemma Forall_in_flat {A} (e : A -> bytes) l :
  Forall (fun x => (length (e x) <= length (flat_map e l))%nat) l.
Proof.
  induction l as [|x l IH]; constructor; cbn [flat_map]; rewrite app_length; [lia|].
  eapply Forall_impl; [|exact IH]. intros y Hy. cbn in Hy |- *. lia.
Qed.

Lemma sum_by_in {A} (f : A -> N) l : Forall (fun x => f x <= sum_by f l) l.
Proof.
  induction l as [|x l IH]; constructor; cbn; [fold (sum_by f l); lia|].
  eapply Forall_impl; [|exact IH]. intros y Hy. cbn in Hy |- *. fold (sum_by f l). lia.
Qed.

Lemma variant_len1 v : fixed_ok v -> (1 <= length (enc_variant v))%nat.
Proof.
  intros H. pose proof (blen_enc_variant v H) as E. pose proof (enc_variant_nonempty v).
  unfold blen in E. lia.
Qed.

Lemma Forall_and_intro {A} (P Q R : A -> Prop) l :
  Forall P l -> Forall Q l -> (forall x, In x l -> P x -> Q x -> R x) -> Forall R l.
Proof.
  intros HP HQ H. rewrite Forall_forall in *. auto.
Qed.

(** A value that is no list, map or array starts with none of their codes. *)
Lemma noncompound_code v :
  is_compound v = false ->
  exists c tl, enc_variant v = c :: tl /\ compound_kind c = KOther.
Proof.
  intros H.
  destruct v; try discriminate H; cbn [enc_variant];
    unfold enc_null, enc_bool, enc_u8, enc_u16, enc_u32, enc_u64, enc_i8, enc_i16, enc_i32, enc_i64,
      enc_f32, enc_f64, enc_char, enc_datetime, enc_uuid, enc_binary, enc_string, enc_symbol,
      enc_var, enc_descriptor;
    repeat match goal with |- context [if ?c then _ else _] => destruct c end;
    (do 2 eexists; split; [cbn [app]; reflexivity|reflexivity]).
Qed.

Lemma dec_variant_roundtrip p v :
  legal v -> wire_safe v -> sz_variant v < 2 ^ 32 ->
  forall fuel rest, (length (enc_variant v) < fuel)%nat ->
  dec_variant p fuel (enc_variant v ++ rest) = Ok (v, rest).
Proof.
  induction v as [v Hs|l IH|m IH|d v IH] using variant_ind';
    intros Hl Hw Hsz fuel rest Hf; (destruct fuel as [|f]; [lia|]).
  - destruct v; try contradiction; cbn [enc_variant] in *;
      inversion Hl; subst; cbn [sz_variant] in Hsz.
    + cbn [enc_null app]. step_variant. reflexivity.
    + destruct b; cbn [enc_bool app]; step_variant; reflexivity.
    + pose proof (rt_u8 n rest ltac:(assumption)) as R.
      unfold enc_u8 in *. rewrite <- app_comm_cons in *. rewrite decode_with_cons in R.
      step_variant. rewrite R. reflexivity.
    + pose proof (rt_u16 n rest ltac:(assumption)) as R.
      unfold enc_u16 in *. rewrite <- app_comm_cons in *. rewrite decode_with_cons in R.
      step_variant. rewrite R. reflexivity.
    + pose proof (rt_u32 n rest ltac:(assumption)) as R.
      unfold enc_u32 in *. destruct (N.eqb_spec n 0) as [->|Hn].
      * cbn [app]. step_variant. reflexivity.
      * destruct (255 <? n); rewrite <- app_comm_cons in *; rewrite decode_with_cons in R;
          step_variant; rewrite R; reflexivity.
    + pose proof (rt_u64 n rest ltac:(assumption)) as R.
      unfold enc_u64 in *. destruct (N.eqb_spec n 0) as [->|Hn].
      * cbn [app]. step_variant. reflexivity.
      * destruct (255 <? n); rewrite <- app_comm_cons in *; rewrite decode_with_cons in R;
          step_variant; rewrite R; reflexivity.
    + pose proof (rt_i8 z rest ltac:(assumption)) as R.
      unfold enc_i8 in *. rewrite <- app_comm_cons in *. rewrite decode_with_cons in R.
      step_variant. rewrite R. reflexivity.
    + pose proof (rt_i16 z rest ltac:(assumption)) as R.
      unfold enc_i16 in *. rewrite <- app_comm_cons in *. rewrite decode_with_cons in R.
      step_variant. rewrite R. reflexivity.
    + pose proof (rt_i32 z rest ltac:(assumption)) as R.
      unfold enc_i32 in *. destruct (wide_i z);
        rewrite <- app_comm_cons in *; rewrite decode_with_cons in R;
          step_variant; rewrite R; reflexivity.
    + pose proof (rt_i64 z rest ltac:(assumption)) as R.
      unfold enc_i64 in *. destruct (wide_i z);
        rewrite <- app_comm_cons in *; rewrite decode_with_cons in R;
          step_variant; rewrite R; reflexivity.
    + pose proof (rt_f32 bits rest ltac:(assumption)) as R.
      unfold enc_f32 in *. rewrite <- app_comm_cons in *. rewrite decode_with_cons in R.
      step_variant. rewrite R. reflexivity.
    + pose proof (rt_f64 bits rest ltac:(assumption)) as R.
      unfold enc_f64 in *. rewrite <- app_comm_cons in *. rewrite decode_with_cons in R.
      step_variant. rewrite R. reflexivity.
    + rewrite <- app_comm_cons. step_variant. unfold read_fixed.
      rewrite be_read_app by assumption. reflexivity.
    + rewrite <- app_comm_cons. step_variant. unfold read_fixed.
      rewrite be_read_app by assumption. reflexivity.
    + rewrite <- app_comm_cons. step_variant. unfold read_fixed.
      rewrite be_read_app by assumption. reflexivity.
    + pose proof (rt_char n rest ltac:(assumption)) as R.
      unfold enc_char in *. rewrite <- app_comm_cons in *. rewrite decode_with_cons in R.
      step_variant. rewrite R. reflexivity.
    + assert (Hwi : wire_instant t) by (inversion Hw; subst; [assumption|contradiction]).
      pose proof (rt_datetime t rest ltac:(assumption) Hwi) as R.
      unfold enc_datetime in *. rewrite <- app_comm_cons in *. rewrite decode_with_cons in R.
      step_variant. rewrite R. reflexivity.
    + pose proof (rt_uuid b rest ltac:(assumption)) as R.
      unfold enc_uuid in *. rewrite <- app_comm_cons in *. rewrite decode_with_cons in R.
      step_variant. rewrite R. reflexivity.
    + assert (Hb : blen b < 2 ^ 32) by (unfold sz_var in Hsz; destruct (255 <? blen b); lia).
      pose proof (rt_binary b rest Hb) as R.
      unfold enc_binary, enc_var in *. rewrite <- app_assoc in R. rewrite <- app_assoc.
      destruct (255 <? blen b); rewrite <- app_comm_cons in R; rewrite <- app_comm_cons;
        rewrite decode_with_cons in R; step_variant; rewrite R; reflexivity.
    + assert (Hb : blen s < 2 ^ 32) by (unfold sz_var in Hsz; destruct (255 <? blen s); lia).
      pose proof (rt_string s rest ltac:(assumption) Hb) as R.
      unfold enc_string, enc_var in *. rewrite <- app_assoc in R. rewrite <- app_assoc.
      destruct (255 <? blen s); rewrite <- app_comm_cons in R; rewrite <- app_comm_cons;
        rewrite decode_with_cons in R; step_variant; rewrite R; reflexivity.
    + assert (Hb : blen s < 2 ^ 32) by (unfold sz_var in Hsz; destruct (255 <? blen s); lia).
      pose proof (rt_symbol s rest ltac:(assumption) Hb) as R.
      unfold enc_symbol, enc_var in *. rewrite <- app_assoc in R. rewrite <- app_assoc.
      destruct (255 <? blen s); rewrite <- app_comm_cons in R; rewrite <- app_comm_cons;
        rewrite decode_with_cons in R; step_variant; rewrite R; reflexivity.
    + assert (Hwa : wire_array a) by (inversion Hw; subst; [assumption|contradiction]).
      destruct (rt_array p a rest ltac:(assumption) ltac:(assumption) Hwa Hsz)
        as [c [tl [E [[-> | ->] R]]]]; rewrite E, <- app_comm_cons; step_variant;
        rewrite R; reflexivity.
    + assert (Hwd : wire_descriptor d /\ framed_compound data)
        by (inversion Hw; subst; [tauto|contradiction]).
      destruct Hwd as [Hwd Hfr].
      rewrite <- app_assoc.
      destruct (rt_descriptor d (data ++ rest) ltac:(assumption) Hwd ltac:(lia)) as [tl [E R]].
      rewrite E, <- app_comm_cons. step_variant. rewrite R. cbn [bind].
      destruct Hfr as [-> |[[c [body [Hc [Hb ->]]]]|[c [size [body [Hc [H4 [Hv ->]]]]]]]].
      * rewrite check_len_ok by (rewrite blen_app, blen_cons; lia). cbn [bind index nth_error app].
        change (x45 :: rest) with ([x45] ++ rest). rewrite advance_app' by reflexivity. reflexivity.
      * cbn [app]. rewrite check_len_ok by (rewrite blen_cons; lia). cbn [bind index nth_error].
        assert (G : (_ <- check_len 2 (c :: byte_of (blen body) :: body ++ rest) ;;
                     b1 <- index 1 (c :: byte_of (blen body) :: body ++ rest) ;;
                     (let size := Byte.to_N b1 in
                      _ <- check_len (2 + size) (c :: byte_of (blen body) :: body ++ rest) ;;
                      '(data, inp0) <- split_to (2 + size) (c :: byte_of (blen body) :: body ++ rest) ;;
                      Ok (VDescribedCompound d data, inp0)))
                    = Ok (VDescribedCompound d (c :: byte_of (blen body) :: body), rest)).
        { rewrite check_len_ok by (rewrite !blen_cons; lia). cbn [bind index nth_error].
          cbv zeta. rewrite byte_of_small by exact Hb.
          rewrite check_len_ok by (rewrite !blen_cons, blen_app; lia). cbn [bind].
          change (c :: byte_of (blen body) :: body ++ rest)
            with ((c :: byte_of (blen body) :: body) ++ rest).
          rewrite split_to_app' by (rewrite !blen_cons; lia). reflexivity. }
        destruct Hc as [-> |[-> | ->]]; exact G.
      * cbn [app]. rewrite check_len_ok by (rewrite blen_cons; lia). cbn [bind index nth_error].
        rewrite <- app_assoc.
        assert (G : (_ <- check_len 5 (c :: size ++ body ++ rest) ;;
                     (let size0 := be_val (firstn 4 (skipn 1 (c :: size ++ body ++ rest))) in
                      _ <- check_len (5 + size0) (c :: size ++ body ++ rest) ;;
                      '(data, inp0) <- split_to (5 + size0) (c :: size ++ body ++ rest) ;;
                      Ok (VDescribedCompound d data, inp0)))
                    = Ok (VDescribedCompound d (c :: size ++ body), rest)).
        { rewrite check_len_ok by (rewrite blen_cons, !blen_app, (blen_length size), H4; lia).
          cbn [bind]. cbv zeta. rewrite skipn_cons, skipn_O, (firstn_exact 4) by exact H4.
          rewrite Hv.
          rewrite check_len_ok by (rewrite blen_cons, !blen_app, (blen_length size), H4; lia).
          cbn [bind].
          change (c :: size ++ body ++ rest) with ((c :: size) ++ body ++ rest).
          rewrite app_assoc.
          rewrite split_to_app'
            by (rewrite blen_app, blen_cons, (blen_length size), H4; lia).
          reflexivity. }
        destruct Hc as [-> |[-> | ->]]; exact G.
  - (* lists *)
    inversion Hl as [| | | | | | | | | | | | | | | | | | | | |l' Hl'| | | |]; subst l'.
    assert (Hw' : Forall wire_safe l) by (inversion Hw; subst; [assumption|contradiction]).
    cbn [enc_variant sz_variant] in *. rewrite <- app_assoc.
    set (size := sum_by sz_variant l) in *.
    assert (Hbody : blen (flat_map enc_variant l) = size).
    { apply sum_by_flat. eapply Forall_impl; [|exact Hl'].
      intros x Hx. apply size_variant, Hx. }
    assert (Hcount : (length l <= length (flat_map enc_variant l))%nat).
    { apply length_flat_map_le. eapply Forall_impl; [|exact Hl'].
      intros x Hx. apply variant_len1, legal_fixed, Hx. }
    destruct (enc_compound_cons xc0 xd0 size (N.of_nat (length l))) as [c [tl [E Hc]]].
    rewrite E in *. rewrite app_length in Hf. cbn [length app] in Hf.
    assert (Hloop : forall inp fuel, (length l <= fuel)%nat ->
      dec_n (dec_variant p f) fuel (N.of_nat (length l)) (flat_map enc_variant l ++ inp)
        = Ok (l, inp)).
    { intros inp fl Hfl. apply dec_n_rt; [|exact Hfl].
      pose proof (sum_by_in sz_variant l) as Hin. fold size in Hin.
      pose proof (Forall_in_flat enc_variant l) as Hfl2.
      rewrite Forall_forall in IH, Hl', Hw', Hin, Hfl2 |- *.
      intros x Hx rest'. apply IH; auto.
      - specialize (Hin x Hx). unfold sz_compound in Hsz. destruct (255 <? size + 1); lia.
      - specialize (Hfl2 x Hx). cbn in Hfl2. lia. }
    unfold blen in Hbody. unfold sz_compound in Hsz.
    destruct Hc as [[Hsz' [-> ->]]|[Hsz' [-> ->]]]; rewrite Hsz' in Hsz;
      rewrite <- app_comm_cons; step_variant; unfold dec_list; cbn [dec_list_header];
      rewrite <- app_assoc.
    + rewrite compound32_rt by lia. cbn [bind]. rewrite Hloop; [reflexivity|].
      rewrite app_length. lia.
    + rewrite compound8_rt by lia. cbn [bind]. rewrite Hloop; [reflexivity|].
      rewrite app_length. lia.
  - (* maps *)
    inversion Hl as [| | | | | | | | | | | | | | | | | | | | | |m' Hl' Hh Hd| | |]; subst m'.
    assert (Hw' : Forall (fun kv => wire_safe (fst kv) /\ wire_safe (snd kv)) m)
      by (inversion Hw; subst; [assumption|contradiction]).
    cbn [enc_variant sz_variant] in *. unfold enc_map, sz_map in *. rewrite <- app_assoc.
    set (size := pairs_size sz_variant sz_variant m) in *.
    assert (Hbody : blen (enc_pairs enc_variant enc_variant m) = size).
    { apply blen_enc_pairs. eapply Forall_impl; [|exact Hl'].
      intros x [Hx1 Hx2]. split; apply size_variant; assumption. }
    assert (Hcount : (2 * length m <= length (enc_pairs enc_variant enc_variant m))%nat).
    { clear - Hl'. induction Hl' as [|[k v] m [Hk Hv] _ IHm]; [cbn; lia|].
      unfold enc_pairs in *. cbn [flat_map length fst snd] in *. rewrite !app_length.
      pose proof (variant_len1 k (legal_fixed k Hk)). pose proof (variant_len1 v (legal_fixed v Hv)).
      lia. }
    destruct (enc_compound_cons xc1 xd1 size (N.of_nat (length m) * 2)) as [c [tl [E Hc]]].
    rewrite E in *. rewrite app_length in Hf. cbn [length app] in Hf.
    assert (Hloop : forall fuel, (length m <= fuel)%nat ->
      dec_map_loop hashable key_eqb (dec_variant p f) (dec_variant p f) fuel (N.of_nat (length m))
        [] (enc_pairs enc_variant enc_variant m) = Ok (m, [])).
    { intros fl Hfl. rewrite <- (app_nil_r (enc_pairs _ _ m)).
      apply (dec_map_loop_rt hashable key_eqb enc_variant enc_variant _ _ m) with (acc := []);
        [|exact Hh|exact Hfl|exact Hd].
      pose proof (sum_by_in (fun kv => match kv with (k, v) => sz_variant k + sz_variant v end) m)
        as Hin. fold (pairs_size sz_variant sz_variant m) in Hin. fold size in Hin.
      pose proof (Forall_in_flat
        (fun kv : variant * variant => match kv with (k, v) => enc_variant k ++ enc_variant v end) m)
        as Hfl2.
      change (flat_map _ m) with (enc_pairs enc_variant enc_variant m) in Hfl2.
      rewrite Forall_forall in IH, Hl', Hw', Hin, Hfl2 |- *.
      intros [k v] Hx. specialize (IH _ Hx). specialize (Hl' _ Hx). specialize (Hw' _ Hx).
      specialize (Hin _ Hx). specialize (Hfl2 _ Hx). cbn [fst snd] in *.
      rewrite app_length in Hfl2. unfold sz_compound in Hsz.
      destruct IH as [IHk IHv], Hl' as [Hlk Hlv], Hw' as [Hwk Hwv].
      split; intros rest'; [apply IHk|apply IHv]; auto;
        try (destruct (255 <? size + 1); lia); lia. }
    unfold blen in Hbody. unfold sz_compound in Hsz.
    assert (Hcnt2 : N.of_nat (length m) * 2 / 2 = N.of_nat (length m)) by (rewrite N.div_mul; lia).
    destruct Hc as [[Hsz' [-> ->]]|[Hsz' [-> ->]]]; rewrite Hsz' in Hsz;
      rewrite <- app_comm_cons; step_variant; unfold dec_hashmap; cbn [dec_map_header];
      rewrite <- app_assoc.
    + rewrite compound32_rt by lia. cbn [bind].
      rewrite check_len_ok by (rewrite blen_app; unfold blen; lia). cbn [bind].
      rewrite split_to_app' by (unfold blen; lia). cbn [bind]. rewrite Hcnt2, Hloop by lia. reflexivity.
    + rewrite compound8_rt by lia. cbn [bind].
      rewrite check_len_ok by (rewrite blen_app; unfold blen; lia). cbn [bind].
      rewrite split_to_app' by (unfold blen; lia). cbn [bind]. rewrite Hcnt2, Hloop by lia. reflexivity.
  - (* described *)
    inversion Hl; subst.
    assert (Hw' : wire_descriptor d /\ is_compound v = false /\ wire_safe v)
      by (inversion Hw; subst; [tauto|contradiction]).
    destruct Hw' as [Hwd [Hnc Hwv]]. cbn [enc_variant sz_variant] in *.
    rewrite <- app_assoc. rewrite app_length in Hf.
    destruct (rt_descriptor d (enc_variant v ++ rest) ltac:(assumption) Hwd ltac:(lia)) as [tl [E R]].
    rewrite E in *. cbn [length] in Hf. rewrite <- app_comm_cons. step_variant. rewrite R. cbn [bind].
    specialize (IH ltac:(assumption) Hwv ltac:(lia) f rest ltac:(lia)).
    destruct (noncompound_code v Hnc) as [c [tl' [E' Hc]]].
    rewrite E' in *. rewrite <- app_comm_cons in *.
    rewrite check_len_ok by (rewrite blen_cons; lia). cbn [bind index nth_error].
    rewrite Hc, IH. reflexivity.
Qed.

Theorem decode_encode_variant p v rest :
  legal v -> wire_safe v -> blen (enc_variant v) < 2 ^ 32 ->
  decode_variant p (enc_variant v ++ rest) = Ok (v, rest).
Proof.
  intros Hl Hw Hs. unfold decode_variant. apply dec_variant_roundtrip; auto.
  - rewrite <- size_variant by exact Hl. exact Hs.
  - rewrite app_length. lia.
Qed.
