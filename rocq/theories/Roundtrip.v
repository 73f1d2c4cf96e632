(** * Decoding what was encoded: values *)

From Verif Require Import Base BaseProofs Types Encode Decode Spec EncodeProofs.
From Coq Require Import ZifyBool ZifyNat ZifyN.

(** ** Reading *)
Lemma read_byte_cons b rest : read_byte (b :: rest) = Ok (b, rest).
Proof.
  unfold read_byte. rewrite check_len_ok by (rewrite blen_cons; lia). cbn [bind index nth_error].
  change (b :: rest) with ([b] ++ rest). rewrite (advance_app' 1 [b] rest) by reflexivity.
  reflexivity.
Qed.

Lemma decode_with_cons {A} (dec : byte -> parser A) b rest :
  decode_with dec (b :: rest) = dec b rest.
Proof. unfold decode_with. rewrite read_byte_cons. reflexivity. Qed.

Lemma be_read_app k a rest : length a = k -> be_read k (a ++ rest) = Ok (a, rest).
Proof.
  intros <-. unfold be_read. rewrite check_len_ok by (rewrite blen_app; unfold blen; lia).
  cbn [bind]. apply split_to_app.
Qed.

Lemma read_un_be k n rest :
  n < 256 ^ N.of_nat k -> read_un k (be k n ++ rest) = Ok (n, rest).
Proof.
  intros H. unfold read_un. rewrite be_read_app by apply length_be. cbn [bind].
  rewrite be_val_be_small by exact H. reflexivity.
Qed.

Lemma read_in_be k z rest :
  (0 < k)%nat -> (- 2 ^ (8 * Z.of_nat k - 1) <= z < 2 ^ (8 * Z.of_nat k - 1))%Z ->
  read_in k (be_signed k z ++ rest) = Ok (z, rest).
Proof.
  intros Hk H. unfold read_in. rewrite be_read_app by apply length_be. cbn [bind].
  rewrite signed_roundtrip by assumption. reflexivity.
Qed.

Lemma read_bytes_be k b rest :
  blen b < 256 ^ N.of_nat k -> read_bytes k (be k (blen b) ++ b ++ rest) = Ok (b, rest).
Proof.
  intros H. unfold read_bytes. rewrite read_un_be by exact H. cbn [bind].
  rewrite check_len_ok by (rewrite blen_app; lia). cbn [bind]. apply split_to_app.
Qed.

(** ** Primitive types: [decode (encode x ++ rest) = Ok (x, rest)] *)
Lemma rt_bool b rest : decode_with dec_bool (enc_bool b ++ rest) = Ok (b, rest).
Proof. destruct b; cbn [enc_bool app]; rewrite decode_with_cons; reflexivity. Qed.

Lemma rt_u8 n rest : unsigned 8 n -> decode_with dec_u8 (enc_u8 n ++ rest) = Ok (n, rest).
Proof.
  intros H. unfold enc_u8. cbn [app]. rewrite decode_with_cons. cbn [dec_u8].
  apply read_un_be. exact H.
Qed.
Lemma rt_u16 n rest : unsigned 16 n -> decode_with dec_u16 (enc_u16 n ++ rest) = Ok (n, rest).
Proof.
  intros H. unfold enc_u16. rewrite <- app_comm_cons, decode_with_cons. cbn [dec_u16].
  apply read_un_be. exact H.
Qed.
Lemma rt_u32 n rest : unsigned 32 n -> decode_with dec_u32 (enc_u32 n ++ rest) = Ok (n, rest).
Proof.
  intros H. unfold enc_u32. destruct (N.eqb_spec n 0) as [->|Hn].
  - cbn [app]. rewrite decode_with_cons. reflexivity.
  - destruct (N.ltb_spec 255 n); rewrite <- app_comm_cons, decode_with_cons; cbn [dec_u32];
      apply read_un_be; [exact H|change (256 ^ N.of_nat 1) with 256; lia].
Qed.
Lemma rt_u64 n rest : unsigned 64 n -> decode_with dec_u64 (enc_u64 n ++ rest) = Ok (n, rest).
Proof.
  intros H. unfold enc_u64. destruct (N.eqb_spec n 0) as [->|Hn].
  - cbn [app]. rewrite decode_with_cons. reflexivity.
  - destruct (N.ltb_spec 255 n); rewrite <- app_comm_cons, decode_with_cons; cbn [dec_u64];
      apply read_un_be; [exact H|change (256 ^ N.of_nat 1) with 256; lia].
Qed.
Lemma rt_i8 z rest : signed 8 z -> decode_with dec_i8 (enc_i8 z ++ rest) = Ok (z, rest).
Proof.
  intros H. unfold enc_i8. rewrite <- app_comm_cons, decode_with_cons. cbn [dec_i8].
  apply read_in_be; [lia|exact H].
Qed.
Lemma rt_i16 z rest : signed 16 z -> decode_with dec_i16 (enc_i16 z ++ rest) = Ok (z, rest).
Proof.
  intros H. unfold enc_i16. rewrite <- app_comm_cons, decode_with_cons. cbn [dec_i16].
  apply read_in_be; [lia|exact H].
Qed.
Lemma narrow_i z : wide_i z = false -> signed 8 z.
Proof. unfold wide_i, signed. change (2 ^ (8 - 1))%Z with 128%Z. lia. Qed.
Lemma rt_i32 z rest : signed 32 z -> decode_with dec_i32 (enc_i32 z ++ rest) = Ok (z, rest).
Proof.
  intros H. unfold enc_i32. destruct (wide_i z) eqn:W;
    rewrite <- app_comm_cons, decode_with_cons; cbn [dec_i32]; apply read_in_be;
    [lia|exact H|lia|apply narrow_i; exact W].
Qed.
Lemma rt_i64 z rest : signed 64 z -> decode_with dec_i64 (enc_i64 z ++ rest) = Ok (z, rest).
Proof.
  intros H. unfold enc_i64. destruct (wide_i z) eqn:W;
    rewrite <- app_comm_cons, decode_with_cons; cbn [dec_i64]; apply read_in_be;
    [lia|exact H|lia|apply narrow_i; exact W].
Qed.
Lemma rt_f32 n rest : unsigned 32 n -> decode_with dec_f32 (enc_f32 n ++ rest) = Ok (n, rest).
Proof.
  intros H. unfold enc_f32. rewrite <- app_comm_cons, decode_with_cons. cbn [dec_f32].
  apply read_un_be. exact H.
Qed.
Lemma rt_f64 n rest : unsigned 64 n -> decode_with dec_f64 (enc_f64 n ++ rest) = Ok (n, rest).
Proof.
  intros H. unfold enc_f64. rewrite <- app_comm_cons, decode_with_cons. cbn [dec_f64].
  apply read_un_be. exact H.
Qed.
Lemma is_scalar_spec n : is_scalar n = true <-> scalar n.
Proof. unfold is_scalar, scalar. lia. Qed.
Lemma rt_char n rest : scalar n -> decode_with dec_char (enc_char n ++ rest) = Ok (n, rest).
Proof.
  intros H. unfold enc_char. rewrite <- app_comm_cons, decode_with_cons. cbn [dec_char].
  rewrite read_un_be.
  - cbn [bind]. rewrite (proj2 (is_scalar_spec n) H). reflexivity.
  - destruct H as [H _]. change (256 ^ N.of_nat 4) with 4294967296. lia.
Qed.
Lemma rt_uuid b rest : length b = 16%nat -> decode_with dec_uuid (enc_uuid b ++ rest) = Ok (b, rest).
Proof.
  intros H. unfold enc_uuid. rewrite <- app_comm_cons, decode_with_cons. cbn [dec_uuid].
  apply be_read_app. exact H.
Qed.
Lemma rt_binary b rest :
  blen b < 2 ^ 32 -> decode_with dec_binary (enc_binary b ++ rest) = Ok (b, rest).
Proof.
  intros H. unfold enc_binary, enc_var. rewrite <- app_assoc.
  destruct (N.ltb_spec 255 (blen b)); rewrite <- app_comm_cons, decode_with_cons;
    cbn [dec_binary]; apply read_bytes_be; [exact H|change (256 ^ N.of_nat 1) with 256; lia].
Qed.
Lemma rt_string b rest :
  text b -> blen b < 2 ^ 32 -> decode_with dec_string (enc_string b ++ rest) = Ok (b, rest).
Proof.
  intros Ht H. unfold enc_string, enc_var. rewrite <- app_assoc.
  destruct (N.ltb_spec 255 (blen b)); rewrite <- app_comm_cons, decode_with_cons;
    cbn [dec_string]; rewrite read_bytes_be;
    try (cbn [bind]; unfold check_utf8; rewrite Ht; reflexivity);
    [exact H|change (256 ^ N.of_nat 1) with 256; lia].
Qed.
Lemma rt_symbol b rest :
  text b -> blen b < 2 ^ 32 -> decode_with dec_symbol (enc_symbol b ++ rest) = Ok (b, rest).
Proof.
  intros Ht H. unfold enc_symbol, enc_var. rewrite <- app_assoc.
  destruct (N.ltb_spec 255 (blen b)); rewrite <- app_comm_cons, decode_with_cons;
    cbn [dec_symbol]; rewrite read_bytes_be;
    try (cbn [bind]; unfold check_utf8; rewrite Ht; reflexivity);
    [exact H|change (256 ^ N.of_nat 1) with 256; lia].
Qed.

(** ** Timestamps *)
Lemma timestamp_opt_some s n : instant (mk_datetime s n) -> timestamp_opt s n = Some (mk_datetime s n).
Proof.
  intros [H1 [H2 H3]]. cbn [dt_secs dt_nanos] in *. unfold timestamp_opt, MIN_SECS, MAX_SECS.
  assert (E : ((-8334601228800 <=? s)%Z && (s <=? 8210266876799)%Z) && (n <? 2000000000)
    && ((n <? 1000000000) || (s mod 60 =? 59)%Z) = true).
  { destruct (N.ltb_spec n 1000000000); lia. }
  rewrite E. reflexivity.
Qed.

Lemma quot_millis s ms :
  ms < 1000 -> (Z.quot (s * 1000 + Z.of_N ms) 1000 = if (s <? 0)%Z && negb (ms =? 0)%N then s + 1 else s)%Z.
Proof.
  intros Hms. destruct (Z.ltb_spec s 0) as [Hneg|Hpos]; cbn [andb].
  - assert (E : (s * 1000 + Z.of_N ms = - ((- s) * 1000 - Z.of_N ms))%Z) by lia.
    rewrite E, Z.quot_opp_l by lia. rewrite Z.quot_div_nonneg by lia.
    destruct (N.eqb_spec ms 0) as [->|Hn]; cbn [negb].
    + rewrite Z.sub_0_r, Z.div_mul by lia. lia.
    + replace (- s * 1000 - Z.of_N ms)%Z with ((- s - 1) * 1000 + (1000 - Z.of_N ms))%Z by lia.
      rewrite Z.div_add_l by lia. rewrite Z.div_small by lia. lia.
  - rewrite Z.quot_div_nonneg by lia. rewrite Z.div_add_l by lia.
    rewrite Z.div_small by lia. lia.
Qed.

Lemma from_to_millis t : instant t -> wire_instant t -> datetime_from_millis (to_millis t) = Ok t.
Proof.
  intros Hi [Hms Hs]. destruct t as [s n]. cbn [dt_secs dt_nanos] in *.
  unfold datetime_from_millis, to_millis. cbn [dt_secs dt_nanos].
  set (ms := n / 1000000). assert (Hn' : n = ms * 1000000) by (unfold ms; lia).
  clearbody ms. destruct Hs as [[Hs Hn]|[Hs [Hn1 Hn2]]].
  - assert (Hq : (Z.quot (s * 1000 + Z.of_N ms) 1000 = s)%Z).
    { rewrite quot_millis by lia. destruct (Z.ltb_spec s 0); [lia|reflexivity]. }
    rewrite Hq. destruct (Z.ltb_spec s 0); [lia|].
    replace (Z.to_N (Z.abs ((s * 1000 + Z.of_N ms - s * 1000) * 1000000))) with n by lia.
    rewrite N.mod_small by (change (2 ^ 32) with 4294967296; lia).
    rewrite timestamp_opt_some by exact Hi. reflexivity.
  - assert (Hq : (Z.quot (s * 1000 + Z.of_N ms) 1000 = s + 1)%Z).
    { destruct (N.eq_dec ms 1000) as [->|Hne].
      - replace (s * 1000 + Z.of_N 1000)%Z with ((s + 1) * 1000 + Z.of_N 0)%Z by lia.
        rewrite quot_millis by lia. rewrite andb_false_r. reflexivity.
      - rewrite quot_millis by lia.
        destruct (Z.ltb_spec s 0); [|lia]. destruct (N.eqb_spec ms 0); [lia|reflexivity]. }
    rewrite Hq. destruct (Z.ltb_spec (s + 1) 0); [|lia].
    replace (s + 1 - 1)%Z with s by lia.
    replace (1000 + (s * 1000 + Z.of_N ms - (s + 1) * 1000))%Z with (Z.of_N ms) by lia.
    replace (Z.to_N (Z.abs (Z.of_N ms * 1000000))) with n by lia.
    rewrite N.mod_small by (change (2 ^ 32) with 4294967296; lia).
    rewrite timestamp_opt_some by exact Hi. reflexivity.
Qed.

(** Conversely, only those instants come back. *)
Lemma timestamp_opt_inv s n t : timestamp_opt s n = Some t -> t = mk_datetime s n /\ instant t.
Proof.
  unfold timestamp_opt, MIN_SECS, MAX_SECS.
  destruct (_ && _) eqn:E; intros H; [|discriminate]. injection H as <-. split; [reflexivity|].
  unfold instant; cbn [dt_secs dt_nanos]. destruct (N.ltb_spec n 1000000000); lia.
Qed.

Lemma from_millis_wire z t : datetime_from_millis z = Ok t -> instant t /\ wire_instant t.
Proof.
  unfold datetime_from_millis.
  pose proof (Z.quot_rem' z 1000) as Hqr.
  assert (Hr : ((0 <= z -> 0 <= Z.rem z 1000 < 1000) /\ (z <= 0 -> -1000 < Z.rem z 1000 <= 0))%Z).
  { split; intros Hz; [apply Z.rem_bound_pos; lia|].
    pose proof (Z.rem_bound_pos_neg z 1000 ltac:(lia) Hz). lia. }
  set (q := Z.quot z 1000) in *. set (r := Z.rem z 1000) in *. clearbody q r.
  replace (z - q * 1000)%Z with r by lia.
  destruct (Z.ltb_spec q 0) as [Hq|Hq].
  - assert (Hz : (z <= 0)%Z) by lia.
    replace (Z.to_N (Z.abs ((1000 + r) * 1000000))) with (Z.to_N (1000 + r) * 1000000) by lia.
    rewrite N.mod_small by (change (2 ^ 32) with 4294967296; lia).
    destruct (timestamp_opt _ _) as [t'|] eqn:E; intros H; [|discriminate]. injection H as <-.
    apply timestamp_opt_inv in E. destruct E as [-> E]. split; [exact E|].
    unfold wire_instant. cbn [dt_secs dt_nanos]. lia.
  - assert (Hr' : (-1000 < r < 1000)%Z) by lia.
    replace (Z.to_N (Z.abs (r * 1000000))) with (Z.to_N (Z.abs r) * 1000000) by lia.
    rewrite N.mod_small by (change (2 ^ 32) with 4294967296; lia).
    destruct (timestamp_opt _ _) as [t'|] eqn:E; intros H; [|discriminate]. injection H as <-.
    apply timestamp_opt_inv in E. destruct E as [-> E]. split; [exact E|].
    unfold wire_instant. cbn [dt_secs dt_nanos]. lia.
Qed.

Lemma to_millis_signed t : instant t -> signed 64 (to_millis t).
Proof.
  intros [H1 [H2 _]]. unfold signed, to_millis.
  change (2 ^ (64 - 1))%Z with 9223372036854775808%Z.
  assert (dt_nanos t / 1000000 < 2000) by lia. lia.
Qed.

Lemma rt_datetime t rest :
  instant t -> wire_instant t -> decode_with dec_datetime (enc_datetime t ++ rest) = Ok (t, rest).
Proof.
  intros Hi Hw. unfold enc_datetime. rewrite <- app_comm_cons, decode_with_cons.
  cbn [dec_datetime]. rewrite read_in_be; [|lia|apply to_millis_signed; exact Hi].
  cbn [bind]. rewrite from_to_millis by assumption. reflexivity.
Qed.

(** ** Descriptors and constructors *)
Lemma rt_descriptor d rest :
  legal_descriptor d -> wire_descriptor d -> sz_descriptor d < 2 ^ 32 ->
  exists tl, enc_descriptor d = x00 :: tl /\
    decode_with dec_descriptor (tl ++ rest) = Ok (d, rest).
Proof.
  intros Hl Hw Hs. destruct d as [n|s]; cbn [enc_descriptor] in *.
  - cbn [wire_descriptor legal_descriptor] in *. exists (enc_u64 n). split; [reflexivity|].
    unfold enc_u64. destruct (N.eqb_spec n 0); [contradiction|].
    destruct (N.ltb_spec 255 n); rewrite <- app_comm_cons, decode_with_cons;
      cbn [dec_descriptor]; cbn [dec_u64]; rewrite read_un_be; try reflexivity;
      [exact Hl|change (256 ^ N.of_nat 1) with 256; lia].
  - exists (enc_symbol s). split; [reflexivity|].
    unfold sz_descriptor, sz_var in Hs.
    assert (Hb : blen s < 2 ^ 32) by (destruct (255 <? blen s); lia).
    pose proof (rt_symbol s rest Hl Hb) as R.
    unfold enc_symbol, enc_var in *. rewrite <- app_assoc in R. rewrite <- app_assoc.
    destruct (255 <? blen s); rewrite <- app_comm_cons, decode_with_cons in R;
      rewrite <- app_comm_cons, decode_with_cons;
      cbn [dec_descriptor]; rewrite R; reflexivity.
Qed.

Lemma rt_ctor c rest :
  legal_ctor c -> wire_ctor c -> sz_ctor c < 2 ^ 32 ->
  decode_with dec_ctor (enc_ctor c ++ rest) = Ok (c, rest).
Proof.
  intros Hl Hw Hs. destruct c as [b|d b].
  - cbn [enc_ctor app]. rewrite decode_with_cons. cbn [wire_ctor] in Hw.
    destruct b; try reflexivity; contradiction.
  - cbn [enc_ctor legal_ctor wire_ctor sz_ctor] in *.
    destruct (rt_descriptor d ([b] ++ rest) Hl Hw ltac:(lia)) as [tl [E R]].
    rewrite E, <- app_assoc, <- app_comm_cons, decode_with_cons. cbn [dec_ctor].
    rewrite R. cbn [bind]. cbn [app]. rewrite read_byte_cons. reflexivity.
Qed.

(** ** Compound headers *)
Lemma compound8_rt p size count rest :
  size < 255 -> count < 256 ->
  decode_compound8 p (be 1 (size + 1) ++ be 1 count ++ rest) = Ok ((size, count), rest).
Proof.
  intros Hs Hc. unfold decode_compound8. cbn [be app].
  rewrite check_len_ok by (rewrite !blen_cons; lia). cbn [bind index nth_error].
  unfold usub. rewrite !byte_of_small by lia.
  destruct (N.leb_spec 1 (size + 1)); [|lia]. cbn [bind].
  change (byte_of (size + 1) :: byte_of count :: rest)
    with ([byte_of (size + 1); byte_of count] ++ rest).
  rewrite advance_app' by reflexivity. cbn [bind]. do 3 f_equal. lia.
Qed.

Lemma firstn_exact {A} k (a b : list A) : length a = k -> firstn k (a ++ b) = a.
Proof.
  intros <-. rewrite firstn_app, firstn_all, Nat.sub_diag, firstn_O. apply app_nil_r.
Qed.
Lemma skipn_exact {A} k (a b : list A) : length a = k -> skipn k (a ++ b) = b.
Proof. intros <-. rewrite skipn_app, skipn_all, Nat.sub_diag. reflexivity. Qed.

Lemma compound32_rt p size count rest :
  size + 4 < 2 ^ 32 -> count < 2 ^ 32 ->
  decode_compound32 p (be 4 (size + 4) ++ be 4 count ++ rest) = Ok ((size, count), rest).
Proof.
  intros Hs Hc. unfold decode_compound32.
  rewrite check_len_ok by (rewrite !blen_app, !blen_be; lia). cbn [bind].
  rewrite (firstn_exact 4) by apply length_be. rewrite (skipn_exact 4) by apply length_be.
  rewrite (firstn_exact 4) by apply length_be.
  rewrite !be_val_be_small by assumption.
  unfold usub. destruct (N.leb_spec 4 (size + 4)); [|lia]. cbn [bind].
  rewrite app_assoc. rewrite advance_app' by (rewrite blen_app, !blen_be; reflexivity).
  cbn [bind]. do 3 f_equal. lia.
Qed.

Lemma enc_compound_cons c8 c32 size count :
  exists c tl, enc_compound c8 c32 size count = c :: tl /\
    ((255 <? size + 1) = true /\ c = c32 /\ tl = be 4 (size + 4) ++ be 4 count
     \/ (255 <? size + 1) = false /\ c = c8 /\ tl = be 1 (size + 1) ++ be 1 count).
Proof.
  unfold enc_compound. destruct (255 <? size + 1); eauto 10.
Qed.

(** ** Loops *)
Lemma dec_n_rt {A} (e : A -> bytes) (dec : parser A) l :
  Forall (fun x => forall rest, dec (e x ++ rest) = Ok (x, rest)) l ->
  forall fuel rest, (length l <= fuel)%nat ->
  dec_n dec fuel (N.of_nat (length l)) (flat_map e l ++ rest) = Ok (l, rest).
Proof.
  induction 1 as [|x l Hx _ IH]; intros fuel rest Hf.
  - destruct fuel; reflexivity.
  - destruct fuel as [|fuel]; cbn [length] in Hf; [lia|].
    cbn [dec_n length flat_map]. destruct (N.eqb_spec (N.of_nat (S (length l))) 0); [lia|].
    rewrite <- app_assoc, Hx. cbn [bind].
    replace (N.of_nat (S (length l)) - 1) with (N.of_nat (length l)) by lia.
    rewrite IH by lia. reflexivity.
Qed.

Lemma map_insert_fresh {K V} (eqb : K -> K -> bool) k (v : V) m :
  Forall (fun kv => eqb (fst kv) k = false) m -> map_insert eqb k v m = m ++ [(k, v)].
Proof.
  induction 1 as [|[k' v'] m Hk _ IH]; [reflexivity|].
  cbn [map_insert fst] in *. rewrite Hk, IH. reflexivity.
Qed.

Lemma dec_map_loop_rt {K V} (hash_ok : K -> bool) eqb (ek : K -> bytes) (ev : V -> bytes)
      (deck : parser K) (decv : parser V) m :
  Forall (fun kv => (forall rest, deck (ek (fst kv) ++ rest) = Ok (fst kv, rest)) /\
                    (forall rest, decv (ev (snd kv) ++ rest) = Ok (snd kv, rest))) m ->
  Forall (fun kv => hash_ok (fst kv) = true) m ->
  forall acc fuel rest, (length m <= fuel)%nat ->
  ForallOrdPairs (fun a b => eqb a b = false) (map fst (acc ++ m)) ->
  dec_map_loop hash_ok eqb deck decv fuel (N.of_nat (length m)) acc
    (enc_pairs ek ev m ++ rest) = Ok (acc ++ m, rest).
Proof.
  induction 1 as [|[k v] m [Hk Hv] _ IH]; intros Hh acc fuel rest Hf Hd.
  - rewrite app_nil_r. destruct fuel; reflexivity.
  - destruct fuel as [|fuel]; cbn [length] in Hf; [lia|].
    inversion Hh as [|? ? Hh1 Hh2]; subst. cbn [fst snd] in *.
    cbn [dec_map_loop length]. destruct (N.eqb_spec (N.of_nat (S (length m))) 0); [lia|].
    unfold enc_pairs. cbn [flat_map]. fold (enc_pairs ek ev m).
    rewrite <- !app_assoc, Hk. cbn [bind]. rewrite Hv. cbn [bind]. rewrite Hh1.
    replace (N.of_nat (S (length m)) - 1) with (N.of_nat (length m)) by lia.
    rewrite map_insert_fresh.
    + rewrite IH; [rewrite <- app_assoc; reflexivity|assumption|lia|].
      rewrite <- app_assoc. exact Hd.
    + clear - Hd. rewrite map_app in Hd. cbn [map fst] in Hd.
      induction acc as [|[k' v'] acc IH]; [constructor|].
      cbn [map fst app] in Hd. inversion Hd as [|? ? H1 H2]; subst. constructor.
      * cbn [fst]. rewrite Forall_app in H1. destruct H1 as [_ H1].
        inversion H1; subst. assumption.
      * apply IH. exact H2.
Qed.

(** ** Arrays *)
Lemma rt_array p a rest :
  unsigned 32 (a_count a) -> legal_ctor (a_ctor a) -> wire_array a -> sz_array a < 2 ^ 32 ->
  exists c tl, enc_array a = c :: tl /\ (c = xe0 \/ c = xf0) /\
    dec_array p c (tl ++ rest) = Ok (a, rest).
Proof.
  intros Hc Hl [Hw Hn] Hs. unfold unsigned in Hc.
  assert (Hctor : 1 <= sz_ctor (a_ctor a)) by (destruct (a_ctor a); cbn [sz_ctor]; lia).
  unfold sz_array in Hs. unfold enc_array.
  set (body := enc_ctor (a_ctor a) ++ a_payload a).
  assert (Hbody : blen body = sz_ctor (a_ctor a) + blen (a_payload a))
    by (unfold body; rewrite blen_app, blen_enc_ctor; reflexivity).
  assert (Hrest : forall inp,
    (_ <- check_len (blen body) (body ++ inp) ;;
     '(payload, inp') <- split_to (blen body) (body ++ inp) ;;
     '(ctor, payload0) <- decode_with dec_ctor payload ;;
     Ok (mk_array (a_count a) ctor payload0, inp')) = Ok (a, inp)).
  { intros inp. rewrite check_len_ok by (rewrite blen_app; lia). cbn [bind].
    rewrite split_to_app. cbn [bind]. unfold body. rewrite rt_ctor by (assumption || lia).
    cbn [bind]. destruct a; reflexivity. }
  destruct (N.ltb_spec 255 (blen (a_payload a) + sz_ctor (a_ctor a) + 1)) as [Hlt|Hle].
  - exists xf0. eexists. split; [cbn [app]; reflexivity|]. split; [auto|].
    unfold dec_array. cbn [dec_array_header].
    rewrite <- !app_assoc.
    replace (4 + sz_ctor (a_ctor a) + blen (a_payload a)) with (blen body + 4) by lia.
    rewrite compound32_rt by lia. cbn [bind]. apply Hrest.
  - exists xe0, ((be 1 (1 + sz_ctor (a_ctor a) + blen (a_payload a)) ++ be 1 (a_count a)) ++ body).
    split; [reflexivity|]. split; [auto|].
    unfold dec_array. cbn [dec_array_header]. rewrite <- !app_assoc.
    replace (1 + sz_ctor (a_ctor a) + blen (a_payload a)) with (blen body + 1) by lia.
    rewrite compound8_rt by lia. cbn [bind]. apply Hrest.
Qed.
