(** * Good codecs: size, round trip, and the shared shape of composite types *)

From Verif Require Import Codec Spec SpecProtocol.
From Verif Require Import BaseProofs EncodeProofs Roundtrip VariantRoundtrip ArrayProofs.
From Coq Require Import ZifyBool ZifyNat ZifyN.

(** What is asked of the codec of a field type, for the values that [w]
    accepts: the announced size is the written size, it is positive, and the
    written bytes decode to the value. *)
Record good {A} (C : codec A) (w : A -> Prop) : Prop := mk_good {
  g_size : forall a, w a -> blen (c_enc C a) = c_sz C a;
  g_pos : forall a, w a -> 1 <= c_sz C a;
  g_rt : forall p a rest, w a -> c_sz C a < 2 ^ 32 ->
         decode_with (c_dec C p) (c_enc C a ++ rest) = Ok (a, rest)
}.
Arguments g_size {A C w} _ _ _.
Arguments g_pos {A C w} _ _ _.
Arguments g_rt {A C w} _ _ _ _ _ _.

(** No accepted value is written as null, and null is refused. *)
Definition nonnull {A} (C : codec A) (w : A -> Prop) : Prop :=
  forall a, w a -> exists b tl, c_enc C a = b :: tl /\ b <> x40.
Definition refuses_null {A} (C : codec A) : Prop :=
  forall p inp, exists e, decode_with (c_dec C p) (x40 :: inp) = Err e.

Definition anything {A} (_ : A) : Prop := True.

Lemma good_weaken {A} (C : codec A) (w w' : A -> Prop) :
  good C w -> (forall a, w' a -> w a) -> good C w'.
Proof. intros [H1 H2 H3] H. constructor; auto. Qed.

(** ** Field types *)

Lemma sz_var_bound b : blen b <= sz_var b.
Proof. unfold sz_var. lia. Qed.

Lemma good_bool : good bool_c anything.
Proof.
  constructor; cbn [bool_c c_sz c_enc c_dec].
  - intros [] _; reflexivity.
  - intros a _. unfold sz_bool. lia.
  - intros. apply rt_bool.
Qed.
Lemma good_u8 : good u8_c (unsigned 8).
Proof.
  constructor; cbn [u8_c c_sz c_enc c_dec]; [reflexivity| |intros; apply rt_u8; assumption].
  intros a _. unfold sz_u8. lia.
Qed.
Lemma good_u16 : good u16_c (unsigned 16).
Proof.
  constructor; cbn [u16_c c_sz c_enc c_dec]; [reflexivity| |intros; apply rt_u16; assumption].
  intros a _. unfold sz_u16. lia.
Qed.
Lemma good_u32 : good u32_c (unsigned 32).
Proof.
  constructor; cbn [u32_c c_sz c_enc c_dec].
  - intros; apply blen_enc_u32.
  - intros a _. unfold sz_u32. destruct (a =? 0), (255 <? a); lia.
  - intros; apply rt_u32; assumption.
Qed.
Lemma good_u64 : good u64_c (unsigned 64).
Proof.
  constructor; cbn [u64_c c_sz c_enc c_dec].
  - intros; apply blen_enc_u64.
  - intros a _. unfold sz_u64. destruct (a =? 0), (255 <? a); lia.
  - intros; apply rt_u64; assumption.
Qed.
Lemma good_timestamp : good timestamp_c legal_timestamp.
Proof.
  constructor; cbn [timestamp_c c_sz c_enc c_dec].
  - reflexivity.
  - intros a _. unfold sz_datetime. lia.
  - intros p a rest [H1 H2] _. apply rt_datetime; assumption.
Qed.
Lemma good_uuid : good uuid_c (fun b => length b = 16%nat).
Proof.
  constructor; cbn [uuid_c c_sz c_enc c_dec].
  - intros a H. unfold enc_uuid, sz_uuid. rewrite blen_cons. unfold blen. rewrite H. reflexivity.
  - intros a _. unfold sz_uuid. lia.
  - intros. apply rt_uuid; assumption.
Qed.
Lemma sz_var_pos b : 1 <= sz_var b.
Proof. unfold sz_var. destruct (255 <? blen b); lia. Qed.
Lemma good_binary : good binary_c anything.
Proof.
  constructor; cbn [binary_c c_sz c_enc c_dec].
  - intros; apply blen_enc_var.
  - intros; apply sz_var_pos.
  - intros p a rest _ H. apply rt_binary. pose proof (sz_var_bound a). lia.
Qed.
Lemma good_string : good string_c text.
Proof.
  constructor; cbn [string_c c_sz c_enc c_dec].
  - intros; apply blen_enc_var.
  - intros; apply sz_var_pos.
  - intros p a rest Ht H. apply rt_string; [exact Ht|]. pose proof (sz_var_bound a). lia.
Qed.
Lemma good_symbol : good symbol_c text.
Proof.
  constructor; cbn [symbol_c c_sz c_enc c_dec].
  - intros; apply blen_enc_var.
  - intros; apply sz_var_pos.
  - intros p a rest Ht H. apply rt_symbol; [exact Ht|]. pose proof (sz_var_bound a). lia.
Qed.
Lemma decode_with_variant p inp :
  inp <> [] -> decode_with (c_dec variant_c p) inp = decode_variant p inp.
Proof. destruct inp as [|b inp]; [congruence|]. intros _. rewrite decode_with_cons. reflexivity. Qed.
Lemma good_variant : good variant_c legal_value.
Proof.
  constructor; cbn [variant_c c_sz c_enc].
  - intros a [H _]. apply size_variant, H.
  - intros a _. apply enc_variant_nonempty.
  - intros p a rest [Hl Hw] Hs. rewrite <- size_variant in Hs by exact Hl.
    rewrite decode_with_variant.
    + apply decode_encode_variant; assumption.
    + pose proof (variant_len1 a (legal_fixed a Hl)) as H. destruct (enc_variant a); [cbn in H; lia|discriminate].
Qed.

Lemma variant_list_decode p l rest :
  Forall legal_value l -> sz_variant (VList l) < 2 ^ 32 ->
  decode_with (c_dec list_c p) (enc_variant (VList l) ++ rest) = Ok (l, rest).
Proof.
  intros H Hs. cbn [list_c c_dec].
  assert (Hl : Forall legal l) by (eapply Forall_impl; [|exact H]; intros a [Ha _]; exact Ha).
  cbn [enc_variant sz_variant] in *. rewrite <- app_assoc.
  set (size := sum_by sz_variant l) in *.
  assert (Hbody : blen (flat_map enc_variant l) = size).
  { apply sum_by_flat. eapply Forall_impl; [|exact Hl]. intros x Hx. apply size_variant, Hx. }
  assert (Hcount : (length l <= length (flat_map enc_variant l))%nat).
  { apply length_flat_map_le. eapply Forall_impl; [|exact Hl].
    intros x Hx. apply variant_len1, legal_fixed, Hx. }
  destruct (enc_compound_cons xc0 xd0 size (N.of_nat (length l))) as [c [tl [E Hc]]].
  rewrite E in *.
  assert (Hloop : forall inp fuel, (length l <= fuel)%nat ->
    dec_n (decode_variant p) fuel (N.of_nat (length l)) (flat_map enc_variant l ++ inp) = Ok (l, inp)).
  { intros inp fl Hfl. apply dec_n_rt; [|exact Hfl].
    pose proof (sum_by_in sz_variant l) as Hin. fold size in Hin.
    rewrite Forall_forall in H, Hin |- *.
    intros x Hx rest'. destruct (H x Hx). apply decode_encode_variant; auto.
    rewrite size_variant by assumption. specialize (Hin x Hx). cbn beta in Hin.
    unfold sz_compound in Hs. destruct (255 <? size + 1); lia. }
  unfold blen in Hbody. unfold sz_compound in Hs.
  destruct Hc as [[Hsz' [-> ->]]|[Hsz' [-> ->]]]; rewrite Hsz' in Hs;
    rewrite <- app_comm_cons, decode_with_cons; unfold dec_list; cbn [dec_list_header];
    rewrite <- app_assoc.
  - rewrite compound32_rt by lia. cbn [bind]. rewrite Hloop; [reflexivity|].
    rewrite app_length. lia.
  - rewrite compound8_rt by lia. cbn [bind]. rewrite Hloop; [reflexivity|].
    rewrite app_length. lia.
Qed.
Lemma good_list : good list_c (Forall legal_value).
Proof.
  constructor.
  - intros l H. cbn [list_c c_enc c_sz]. apply (size_variant (VList l)). constructor.
    eapply Forall_impl; [|exact H]; intros a [Ha _]; exact Ha.
  - intros l _. cbn [list_c c_sz]. apply enc_variant_nonempty.
  - intros p l rest H Hs. apply variant_list_decode; assumption.
Qed.

(** Arrays of symbols: every symbol is shorter than the whole. *)
Lemma symbols_short l :
  sz_multiple PrSymbol l < 2 ^ 32 -> Forall text l -> Forall (prim_legal PrSymbol) l.
Proof.
  intros Hs H.
  assert (G : sum_by (prim_array_sz PrSymbol) l < 2 ^ 32 -> Forall (prim_legal PrSymbol) l).
  { intros Hs'. pose proof (sum_by_in (prim_array_sz PrSymbol) l) as Hin.
    rewrite Forall_forall in *. intros x Hx. split; [apply H, Hx|].
    specialize (Hin x Hx). cbn beta in Hin. change (prim_array_sz PrSymbol x) with (4 + blen x) in Hin. lia. }
  destruct l as [|x [|y l]].
  - constructor.
  - constructor; [|constructor]. inversion H; subst. split; [assumption|].
    cbn [sz_multiple prim_sz] in Hs. pose proof (sz_var_bound x). lia.
  - apply G. cbn [sz_multiple] in Hs. unfold sz_vec in Hs. destruct (255 <? _); lia.
Qed.
Lemma blen_enc_symbols (l : list bytes) : blen (enc_multiple PrSymbol l) = sz_multiple PrSymbol l.
Proof.
  assert (G : blen (enc_vec PrSymbol l) = sz_vec PrSymbol l).
  { unfold enc_vec, sz_vec. rewrite !blen_app.
    replace (blen (flat_map (prim_array_enc PrSymbol) l)) with (sum_by (prim_array_sz PrSymbol) l).
    - destruct (255 <? _); rewrite blen_cons, blen_app, !blen_be; unfold blen; cbn [length]; lia.
    - symmetry. apply sum_by_flat. apply Forall_forall. intros x _.
      cbn [prim_array_enc prim_array_sz]. rewrite blen_app, blen_be. reflexivity. }
  destruct l as [|x [|y l]]; [exact G| |exact G].
  cbn [enc_multiple sz_multiple]. apply blen_enc_var.
Qed.
Lemma good_symbols : good symbols_c legal_symbols.
Proof.
  constructor; cbn [symbols_c c_sz c_enc c_dec].
  - intros a _. apply blen_enc_symbols.
  - intros l _. destruct l as [|x [|y l]]; cbn [sz_multiple]; unfold sz_vec; [lia| |lia].
    cbn [prim_sz]. apply sz_var_pos.
  - intros p l rest H Hs. apply (rt_multiple PrSymbol); [|exact Hs]. apply symbols_short; assumption.
Qed.

(** ** Options *)
Lemma good_option {A} (C : codec A) w :
  good C w -> nonnull C w -> good (option_c C) (optional w).
Proof.
  intros G Hn. constructor.
  - intros [a|] H; cbn [option_c c_enc c_sz]; [apply (g_size G), H|reflexivity].
  - intros [a|] H; cbn [option_c c_enc c_sz]; [apply (g_pos G), H|lia].
  - intros p [a|] rest H Hs; cbn [option_c c_enc c_sz c_dec] in *.
    + destruct (Hn a H) as [b [tl [E Hb]]]. pose proof (g_rt G p a rest H Hs) as R.
      rewrite E in *. rewrite <- app_comm_cons in *. rewrite decode_with_cons in R.
      rewrite decode_with_cons. unfold dec_option.
      destruct b; try (rewrite R; reflexivity). congruence.
    + unfold enc_null. cbn [app]. rewrite decode_with_cons. reflexivity.
Qed.

(** ** Maps *)
Definition good_pairs {K V} (wk : K -> Prop) (wv : V -> Prop) (m : list (K * V)) : Prop :=
  Forall (fun kv => wk (fst kv) /\ wv (snd kv)) m.

Lemma map_facts {K V} (CK : codec K) (CV : codec V) wk wv m :
  good CK wk -> good CV wv -> good_pairs wk wv m ->
  blen (enc_pairs (c_enc CK) (c_enc CV) m) = pairs_size (c_sz CK) (c_sz CV) m
  /\ (2 * length m <= length (enc_pairs (c_enc CK) (c_enc CV) m))%nat.
Proof.
  intros GK GV H. assert (E : blen (enc_pairs (c_enc CK) (c_enc CV) m) = pairs_size (c_sz CK) (c_sz CV) m).
  { apply blen_enc_pairs. eapply Forall_impl; [|exact H]. intros kv [H1 H2].
    split; [apply (g_size GK), H1|apply (g_size GV), H2]. }
  split; [exact E|]. clear E.
  induction H as [|[k v] m [Hk Hv] _ IHm]; [cbn; lia|].
  unfold enc_pairs in *. cbn [flat_map length fst snd] in *. rewrite !app_length.
  pose proof (g_size GK k Hk) as A1. pose proof (g_pos GK k Hk) as A2.
  pose proof (g_size GV v Hv) as B1. pose proof (g_pos GV v Hv) as B2. unfold blen in *. lia.
Qed.

Lemma pairs_small {K V} (szk : K -> N) (szv : V -> N) m :
  Forall (fun kv => szk (fst kv) + szv (snd kv) <= pairs_size szk szv m) m.
Proof.
  pose proof (sum_by_in (fun kv => match kv with (k, v) => szk k + szv v end) m) as H.
  eapply Forall_impl; [|exact H]. intros [k v] Hk. exact Hk.
Qed.

Lemma blen_enc_map_good {K V} (CK : codec K) (CV : codec V) wk wv m :
  good CK wk -> good CV wv -> good_pairs wk wv m ->
  blen (enc_map (c_sz CK) (c_sz CV) (c_enc CK) (c_enc CV) m) = sz_map (c_sz CK) (c_sz CV) m.
Proof.
  intros GK GV H. apply blen_enc_map. eapply Forall_impl; [|exact H]. intros kv [H1 H2].
  split; [apply (g_size GK), H1|apply (g_size GV), H2].
Qed.

Lemma sz_map_pos {K V} (szk : K -> N) (szv : V -> N) m : 1 <= sz_map szk szv m.
Proof. unfold sz_map, sz_compound. destruct (255 <? _); lia. Qed.

(** Reading the header of a map that was written. *)
Lemma map_header_read p size count rest c tl :
  enc_compound xc1 xd1 size count = c :: tl ->
  sz_compound size < 2 ^ 32 -> count <= size ->
  dec_map_header p c (tl ++ rest) = Ok ((size, count), rest).
Proof.
  intros E Hs Hc. unfold sz_compound in Hs.
  destruct (enc_compound_cons xc1 xd1 size count) as [c' [tl' [E' Hcase]]].
  rewrite E in E'. assert (c = c' /\ tl = tl') as [-> ->] by (inversion E'; auto).
  destruct Hcase as [[H [-> ->]]|[H [-> ->]]]; rewrite H in Hs; rewrite <- app_assoc;
    cbn [dec_map_header].
  - apply compound32_rt; lia.
  - apply compound8_rt; lia.
Qed.

Lemma good_hashmap {K V} (hash_ok : K -> bool) eqb (CK : codec K) (CV : codec V) wk wv :
  good CK wk -> good CV wv ->
  good (hashmap_c hash_ok eqb CK CV)
       (fun m => good_pairs wk wv m /\ Forall (fun kv => hash_ok (fst kv) = true) m
                 /\ ForallOrdPairs (fun a b => eqb a b = false) (map fst m)).
Proof.
  intros GK GV. constructor; cbn [hashmap_c c_sz c_enc c_dec].
  - intros m [H _]. eapply blen_enc_map_good; eassumption.
  - intros m _. apply sz_map_pos.
  - intros p m rest [H [Hh Hd]] Hs.
    destruct (map_facts CK CV wk wv m GK GV H) as [Hbody Hcount].
    unfold enc_map, sz_map in *. rewrite <- app_assoc.
    set (size := pairs_size (c_sz CK) (c_sz CV) m) in *.
    destruct (enc_compound xc1 xd1 size (N.of_nat (length m) * 2)) as [|c tl] eqn:E.
    { unfold enc_compound in E. destruct (255 <? size + 1); discriminate. }
    rewrite <- app_comm_cons, decode_with_cons. unfold dec_hashmap.
    erewrite map_header_read; [|exact E|exact Hs|unfold blen in Hbody; lia]. cbn [bind].
    rewrite check_len_ok by (rewrite blen_app; lia). cbn [bind].
    rewrite split_to_app' by (symmetry; exact Hbody). cbn [bind].
    rewrite N.div_mul by lia.
    pose proof (pairs_small (c_sz CK) (c_sz CV) m) as Hin. fold size in Hin.
    rewrite <- (app_nil_r (enc_pairs _ _ m)).
    rewrite (dec_map_loop_rt hash_ok eqb (c_enc CK) (c_enc CV) _ _ m) with (acc := []).
    + reflexivity.
    + unfold good_pairs in H. rewrite Forall_forall in H, Hin |- *. intros kv Hkv.
      specialize (H kv Hkv). specialize (Hin kv Hkv). cbn beta in Hin. destruct H as [H1 H2].
      unfold sz_compound in Hs.
      split; intros rest'; [apply (g_rt GK)|apply (g_rt GV)]; auto;
        destruct (255 <? size + 1); lia.
    + exact Hh.
    + rewrite app_nil_r. lia.
    + exact Hd.
Qed.

Lemma NoDup_FOP (l : list bytes) : NoDup l -> ForallOrdPairs (fun a b => beqb a b = false) l.
Proof.
  induction 1 as [|x l Hx _ IH]; constructor; [|exact IH].
  apply Forall_forall. intros y Hy. apply beqb_neq. congruence.
Qed.

Lemma good_fields_c : good fields_c legal_fields.
Proof.
  eapply good_weaken; [apply (good_hashmap _ _ _ _ text legal_value good_symbol good_variant)|].
  intros m [H Hn]. split; [exact H|]. split; [apply Forall_forall; reflexivity|apply NoDup_FOP, Hn].
Qed.

Lemma nonnull_string : nonnull string_c text.
Proof.
  intros a _. cbn [string_c c_enc]. unfold enc_string, enc_var.
  destruct (255 <? blen a); do 2 eexists; (split; [reflexivity|discriminate]).
Qed.

Lemma good_filter : good filter_c legal_filter.
Proof.
  eapply good_weaken.
  - apply (good_hashmap _ _ _ _ text (optional text) good_symbol
             (good_option _ _ good_string nonnull_string)).
  - intros m [H Hn]. split; [exact H|]. split; [apply Forall_forall; reflexivity|apply NoDup_FOP, Hn].
Qed.

Lemma good_map : good map_c legal_map.
Proof.
  eapply good_weaken; [apply (good_hashmap _ _ _ _ legal_value legal_value good_variant good_variant)|].
  intros m [Hl Hw].
  inversion Hl as [| | | | | | | | | | | | | | | | | | | | | |m' Hl' Hh Hd| | |]; subst m'.
  assert (Hw' : Forall (fun kv => wire_safe (fst kv) /\ wire_safe (snd kv)) m)
    by (inversion Hw; subst; [assumption|contradiction]).
  split; [|split; assumption].
  unfold good_pairs. rewrite Forall_forall in *. intros kv Hkv.
  destruct (Hl' kv Hkv), (Hw' kv Hkv). split; split; assumption.
Qed.

Lemma dec_pair_rt {K V} (CK : codec K) wk (CV : codec V) wv p k v rest :
  good CK wk -> good CV wv -> wk k -> wv v -> c_sz CK k + c_sz CV v < 2 ^ 32 ->
  dec_pair (decode_with (c_dec CK p)) (decode_with (c_dec CV p))
    (c_enc CK k ++ c_enc CV v ++ rest) = Ok ((k, v), rest).
Proof.
  intros GK GV Hk Hv Hs. unfold dec_pair. rewrite (g_rt GK) by (auto; lia). cbn [bind].
  rewrite (g_rt GV) by (auto; lia). reflexivity.
Qed.

Lemma good_vecmap (CK : codec bytes) wk :
  good CK wk -> good (vecmap_c CK) (good_pairs wk legal_value).
Proof.
  intros GK. constructor; cbn [vecmap_c c_sz c_enc c_dec].
  - intros m H. apply (blen_enc_map_good CK variant_c wk legal_value m GK good_variant H).
  - intros m _. apply sz_map_pos.
  - intros p m rest H Hs.
    destruct (map_facts CK variant_c wk legal_value m GK good_variant H) as [Hbody Hcount].
    change (c_enc variant_c) with enc_variant in *. change (c_sz variant_c) with sz_variant in *.
    unfold enc_map, sz_map in *. rewrite <- app_assoc.
    set (size := pairs_size (c_sz CK) sz_variant m) in *.
    destruct (enc_compound xc1 xd1 size (N.of_nat (length m) * 2)) as [|c tl] eqn:E.
    { unfold enc_compound in E. destruct (255 <? size + 1); discriminate. }
    rewrite <- app_comm_cons, decode_with_cons. unfold dec_vecmap.
    erewrite map_header_read; [|exact E|exact Hs|unfold blen in Hbody; lia]. cbn [bind].
    rewrite check_len_ok by (rewrite blen_app; lia). cbn [bind].
    rewrite split_to_app' by (symmetry; exact Hbody). cbn [bind].
    rewrite N.div_mul by lia.
    pose proof (pairs_small (c_sz CK) sz_variant m) as Hin. fold size in Hin.
    rewrite <- (app_nil_r (enc_pairs _ _ m)).
    unfold enc_pairs. rewrite dec_n_rt; [reflexivity| |].
    + unfold good_pairs in H. rewrite Forall_forall in H, Hin |- *. intros [k v] Hkv rest'.
      specialize (H _ Hkv). specialize (Hin _ Hkv). cbn [fst snd] in *. destruct H as [H1 [H2 H3]].
      rewrite <- app_assoc. unfold sz_compound in Hs. unfold dec_pair.
      rewrite (g_rt GK) by (auto; destruct (255 <? size + 1); lia). cbn [bind].
      rewrite decode_encode_variant; [reflexivity|assumption|assumption|].
      rewrite size_variant by assumption. destruct (255 <? size + 1); lia.
    + unfold enc_pairs in Hcount. rewrite app_nil_r. lia.
Qed.
Lemma good_symbol_map : good symbol_map_c legal_pairs.
Proof. exact (good_vecmap symbol_c text good_symbol). Qed.
Lemma good_string_map : good string_map_c legal_pairs.
Proof. exact (good_vecmap string_c text good_string). Qed.

(** ** First bytes *)
Ltac nonnull_tac :=
  intros a _; cbn [bool_c u8_c u16_c u32_c u64_c timestamp_c uuid_c binary_c string_c symbol_c c_enc];
  unfold enc_bool, enc_u8, enc_u16, enc_u32, enc_u64, enc_datetime, enc_uuid, enc_binary, enc_string,
    enc_symbol, enc_var;
  repeat match goal with |- context [if ?c then _ else _] => destruct c end;
  do 2 eexists; (split; [reflexivity|discriminate]).
Lemma nonnull_bool : nonnull bool_c anything. Proof. nonnull_tac. Qed.
Lemma nonnull_u8 : nonnull u8_c (unsigned 8). Proof. nonnull_tac. Qed.
Lemma nonnull_u16 : nonnull u16_c (unsigned 16). Proof. nonnull_tac. Qed.
Lemma nonnull_u32 : nonnull u32_c (unsigned 32). Proof. nonnull_tac. Qed.
Lemma nonnull_u64 : nonnull u64_c (unsigned 64). Proof. nonnull_tac. Qed.
Lemma nonnull_timestamp : nonnull timestamp_c legal_timestamp. Proof. nonnull_tac. Qed.
Lemma nonnull_uuid : nonnull uuid_c (fun b => length b = 16%nat). Proof. nonnull_tac. Qed.
Lemma nonnull_binary : nonnull binary_c anything. Proof. nonnull_tac. Qed.
Lemma nonnull_symbol : nonnull symbol_c text. Proof. nonnull_tac. Qed.
Lemma nonnull_symbols : nonnull symbols_c legal_symbols.
Proof.
  intros a _. cbn [symbols_c c_enc]. destruct a as [|x [|y l]]; cbn [enc_multiple].
  - do 2 eexists. split; [reflexivity|discriminate].
  - destruct (prim_enc_head PrSymbol x) as [b [tl [E Hb]]]. exists b, tl. split; [exact E|].
    intros ->. discriminate Hb.
  - unfold enc_vec. destruct (255 <? _); do 2 eexists; (split; [reflexivity|discriminate]).
Qed.
Lemma nonnull_enc_map {K V} szk szv ek ev (m : list (K * V)) :
  exists b tl, enc_map szk szv ek ev m = b :: tl /\ b <> x40.
Proof.
  unfold enc_map, enc_compound. destruct (255 <? _); do 2 eexists; (split; [reflexivity|discriminate]).
Qed.
Lemma nonnull_fields : nonnull fields_c legal_fields.
Proof. intros a _. apply nonnull_enc_map. Qed.
Lemma nonnull_filter : nonnull filter_c legal_filter.
Proof. intros a _. apply nonnull_enc_map. Qed.
Lemma nonnull_map : nonnull map_c legal_map.
Proof. intros a _. apply nonnull_enc_map. Qed.
Lemma nonnull_symbol_map : nonnull symbol_map_c legal_pairs.
Proof. intros a _. apply nonnull_enc_map. Qed.

(** ** Mandatory fields refuse null *)
Ltac refuses_tac := intros p inp; rewrite decode_with_cons; eexists; reflexivity.
Lemma refuses_bool : refuses_null bool_c. Proof. refuses_tac. Qed.
Lemma refuses_u8 : refuses_null u8_c. Proof. refuses_tac. Qed.
Lemma refuses_u32 : refuses_null u32_c. Proof. refuses_tac. Qed.
Lemma refuses_u64 : refuses_null u64_c. Proof. refuses_tac. Qed.
Lemma refuses_binary : refuses_null binary_c. Proof. refuses_tac. Qed.
Lemma refuses_string : refuses_null string_c. Proof. refuses_tac. Qed.
Lemma refuses_symbol : refuses_null symbol_c. Proof. refuses_tac. Qed.
Lemma refuses_symbols : refuses_null symbols_c. Proof. refuses_tac. Qed.

Global Hint Resolve good_bool good_u8 good_u16 good_u32 good_u64 good_timestamp good_uuid good_binary
  good_string good_symbol good_symbols good_fields_c good_filter good_map good_symbol_map
  good_string_map good_variant good_list : good.
Global Hint Resolve nonnull_bool nonnull_u8 nonnull_u16 nonnull_u32 nonnull_u64 nonnull_timestamp
  nonnull_uuid nonnull_binary nonnull_string nonnull_symbol nonnull_symbols nonnull_fields nonnull_filter
  nonnull_map nonnull_symbol_map : good.
Global Hint Resolve refuses_bool refuses_u8 refuses_u32 refuses_u64 refuses_binary refuses_string
  refuses_symbol refuses_symbols : good.
