(** * Theorems about AMQP values: C01 - C10, C50

    Vocabulary: [Spec.v].  Model: [Types.v], [Encode.v], [Decode.v],
    [Arrays.v].  Each theorem is followed by a concrete case meeting its
    hypotheses and by its assumptions. *)

From Verif Require Import Base Types Encode Decode Arrays Spec ArrayProofs EncodeProofs
  VariantRoundtrip PanicProofs ValueTheorems.

(** A value that uses most constructors. *)
Definition sample : variant :=
  VList [VMap [(VString [x61], VUlong 300); (VSymbol [x62], VTimestamp (mk_datetime (-5) 250000000))];
         VDescribed (DUlong 7) (VInt (-1));
         VArray (array_new PrU16 [1; 65535]);
         VDescribedCompound (DSymbol [x63]) [xc0; x02; x01; x41]].
Lemma sample_legal : legal sample.
Proof.
  unfold sample. repeat (constructor; cbn [fst snd key_eqb]); try (vm_compute; easy);
    try (split; vm_compute; easy).
Qed.
Lemma sample_wire : wire_safe sample.
Proof.
  unfold sample, wire_safe.
  repeat match goal with
  | |- wire_form _ _ (VList _) => apply W_List
  | |- wire_form _ _ (VMap _) => apply W_Map
  | |- wire_form _ _ (VTimestamp _) => apply W_Timestamp
  | |- wire_form _ _ (VArray _) => apply W_Array
  | |- wire_form _ _ (VDescribed _ _) => apply W_Described
  | |- wire_form _ _ (VDescribedCompound _ _) => apply W_DescribedCompound
  | |- wire_form _ _ _ => apply W_Scalar; exact I
  | |- Forall _ _ => constructor
  | |- _ /\ _ => split
  end; try (vm_compute; easy).
  - apply W_Timestamp. split; [reflexivity|right; vm_compute; easy].
  - split; [discriminate|left; vm_compute; easy].
  - right; left. exists xc0, [x01; x41]. vm_compute. auto.
Qed.

(** C01.  Any value the Rust types admit, of any depth, whose parts have a
    wire form ([wire_safe]: the exclusions listed in the property) and whose
    encoding is below 4 GiB. *)
Theorem C01_value_round_trip : forall p v rest,
  legal v -> wire_safe v -> blen (enc_variant v) < 2 ^ 32 ->
  decode_variant p (enc_variant v ++ rest) = Ok (v, rest).
Proof. exact decode_encode_variant. Qed.
Print Assumptions C01_value_round_trip.
Example C01_case : decode_variant Debug (enc_variant sample ++ [x07]) = Ok (sample, [x07]).
Proof. apply C01_value_round_trip; [apply sample_legal|apply sample_wire|vm_compute; reflexivity]. Qed.

(** C02 for values (performatives, messages and frames: PropertiesProtocol.v). *)
Theorem C02_value_size : forall v, legal v -> blen (enc_variant v) = sz_variant v.
Proof. exact size_variant. Qed.
Print Assumptions C02_value_size.
Theorem C02_array_size : forall (t : prim) (l : list (prim_ty t)),
  Forall (prim_legal t) l -> blen (enc_vec t l) = sz_vec t l.
Proof. exact blen_enc_vec. Qed.
Print Assumptions C02_array_size.
Theorem C02_multiple_size : forall (t : prim) (l : list (prim_ty t)),
  Forall (prim_legal t) l -> blen (enc_multiple t l) = sz_multiple t l.
Proof. exact blen_enc_multiple. Qed.
Print Assumptions C02_multiple_size.
Example C02_case : sz_variant sample = 51 /\ blen (enc_variant sample) = 51.
Proof. split; vm_compute; reflexivity. Qed.

(** C03. *)
Theorem C03_prefix_local : forall p inp v rest,
  decode_variant p inp = Ok (v, rest) ->
  exists used, used <> [] /\ inp = used ++ rest /\
    forall more, decode_variant p (inp ++ more) = Ok (v, rest ++ more).
Proof. exact decode_prefix_local. Qed.
Print Assumptions C03_prefix_local.
Example C03_case : decode_variant Debug [xc0; x03; x02; x41; x42; x07] = Ok (VList [VBool true; VBool false], [x07]).
Proof. reflexivity. Qed.

(** C04.  The full claim, that no input panics, is false of the code; see the
    two refutations.  What holds: decoding always ends, and it can panic only
    (debug builds) on an input announcing a compound smaller than its own
    element count, or (any build) on an input with a map in it. *)
Theorem C04_decoder_panics_only_if_partial : forall p inp,
  decode_variant p inp <> NoFuel /\
  forall q, decode_variant p inp = Panic q ->
    q = POverflow /\ p = Debug /\ undersized inp \/ q = PHashMapKey /\ mentions_map inp.
Proof.
  exact (fun p inp => conj (decode_variant_fuel p inp) (decode_variant_panic p inp)).
Qed.
Print Assumptions C04_decoder_panics_only_if_partial.
Theorem C04_no_panic_refuted_debug : exists inp, decode_variant Debug inp = Panic POverflow.
Proof. exact (ex_intro _ [xc0; x00; x00] eq_refl). Qed.
Print Assumptions C04_no_panic_refuted_debug.
Theorem C04_no_panic_refuted_release : forall p, exists inp, decode_variant p inp = Panic PHashMapKey.
Proof.
  exact (fun p => ex_intro _ [xc1; x05; x02; xc1; x01; x00; x40]
    (match p with Debug => eq_refl | Release => eq_refl end)).
Qed.
Print Assumptions C04_no_panic_refuted_release.
Example C04_case : ~ undersized [xa1; x01; xff] /\ ~ mentions_map [xa1; x01; xff]
  /\ decode_variant Debug [xa1; x01; xff] = Err Utf8Error.
Proof.
  split; [|split; [|reflexivity]].
  - intros [[b [c [a [Hc E]]]]|[b [c [d [a [Hc [_ E]]]]]]];
      assert (Hin : In c [xa1; x01; xff]) by (rewrite E; apply in_elt);
      cbn in Hc, Hin; clear E; intuition congruence.
  - unfold mentions_map. cbn. intuition congruence.
Qed.

(** C05.  [legal] spells out what the type of each constructor promises. *)
Theorem C05_decoded_legal : forall p inp v rest, decode_variant p inp = Ok (v, rest) -> legal v.
Proof. exact decode_legal. Qed.
Print Assumptions C05_decoded_legal.
Example C05_case : decode_variant Release [xa1; x01; x61] = Ok (VString [x61], [])
  /\ decode_variant Release [xa1; x01; xff] = Err Utf8Error.
Proof. split; reflexivity. Qed.

(** C06.  Holds for values without descriptor 0 and without the arrays named by
    [wire_array] (all_parts); the full claim is refuted below. *)
Theorem C06_reencode_partial : forall p p' inp v rest rest',
  decode_variant p inp = Ok (v, rest) ->
  3 * blen inp < 2 ^ 32 ->
  all_parts wire_descriptor wire_array v ->
  decode_variant p' (enc_variant v ++ rest') = Ok (v, rest').
Proof. exact decode_reencode_small. Qed.
Print Assumptions C06_reencode_partial.
(** Re-encoding never blows a value up by more than a factor of three. *)
Theorem C06_reencoded_size : forall p inp v rest,
  decode_variant p inp = Ok (v, rest) -> blen (enc_variant v) <= 3 * (blen inp - blen rest).
Proof. exact decode_size. Qed.
Print Assumptions C06_reencoded_size.
Theorem C06_reencode_refuted_descriptor : exists inp v, forall p,
  decode_variant p inp = Ok (v, []) /\ decode_variant p (enc_variant v) = Err (InvalidFormatCode x44).
Proof.
  exists [x00; x53; x00; x40], (VDescribed (DUlong 0) VNull). intros p.
  destruct p; (split; reflexivity).
Qed.
Print Assumptions C06_reencode_refuted_descriptor.
(** 256 nulls in an array come back as none. *)
Theorem C06_reencode_refuted_array : exists inp v v', forall p,
  decode_variant p inp = Ok (v, []) /\ decode_variant p (enc_variant v) = Ok (v', []) /\ v <> v'.
Proof.
  exists [xf0; x00; x00; x00; x05; x00; x00; x01; x00; x40],
    (VArray (mk_array 256 (CFormatCode x40) [])), (VArray (mk_array 0 (CFormatCode x40) [])).
  intros p. destruct p; (split; [reflexivity|split; [reflexivity|discriminate]]).
Qed.
Print Assumptions C06_reencode_refuted_array.
Example C06_case : decode_variant Debug (enc_variant sample) = Ok (sample, [])
  /\ all_parts wire_descriptor wire_array sample.
Proof. split; [vm_compute; reflexivity|]. cbn. repeat split; try discriminate. left. vm_compute. easy. Qed.

(** C07.  Exactly the instants of [wire_instant] survive; the claim for all
    instants of millisecond precision is refuted. *)
Theorem C07_timestamp_round_trip_partial : forall p t rest,
  instant t ->
  (decode_variant p (enc_variant (VTimestamp t) ++ rest) = Ok (VTimestamp t, rest)
   <-> wire_instant t).
Proof. exact timestamp_iff. Qed.
Print Assumptions C07_timestamp_round_trip_partial.
(** Half a second before 1970 is received as half a second after. *)
Theorem C07_timestamp_refuted_before_1970 : forall p,
  let t := mk_datetime (-1) 500000000 in
  instant t /\ dt_nanos t mod 1000000 = 0 /\
  decode_variant p (enc_variant (VTimestamp t)) = Ok (VTimestamp (mk_datetime 0 500000000), []).
Proof. intros p. split; [vm_compute; easy|split; [reflexivity|destruct p; reflexivity]]. Qed.
Print Assumptions C07_timestamp_refuted_before_1970.
(** A whole second before 1970 cannot be read back at all. *)
Theorem C07_timestamp_refuted_whole_second : forall p,
  let t := mk_datetime (-2) 0 in
  instant t /\ dt_nanos t mod 1000000 = 0 /\
  decode_variant p (enc_variant (VTimestamp t)) = Err DatetimeParseError.
Proof. intros p. split; [vm_compute; easy|split; [reflexivity|destruct p; reflexivity]]. Qed.
Print Assumptions C07_timestamp_refuted_whole_second.
Example C07_case : instant (mk_datetime 1311704463 521000000) /\ wire_instant (mk_datetime 1311704463 521000000).
Proof. split; [vm_compute; easy|]. split; [reflexivity|left; vm_compute; easy]. Qed.

(** C08.  All descriptors but the number 0; compounds come back as the raw
    bytes of the compound under the same descriptor. *)
Theorem C08_descriptor_round_trip_partial : forall p d v rest,
  legal_descriptor d -> wire_descriptor d -> legal v -> wire_safe v ->
  blen (enc_variant (VDescribed d v)) < 2 ^ 32 ->
  decode_variant p (enc_variant (VDescribed d v) ++ rest)
  = Ok (if is_compound v then VDescribedCompound d (enc_variant v) else VDescribed d v, rest).
Proof. exact described_round_trip. Qed.
Print Assumptions C08_descriptor_round_trip_partial.
Theorem C08_descriptor_zero_refuted : forall p v rest,
  decode_variant p (enc_variant (VDescribed (DUlong 0) v) ++ rest) = Err (InvalidFormatCode x44).
Proof. exact descriptor_zero. Qed.
Print Assumptions C08_descriptor_zero_refuted.
Example C08_case : decode_variant Debug (enc_variant (VDescribed (DUlong 36) sample))
  = Ok (VDescribedCompound (DUlong 36) (enc_variant sample), []).
Proof. vm_compute. reflexivity. Qed.

(** C09. *)
Theorem C09_array_round_trip : forall (t : prim) (l : list (prim_ty t)) p rest,
  Forall (prim_legal t) l -> blen (enc_variant (VArray (array_new t l))) < 2 ^ 32 ->
  decode_variant p (enc_variant (VArray (array_new t l)) ++ rest) = Ok (VArray (array_new t l), rest)
  /\ array_decode (prim_dec t) (array_new t l) = Ok l.
Proof. exact array_round_trip. Qed.
Print Assumptions C09_array_round_trip.
(** The same for [Vec<T>] and [Multiple<T>] used directly as fields. *)
Theorem C09_vec_round_trip : forall (t : prim) (l : list (prim_ty t)) p rest,
  Forall (prim_legal t) l -> sz_vec t l < 2 ^ 32 ->
  decode_with (dec_vec p (prim_dec t)) (enc_vec t l ++ rest) = Ok (l, rest).
Proof. exact rt_vec. Qed.
Print Assumptions C09_vec_round_trip.
Theorem C09_multiple_round_trip : forall (t : prim) (l : list (prim_ty t)) p rest,
  Forall (prim_legal t) l -> sz_multiple t l < 2 ^ 32 ->
  decode_with (dec_multiple p (prim_dec t)) (enc_multiple t l ++ rest) = Ok (l, rest).
Proof. exact rt_multiple. Qed.
Print Assumptions C09_multiple_round_trip.
Example C09_case :
  Forall (prim_legal PrTimestamp) [mk_datetime 0 1000000; mk_datetime (-9) 5000000]
  /\ array_decode (prim_dec PrTimestamp) (array_new PrTimestamp [mk_datetime 0 1000000; mk_datetime (-9) 5000000])
     = Ok [mk_datetime 0 1000000; mk_datetime (-9) 5000000].
Proof.
  split; [|vm_compute; reflexivity].
  constructor; [|constructor; [|constructor]]; (split; [vm_compute; easy|]);
    (split; [reflexivity|]); [left|right]; vm_compute; easy.
Qed.

(** C10.  [dec_variant p d] is the decoder with at most [d] nested calls.  The
    depth never exceeds the number of bytes received ... *)
Theorem C10_depth_bounded_partial : forall p d inp, (length inp < d)%nat -> dec_variant p d inp <> NoFuel.
Proof. exact depth_bounded. Qed.
Print Assumptions C10_depth_bounded_partial.
(** ... but no smaller limit holds: three bytes buy the peer one more call. *)
Theorem C10_depth_no_fixed_limit : forall p d,
  exists inp v, length inp = (3 * d + 1)%nat /\ decode_variant p inp = Ok (v, []) /\
    dec_variant p d inp = NoFuel.
Proof. exact depth_unbounded. Qed.
Print Assumptions C10_depth_no_fixed_limit.
(** Memory is not bounded by the input: nine bytes reserve 2^32 - 1 elements. *)
Theorem C10_memory_refuted : forall p, exists inp, blen inp = 9 /\ requested p inp = Ok (2 ^ 32 - 1).
Proof.
  exact (fun p => ex_intro _ [xd0; x00; x00; x00; x04; xff; xff; xff; xff]
    (conj eq_refl (match p with Debug => eq_refl | Release => eq_refl end))).
Qed.
Print Assumptions C10_memory_refuted.
Example C10_case : dec_variant Debug 5 (enc_variant (VList [VList [VList []]])) = Ok (VList [VList [VList []]], []).
Proof. reflexivity. Qed.

(** C50.  For any type whose own encoding round-trips (C01, C11 give such
    types): a described compound made from a value decodes to it, and data with
    anything after the value is refused. *)
Theorem C50_described_compound : forall {A} (enc : A -> bytes) (dec : parser A) d a data,
  (forall rest, dec (enc a ++ rest) = Ok (a, rest)) ->
  described_create enc d a = VDescribedCompound d data -> described_decode dec data = Ok a.
Proof. exact @described_create_decode. Qed.
Print Assumptions C50_described_compound.
Theorem C50_described_leftover : forall {A} (enc : A -> bytes) (dec : parser A) a extra,
  (forall rest, dec (enc a ++ rest) = Ok (a, rest)) -> extra <> [] ->
  described_decode dec (enc a ++ extra) = Err InvalidSize.
Proof. exact @described_leftover. Qed.
Print Assumptions C50_described_leftover.
Example C50_case : exists data,
  described_create enc_variant (DUlong 9) sample = VDescribedCompound (DUlong 9) data
  /\ described_decode (decode_variant Debug) data = Ok sample.
Proof. eexists. split; [reflexivity|vm_compute; reflexivity]. Qed.
