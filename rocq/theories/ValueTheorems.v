(** * Lemmas behind the theorems about values (PropertiesValue.v) *)

From Verif Require Import Base BaseProofs Types Encode Decode Spec EncodeProofs Roundtrip
  VariantRoundtrip DecodeProofs VariantDecode VariantDecode2 Arrays ArrayProofs PanicProofs.
From Coq Require Import ZifyBool ZifyNat ZifyN.

Lemma decode_prefix_local p inp v rest :
  decode_variant p inp = Ok (v, rest) ->
  exists used, used <> [] /\ inp = used ++ rest /\
    forall more, decode_variant p (inp ++ more) = Ok (v, rest ++ more).
Proof.
  intros E. assert (G : forall n', gx (value_panic p) (S (length inp)) n' PV (decode_variant p) (decode_variant p))
    by (intros; apply gx_decode_variant).
  pose proof (G 0%nat inp ltac:(lia)) as G0. rewrite E in G0.
  destruct G0 as [pre [E1 [[H1 _] _]]]. exists pre. split; [destruct pre; [cbn in H1; lia|discriminate]|].
  split; [exact E1|]. intros more.
  pose proof (G (S (length (inp ++ more))) inp ltac:(lia)) as G1. rewrite E in G1.
  destruct G1 as [pre' [_ [_ Hx]]]. apply Hx. lia.
Qed.

Lemma decode_PV p inp v rest :
  decode_variant p inp = Ok (v, rest) ->
  exists used, inp = used ++ rest /\ PV v (length used).
Proof.
  intros E. pose proof (gx_decode_variant p (S (length inp)) 0 inp ltac:(lia)) as G.
  rewrite E in G. destruct G as [pre [E1 [H _]]]. eauto.
Qed.

Lemma decode_legal p inp v rest : decode_variant p inp = Ok (v, rest) -> legal v.
Proof. intros E. destruct (decode_PV _ _ _ _ E) as [u [_ [_ [H _]]]]. exact H. Qed.

(** Decoded values are faithful on the wire as soon as their descriptors and
    arrays are. *)
Lemma wire_form_parts (D D' : descriptor -> Prop) (A A' : array -> Prop) v :
  wire_form D A v -> all_parts D' A' v -> wire_form D' A' v.
Proof.
  induction v as [v Hs|l IH|m IH|d v IH] using variant_ind'; intros H P.
  - destruct v; try contradiction; try (apply W_Scalar; exact I).
    + inversion H; subst; [constructor; assumption|contradiction].
    + inversion H; subst; [constructor; exact P|contradiction].
    + inversion H; subst; [constructor; [exact P|assumption]|contradiction].
  - inversion H as [|l' Hl| | | | |]; subst; [|contradiction]. constructor.
    cbn [all_parts] in P. clear H. induction IH as [|x t Hx _ IHt]; [constructor|].
    inversion Hl; subst. destruct P as [P1 P2]. constructor; auto.
  - inversion H as [| |m' Hl| | | |]; subst; [|contradiction]. constructor.
    cbn [all_parts] in P. clear H. induction IH as [|[k x] t [Hk Hx] _ IHt]; [constructor|].
    inversion Hl as [|? ? [W1 W2] Hl']; subst. destruct P as [P1 [P2 P3]].
    cbn [fst snd] in *. constructor; auto.
  - inversion H as [| | | |d' v' Hd Hc Hv| |]; subst; [|contradiction].
    destruct P as [P1 P2]. constructor; auto.
Qed.

Lemma decode_reencode p p' inp v rest rest' :
  decode_variant p inp = Ok (v, rest) ->
  all_parts wire_descriptor wire_array v ->
  blen (enc_variant v) < 2 ^ 32 ->
  decode_variant p' (enc_variant v ++ rest') = Ok (v, rest').
Proof.
  intros E P Hs. destruct (decode_PV _ _ _ _ E) as [u [_ [_ [H1 [H2 _]]]]].
  apply decode_encode_variant; [exact H1| |exact Hs]. eapply wire_form_parts; eassumption.
Qed.

Lemma decode_size p inp v rest :
  decode_variant p inp = Ok (v, rest) -> blen (enc_variant v) <= 3 * (blen inp - blen rest).
Proof.
  intros E. destruct (decode_PV _ _ _ _ E) as [u [E1 [_ [H1 [_ H2]]]]]. subst inp.
  rewrite size_variant by exact H1. rewrite blen_app. unfold blen at 1. lia.
Qed.

Lemma decode_reencode_small p p' inp v rest rest' :
  decode_variant p inp = Ok (v, rest) ->
  3 * blen inp < 2 ^ 32 ->
  all_parts wire_descriptor wire_array v ->
  decode_variant p' (enc_variant v ++ rest') = Ok (v, rest').
Proof.
  intros E Hs P. eapply decode_reencode; [exact E|exact P|].
  pose proof (decode_size _ _ _ _ E). lia.
Qed.

(** ** Timestamps *)
Lemma decode_timestamp p t rest :
  instant t ->
  decode_variant p (enc_variant (VTimestamp t) ++ rest)
  = match datetime_from_millis (to_millis t) with
    | Ok t' => Ok (VTimestamp t', rest)
    | Err e => Err e
    | Panic q => Panic q
    | NoFuel => NoFuel
    end.
Proof.
  intros H. unfold decode_variant. cbn [enc_variant dec_variant]. unfold enc_datetime.
  rewrite <- app_comm_cons, read_byte_cons. cbn [bind dec_datetime].
  rewrite read_in_be; [|lia|apply to_millis_signed; exact H]. cbn [bind].
  destruct (datetime_from_millis (to_millis t)); reflexivity.
Qed.

Lemma timestamp_iff p t rest :
  instant t ->
  (decode_variant p (enc_variant (VTimestamp t) ++ rest) = Ok (VTimestamp t, rest)
   <-> wire_instant t).
Proof.
  intros H. rewrite decode_timestamp by exact H. split.
  - destruct (datetime_from_millis (to_millis t)) as [t'| | |] eqn:E; try discriminate.
    intros E'. injection E' as ->. apply from_millis_wire in E. apply E.
  - intros W. rewrite from_to_millis by assumption. reflexivity.
Qed.

(** ** Described values *)
Lemma framed_list l : Forall legal l -> sz_compound (sum_by sz_variant l) < 2 ^ 32 ->
  framed_compound (enc_variant (VList l)).
Proof.
  intros HL Hs. cbn [enc_variant].
  assert (HB : blen (flat_map enc_variant l) = sum_by sz_variant l).
  { apply sum_by_flat. eapply Forall_impl; [|exact HL]. intros a Ha. apply size_variant, Ha. }
  unfold enc_compound, sz_compound in *. rewrite <- HB in *.
  destruct (N.ltb_spec 255 (blen (flat_map enc_variant l) + 1)) as [H|H].
  - right; right. exists xd0, (be 4 (blen (flat_map enc_variant l) + 4)),
      (be 4 (N.of_nat (length l)) ++ flat_map enc_variant l).
    split; [auto|]. split; [apply length_be|]. split.
    + rewrite be_val_be_small, blen_app, blen_be; [lia|]. change (256 ^ N.of_nat 4) with (2 ^ 32). lia.
    + rewrite <- app_comm_cons, <- app_assoc. reflexivity.
  - right; left. exists xc0, (be 1 (N.of_nat (length l)) ++ flat_map enc_variant l).
    rewrite blen_app, blen_be. split; [auto|]. split; [lia|].
    rewrite <- app_comm_cons, <- app_assoc. f_equal. cbn [be app]. f_equal.
    f_equal. lia.
Qed.

Lemma framed_map m :
  Forall (fun kv => legal (fst kv) /\ legal (snd kv)) m ->
  sz_map sz_variant sz_variant m < 2 ^ 32 ->
  framed_compound (enc_variant (VMap m)).
Proof.
  intros HL Hs. cbn [enc_variant]. unfold enc_map, sz_map in *.
  assert (HB : blen (enc_pairs enc_variant enc_variant m) = pairs_size sz_variant sz_variant m).
  { unfold enc_pairs, pairs_size. apply sum_by_flat. eapply Forall_impl; [|exact HL].
    intros [k x] [Hk Hx]. cbn [fst snd] in *. rewrite blen_app, !size_variant by assumption. reflexivity. }
  unfold enc_compound, sz_compound in *. rewrite <- HB in *.
  set (body := enc_pairs enc_variant enc_variant m) in *.
  destruct (N.ltb_spec 255 (blen body + 1)) as [H|H].
  - right; right. exists xd1, (be 4 (blen body + 4)), (be 4 (N.of_nat (length m) * 2) ++ body).
    split; [auto|]. split; [apply length_be|]. split.
    + rewrite be_val_be_small, blen_app, blen_be; [lia|]. change (256 ^ N.of_nat 4) with (2 ^ 32). lia.
    + rewrite <- app_comm_cons, <- app_assoc. reflexivity.
  - right; left. exists xc1, (be 1 (N.of_nat (length m) * 2) ++ body).
    rewrite blen_app, blen_be. split; [auto|]. split; [lia|].
    rewrite <- app_comm_cons, <- app_assoc. f_equal. cbn [be app]. f_equal.
    f_equal. lia.
Qed.

Lemma framed_array a : sz_array a < 2 ^ 32 -> framed_compound (enc_array a).
Proof.
  intros Hs. unfold enc_array, sz_array in *.
  pose proof (blen_enc_ctor (a_ctor a)) as HC.
  set (body := enc_ctor (a_ctor a) ++ a_payload a) in *.
  assert (HB : blen body = sz_ctor (a_ctor a) + blen (a_payload a)) by (unfold body; rewrite blen_app; lia).
  destruct (N.ltb_spec 255 (blen (a_payload a) + sz_ctor (a_ctor a) + 1)) as [H|H].
  - right; right. exists xf0, (be 4 (4 + sz_ctor (a_ctor a) + blen (a_payload a))), (be 4 (a_count a) ++ body).
    split; [auto|]. split; [apply length_be|]. split.
    + rewrite be_val_be_small, blen_app, blen_be; [lia|]. change (256 ^ N.of_nat 4) with (2 ^ 32). lia.
    + rewrite <- app_comm_cons, <- app_assoc. reflexivity.
  - right; left. exists xe0, (be 1 (a_count a) ++ body).
    rewrite blen_app, blen_be. split; [auto|]. split; [lia|].
    rewrite <- app_comm_cons, <- app_assoc. f_equal. cbn [be app]. f_equal.
    f_equal. lia.
Qed.

Lemma framed_variant v :
  legal v -> is_compound v = true -> blen (enc_variant v) < 2 ^ 32 -> framed_compound (enc_variant v).
Proof.
  intros HL HC Hs. rewrite size_variant in Hs by exact HL. destruct v; try discriminate HC.
  - apply framed_list; [inversion HL; assumption|exact Hs].
  - apply framed_map; [inversion HL; assumption|exact Hs].
  - apply framed_array. exact Hs.
Qed.

Lemma described_round_trip p d v rest :
  legal_descriptor d -> wire_descriptor d -> legal v -> wire_safe v ->
  blen (enc_variant (VDescribed d v)) < 2 ^ 32 ->
  decode_variant p (enc_variant (VDescribed d v) ++ rest)
  = Ok (if is_compound v then VDescribedCompound d (enc_variant v) else VDescribed d v, rest).
Proof.
  intros Hd Hw HL HW Hs. destruct (is_compound v) eqn:HC.
  - assert (Hs' : blen (enc_variant v) < 2 ^ 32).
    { cbn [enc_variant] in Hs. rewrite blen_app in Hs. lia. }
    change (enc_variant (VDescribed d v)) with (enc_variant (VDescribedCompound d (enc_variant v))).
    apply decode_encode_variant; [constructor; exact Hd| |exact Hs].
    constructor; [exact Hw|apply framed_variant; assumption].
  - apply decode_encode_variant; [constructor; assumption| |exact Hs].
    constructor; assumption.
Qed.

Lemma descriptor_zero p v rest :
  decode_variant p (enc_variant (VDescribed (DUlong 0) v) ++ rest) = Err (InvalidFormatCode x44).
Proof.
  change (enc_variant (VDescribed (DUlong 0) v) ++ rest) with (x00 :: x44 :: enc_variant v ++ rest).
  unfold decode_variant. cbn [dec_variant]. rewrite read_byte_cons. cbn [bind].
  rewrite decode_with_cons. reflexivity.
Qed.

(** ** Resources *)
Lemma depth_bounded p d inp : (length inp < d)%nat -> dec_variant p d inp <> NoFuel.
Proof.
  intros H E. pose proof (gx_variant p d 0 inp H) as G. rewrite E in G. exact G.
Qed.

(** [d] descriptors, one inside the other, around a null. *)
Fixpoint nested (d : nat) : bytes :=
  match d with O => [x40] | S d' => x00 :: x53 :: x01 :: nested d' end.
Fixpoint nested_value (d : nat) : variant :=
  match d with O => VNull | S d' => VDescribed (DUlong 1) (nested_value d') end.

Lemma nested_length d : length (nested d) = (3 * d + 1)%nat.
Proof. induction d; cbn [nested length]; lia. Qed.

Lemma nested_step p f d :
  dec_variant p (S f) (nested (S d))
  = ('(v, inp) <- dec_variant p f (nested d) ;; Ok (VDescribed (DUlong 1) v, inp)).
Proof.
  cbn [nested]. cbn [dec_variant]. rewrite read_byte_cons. cbn [bind].
  rewrite decode_with_cons. cbn [dec_descriptor dec_u64].
  change (x01 :: nested d) with (be 1 1 ++ nested d). rewrite read_un_be by reflexivity. cbn [bind].
  rewrite check_len_ok by (unfold blen; rewrite nested_length; lia). cbn [bind].
  destruct d; reflexivity.
Qed.

Lemma nested_deep p d : dec_variant p d (nested d) = NoFuel.
Proof.
  induction d as [|d IH]; [reflexivity|]. rewrite nested_step, IH. reflexivity.
Qed.

Lemma nested_ok p d : decode_variant p (nested d) = Ok (nested_value d, []).
Proof.
  unfold decode_variant. assert (G : forall f, (d < f)%nat -> dec_variant p f (nested d) = Ok (nested_value d, [])).
  { induction d as [|d IH]; intros f Hf; (destruct f as [|f]; [lia|]).
    - reflexivity.
    - rewrite nested_step, IH by lia. reflexivity. }
  apply G. rewrite nested_length. lia.
Qed.

Lemma depth_unbounded p d :
  exists inp v, length inp = (3 * d + 1)%nat /\ decode_variant p inp = Ok (v, []) /\
    dec_variant p d inp = NoFuel.
Proof.
  exists (nested d), (nested_value d). split; [apply nested_length|]. split; [apply nested_ok|apply nested_deep].
Qed.

(** ** Described compounds *)
Lemma described_create_decode {A} (enc : A -> bytes) (dec : parser A) d a data :
  (forall rest, dec (enc a ++ rest) = Ok (a, rest)) ->
  described_create enc d a = VDescribedCompound d data -> described_decode dec data = Ok a.
Proof.
  intros H E. unfold described_create in E. injection E as <-. unfold described_decode.
  specialize (H []). rewrite app_nil_r in H. rewrite H. reflexivity.
Qed.

Lemma described_leftover {A} (enc : A -> bytes) (dec : parser A) a extra :
  (forall rest, dec (enc a ++ rest) = Ok (a, rest)) -> extra <> [] ->
  described_decode dec (enc a ++ extra) = Err InvalidSize.
Proof.
  intros H E. unfold described_decode. rewrite H. cbn [bind]. destruct extra; [congruence|reflexivity].
Qed.
