(** * Arrays and vectors of primitives: sizes and round trips *)

From Verif Require Import Base BaseProofs Types Encode Decode Spec EncodeProofs Roundtrip
  VariantRoundtrip Arrays.
From Coq Require Import ZifyBool ZifyNat ZifyN.

Lemma blen_prim_array (t : prim) (x : prim_ty t) :
  prim_legal t x -> blen (prim_array_enc t x) = prim_array_sz t x.
Proof.
  destruct t; cbn [prim_legal prim_array_enc prim_array_sz]; intros H;
    unfold be_signed; rewrite ?blen_be; try reflexivity;
    try (rewrite blen_app, blen_be; reflexivity).
  unfold blen. rewrite H. reflexivity.
Qed.

Lemma prim_array_pos (t : prim) (x : prim_ty t) : 1 <= prim_array_sz t x.
Proof. destruct t; cbn [prim_array_sz]; lia. Qed.

Lemma rt_prim_array (t : prim) (x : prim_ty t) rest :
  prim_legal t x -> prim_dec t (prim_code t) (prim_array_enc t x ++ rest) = Ok (x, rest).
Proof.
  destruct t; cbn [prim_legal prim_array_enc prim_dec prim_code]; intros H.
  - cbn [dec_bool app]. rewrite read_byte_cons. destruct x; reflexivity.
  - apply read_un_be; exact H.
  - apply read_un_be; exact H.
  - apply read_un_be; exact H.
  - apply read_un_be; exact H.
  - apply read_in_be; [lia|exact H].
  - apply read_in_be; [lia|exact H].
  - apply read_in_be; [lia|exact H].
  - apply read_in_be; [lia|exact H].
  - apply read_un_be; exact H.
  - apply read_un_be; exact H.
  - cbn [dec_char]. rewrite read_un_be.
    + cbn [bind]. rewrite (proj2 (is_scalar_spec x) H). reflexivity.
    + destruct H as [H _]. change (256 ^ N.of_nat 4) with 4294967296. lia.
  - destruct H as [Hi Hw]. cbn [dec_datetime].
    rewrite read_in_be; [|lia|apply to_millis_signed; exact Hi].
    cbn [bind]. rewrite from_to_millis by assumption. reflexivity.
  - apply be_read_app. exact H.
  - cbn [dec_binary]. rewrite <- app_assoc. apply read_bytes_be. exact H.
  - destruct H as [Ht H]. cbn [dec_string]. rewrite <- app_assoc, read_bytes_be by exact H.
    cbn [bind]. unfold check_utf8. rewrite Ht. reflexivity.
  - destruct H as [Ht H]. cbn [dec_symbol]. rewrite <- app_assoc, read_bytes_be by exact H.
    cbn [bind]. unfold check_utf8. rewrite Ht. reflexivity.
Qed.

Lemma blen_prims (t : prim) (l : list (prim_ty t)) :
  Forall (prim_legal t) l ->
  blen (flat_map (prim_array_enc t) l) = sum_by (prim_array_sz t) l.
Proof.
  induction 1 as [|x l Hx _ IH]; [reflexivity|]. cbn [flat_map sum_by].
  rewrite blen_app, IH, blen_prim_array by exact Hx. reflexivity.
Qed.

Lemma prims_long (t : prim) (l : list (prim_ty t)) :
  N.of_nat (length l) <= sum_by (prim_array_sz t) l.
Proof.
  induction l as [|x l IH]; cbn [length sum_by]; [lia|].
  pose proof (prim_array_pos t x). lia.
Qed.

Lemma array_new_wire (t : prim) (l : list (prim_ty t)) :
  Forall (prim_legal t) l -> wire_array (array_new t l).
Proof.
  intros H. split; cbn [array_new a_ctor a_count a_payload wire_ctor].
  - destruct t; discriminate.
  - rewrite blen_prims by exact H. pose proof (prims_long t l). lia.
Qed.

Lemma array_new_decode (t : prim) (l : list (prim_ty t)) :
  Forall (prim_legal t) l -> array_decode (prim_dec t) (array_new t l) = Ok l.
Proof.
  intros H. unfold array_decode, array_new. cbn [a_ctor a_count a_payload ctor_format].
  rewrite <- (app_nil_r (flat_map _ l)). rewrite dec_n_rt; [reflexivity| |lia].
  eapply Forall_impl; [|exact H]. cbn beta. intros x Hx rest. apply rt_prim_array, Hx.
Qed.

Lemma array_round_trip (t : prim) (l : list (prim_ty t)) p rest :
  Forall (prim_legal t) l -> blen (enc_variant (VArray (array_new t l))) < 2 ^ 32 ->
  decode_variant p (enc_variant (VArray (array_new t l)) ++ rest)
    = Ok (VArray (array_new t l), rest)
  /\ array_decode (prim_dec t) (array_new t l) = Ok l.
Proof.
  intros H Hs. split; [|apply array_new_decode, H].
  apply decode_encode_variant; [|constructor; apply array_new_wire, H|exact Hs].
  constructor; [|exact I]. cbn [array_new a_count]. unfold unsigned.
  pose proof (prims_long t l) as HL. rewrite <- blen_prims in HL by exact H.
  cbn [enc_variant] in Hs. unfold enc_array in Hs. rewrite !blen_app in Hs.
  cbn [array_new a_payload] in Hs. lia.
Qed.

(** [Vec<T>] writes exactly what the [Array] made from it would write. *)
Lemma enc_vec_array (t : prim) (l : list (prim_ty t)) :
  Forall (prim_legal t) l -> enc_vec t l = enc_array (array_new t l) /\ sz_vec t l = sz_array (array_new t l).
Proof.
  intros H. unfold enc_vec, enc_array, sz_vec, sz_array, array_new.
  cbn [a_ctor a_payload a_count sz_ctor enc_ctor]. rewrite blen_prims by exact H.
  set (s := sum_by _ l).
  replace (s + 1 + 1) with (s + 1 + 1) by reflexivity.
  replace (s + 4 + 1) with (4 + 1 + s) by lia.
  split; [|lia]. replace (1 + 1 + s) with (s + 1 + 1) by lia. reflexivity.
Qed.

Lemma blen_enc_vec (t : prim) (l : list (prim_ty t)) :
  Forall (prim_legal t) l -> blen (enc_vec t l) = sz_vec t l.
Proof.
  intros H. unfold enc_vec, sz_vec. rewrite !blen_app, blen_prims by exact H.
  destruct (255 <? _); rewrite blen_cons, blen_app, !blen_be; cbn [blen]; unfold blen; cbn [length]; lia.
Qed.

Lemma rt_vec (t : prim) (l : list (prim_ty t)) p rest :
  Forall (prim_legal t) l -> sz_vec t l < 2 ^ 32 ->
  decode_with (dec_vec p (prim_dec t)) (enc_vec t l ++ rest) = Ok (l, rest).
Proof.
  intros H Hs. unfold enc_vec, sz_vec in *. pose proof (prims_long t l) as HL.
  rewrite <- (blen_prims t l H) in *.
  set (content := flat_map (prim_array_enc t) l) in *.
  assert (Hcode : forall r, decode_with dec_ctor ([prim_code t] ++ r) = Ok (CFormatCode (prim_code t), r)).
  { intros r. cbn [app]. rewrite decode_with_cons. destruct t; reflexivity. }
  assert (Hn : forall r, dec_n (prim_dec t (prim_code t)) (N.to_nat (N.of_nat (length l)))
                 (N.of_nat (length l)) (content ++ r) = Ok (l, r)).
  { intros r. apply dec_n_rt; [|lia]. eapply Forall_impl; [|exact H]. cbn beta.
    intros x Hx r'. apply rt_prim_array, Hx. }
  rewrite <- !app_assoc.
  destruct (N.ltb_spec 255 (blen content + 1 + 1)) as [Hb|Hb]; rewrite <- app_comm_cons, decode_with_cons;
    unfold dec_vec; cbn [dec_array_header]; rewrite <- app_assoc.
  - replace (blen content + 4 + 1) with ((blen content + 1) + 4) by lia.
    rewrite compound32_rt by lia. cbn [bind].
    rewrite check_len_ok by (rewrite !blen_app; change (blen [prim_code t]) with 1; lia). cbn [bind].
    rewrite Hcode. cbn [bind]. apply Hn.
  - rewrite compound8_rt by lia. cbn [bind].
    rewrite check_len_ok by (rewrite !blen_app; change (blen [prim_code t]) with 1; lia). cbn [bind].
    rewrite Hcode. cbn [bind]. apply Hn.
Qed.

Lemma blen_prim_enc (t : prim) (x : prim_ty t) :
  prim_legal t x -> blen (prim_enc t x) = prim_sz t x.
Proof.
  destruct t; cbn [prim_legal prim_enc prim_sz]; intros H.
  - destruct x; reflexivity.
  - reflexivity.
  - reflexivity.
  - unfold enc_u32, sz_u32. destruct (x =? 0), (255 <? x); reflexivity.
  - unfold enc_u64, sz_u64. destruct (x =? 0), (255 <? x); reflexivity.
  - reflexivity.
  - reflexivity.
  - unfold enc_i32, sz_i32. destruct (wide_i x); reflexivity.
  - unfold enc_i64, sz_i64. destruct (wide_i x); reflexivity.
  - reflexivity.
  - reflexivity.
  - reflexivity.
  - reflexivity.
  - unfold enc_uuid, sz_uuid, blen. cbn [length]. rewrite H. reflexivity.
  - unfold enc_binary, enc_var, sz_var. rewrite blen_app. destruct (255 <? blen x); reflexivity.
  - unfold enc_string, enc_var, sz_var. rewrite blen_app. destruct (255 <? blen x); reflexivity.
  - unfold enc_symbol, enc_var, sz_var. rewrite blen_app. destruct (255 <? blen x); reflexivity.
Qed.

Lemma rt_prim (t : prim) (x : prim_ty t) rest :
  prim_legal t x -> decode_with (prim_dec t) (prim_enc t x ++ rest) = Ok (x, rest).
Proof.
  destruct t; cbn [prim_legal prim_enc prim_dec]; intros H.
  - apply rt_bool.
  - apply rt_u8, H.
  - apply rt_u16, H.
  - apply rt_u32, H.
  - apply rt_u64, H.
  - apply rt_i8, H.
  - apply rt_i16, H.
  - apply rt_i32, H.
  - apply rt_i64, H.
  - apply rt_f32, H.
  - apply rt_f64, H.
  - apply rt_char, H.
  - apply rt_datetime; apply H.
  - apply rt_uuid, H.
  - apply rt_binary, H.
  - apply rt_string; apply H.
  - apply rt_symbol; apply H.
Qed.

(** First byte of an encoded primitive. *)
Definition prim_head (b : byte) : bool :=
  match b with x00 | x40 | xe0 | xf0 => false | _ => true end.
Lemma prim_enc_head (t : prim) (x : prim_ty t) :
  exists b tl, prim_enc t x = b :: tl /\ prim_head b = true.
Proof.
  destruct t; cbn [prim_enc];
    unfold enc_bool, enc_u8, enc_u16, enc_u32, enc_u64, enc_i8, enc_i16, enc_i32, enc_i64,
      enc_f32, enc_f64, enc_char, enc_datetime, enc_uuid, enc_binary, enc_string, enc_symbol, enc_var;
    repeat match goal with |- context [if ?c then _ else _] => destruct c end;
    do 2 eexists; (split; [reflexivity|reflexivity]).
Qed.

Lemma blen_enc_multiple (t : prim) (l : list (prim_ty t)) :
  Forall (prim_legal t) l -> blen (enc_multiple t l) = sz_multiple t l.
Proof.
  intros H. destruct l as [|x [|y l]]; cbn [enc_multiple sz_multiple].
  - apply blen_enc_vec, H.
  - apply blen_prim_enc. inversion H; assumption.
  - apply blen_enc_vec, H.
Qed.

Lemma rt_multiple (t : prim) (l : list (prim_ty t)) p rest :
  Forall (prim_legal t) l -> sz_multiple t l < 2 ^ 32 ->
  decode_with (dec_multiple p (prim_dec t)) (enc_multiple t l ++ rest) = Ok (l, rest).
Proof.
  intros H Hs.
  assert (HV : sz_vec t l < 2 ^ 32 ->
    decode_with (dec_multiple p (prim_dec t)) (enc_vec t l ++ rest) = Ok (l, rest)).
  { intros Hs'. rewrite <- (rt_vec t l p rest H Hs'). unfold enc_vec. rewrite <- app_assoc.
    destruct (255 <? _); rewrite <- !app_comm_cons, !decode_with_cons; reflexivity. }
  destruct l as [|x [|y l]]; cbn [enc_multiple sz_multiple] in *; [exact (HV Hs)| |exact (HV Hs)].
  pose proof (rt_prim t x rest ltac:(inversion H; assumption)) as G.
  destruct (prim_enc_head t x) as [b [tl [E Hb]]]. rewrite E in *.
  rewrite <- app_comm_cons in *. rewrite decode_with_cons in G. rewrite decode_with_cons.
  unfold dec_multiple. destruct b; try discriminate Hb; rewrite G; reflexivity.
Qed.
