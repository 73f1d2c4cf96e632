(** * Theorems about lists of described composites and arrays of maps: C68

    Vocabulary: [Spec.v], [SpecRecords.v].  Model: [Records.v]. *)

From Coq Require Import List NArith Lia.
From Verif Require Import Base Types Encode Decode Arrays Codec CodecProofs SpecProtocol SpecRecords RecordProofs.
Import ListNotations.
Local Open Scope N_scope.

(** ** C68 *)
(** A list of items of the application's type is read back as it was, with whatever
    follows left in place, and takes the bytes that it says. *)
Theorem C68_round_trip : forall {A} (C : composite A) p l rest,
  usable (co_descr C) -> Forall (keeps C) l -> sz_records C l < 2 ^ 32 ->
  decode_with (dec_records p C) (enc_records C l ++ rest) = Ok (l, rest) /\ blen (enc_records C l) = sz_records C l.
Proof. exact @records_rt. Qed.
Print Assumptions C68_round_trip.

(** From any bytes: items are read exactly if a plain list is read there, of described
    compounds with the descriptor of the type, each of which is an item without rest. *)
Theorem C68_read : forall {A} (C : composite A) p inp l rest,
  decode_with (dec_records p C) inp = Ok (l, rest) <->
  exists vs, decode_with (dec_list p (decode_variant p)) inp = Ok (vs, rest)
    /\ Forall2 (fun v a => exists data, v = VDescribedCompound (co_descr C) data /\ described_decode (co_dec C) data = Ok a) vs l.
Proof. exact @records_same. Qed.
Print Assumptions C68_read.

(** A type that writes one integer, not a list, a map or an array: what it writes in
    a list is not read back. *)
Definition number_type : composite N := mk_composite N (DUlong 7) sz_u32 enc_u32 (decode_with dec_u32).
Theorem C68_scalar_refused :
  usable (co_descr number_type)
  /\ (forall rest, co_dec number_type (co_enc number_type 5 ++ rest) = Ok (5, rest))
  /\ blen (co_enc number_type 5) = co_sz number_type 5
  /\ forall p, decode_with (dec_records p number_type) (enc_records number_type [5]) = Err UnexpectedType.
Proof.
  split; [split; vm_compute; [reflexivity|discriminate]|].
  split; [intros rest; apply (ArrayProofs.rt_prim PrU32); vm_compute; reflexivity|]. split; [reflexivity|].
  intros []; vm_compute; reflexivity.
Qed.
Print Assumptions C68_scalar_refused.

(** An array of maps is read back as it was, as [Vec] and as [Array], and takes the
    bytes that it says. *)
Theorem C68_maps : forall {K V} (M : map_ty K V) p l rest,
  Forall (keeps_map M) l -> sz_maps M l < 2 ^ 32 ->
  decode_with (dec_vec p (dec_map_of p M)) (enc_maps M l ++ rest) = Ok (l, rest)
  /\ blen (enc_maps M l) = sz_maps M l /\ array_decode (dec_map_of p M) (maps_array M l) = Ok l
  /\ enc_maps M l = enc_array (maps_array M l).
Proof. exact @maps_rt. Qed.
Print Assumptions C68_maps.

(** Points, written as lists of two values, and maps from values to values. *)
Definition point_type : composite (list variant) :=
  mk_composite (list variant) (DSymbol [x70; x74]) (fun l => sz_variant (VList l)) (fun l => enc_variant (VList l))
    (decode_with (c_dec list_c Release)).
Definition point (a b : N) : list variant := [VUint a; VUint b].
Definition value_map : map_ty variant variant :=
  mk_map_ty variant variant sz_variant sz_variant enc_variant enc_variant hashable key_eqb (decode_variant Release) (decode_variant Release).
Example C68_case : usable (co_descr point_type) /\ Forall (keeps point_type) [point 1 2; point 300 70000]
  /\ sz_records point_type [point 1 2; point 300 70000] < 2 ^ 32
  /\ Forall (keeps_map value_map) [[(VUint 1, VNull); (VUint 2, VUint 9)]; []]
  /\ sz_maps value_map [[(VUint 1, VNull); (VUint 2, VUint 9)]; []] < 2 ^ 32.
Proof.
  assert (P : forall a b, unsigned 32 a -> unsigned 32 b -> framed_compound (enc_variant (VList (point a b))) -> keeps point_type (point a b)).
  { intros a b Ha Hb F. split; [exact F|]. assert (L : Forall legal_value (point a b)).
    { constructor; [split; [constructor; exact Ha|apply W_Scalar; exact I]|].
      constructor; [split; [constructor; exact Hb|apply W_Scalar; exact I]|constructor]. }
    assert (S : sz_variant (VList (point a b)) < 2 ^ 32).
    { cbn [sz_variant sum_by point]. unfold sz_compound. cbn. unfold sz_u32.
      destruct (a =? 0), (255 <? a), (b =? 0), (255 <? b); vm_compute; reflexivity. }
    split.
    - apply EncodeProofs.size_variant. constructor. eapply Forall_impl; [|exact L]. intros v [H _]. exact H.
    - intros rest. apply variant_list_decode; assumption. }
  split; [split; vm_compute; reflexivity|]. split.
  { constructor; [|constructor; [|constructor]]; (apply P; [vm_compute; reflexivity|vm_compute; reflexivity|]); right; left.
    - exists xc0, [x02; x52; x01; x52; x02]. split; [left; reflexivity|]. split; vm_compute; reflexivity.
    - exists xc0, [x02; x70; x00; x00; x01; x2c; x70; x00; x01; x11; x70]. split; [left; reflexivity|]. split; vm_compute; reflexivity. }
  split; [vm_compute; reflexivity|]. split; [|vm_compute; reflexivity].
  assert (R : forall v rest, match v with VUint n => n <? 2 ^ 32 | VNull => true | _ => false end = true ->
      decode_variant Release (enc_variant v ++ rest) = Ok (v, rest)).
  { intros v rest H. destruct v; try discriminate H; apply VariantRoundtrip.decode_encode_variant; try (apply W_Scalar; exact I).
    - constructor.
    - vm_compute; reflexivity.
    - constructor. apply N.ltb_lt, H.
    - cbn [enc_variant]. unfold enc_u32. destruct (n =? 0), (255 <? n); vm_compute; reflexivity. }
  constructor; [|constructor; [|constructor]].
  - split; [|split].
    + repeat (constructor; [cbn [fst snd]; split; [intros rest; apply R; reflexivity|]; split; [intros rest; apply R; reflexivity|];
        split; [reflexivity|]; split; [reflexivity|]; split; reflexivity|]). constructor.
    + constructor; [reflexivity|]. constructor; [reflexivity|]. constructor.
    + constructor; [constructor; [reflexivity|constructor]|]. constructor; [constructor|constructor].
  - split; [constructor|]. split; constructor.
Qed.
