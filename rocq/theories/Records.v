(** * Lists of described composites ([ListDescribed]) and arrays of maps *)

From Verif Require Export Arrays.

(** codec/src/codec/mod.rs:38-40 [Composite]: a type of the application with its
    descriptor, its [Encode] and its [Decode]. *)
Record composite (A : Type) : Type := mk_composite {
  co_descr : descriptor;
  co_sz : A -> N;
  co_enc : A -> bytes;
  co_dec : parser A
}.
Arguments co_descr {A}. Arguments co_sz {A}. Arguments co_enc {A}. Arguments co_dec {A}.

(** encode.rs:657-669 [ListDescribed::encoded_size] and 671-691 [encode]: every item
    is preceded by the descriptor. *)
Definition items_sz {A} (C : composite A) (l : list A) : N :=
  sum_by (fun a => co_sz C a + sz_descriptor (co_descr C)) l.
Definition sz_records {A} (C : composite A) (l : list A) : N := sz_compound (items_sz C l).
Definition enc_records {A} (C : composite A) (l : list A) : bytes :=
  enc_compound xc0 xd0 (items_sz C l) (N.of_nat (length l))
  ++ flat_map (fun a => enc_descriptor (co_descr C) ++ co_enc C a) l.

(** One iteration of decode.rs:356-365. *)
Definition dec_record {A} (p : profile) (C : composite A) : parser A := fun inp =>
  '(v, inp) <- decode_variant p inp ;;
  match v with
  | VDescribedCompound d data =>
      if descriptor_eqb (co_descr C) d
      then a <- described_decode (co_dec C) data ;; Ok (a, inp)
      else Err UnexpectedType
  | _ => Err UnexpectedType
  end.
(** decode.rs:351-368 [ListDescribed]; as for [List] the announced size is ignored. *)
Definition dec_records {A} (p : profile) (C : composite A) (fmt : byte) : parser (list A) :=
  dec_list p (dec_record p C) fmt.

(** A map type as an element of an array: the functions of its keys and values. *)
Record map_ty (K V : Type) : Type := mk_map_ty {
  mt_szk : K -> N; mt_szv : V -> N;
  mt_ek : K -> bytes; mt_ev : V -> bytes;
  mt_hash : K -> bool; mt_eqb : K -> K -> bool;
  mt_deck : parser K; mt_decv : parser V
}.
Arguments mt_szk {K V}. Arguments mt_szv {K V}. Arguments mt_ek {K V}. Arguments mt_ev {K V}.
Arguments mt_hash {K V}. Arguments mt_eqb {K V}. Arguments mt_deck {K V}. Arguments mt_decv {K V}.

(** encode.rs:487-489 [HashMap::array_encoded_size] and 490-500 [array_encode]. *)
Definition map_array_sz {K V} (M : map_ty K V) (m : list (K * V)) : N :=
  8 + pairs_size (mt_szk M) (mt_szv M) m.
Definition map_array_enc {K V} (M : map_ty K V) (m : list (K * V)) : bytes :=
  be 4 (pairs_size (mt_szk M) (mt_szv M) m + 4) ++ be 4 (N.of_nat (length m) * 2)
  ++ enc_pairs (mt_ek M) (mt_ev M) m.
(** types/array.rs:15-32 [Array::new] for [HashMap] items, whose constructor is
    MAP32 (encode.rs:486). *)
Definition maps_array {K V} (M : map_ty K V) (l : list (list (K * V))) : array :=
  mk_array (N.of_nat (length l)) (CFormatCode xd1) (flat_map (map_array_enc M) l).
(** encode.rs:575-608 [Vec<HashMap<K, V>>]. *)
Definition sz_maps {K V} (M : map_ty K V) (l : list (list (K * V))) : N :=
  let content := sum_by (map_array_sz M) l in
  (if 255 <? content + 1 + 1 then 9 else 3) + 1 + content.
Definition enc_maps {K V} (M : map_ty K V) (l : list (list (K * V))) : bytes :=
  let size := sum_by (map_array_sz M) l in
  (if 255 <? size + 1 + 1
   then xf0 :: be 4 (size + 4 + 1) ++ be 4 (N.of_nat (length l))
   else xe0 :: be 1 (size + 1 + 1) ++ be 1 (N.of_nat (length l)))
  ++ [xd1] ++ flat_map (map_array_enc M) l.
(** decode.rs:242-260 [HashMap<K, V>] as the element decoder. *)
Definition dec_map_of {K V} (p : profile) (M : map_ty K V) : byte -> parser (list (K * V)) :=
  dec_hashmap p (mt_hash M) (mt_eqb M) (mt_deck M) (mt_decv M).
