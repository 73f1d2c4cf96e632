(** * Codecs of field types and the shared shape of the composite types

    codec/src/protocol/definitions.rs contains one decoder, one size function
    and one encoder per composite type, all written after the same pattern.
    The pattern is modelled once, here, as a function of the list of fields;
    [Protocol.v] instantiates it for every composite type. *)

From Coq Require Import Strings.String.
From Verif Require Export Arrays.
Open Scope N_scope.
Open Scope list_scope.

(** A Rust string literal. *)
Definition str (s : string) : bytes := list_byte_of_string s.

(** The [Encode] and [DecodeFormatted] instances of a type. *)
Record codec (A : Type) : Type := mk_codec {
  c_sz : A -> N;                              (* encoded_size *)
  c_enc : A -> bytes;                         (* encode *)
  c_dec : profile -> byte -> parser A         (* decode_with_format *)
}.
Arguments mk_codec {A} _ _ _.
Arguments c_sz {A} _ _.
Arguments c_enc {A} _ _.
Arguments c_dec {A} _ _ _ _.

(** ** Primitive types: encode.rs and decode.rs, see [Encode.v], [Decode.v] *)

Definition bool_c : codec bool := mk_codec sz_bool enc_bool (fun _ => dec_bool).
Definition u8_c : codec N := mk_codec sz_u8 enc_u8 (fun _ => dec_u8).
Definition u16_c : codec N := mk_codec sz_u16 enc_u16 (fun _ => dec_u16).
Definition u32_c : codec N := mk_codec sz_u32 enc_u32 (fun _ => dec_u32).
Definition u64_c : codec N := mk_codec sz_u64 enc_u64 (fun _ => dec_u64).
Definition timestamp_c : codec datetime :=
  mk_codec sz_datetime enc_datetime (fun _ => dec_datetime).
Definition uuid_c : codec bytes := mk_codec sz_uuid enc_uuid (fun _ => dec_uuid).
Definition binary_c : codec bytes := mk_codec sz_var enc_binary (fun _ => dec_binary).
Definition string_c : codec bytes := mk_codec sz_var enc_string (fun _ => dec_string).
Definition symbol_c : codec bytes := mk_codec sz_var enc_symbol (fun _ => dec_symbol).

(** [Variant]: [decode_variant] includes reading the format code. *)
Definition variant_c : codec variant :=
  mk_codec sz_variant enc_variant (fun p fmt inp => decode_variant p (fmt :: inp)).

(** encode.rs:628-654, decode.rs:338-348 [List]. *)
Definition list_c : codec (list variant) :=
  mk_codec (fun l => sz_variant (VList l)) (fun l => enc_variant (VList l))
           (fun p => dec_list p (decode_variant p)).

(** protocol/mod.rs:34 [Symbols = Multiple<Symbol>]. *)
Definition symbols_c : codec (list bytes) :=
  mk_codec (sz_multiple PrSymbol) (enc_multiple PrSymbol)
           (fun p => dec_multiple p dec_symbol).

(** [Option<T>]: encode.rs:770-782, decode.rs:473-480. *)
Definition option_c {A} (C : codec A) : codec (option A) :=
  mk_codec (fun o => match o with Some a => c_sz C a | None => 1 end)
           (fun o => match o with Some a => c_enc C a | None => enc_null end)
           (fun p => dec_option (c_dec C p)).

(** [HashMap<K, V>]: encode.rs:457-485, decode.rs:242-260. *)
Definition hashmap_c {K V} (hash_ok : K -> bool) (eqb : K -> K -> bool)
           (CK : codec K) (CV : codec V) : codec (list (K * V)) :=
  mk_codec (sz_map (c_sz CK) (c_sz CV))
           (enc_map (c_sz CK) (c_sz CV) (c_enc CK) (c_enc CV))
           (fun p => dec_hashmap p hash_ok eqb
                       (decode_with (c_dec CK p)) (decode_with (c_dec CV p))).

(** protocol/mod.rs:28 [Map], 30 [Fields], 31 [FilterSet], 36 [Annotations]. *)
Definition map_c : codec (list (variant * variant)) :=
  hashmap_c hashable key_eqb variant_c variant_c.
Definition fields_c : codec (list (bytes * variant)) :=
  hashmap_c (fun _ => true) beqb symbol_c variant_c.
Definition filter_c : codec (list (bytes * option bytes)) :=
  hashmap_c (fun _ => true) beqb symbol_c (option_c string_c).

(** [VecSymbolMap], [VecStringMap]: encode.rs:503-573, decode.rs:284-316;
    protocol/mod.rs:32 [FieldsVec]. *)
Definition vecmap_c (CK : codec bytes) : codec (list (bytes * variant)) :=
  mk_codec (sz_map (c_sz CK) sz_variant)
           (enc_map (c_sz CK) sz_variant (c_enc CK) enc_variant)
           (fun p => dec_vecmap p (decode_with (c_dec CK p)) (decode_variant p)).
Definition symbol_map_c : codec (list (bytes * variant)) := vecmap_c symbol_c.
Definition string_map_c : codec (list (bytes * variant)) := vecmap_c string_c.

(** The restricted types of definitions.rs (393-937): [decode] of the base
    type, then [try_from]; sizes are those written in the Rust source. *)
Definition enum_c {A B} (base : codec B) (sz : A -> N) (to : A -> B) (of : B -> option A)
  : codec A :=
  mk_codec sz (fun a => c_enc base (to a))
           (fun p fmt inp =>
              '(b, inp) <- c_dec base p fmt inp ;;
              match of b with Some a => Ok (a, inp) | None => Err UnknownEnumOption end).

(** ** Composite types *)

(** The fields of a composite type, in order: an optional field, a mandatory
    one, one with a default.  The index is the tuple of the field values. *)
Inductive fields : Type -> Type :=
| FNil : fields unit
| FOpt {A T} (C : codec A) (fs : fields T) : fields (option A * T)
| FReq {A T} (C : codec A) (fs : fields T) : fields (A * T)
| FDef {A T} (C : codec A) (default : A) (fs : fields T) : fields (A * T).

(** [FIELD_COUNT], e.g. definitions.rs:1062. *)
Fixpoint field_count {T} (fs : fields T) : N :=
  match fs with
  | FNil => 0
  | FOpt _ fs => 1 + field_count fs
  | FReq _ fs => 1 + field_count fs
  | FDef _ _ fs => 1 + field_count fs
  end.

(** [content_size], e.g. definitions.rs:1122-1125. *)
Fixpoint sz_fields {T} (fs : fields T) : T -> N :=
  match fs with
  | FNil => fun _ => 0
  | FOpt C fs => fun t => c_sz (option_c C) (fst t) + sz_fields fs (snd t)
  | FReq C fs => fun t => c_sz C (fst t) + sz_fields fs (snd t)
  | FDef C _ fs => fun t => c_sz C (fst t) + sz_fields fs (snd t)
  end.

(** The field by field [encode], e.g. definitions.rs:1149-1151. *)
Fixpoint enc_fields {T} (fs : fields T) : T -> bytes :=
  match fs with
  | FNil => fun _ => []
  | FOpt C fs => fun t => c_enc (option_c C) (fst t) ++ enc_fields fs (snd t)
  | FReq C fs => fun t => c_enc C (fst t) ++ enc_fields fs (snd t)
  | FDef C _ fs => fun t => c_enc C (fst t) ++ enc_fields fs (snd t)
  end.

(** The field by field decoder with its countdown, e.g. definitions.rs:1092-1113
    (mandatory and optional fields) and 2847-2854 (a field with a default). *)
Fixpoint dec_fields {T} (p : profile) (fs : fields T) (count : N) (data : bytes) : res T :=
  match fs with
  | FNil => Ok tt
  | FOpt C fs =>
      if 0 <? count then
        '(a, data) <- decode_with (c_dec (option_c C) p) data ;;
        t <- dec_fields p fs (count - 1) data ;;
        Ok (a, t)
      else
        t <- dec_fields p fs count data ;; Ok (None, t)
  | FReq C fs =>
      if 0 <? count then
        '(a, data) <- decode_with (c_dec C p) data ;;
        t <- dec_fields p fs (count - 1) data ;;
        Ok (a, t)
      else Err RequiredFieldOmitted
  | FDef C default fs =>
      if 0 <? count then
        '(a, data) <- decode_with (c_dec (option_c C) p) data ;;
        t <- dec_fields p fs (count - 1) data ;;
        Ok (match a with Some a => a | None => default end, t)
      else
        t <- dec_fields p fs count data ;; Ok (default, t)
  end.

(** A composite type: descriptor code and name, fields, and the conversion
    between the struct and the tuple of its fields. *)
Record comp (A : Type) : Type := mk_comp {
  k_code : N;
  k_name : bytes;
  k_tuple : Type;
  k_fields : fields k_tuple;
  k_to : A -> k_tuple;
  k_of : k_tuple -> A
}.
Arguments mk_comp {A} _ _ {_} _ _ _.
Arguments k_code {A} _.
Arguments k_name {A} _.
Arguments k_tuple {A} _.
Arguments k_fields {A} _.
Arguments k_to {A} _ _.
Arguments k_of {A} _ _.

(** [decode_*_inner], e.g. definitions.rs:1085-1119: the list header, a slice
    of the announced size, the fields; what is left of the slice is dropped.
    For a type without fields definitions.rs:5130-5137 advances over the slice,
    which is the same. *)
Definition dec_inner {A} (K : comp A) (p : profile) : parser A := fun inp =>
  '(fmt, inp) <- read_byte inp ;;
  '(header, inp) <- dec_list_header p fmt inp ;;
  let '(size, count) := header in
  _ <- check_len size inp ;;
  '(data, inp) <- split_to size inp ;;
  t <- dec_fields p (k_fields K) count data ;;
  Ok (k_of K t, inp).

(** [encoded_size_*_inner], e.g. definitions.rs:1120-1132. *)
Definition sz_inner {A} (K : comp A) (a : A) : N :=
  let content := sz_fields (k_fields K) (k_to K a) in
  (if 255 <? content + 1 then 12 else 6) + content.

(** [encode_*_inner], e.g. definitions.rs:1133-1152. *)
Definition enc_inner {A} (K : comp A) (a : A) : bytes :=
  let content := sz_fields (k_fields K) (k_to K a) in
  enc_descriptor (DUlong (k_code K))
  ++ (if 255 <? content + 1
      then xd0 :: be 4 (content + 4) ++ be 4 (field_count (k_fields K))
      else xc0 :: be 1 (content + 1) ++ be 1 (field_count (k_fields K)))
  ++ enc_fields (k_fields K) (k_to K a).

(** The descriptor test, e.g. definitions.rs:1157-1160. *)
Definition desc_is (d : descriptor) (code : N) (name : bytes) : bool :=
  match d with DUlong n => n =? code | DSymbol s => beqb s name end.

(** [validate_code!(fmt, FORMATCODE_DESCRIBED)] (decode.rs:55-62) and
    [Descriptor::decode]. *)
Definition dec_described (fmt : byte) : parser descriptor := fun inp =>
  if Byte.eqb fmt x00 then decode_with dec_descriptor inp
  else Err (InvalidFormatCode fmt).

(** [decode_with_format] of a composite type, e.g. definitions.rs:1153-1167. *)
Definition comp_c {A} (K : comp A) : codec A :=
  mk_codec (sz_inner K) (enc_inner K)
    (fun p fmt inp =>
       '(d, inp) <- dec_described fmt inp ;;
       if desc_is d (k_code K) (k_name K) then dec_inner K p inp
       else Err (InvalidDescriptor d)).

(** [.map(f)] on the result of a decoder. *)
Definition map_res {A B} (f : A -> B) (r : res (A * bytes)) : res (B * bytes) :=
  '(a, inp) <- r ;; Ok (f a, inp).
