(** * Arrays of primitive elements: [ArrayEncode], [Array::new], [Vec], [Multiple] *)

From Verif Require Export Encode Decode.

(** [ArrayEncode::ARRAY_CONSTRUCTOR]: encode.rs:43, 54, 65, 97, 131, 143, 155,
    185, 215, 227, 241, 253, 265, 278, 308, 338, 420. *)
Definition prim_code (t : prim) : byte :=
  match t with
  | PrBool => x56 | PrU8 => x50 | PrU16 => x60 | PrU32 => x70 | PrU64 => x80
  | PrI8 => x51 | PrI16 => x61 | PrI32 => x71 | PrI64 => x81
  | PrF32 => x72 | PrF64 => x82 | PrChar => x73 | PrTimestamp => x83
  | PrUuid => x98 | PrBinary => xb0 | PrString => xb1 | PrSymbol => xb3
  end.

(** [ArrayEncode::array_encoded_size] of the same instances. *)
Definition prim_array_sz (t : prim) : prim_ty t -> N :=
  match t with
  | PrBool => fun _ => 1
  | PrU8 => fun _ => 1 | PrU16 => fun _ => 2 | PrU32 => fun _ => 4 | PrU64 => fun _ => 8
  | PrI8 => fun _ => 1 | PrI16 => fun _ => 2 | PrI32 => fun _ => 4 | PrI64 => fun _ => 8
  | PrF32 => fun _ => 4 | PrF64 => fun _ => 8 | PrChar => fun _ => 4
  | PrTimestamp => fun _ => 8 | PrUuid => fun _ => 16
  | PrBinary | PrString | PrSymbol => fun b => 4 + blen b
  end.

(** [ArrayEncode::array_encode] of the same instances. *)
Definition prim_array_enc (t : prim) : prim_ty t -> bytes :=
  match t with
  | PrBool => fun b => [if b then x01 else x00]
  | PrU8 => be 1 | PrU16 => be 2 | PrU32 => be 4 | PrU64 => be 8
  | PrI8 => be_signed 1 | PrI16 => be_signed 2 | PrI32 => be_signed 4 | PrI64 => be_signed 8
  | PrF32 => be 4 | PrF64 => be 8 | PrChar => be 4
  | PrTimestamp => fun d => be_signed 8 (to_millis d)
  | PrUuid => fun b => b
  | PrBinary | PrString | PrSymbol => fun b => be 4 (blen b) ++ b
  end.

(** [Encode::encoded_size] and [Encode::encode] of the same types. *)
Definition prim_sz (t : prim) : prim_ty t -> N :=
  match t with
  | PrBool => sz_bool | PrU8 => sz_u8 | PrU16 => sz_u16 | PrU32 => sz_u32 | PrU64 => sz_u64
  | PrI8 => sz_i8 | PrI16 => sz_i16 | PrI32 => sz_i32 | PrI64 => sz_i64
  | PrF32 => sz_f32 | PrF64 => sz_f64 | PrChar => sz_char | PrTimestamp => sz_datetime
  | PrUuid => sz_uuid | PrBinary | PrString | PrSymbol => sz_var
  end.
Definition prim_enc (t : prim) : prim_ty t -> bytes :=
  match t with
  | PrBool => enc_bool | PrU8 => enc_u8 | PrU16 => enc_u16 | PrU32 => enc_u32
  | PrU64 => enc_u64 | PrI8 => enc_i8 | PrI16 => enc_i16 | PrI32 => enc_i32
  | PrI64 => enc_i64 | PrF32 => enc_f32 | PrF64 => enc_f64 | PrChar => enc_char
  | PrTimestamp => enc_datetime | PrUuid => enc_uuid
  | PrBinary => enc_binary | PrString => enc_string | PrSymbol => enc_symbol
  end.

(** [DecodeFormatted::decode_with_format] of the same types. *)
Definition prim_dec (t : prim) : byte -> parser (prim_ty t) :=
  match t with
  | PrBool => dec_bool | PrU8 => dec_u8 | PrU16 => dec_u16 | PrU32 => dec_u32
  | PrU64 => dec_u64 | PrI8 => dec_i8 | PrI16 => dec_i16 | PrI32 => dec_i32
  | PrI64 => dec_i64 | PrF32 => dec_f32 | PrF64 => dec_f64 | PrChar => dec_char
  | PrTimestamp => dec_datetime | PrUuid => dec_uuid
  | PrBinary => dec_binary | PrString => dec_string | PrSymbol => dec_symbol
  end.

(** types/array.rs:15-32 [Array::new], 52-59 [From<Vec<T>>].  Simplification:
    the [u32] element counter is assumed not to overflow (a list of 2^32
    elements); the theorems bound the size below that. *)
Definition array_new (t : prim) (l : list (prim_ty t)) : array :=
  mk_array (N.of_nat (length l)) (CFormatCode (prim_code t)) (flat_map (prim_array_enc t) l).

(** encode.rs:575-608 [Vec<T: ArrayEncode>] (the constructors of the primitive
    types are plain format codes, of encoded size 1). *)
Definition sz_vec (t : prim) (l : list (prim_ty t)) : N :=
  let content := sum_by (prim_array_sz t) l in
  (if 255 <? content + 1 + 1 then 9 else 3) + 1 + content.
Definition enc_vec (t : prim) (l : list (prim_ty t)) : bytes :=
  let size := sum_by (prim_array_sz t) l in
  (if 255 <? size + 1 + 1
   then xf0 :: be 4 (size + 4 + 1) ++ be 4 (N.of_nat (length l))
   else xe0 :: be 1 (size + 1 + 1) ++ be 1 (N.of_nat (length l)))
  ++ [prim_code t] ++ flat_map (prim_array_enc t) l.

(** encode.rs:610-626 [Multiple<T>]: a single item is written without array. *)
Definition sz_multiple (t : prim) (l : list (prim_ty t)) : N :=
  match l with [x] => prim_sz t x | _ => sz_vec t l end.
Definition enc_multiple (t : prim) (l : list (prim_ty t)) : bytes :=
  match l with [x] => prim_enc t x | _ => enc_vec t l end.

(** types/variant.rs:111-119 [DescribedCompound::create] and 138-150 [decode],
    for any type given by its [encode] and its [decode]. *)
Definition described_create {A} (enc : A -> bytes) (d : descriptor) (a : A) : variant :=
  VDescribedCompound d (enc a).
Definition described_decode {A} (dec : parser A) (data : bytes) : res A :=
  '(a, rest) <- dec data ;;
  match rest with [] => Ok a | _ => Err InvalidSize end.
