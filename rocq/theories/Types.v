(** * AMQP values: codec/src/types *)

From Verif Require Export Base.

(** codec/src/types/mod.rs:22-29 [Constructor]. *)
Inductive constructor_ : Type :=
| CFormatCode (b : byte)
| CDescribed (d : descriptor) (b : byte).

(** codec/src/types/array.rs:7-12 [Array]. *)
Record array : Type := mk_array {
  a_count : N;                 (* u32 *)
  a_ctor : constructor_;
  a_payload : bytes
}.

(** [chrono::DateTime<Utc>]: seconds since 1970 and nanoseconds within the
    second; [dt_nanos] may reach [1_999_999_999] for a leap second. *)
Record datetime : Type := mk_datetime {
  dt_secs : Z;
  dt_nanos : N
}.

(** codec/src/types/variant.rs:13-94 [Variant].
    Simplifications: floats are their IEEE bit patterns; a [HashMap] is the
    list of its entries in iteration order. *)
Inductive variant : Type :=
| VNull
| VBool (b : bool)
| VUbyte (n : N)
| VUshort (n : N)
| VUint (n : N)
| VUlong (n : N)
| VByte (z : Z)
| VShort (z : Z)
| VInt (z : Z)
| VLong (z : Z)
| VFloat (bits : N)
| VDouble (bits : N)
| VDecimal32 (b : bytes)
| VDecimal64 (b : bytes)
| VDecimal128 (b : bytes)
| VChar (n : N)
| VTimestamp (t : datetime)
| VUuid (b : bytes)
| VBinary (b : bytes)
| VString (s : bytes)
| VSymbol (s : bytes)
| VList (l : list variant)
| VMap (m : list (variant * variant))
| VArray (a : array)
| VDescribed (d : descriptor) (v : variant)
| VDescribedCompound (d : descriptor) (data : bytes).

(** ** Equality of map keys ([#[derive(PartialEq)]] on [Variant]) *)

Definition descriptor_eqb (a b : descriptor) : bool :=
  match a, b with
  | DUlong x, DUlong y => x =? y
  | DSymbol x, DSymbol y => beqb x y
  | _, _ => false
  end.

Definition ctor_eqb (a b : constructor_) : bool :=
  match a, b with
  | CFormatCode x, CFormatCode y => Byte.eqb x y
  | CDescribed d x, CDescribed e y => descriptor_eqb d e && Byte.eqb x y
  | _, _ => false
  end.

(** [OrderedFloat] equality on bit patterns: all NaN are equal, the two zeros
    are equal, otherwise bitwise.  [e] is the exponent mask, [m] the mantissa
    modulus (2^23 / 2^52). *)
Definition float_eqb (emax mant x y : N) : bool :=
  let nan n := ((n / mant) mod (emax + 1) =? emax) && negb (n mod mant =? 0) in
  let zero n := n mod (mant * (emax + 1)) =? 0 in
  (x =? y) || (nan x && nan y) || (zero x && zero y).

(** Equality used when a key is inserted into a [HashMap<Variant, _>].
    Maps are never compared there: hashing one panics first (see [hashable]),
    so that case is [false]. *)
Fixpoint key_eqb (a b : variant) : bool :=
  match a, b with
  | VNull, VNull => true
  | VBool x, VBool y => Bool.eqb x y
  | VUbyte x, VUbyte y | VUshort x, VUshort y
  | VUint x, VUint y | VUlong x, VUlong y => x =? y
  | VByte x, VByte y | VShort x, VShort y
  | VInt x, VInt y | VLong x, VLong y => (x =? y)%Z
  | VFloat x, VFloat y => float_eqb 255 8388608 x y
  | VDouble x, VDouble y => float_eqb 2047 4503599627370496 x y
  | VDecimal32 x, VDecimal32 y | VDecimal64 x, VDecimal64 y
  | VDecimal128 x, VDecimal128 y => beqb x y
  | VChar x, VChar y => x =? y
  | VTimestamp x, VTimestamp y =>
      (dt_secs x =? dt_secs y)%Z && (dt_nanos x =? dt_nanos y)
  | VUuid x, VUuid y | VBinary x, VBinary y
  | VString x, VString y | VSymbol x, VSymbol y => beqb x y
  | VList x, VList y =>
      (fix go (x y : list variant) : bool :=
         match x, y with
         | [], [] => true
         | u :: x', v :: y' => key_eqb u v && go x' y'
         | _, _ => false
         end) x y
  | VArray x, VArray y =>
      (a_count x =? a_count y) && ctor_eqb (a_ctor x) (a_ctor y)
      && beqb (a_payload x) (a_payload y)
  | VDescribed d x, VDescribed e y => descriptor_eqb d e && key_eqb x y
  | VDescribedCompound d x, VDescribedCompound e y =>
      descriptor_eqb d e && beqb x y
  | _, _ => false
  end.

(** codec/src/types/variant.rs:13 [#[derive(Hash)]] and 254-259
    [impl Hash for VariantMap { unimplemented!() }]: hashing visits list
    elements and described values, and panics on any map it meets. *)
Fixpoint hashable (v : variant) : bool :=
  match v with
  | VMap _ => false
  | VList l => forallb hashable l
  | VDescribed _ v' => hashable v'
  | _ => true
  end.

(** [HashMap::insert]: an equal key keeps its place (and its key), the value
    is replaced; a new key goes, in this representation, to the end. *)
Fixpoint map_insert {K V} (eqb : K -> K -> bool) (k : K) (v : V)
         (m : list (K * V)) : list (K * V) :=
  match m with
  | [] => [(k, v)]
  | (k', v') :: t => if eqb k' k then (k', v) :: t
                     else (k', v') :: map_insert eqb k v t
  end.

(** [HashMap::get] with the same key equality. *)
Fixpoint map_get {K V} (eqb : K -> K -> bool) (k : K)
         (m : list (K * V)) : option V :=
  match m with
  | [] => None
  | (k', v') :: t => if eqb k' k then Some v' else map_get eqb k t
  end.

(** ** Element types of arrays *)

(** The element types with an [ArrayEncode] instance that is a primitive AMQP
    type: codec/src/codec/encode.rs:42-428. *)
Inductive prim : Type :=
| PrBool | PrU8 | PrU16 | PrU32 | PrU64 | PrI8 | PrI16 | PrI32 | PrI64
| PrF32 | PrF64 | PrChar | PrTimestamp | PrUuid | PrBinary | PrString | PrSymbol.

(** The Rust type of an element (in the representation of [Types.v]). *)
Definition prim_ty (t : prim) : Type :=
  match t with
  | PrBool => bool
  | PrI8 | PrI16 | PrI32 | PrI64 => Z
  | PrTimestamp => datetime
  | PrUuid | PrBinary | PrString | PrSymbol => bytes
  | _ => N
  end.
