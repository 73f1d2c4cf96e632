(** * Specification vocabulary for AMQP values

    What a legal value is and which values have a faithful wire form, stated
    without reference to the encoder or the decoder.  Only the data types of
    [Types.v] and UTF-8 validity are used. *)

From Verif Require Import Types.

(** An unsigned integer of [bits] bits, and a two's-complement one. *)
Definition unsigned (bits : N) (n : N) : Prop := n < 2 ^ bits.
Definition signed (bits : Z) (z : Z) : Prop :=
  (- 2 ^ (bits - 1) <= z < 2 ^ (bits - 1))%Z.

(** A Unicode scalar value. *)
Definition scalar (n : N) : Prop :=
  n <= 1114111 /\ ~ (55296 <= n <= 57343).

(** An instant that [DateTime<Utc>] can represent: years -262143 to 262142, and
    a leap second only as the 60th second of a minute. *)
Definition instant (t : datetime) : Prop :=
  (-8334601228800 <= dt_secs t <= 8210266876799)%Z
  /\ dt_nanos t < 2000000000
  /\ (1000000000 <= dt_nanos t -> (dt_secs t mod 60 = 59)%Z).

Definition text (s : bytes) : Prop := utf8_valid s = true.

Definition legal_descriptor (d : descriptor) : Prop :=
  match d with DUlong n => unsigned 64 n | DSymbol s => text s end.

Definition legal_ctor (c : constructor_) : Prop :=
  match c with CFormatCode _ => True | CDescribed d _ => legal_descriptor d end.

(** No two keys of a map are equal. *)
Definition distinct_keys {V} (m : list (variant * V)) : Prop :=
  ForallOrdPairs (fun a b => key_eqb a b = false) (map fst m).

(** What the Rust types of [Variant] guarantee. *)
Inductive legal : variant -> Prop :=
| L_Null : legal VNull
| L_Bool b : legal (VBool b)
| L_Ubyte n : unsigned 8 n -> legal (VUbyte n)
| L_Ushort n : unsigned 16 n -> legal (VUshort n)
| L_Uint n : unsigned 32 n -> legal (VUint n)
| L_Ulong n : unsigned 64 n -> legal (VUlong n)
| L_Byte z : signed 8 z -> legal (VByte z)
| L_Short z : signed 16 z -> legal (VShort z)
| L_Int z : signed 32 z -> legal (VInt z)
| L_Long z : signed 64 z -> legal (VLong z)
| L_Float n : unsigned 32 n -> legal (VFloat n)
| L_Double n : unsigned 64 n -> legal (VDouble n)
| L_Decimal32 b : length b = 4%nat -> legal (VDecimal32 b)
| L_Decimal64 b : length b = 8%nat -> legal (VDecimal64 b)
| L_Decimal128 b : length b = 16%nat -> legal (VDecimal128 b)
| L_Char n : scalar n -> legal (VChar n)
| L_Timestamp t : instant t -> legal (VTimestamp t)
| L_Uuid b : length b = 16%nat -> legal (VUuid b)
| L_Binary b : legal (VBinary b)
| L_String s : text s -> legal (VString s)
| L_Symbol s : text s -> legal (VSymbol s)
| L_List l : Forall legal l -> legal (VList l)
| L_Map m :
    Forall (fun kv => legal (fst kv) /\ legal (snd kv)) m ->
    Forall (fun kv => hashable (fst kv) = true) m ->
    distinct_keys m -> legal (VMap m)
| L_Array a : unsigned 32 (a_count a) -> legal_ctor (a_ctor a) -> legal (VArray a)
| L_Described d v : legal_descriptor d -> legal v -> legal (VDescribed d v)
| L_DescribedCompound d data : legal_descriptor d -> legal (VDescribedCompound d data).

(** ** Values that have a faithful wire form *)

(** Instants the timestamp encoding carries as implemented: millisecond
    precision; from 1970 on; or at least one second before 1970 and not on a
    whole second (there only the first instant of a leap second survives). *)
Definition wire_instant (t : datetime) : Prop :=
  dt_nanos t mod 1000000 = 0
  /\ ((0 <= dt_secs t)%Z /\ dt_nanos t < 1000000000
      \/ (dt_secs t <= -2)%Z /\ 0 < dt_nanos t <= 1000000000).

(** The numeric descriptor 0 has no readable wire form as implemented. *)
Definition wire_descriptor (d : descriptor) : Prop :=
  match d with DUlong n => n <> 0 | DSymbol _ => True end.

Definition wire_ctor (c : constructor_) : Prop :=
  match c with CFormatCode b => b <> x00 | CDescribed d _ => wire_descriptor d end.

(** The bytes of one compound value: a format code and as many bytes as the
    size after it announces. *)
Definition framed_compound (data : bytes) : Prop :=
  data = [x45]
  \/ (exists c body, (c = xc0 \/ c = xc1 \/ c = xe0) /\ blen body < 256 /\
        data = c :: byte_of (blen body) :: body)
  \/ (exists c size body, (c = xd0 \/ c = xd1 \/ c = xf0) /\ length size = 4%nat /\
        be_val size = blen body /\ data = c :: size ++ body).

(** Lists, maps and arrays: after a descriptor these are read back as
    [VDescribedCompound], not as [VDescribed]. *)
Definition is_compound (v : variant) : bool :=
  match v with VList _ | VMap _ | VArray _ => true | _ => false end.

(** An array with more than 255 elements needs the wide form, which the encoder
    chooses by the number of bytes only. *)
Definition wire_array (a : array) : Prop :=
  wire_ctor (a_ctor a) /\ (a_count a < 256 \/ 254 <= blen (a_payload a)).

(** The values with a faithful wire form, [D] and [A] saying which descriptors
    and which arrays are acceptable. *)
Inductive wire_form (D : descriptor -> Prop) (A : array -> Prop) : variant -> Prop :=
| W_Timestamp t : wire_instant t -> wire_form D A (VTimestamp t)
| W_List l : Forall (wire_form D A) l -> wire_form D A (VList l)
| W_Map m :
    Forall (fun kv => wire_form D A (fst kv) /\ wire_form D A (snd kv)) m ->
    wire_form D A (VMap m)
| W_Array a : A a -> wire_form D A (VArray a)
| W_Described d v :
    D d -> is_compound v = false -> wire_form D A v -> wire_form D A (VDescribed d v)
| W_DescribedCompound d data :
    D d -> framed_compound data -> wire_form D A (VDescribedCompound d data)
| W_Scalar v :
    match v with
    | VTimestamp _ | VList _ | VMap _ | VArray _ | VDescribed _ _ | VDescribedCompound _ _ => False
    | _ => True
    end -> wire_form D A v.

Definition wire_safe : variant -> Prop := wire_form wire_descriptor wire_array.

(** Every descriptor and every array occurring in a value is acceptable. *)
Fixpoint all_parts (D : descriptor -> Prop) (A : array -> Prop) (v : variant) : Prop :=
  match v with
  | VList l => (fix go l := match l with [] => True | x :: t => all_parts D A x /\ go t end) l
  | VMap m => (fix go (m : list (variant * variant)) :=
                 match m with
                 | [] => True
                 | (k, x) :: t => all_parts D A k /\ all_parts D A x /\ go t
                 end) m
  | VArray a => A a
  | VDescribed d v => D d /\ all_parts D A v
  | VDescribedCompound d _ => D d
  | _ => True
  end.

(** ** Elements of arrays *)

(** What the Rust element type guarantees, and for timestamps what the wire
    form carries. *)
Definition prim_legal (t : prim) : prim_ty t -> Prop :=
  match t with
  | PrBool => fun _ => True
  | PrU8 => unsigned 8 | PrU16 => unsigned 16 | PrU32 => unsigned 32 | PrU64 => unsigned 64
  | PrI8 => signed 8 | PrI16 => signed 16 | PrI32 => signed 32 | PrI64 => signed 64
  | PrF32 => unsigned 32 | PrF64 => unsigned 64 | PrChar => scalar
  | PrTimestamp => fun d => instant d /\ wire_instant d
  | PrUuid => fun b => length b = 16%nat
  | PrBinary => fun b => blen b < 2 ^ 32
  | PrString | PrSymbol => fun s => text s /\ blen s < 2 ^ 32
  end.

(** ** Malformed input *)

(** Somewhere in the input a list, map or array format code is followed by a
    size smaller than the width of the element count it must include. *)
Definition undersized (x : bytes) : Prop :=
  (exists before c after, In c [xc0; xc1; xe0] /\ x = before ++ c :: x00 :: after)
  \/ (exists before c b after, In c [xd0; xd1; xf0] /\ Byte.to_N b < 4 /\
        x = before ++ c :: x00 :: x00 :: x00 :: b :: after).

(** The input contains the format code of a map. *)
Definition mentions_map (x : bytes) : Prop := In xc1 x \/ In xd1 x.
