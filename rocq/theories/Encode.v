(** * Encoding: codec/src/codec/encode.rs and types/array.rs

    Every [sz_*] models [encoded_size], every [enc_*] models [encode]: the
    bytes appended to the buffer.  As in the Rust code, the size fields are
    computed from [encoded_size], not from the bytes written. *)

From Verif Require Export Types.

(** encode.rs:14-16 [encode_null]. *)
Definition enc_null : bytes := [x40].

(** encode.rs:30-41 [bool]. *)
Definition sz_bool (_ : bool) : N := 1.
Definition enc_bool (b : bool) : bytes := [if b then x41 else x42].

(** encode.rs:18-28 with 52-61 [u8]. *)
Definition sz_u8 (_ : N) : N := 2.
Definition enc_u8 (n : N) : bytes := x50 :: be 1 n.

(** encode.rs:18-28 with 63-72 [u16]. *)
Definition sz_u16 (_ : N) : N := 3.
Definition enc_u16 (n : N) : bytes := x60 :: be 2 n.

(** encode.rs:74-95 [u32]. *)
Definition sz_u32 (n : N) : N := if n =? 0 then 1 else if 255 <? n then 5 else 2.
Definition enc_u32 (n : N) : bytes :=
  if n =? 0 then [x43] else if 255 <? n then x70 :: be 4 n else x52 :: be 1 n.

(** encode.rs:106-128 [u64]. *)
Definition sz_u64 (n : N) : N := if n =? 0 then 1 else if 255 <? n then 9 else 2.
Definition enc_u64 (n : N) : bytes :=
  if n =? 0 then [x44] else if 255 <? n then x80 :: be 8 n else x53 :: be 1 n.

(** encode.rs:18-28 with 140-150 [i8]. *)
Definition sz_i8 (_ : Z) : N := 2.
Definition enc_i8 (z : Z) : bytes := x51 :: be_signed 1 z.

(** encode.rs:18-28 with 152-162 [i16]. *)
Definition sz_i16 (_ : Z) : N := 3.
Definition enc_i16 (z : Z) : bytes := x61 :: be_signed 2 z.

(** encode.rs:164-182 [i32]. *)
Definition wide_i (z : Z) : bool := ((127 <? z) || (z <? -128))%Z.
Definition sz_i32 (z : Z) : N := if wide_i z then 5 else 2.
Definition enc_i32 (z : Z) : bytes :=
  if wide_i z then x71 :: be_signed 4 z else x54 :: be_signed 1 z.

(** encode.rs:194-212 [i64]. *)
Definition sz_i64 (z : Z) : N := if wide_i z then 9 else 2.
Definition enc_i64 (z : Z) : bytes :=
  if wide_i z then x81 :: be_signed 8 z else x55 :: be_signed 1 z.

(** encode.rs:18-28 with 224-236 [f32] and 238-248 [f64]: bit patterns. *)
Definition sz_f32 (_ : N) : N := 5.
Definition enc_f32 (bits : N) : bytes := x72 :: be 4 bits.
Definition sz_f64 (_ : N) : N := 9.
Definition enc_f64 (bits : N) : bytes := x82 :: be 8 bits.

(** encode.rs:18-28 with 250-260 [char]. *)
Definition sz_char (_ : N) : N := 5.
Definition enc_char (n : N) : bytes := x73 :: be 4 n.

(** encode.rs:262-273 [DateTime<Utc>]: whole seconds times 1000 plus
    [timestamp_subsec_millis]. *)
Definition to_millis (t : datetime) : Z :=
  (dt_secs t * 1000 + Z.of_N (dt_nanos t / 1000000))%Z.
Definition sz_datetime (_ : datetime) : N := 9.
Definition enc_datetime (t : datetime) : bytes := x83 :: be_signed 8 (to_millis t).

(** encode.rs:275-285 [Uuid]. *)
Definition sz_uuid (_ : bytes) : N := 17.
Definition enc_uuid (b : bytes) : bytes := x98 :: b.

(** Shared shape of encode.rs:287-305 [Bytes], 318-336 [ByteString], 378-396
    [Str], 398-416 [Symbol]: one-byte length up to 255, else four bytes. *)
Definition sz_var (b : bytes) : N := (if 255 <? blen b then 5 else 2) + blen b.
Definition enc_var (c8 c32 : byte) (b : bytes) : bytes :=
  (if 255 <? blen b then c32 :: be 4 (blen b) else c8 :: be 1 (blen b)) ++ b.
Definition enc_binary : bytes -> bytes := enc_var xa0 xb0.
Definition enc_string : bytes -> bytes := enc_var xa1 xb1.
Definition enc_symbol : bytes -> bytes := enc_var xa3 xb3.

(** encode.rs:784-800 [Descriptor]. *)
Definition sz_descriptor (d : descriptor) : N :=
  1 + match d with DUlong n => sz_u64 n | DSymbol s => sz_var s end.
Definition enc_descriptor (d : descriptor) : bytes :=
  x00 :: match d with DUlong n => enc_u64 n | DSymbol s => enc_symbol s end.

(** encode.rs:802-825 [Constructor]. *)
Definition sz_ctor (c : constructor_) : N :=
  match c with
  | CFormatCode _ => 1
  | CDescribed d _ => 1 + sz_descriptor d
  end.
Definition enc_ctor (c : constructor_) : bytes :=
  match c with
  | CFormatCode b => [b]
  | CDescribed d b => enc_descriptor d ++ [b]
  end.

(** types/array.rs:59-82 [Array]. *)
Definition sz_array (a : array) : N :=
  let ctor := sz_ctor (a_ctor a) in
  let header := if 255 <? blen (a_payload a) + ctor + 1 then 9 else 3 in
  header + ctor + blen (a_payload a).
Definition enc_array (a : array) : bytes :=
  let ctor := sz_ctor (a_ctor a) in
  (if 255 <? blen (a_payload a) + ctor + 1
   then xf0 :: be 4 (4 + ctor + blen (a_payload a)) ++ be 4 (a_count a)
   else xe0 :: be 1 (1 + ctor + blen (a_payload a)) ++ be 1 (a_count a))
  ++ enc_ctor (a_ctor a) ++ a_payload a.

(** Shared header of the lists and maps: encode.rs:457-478 [HashMap], 503-537
    [VecSymbolMap], 539-573 [VecStringMap], 628-654 [List]: one-byte size and
    count while [size + 1 <= 255], else four bytes each. *)
Definition sz_compound (size : N) : N := (if 255 <? size + 1 then 9 else 3) + size.
Definition enc_compound (c8 c32 : byte) (size count : N) : bytes :=
  if 255 <? size + 1
  then c32 :: be 4 (size + 4) ++ be 4 count
  else c8 :: be 1 (size + 1) ++ be 1 count.

(** encode.rs:450-455 [map_encoded_size] and the folds at 505-508, 541-544. *)
Definition pairs_size {K V} (szk : K -> N) (szv : V -> N) (m : list (K * V)) : N :=
  sum_by (fun kv => match kv with (k, v) => szk k + szv v end) m.
Definition sz_map {K V} (szk : K -> N) (szv : V -> N) (m : list (K * V)) : N :=
  sz_compound (pairs_size szk szv m).
Definition enc_pairs {K V} (ek : K -> bytes) (ev : V -> bytes) (m : list (K * V)) : bytes :=
  flat_map (fun kv => match kv with (k, v) => ek k ++ ev v end) m.
(** encode.rs:457-485 [HashMap], 503-537 [VecSymbolMap], 539-573 [VecStringMap]. *)
Definition enc_map {K V} (szk : K -> N) (szv : V -> N) (ek : K -> bytes) (ev : V -> bytes)
           (m : list (K * V)) : bytes :=
  enc_compound xc1 xd1 (pairs_size szk szv m) (N.of_nat (length m) * 2)
  ++ enc_pairs ek ev m.

(** encode.rs:695-724 [Variant::encoded_size]; 628-637 [List::encoded_size];
    types/variant.rs:154-156 [DescribedCompound::encoded_size]. *)
Fixpoint sz_variant (v : variant) : N :=
  match v with
  | VNull => 1
  | VBool b => sz_bool b
  | VUbyte n => sz_u8 n
  | VUshort n => sz_u16 n
  | VUint n => sz_u32 n
  | VUlong n => sz_u64 n
  | VByte z => sz_i8 z
  | VShort z => sz_i16 z
  | VInt z => sz_i32 z
  | VLong z => sz_i64 z
  | VFloat b => sz_f32 b
  | VDouble b => sz_f64 b
  | VDecimal32 _ => 1 + 4
  | VDecimal64 _ => 1 + 8
  | VDecimal128 _ => 1 + 16
  | VChar n => sz_char n
  | VTimestamp t => sz_datetime t
  | VUuid b => sz_uuid b
  | VBinary b => sz_var b
  | VString s => sz_var s
  | VSymbol s => sz_var s
  | VList l => sz_compound (sum_by sz_variant l)
  | VMap m => sz_map sz_variant sz_variant m
  | VArray a => sz_array a
  | VDescribed d v => sz_descriptor d + sz_variant v
  | VDescribedCompound d data => sz_descriptor d + blen data
  end.

(** encode.rs:726-768 [Variant::encode]; 639-653 [List::encode];
    types/variant.rs:158-161 [DescribedCompound::encode]. *)
Fixpoint enc_variant (v : variant) : bytes :=
  match v with
  | VNull => enc_null
  | VBool b => enc_bool b
  | VUbyte n => enc_u8 n
  | VUshort n => enc_u16 n
  | VUint n => enc_u32 n
  | VUlong n => enc_u64 n
  | VByte z => enc_i8 z
  | VShort z => enc_i16 z
  | VInt z => enc_i32 z
  | VLong z => enc_i64 z
  | VFloat b => enc_f32 b
  | VDouble b => enc_f64 b
  | VDecimal32 b => x74 :: b
  | VDecimal64 b => x84 :: b
  | VDecimal128 b => x94 :: b
  | VChar n => enc_char n
  | VTimestamp t => enc_datetime t
  | VUuid b => enc_uuid b
  | VBinary b => enc_binary b
  | VString s => enc_string s
  | VSymbol s => enc_symbol s
  | VList l =>
      enc_compound xc0 xd0 (sum_by sz_variant l) (N.of_nat (length l))
      ++ flat_map enc_variant l
  | VMap m => enc_map sz_variant sz_variant enc_variant enc_variant m
  | VArray a => enc_array a
  | VDescribed d v => enc_descriptor d ++ enc_variant v
  | VDescribedCompound d data => enc_descriptor d ++ data
  end.
