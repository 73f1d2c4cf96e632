(** * Decoding: codec/src/codec/decode.rs, codec/mod.rs, types/array.rs

    [dec_T fmt] models [T::decode_with_format(input, fmt)]. *)

From Verif Require Export Types.

(** decode.rs:18-25 [be_read!]: check, read [k] bytes, advance. *)
Definition be_read (k : nat) : parser bytes := fun inp =>
  _ <- check_len (N.of_nat k) inp ;;
  split_to (N.of_nat k) inp.

(** decode.rs:27-32 [read_u8]; codec/mod.rs:66-70 [decode_format_code]. *)
Definition read_byte : parser byte := fun inp =>
  _ <- check_len 1 inp ;;
  b <- index 0 inp ;;
  inp' <- advance 1 inp ;;
  Ok (b, inp').

Definition read_un (k : nat) : parser N := fun inp =>
  '(b, inp) <- be_read k inp ;; Ok (be_val b, inp).
(** decode.rs:34-39 [read_i8] and the signed [be_read!]s. *)
Definition read_in (k : nat) : parser Z := fun inp =>
  '(b, inp) <- be_read k inp ;; Ok (signed_val k b, inp).

(** codec/mod.rs:59-64: the blanket [decode]: format code, then the type. *)
Definition decode_with {A} (dec : byte -> parser A) : parser A := fun inp =>
  '(fmt, inp) <- read_byte inp ;; dec fmt inp.

(** decode.rs:41-46 [read_bytes_u8], 48-54 [read_bytes_u32]. *)
Definition read_bytes (k : nat) : parser bytes := fun inp =>
  '(n, inp) <- read_un k inp ;;
  _ <- check_len n inp ;;
  split_to n inp.

(** decode.rs:629-635 [read_fixed_bytes]. *)
Definition read_fixed (n : nat) : parser bytes := be_read n.

(** decode.rs:65-74 [bool]. *)
Definition dec_bool (fmt : byte) : parser bool := fun inp =>
  match fmt with
  | x56 => '(b, inp) <- read_byte inp ;; Ok (negb (Byte.eqb b x00), inp)
  | x41 => Ok (true, inp)
  | x42 => Ok (false, inp)
  | _ => Err (InvalidFormatCode fmt)
  end.

(** decode.rs:76-81 [u8], 83-88 [u16]. *)
Definition dec_u8 (fmt : byte) : parser N := fun inp =>
  match fmt with x50 => read_un 1 inp | _ => Err (InvalidFormatCode fmt) end.
Definition dec_u16 (fmt : byte) : parser N := fun inp =>
  match fmt with x60 => read_un 2 inp | _ => Err (InvalidFormatCode fmt) end.

(** decode.rs:90-99 [u32]. *)
Definition dec_u32 (fmt : byte) : parser N := fun inp =>
  match fmt with
  | x70 => read_un 4 inp
  | x52 => read_un 1 inp
  | x43 => Ok (0, inp)
  | _ => Err (InvalidFormatCode fmt)
  end.

(** decode.rs:101-110 [u64]. *)
Definition dec_u64 (fmt : byte) : parser N := fun inp =>
  match fmt with
  | x80 => read_un 8 inp
  | x53 => read_un 1 inp
  | x44 => Ok (0, inp)
  | _ => Err (InvalidFormatCode fmt)
  end.

(** decode.rs:112-117 [i8], 119-124 [i16]. *)
Definition dec_i8 (fmt : byte) : parser Z := fun inp =>
  match fmt with x51 => read_in 1 inp | _ => Err (InvalidFormatCode fmt) end.
Definition dec_i16 (fmt : byte) : parser Z := fun inp =>
  match fmt with x61 => read_in 2 inp | _ => Err (InvalidFormatCode fmt) end.

(** decode.rs:126-134 [i32]. *)
Definition dec_i32 (fmt : byte) : parser Z := fun inp =>
  match fmt with
  | x71 => read_in 4 inp
  | x54 => read_in 1 inp
  | _ => Err (InvalidFormatCode fmt)
  end.

(** decode.rs:136-144 [i64]. *)
Definition dec_i64 (fmt : byte) : parser Z := fun inp =>
  match fmt with
  | x81 => read_in 8 inp
  | x55 => read_in 1 inp
  | _ => Err (InvalidFormatCode fmt)
  end.

(** decode.rs:146-158 [f32], [f64]: bit patterns. *)
Definition dec_f32 (fmt : byte) : parser N := fun inp =>
  match fmt with x72 => read_un 4 inp | _ => Err (InvalidFormatCode fmt) end.
Definition dec_f64 (fmt : byte) : parser N := fun inp =>
  match fmt with x82 => read_un 8 inp | _ => Err (InvalidFormatCode fmt) end.

(** decode.rs:160-171 [char]. *)
Definition dec_char (fmt : byte) : parser N := fun inp =>
  match fmt with
  | x73 => '(n, inp) <- read_un 4 inp ;;
           if is_scalar n then Ok (n, inp) else Err (InvalidChar n)
  | _ => Err (InvalidFormatCode fmt)
  end.

(** chrono [Utc.timestamp_opt(secs, nanos).earliest()] (chrono 0.4.32 or later):
    the date must lie between the years -262143 and 262142, and nanoseconds of
    a second or more are a leap second, allowed only in the 60th second. *)
Definition MIN_SECS : Z := -8334601228800.
Definition MAX_SECS : Z := 8210266876799.
Definition timestamp_opt (secs : Z) (nanos : N) : option datetime :=
  if ((MIN_SECS <=? secs) && (secs <=? MAX_SECS))%Z
     && (nanos <? 2000000000)
     && ((nanos <? 1000000000) || (secs mod 60 =? 59)%Z)
  then Some (mk_datetime secs nanos) else None.

(** decode.rs:611-627 [datetime_from_millis]; Rust's [/] truncates ([Z.quot]). *)
Definition datetime_from_millis (millis : Z) : res datetime :=
  let seconds := Z.quot millis 1000 in
  let r :=
    if (seconds <? 0)%Z then
      timestamp_opt (seconds - 1)
        (Z.to_N (Z.abs ((1000 + (millis - seconds * 1000)) * 1000000)) mod 2 ^ 32)
    else
      timestamp_opt seconds
        (Z.to_N (Z.abs ((millis - seconds * 1000) * 1000000)) mod 2 ^ 32)
  in match r with Some t => Ok t | None => Err DatetimeParseError end.

(** decode.rs:173-178 [DateTime<Utc>]. *)
Definition dec_datetime (fmt : byte) : parser datetime := fun inp =>
  match fmt with
  | x83 => '(z, inp) <- read_in 8 inp ;;
           t <- datetime_from_millis z ;; Ok (t, inp)
  | _ => Err (InvalidFormatCode fmt)
  end.

(** decode.rs:180-188 [Uuid]; [Uuid::from_slice] accepts any 16 bytes. *)
Definition dec_uuid (fmt : byte) : parser bytes := fun inp =>
  match fmt with x98 => be_read 16 inp | _ => Err (InvalidFormatCode fmt) end.

(** decode.rs:190-198 [Bytes]. *)
Definition dec_binary (fmt : byte) : parser bytes := fun inp =>
  match fmt with
  | xa0 => read_bytes 1 inp
  | xb0 => read_bytes 4 inp
  | _ => Err (InvalidFormatCode fmt)
  end.

Definition check_utf8 (b : bytes) : res bytes :=
  if utf8_valid b then Ok b else Err Utf8Error.

(** decode.rs:200-214 [ByteString], 216-220 [Str]. *)
Definition dec_string (fmt : byte) : parser bytes := fun inp =>
  match fmt with
  | xa1 => '(b, inp) <- read_bytes 1 inp ;; s <- check_utf8 b ;; Ok (s, inp)
  | xb1 => '(b, inp) <- read_bytes 4 inp ;; s <- check_utf8 b ;; Ok (s, inp)
  | _ => Err (InvalidFormatCode fmt)
  end.

(** decode.rs:222-240 [Symbol]. *)
Definition dec_symbol (fmt : byte) : parser bytes := fun inp =>
  match fmt with
  | xa3 => '(b, inp) <- read_bytes 1 inp ;; s <- check_utf8 b ;; Ok (s, inp)
  | xb3 => '(b, inp) <- read_bytes 4 inp ;; s <- check_utf8 b ;; Ok (s, inp)
  | _ => Err (InvalidFormatCode fmt)
  end.

(** decode.rs:482-498 [Descriptor]: 0x44 ([ulong0]) is not accepted. *)
Definition dec_descriptor (fmt : byte) : parser descriptor := fun inp =>
  match fmt with
  | x53 | x80 => '(n, inp) <- dec_u64 fmt inp ;; Ok (DUlong n, inp)
  | xa3 | xb3 => '(s, inp) <- dec_symbol fmt inp ;; Ok (DSymbol s, inp)
  | _ => Err (InvalidFormatCode fmt)
  end.

(** decode.rs:500-514 [Constructor]. *)
Definition dec_ctor (fmt : byte) : parser constructor_ := fun inp =>
  match fmt with
  | x00 => '(d, inp) <- decode_with dec_descriptor inp ;;
           '(b, inp) <- read_byte inp ;;
           Ok (CDescribed d b, inp)
  | _ => Ok (CFormatCode fmt, inp)
  end.

(** decode.rs:595-601 [decode_compound8]; [input[0] - 1] is a [u8] subtraction. *)
Definition decode_compound8 (p : profile) : parser (N * N) := fun inp =>
  _ <- check_len 2 inp ;;
  b0 <- index 0 inp ;;
  size <- usub p 256 (Byte.to_N b0) 1 ;;
  b1 <- index 1 inp ;;
  inp' <- advance 2 inp ;;
  Ok ((size, Byte.to_N b1), inp').

(** decode.rs:603-609 [decode_compound32]; [u32] subtraction. *)
Definition decode_compound32 (p : profile) : parser (N * N) := fun inp =>
  _ <- check_len 8 inp ;;
  size <- usub p (2 ^ 32) (be_val (firstn 4 inp)) 4 ;;
  let count := be_val (firstn 4 (skipn 4 inp)) in
  inp' <- advance 8 inp ;;
  Ok ((size, count), inp').

(** decode.rs:532-545 [ListHeader], 547-559 [MapHeader], 561-573 [ArrayHeader]. *)
Definition dec_list_header (p : profile) (fmt : byte) : parser (N * N) := fun inp =>
  match fmt with
  | x45 => Ok ((0, 0), inp)
  | xc0 => decode_compound8 p inp
  | xd0 => decode_compound32 p inp
  | _ => Err (InvalidFormatCode fmt)
  end.
Definition dec_map_header (p : profile) (fmt : byte) : parser (N * N) := fun inp =>
  match fmt with
  | xc1 => decode_compound8 p inp
  | xd1 => decode_compound32 p inp
  | _ => Err (InvalidFormatCode fmt)
  end.
Definition dec_array_header (p : profile) (fmt : byte) : parser (N * N) := fun inp =>
  match fmt with
  | xe0 => decode_compound8 p inp
  | xf0 => decode_compound32 p inp
  | _ => Err (InvalidFormatCode fmt)
  end.

(** [for _ in 0..count { result.push(T::decode(input)?) }]: decode.rs:275-278,
    342-345, types/array.rs:44-47. *)
Fixpoint dec_n {A} (dec : parser A) (fuel : nat) (count : N) (inp : bytes)
  : res (list A * bytes) :=
  if count =? 0 then Ok ([], inp) else
  match fuel with
  | O => NoFuel
  | S f =>
      '(a, inp) <- dec inp ;;
      '(l, inp) <- dec_n dec f (count - 1) inp ;;
      Ok (a :: l, inp)
  end.

(** decode.rs:252-256: the insertion loop of a [HashMap].  [hash_ok k] is
    [false] when hashing [k] panics. *)
Fixpoint dec_map_loop {K V} (hash_ok : K -> bool) (eqb : K -> K -> bool)
         (deck : parser K) (decv : parser V)
         (fuel : nat) (count : N) (acc : list (K * V)) (inp : bytes)
  : res (list (K * V) * bytes) :=
  if count =? 0 then Ok (acc, inp) else
  match fuel with
  | O => NoFuel
  | S f =>
      '(k, inp) <- deck inp ;;
      '(v, inp) <- decv inp ;;
      if hash_ok k
      then dec_map_loop hash_ok eqb deck decv f (count - 1) (map_insert eqb k v acc) inp
      else Panic PHashMapKey
  end.

(** decode.rs:242-260 [HashMap<K, V>]: the entries are read from a sub-slice of
    the announced size; bytes left over in it are dropped. *)
Definition dec_hashmap {K V} (p : profile) (hash_ok : K -> bool) (eqb : K -> K -> bool)
           (deck : parser K) (decv : parser V) (fmt : byte)
  : parser (list (K * V)) := fun inp =>
  '(header, inp) <- dec_map_header p fmt inp ;;
  let '(size, count) := header in
  _ <- check_len size inp ;;
  '(map_input, inp) <- split_to size inp ;;
  '(m, _) <- dec_map_loop hash_ok eqb deck decv (S (length map_input)) (count / 2)
               [] map_input ;;
  Ok (m, inp).

(** One iteration of decode.rs:291-295 and 308-312. *)
Definition dec_pair {K V} (deck : parser K) (decv : parser V) : parser (K * V) :=
  fun inp => '(k, inp) <- deck inp ;; '(v, inp) <- decv inp ;; Ok ((k, v), inp).

(** decode.rs:284-299 [VecSymbolMap], 301-316 [VecStringMap]. *)
Definition dec_vecmap {K V} (p : profile) (deck : parser K) (decv : parser V) (fmt : byte)
  : parser (list (K * V)) := fun inp =>
  '(header, inp) <- dec_map_header p fmt inp ;;
  let '(size, count) := header in
  _ <- check_len size inp ;;
  '(map_input, inp) <- split_to size inp ;;
  '(m, _) <- dec_n (dec_pair deck decv) (S (length map_input)) (count / 2) map_input ;;
  Ok (m, inp).

(** decode.rs:262-282 [Vec<T>]: the size is checked but not used to bound the
    elements.  [dec fmt] is [T::decode_with_format]. *)
Definition dec_vec {A} (p : profile) (dec : byte -> parser A) (fmt : byte)
  : parser (list A) := fun inp =>
  '(header, inp) <- dec_array_header p fmt inp ;;
  let '(size, count) := header in
  _ <- check_len size inp ;;
  '(ctor, inp) <- decode_with dec_ctor inp ;;
  match ctor with
  | CFormatCode code => dec_n (dec code) (N.to_nat count) count inp
  | CDescribed d _ => Err (InvalidDescriptor d)
  end.

(** decode.rs:318-336 [Multiple<T>]. *)
Definition dec_multiple {A} (p : profile) (dec : byte -> parser A) (fmt : byte)
  : parser (list A) := fun inp =>
  match fmt with
  | xe0 | xf0 => dec_vec p dec fmt inp
  | x00 => '(d, _) <- dec_descriptor fmt inp ;; Err (InvalidDescriptor d)
  | _ => '(a, inp) <- dec fmt inp ;; Ok ([a], inp)
  end.

(** decode.rs:338-348 [List]: the announced size is ignored. *)
Definition dec_list {A} (p : profile) (dec : parser A) (fmt : byte)
  : parser (list A) := fun inp =>
  '(header, inp) <- dec_list_header p fmt inp ;;
  let '(_, count) := header in
  dec_n dec (S (length inp)) count inp.

(** types/array.rs:85-100 [Array]. *)
Definition dec_array (p : profile) (fmt : byte) : parser array := fun inp =>
  '(header, inp) <- dec_array_header p fmt inp ;;
  let '(size, count) := header in
  _ <- check_len size inp ;;
  '(payload, inp) <- split_to size inp ;;
  '(ctor, payload) <- decode_with dec_ctor payload ;;
  Ok (mk_array count ctor payload, inp).

(** types/array.rs:41-49 [Array::decode::<T>()]. *)
Definition ctor_format (c : constructor_) : byte :=
  match c with CFormatCode b => b | CDescribed _ b => b end.
Definition array_decode {A} (dec : byte -> parser A) (a : array) : res (list A) :=
  '(l, _) <- dec_n (dec (ctor_format (a_ctor a))) (N.to_nat (a_count a)) (a_count a)
               (a_payload a) ;;
  Ok l.

(** decode.rs:473-480 [Option<T>]. *)
Definition dec_option {A} (dec : byte -> parser A) (fmt : byte)
  : parser (option A) := fun inp =>
  match fmt with
  | x40 => Ok (None, inp)
  | _ => '(a, inp) <- dec fmt inp ;; Ok (Some a, inp)
  end.

(** decode.rs:433-465: the format codes distinguished after a descriptor. *)
Inductive kind : Type := KList0 | KWidth8 | KWidth32 | KOther.
Definition compound_kind (code : byte) : kind :=
  match code with
  | x45 => KList0
  | xc0 | xc1 | xe0 => KWidth8
  | xd0 | xd1 | xf0 => KWidth32
  | _ => KOther
  end.

(** decode.rs:371-471 [Variant], together with the blanket [decode].  In the
    described case the Rust code peeks at the next format code and, for a
    non-compound, advances past it and calls [decode_with_format]; that is one
    recursive [decode] of the same input. *)
Fixpoint dec_variant (p : profile) (fuel : nat) (inp : bytes) {struct fuel}
  : res (variant * bytes) :=
  match fuel with
  | O => NoFuel
  | S f =>
    '(fmt, inp) <- read_byte inp ;;
    match fmt with
    | x40 => Ok (VNull, inp)
    | x56 => '(b, inp) <- dec_bool fmt inp ;; Ok (VBool b, inp)
    | x42 => Ok (VBool false, inp)
    | x41 => Ok (VBool true, inp)
    | x43 => Ok (VUint 0, inp)
    | x44 => Ok (VUlong 0, inp)
    | x50 => '(n, inp) <- dec_u8 fmt inp ;; Ok (VUbyte n, inp)
    | x60 => '(n, inp) <- dec_u16 fmt inp ;; Ok (VUshort n, inp)
    | x70 => '(n, inp) <- dec_u32 fmt inp ;; Ok (VUint n, inp)
    | x80 => '(n, inp) <- dec_u64 fmt inp ;; Ok (VUlong n, inp)
    | x51 => '(z, inp) <- dec_i8 fmt inp ;; Ok (VByte z, inp)
    | x61 => '(z, inp) <- dec_i16 fmt inp ;; Ok (VShort z, inp)
    | x71 => '(z, inp) <- dec_i32 fmt inp ;; Ok (VInt z, inp)
    | x81 => '(z, inp) <- dec_i64 fmt inp ;; Ok (VLong z, inp)
    | x52 => '(n, inp) <- dec_u32 fmt inp ;; Ok (VUint n, inp)
    | x53 => '(n, inp) <- dec_u64 fmt inp ;; Ok (VUlong n, inp)
    | x54 => '(z, inp) <- dec_i32 fmt inp ;; Ok (VInt z, inp)
    | x55 => '(z, inp) <- dec_i64 fmt inp ;; Ok (VLong z, inp)
    | x72 => '(n, inp) <- dec_f32 fmt inp ;; Ok (VFloat n, inp)
    | x82 => '(n, inp) <- dec_f64 fmt inp ;; Ok (VDouble n, inp)
    | x74 => '(b, inp) <- read_fixed 4 inp ;; Ok (VDecimal32 b, inp)
    | x84 => '(b, inp) <- read_fixed 8 inp ;; Ok (VDecimal64 b, inp)
    | x94 => '(b, inp) <- read_fixed 16 inp ;; Ok (VDecimal128 b, inp)
    | x73 => '(n, inp) <- dec_char fmt inp ;; Ok (VChar n, inp)
    | x83 => '(t, inp) <- dec_datetime fmt inp ;; Ok (VTimestamp t, inp)
    | x98 => '(b, inp) <- dec_uuid fmt inp ;; Ok (VUuid b, inp)
    | xa0 | xb0 => '(b, inp) <- dec_binary fmt inp ;; Ok (VBinary b, inp)
    | xa1 | xb1 => '(s, inp) <- dec_string fmt inp ;; Ok (VString s, inp)
    | xa3 | xb3 => '(s, inp) <- dec_symbol fmt inp ;; Ok (VSymbol s, inp)
    | x45 => Ok (VList [], inp)
    | xc0 | xd0 => '(l, inp) <- dec_list p (dec_variant p f) fmt inp ;; Ok (VList l, inp)
    | xe0 | xf0 => '(a, inp) <- dec_array p fmt inp ;; Ok (VArray a, inp)
    | xc1 | xd1 =>
        '(m, inp) <- dec_hashmap p hashable key_eqb (dec_variant p f) (dec_variant p f)
                       fmt inp ;;
        Ok (VMap m, inp)
    | x00 =>
        '(d, inp) <- decode_with dec_descriptor inp ;;
        _ <- check_len 1 inp ;;
        code <- index 0 inp ;;
        match compound_kind code with
        | KList0 => inp' <- advance 1 inp ;; Ok (VDescribedCompound d [x45], inp')
        | KWidth8 =>
            _ <- check_len 2 inp ;;
            b1 <- index 1 inp ;;
            let size := Byte.to_N b1 in
            _ <- check_len (2 + size) inp ;;
            '(data, inp) <- split_to (2 + size) inp ;;
            Ok (VDescribedCompound d data, inp)
        | KWidth32 =>
            _ <- check_len 5 inp ;;
            let size := be_val (firstn 4 (skipn 1 inp)) in
            _ <- check_len (5 + size) inp ;;
            '(data, inp) <- split_to (5 + size) inp ;;
            Ok (VDescribedCompound d data, inp)
        | KOther => '(v, inp) <- dec_variant p f inp ;; Ok (VDescribed d v, inp)
        end
    | _ => Err (InvalidFormatCode fmt)
    end
  end.

(** [Variant::decode(input)].  Each level of nesting consumes a byte, so one
    more than the length of the input is always fuel enough (proved). *)
Definition decode_variant (p : profile) : parser variant := fun inp =>
  dec_variant p (S (length inp)) inp.

(** The number of elements for which [Variant::decode] reserves memory before
    it reads the first one: decode.rs:341 [Vec::with_capacity(header.count)],
    247-251 [HashMap::with_capacity_and_hasher(count / 2)]. *)
Definition requested (p : profile) (inp : bytes) : res N :=
  '(fmt, inp) <- read_byte inp ;;
  match fmt with
  | xc0 | xd0 => '(header, _) <- dec_list_header p fmt inp ;; Ok (snd header)
  | xc1 | xd1 => '(header, inp) <- dec_map_header p fmt inp ;;
                 _ <- check_len (fst header) inp ;;
                 Ok (snd header / 2)
  | _ => Ok 0
  end.
