(** * Bytes, results, big-endian integers, slices, UTF-8

    The vocabulary shared by the whole model.  Nothing here is specific to
    AMQP; each definition says which Rust primitive it stands for. *)

From Coq Require Export List NArith ZArith Bool Lia.
From Coq Require Export Strings.Byte.
Export ListNotations.
Open Scope N_scope.

(** The contents of an [ntex_bytes::Bytes] / [BytesMut] / [&[u8]]. *)
Definition bytes := list byte.

(** [buf.len()].  A Rust [usize]; lengths of real buffers fit in 64 bits. *)
Definition blen (b : bytes) : N := N.of_nat (length b).

(** Truncating cast [n as u8]. *)
Definition byte_of (n : N) : byte :=
  match Byte.of_N (n mod 256) with Some b => b | None => x00 end.

(** [BufMut::put_u8/u16/u32/u64]: the [k] low-order bytes of [n], big-endian.
    Writing a [usize] after [as u32] is [be 4]: the truncation is implicit. *)
Fixpoint be (k : nat) (n : N) : bytes :=
  match k with
  | O => []
  | S k' => be k' (n / 256) ++ [byte_of n]
  end.

(** [BigEndian::read_u16/u32/u64] of exactly the given bytes. *)
Definition be_val (b : bytes) : N :=
  fold_left (fun acc x => acc * 256 + Byte.to_N x) b 0.

(** Two's complement: [put_i8/i16/i32/i64] and the matching reads. *)
Definition be_signed (k : nat) (z : Z) : bytes :=
  be k (Z.to_N (z mod 2 ^ (8 * Z.of_nat k))).
Definition signed_val (k : nat) (b : bytes) : Z :=
  let n := Z.of_N (be_val b) in
  if (n <? 2 ^ (8 * Z.of_nat k - 1))%Z then n
  else (n - 2 ^ (8 * Z.of_nat k))%Z.

(** Byte-string equality ([==] on [Bytes], [ByteString], [Str]). *)
Fixpoint beqb (a b : bytes) : bool :=
  match a, b with
  | [], [] => true
  | x :: a', y :: b' => Byte.eqb x y && beqb a' b'
  | _, _ => false
  end.

(** ** Descriptors, named here because a parse error can carry one *)

(** codec/src/types/mod.rs:16-20 [Descriptor]. *)
Inductive descriptor : Type :=
| DUlong (n : N)          (* u64 *)
| DSymbol (s : bytes).    (* Symbol *)

(** ** Errors and panics *)

(** codec/src/error.rs:4-31 [AmqpParseError].  Simplification: the static
    strings carried by [RequiredFieldOmitted], [UnknownEnumOption] and
    [UnexpectedType] (names for humans) are dropped. *)
Inductive parse_error : Type :=
| InvalidSize
| Incomplete (n : N)
| InvalidFormatCode (b : byte)
| InvalidChar (n : N)
| InvalidDescriptor (d : descriptor)
| UnexpectedFrameType (b : byte)
| RequiredFieldOmitted
| UnknownEnumOption
| UuidParseError
| DatetimeParseError
| UnexpectedType
| Utf8Error.

(** Ways in which the Rust code can panic. *)
Inductive panic : Type :=
| POverflow          (* arithmetic overflow with overflow checks enabled *)
| PSlice             (* [split_to], [advance] or an index beyond the buffer *)
| PHashMapKey        (* types/variant.rs:254-259: hashing a [VariantMap] *)
| PUnimplemented.    (* [unimplemented!()] elsewhere *)

(** Outcome of a decoder.  [NoFuel] is the model's own "recursion budget
    exhausted"; it is no Rust outcome and is proved unreachable. *)
Inductive res (A : Type) : Type :=
| Ok (a : A)
| Err (e : parse_error)
| Panic (p : panic)
| NoFuel.
Arguments Ok {A} a.
Arguments Err {A} e.
Arguments Panic {A} p.
Arguments NoFuel {A}.

(** The [?] operator. *)
Definition bind {A B} (m : res A) (f : A -> res B) : res B :=
  match m with
  | Ok a => f a
  | Err e => Err e
  | Panic p => Panic p
  | NoFuel => NoFuel
  end.
Notation "x <- m ;; k" := (bind m (fun x => k))
  (at level 61, m at next level, right associativity).
Notation "' pat <- m ;; k" := (bind m (fun x => match x with pat => k end))
  (at level 61, pat pattern, m at next level, right associativity).

(** Whether the crate was compiled with overflow checks ([Debug]) or without
    ([Release]). *)
Inductive profile : Type := Debug | Release.

(** A function [fn(&mut Bytes) -> Result<A, AmqpParseError>]: takes the input
    and gives the result together with what is left of the input. *)
Definition parser (A : Type) := bytes -> res (A * bytes).

(** codec/src/codec/mod.rs:5-11 [decode_check_len!]. *)
Definition check_len (n : N) (inp : bytes) : res unit :=
  if blen inp <? n then Err (Incomplete n) else Ok tt.

(** [Bytes::split_to(n)]: panics beyond the end. *)
Definition split_to (n : N) : parser bytes := fun inp =>
  if n <=? blen inp
  then Ok (firstn (N.to_nat n) inp, skipn (N.to_nat n) inp)
  else Panic PSlice.

(** [Buf::advance(n)]: panics beyond the end. *)
Definition advance (n : N) (inp : bytes) : res bytes :=
  if n <=? blen inp then Ok (skipn (N.to_nat n) inp) else Panic PSlice.

(** [input[i]]. *)
Definition index (i : nat) (inp : bytes) : res byte :=
  match nth_error inp i with Some b => Ok b | None => Panic PSlice end.

(** [a - b] on an unsigned type of the given modulus. *)
Definition usub (p : profile) (modulus a b : N) : res N :=
  if b <=? a then Ok (a - b)
  else match p with
       | Debug => Panic POverflow
       | Release => Ok (a + modulus - b)
       end.

(** [iter().fold(0, |r, i| r + f(i))]. *)
Definition sum_by {A} (f : A -> N) : list A -> N :=
  fix go (l : list A) : N :=
    match l with [] => 0 | x :: t => f x + go t end.

(** ** UTF-8: [core::str::from_utf8], which [ByteString::try_from] calls *)

Definition in_range (lo hi : N) (b : byte) : bool :=
  (lo <=? Byte.to_N b) && (Byte.to_N b <=? hi).
Definition cont (b : byte) : bool := in_range 128 191 b.

(** Unicode table 3-7: well-formed UTF-8 byte sequences. *)
Fixpoint utf8_valid (s : bytes) : bool :=
  match s with
  | [] => true
  | b0 :: s1 =>
      if in_range 0 127 b0 then utf8_valid s1 else
      match s1 with
      | [] => false
      | b1 :: s2 =>
          if in_range 194 223 b0 then cont b1 && utf8_valid s2 else
          match s2 with
          | [] => false
          | b2 :: s3 =>
              if in_range 224 239 b0 then
                in_range (if Byte.eqb b0 xe0 then 160 else 128)
                         (if Byte.eqb b0 xed then 159 else 191) b1
                && cont b2 && utf8_valid s3
              else
              match s3 with
              | [] => false
              | b3 :: s4 =>
                  in_range 240 244 b0
                  && in_range (if Byte.eqb b0 xf0 then 144 else 128)
                              (if Byte.eqb b0 xf4 then 143 else 191) b1
                  && cont b2 && cont b3 && utf8_valid s4
              end
          end
      end
  end.

(** [char::from_u32(n).is_some()]: a Unicode scalar value. *)
Definition is_scalar (n : N) : bool :=
  (n <? 55296) || ((57344 <=? n) && (n <? 1114112)).
