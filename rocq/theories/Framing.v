(** * Performatives, frames and the byte stream: definitions.rs, framing.rs, io.rs *)

From Coq Require Import Strings.String.
From Verif Require Export Message.

(** ** Performatives *)

(** definitions.rs:2622-2635 [TransferInner]: the fields and the body. *)
Record transfer_t : Type := mk_transfer_t {
  tr_head : transfer_head;
  tr_body : option transfer_body
}.

(** definitions.rs:5-19 [Frame]. *)
Inductive frame : Type :=
| FOpen (x : open_t) | FBegin (x : begin_t) | FAttach (x : attach_t) | FFlow (x : flow_t)
| FTransfer (x : transfer_t) | FDisposition (x : disposition_t) | FDetach (x : detach_t)
| FEnd (x : end_t) | FClose (x : close_t) | FEmpty.

(** definitions.rs:2804-2912 [decode_transfer_inner]: the rest of the input is
    the body, no body if there is no rest. *)
Definition dec_transfer (p : profile) : parser transfer_t := fun inp =>
  '(h, inp) <- dec_inner transfer_k p inp ;;
  Ok (mk_transfer_t h (match inp with [] => None | _ => Some (TBData inp) end), []).
(** definitions.rs:2913-2934 [encoded_size_transfer_inner]. *)
Definition sz_transfer (t : transfer_t) : N :=
  sz_inner transfer_k (tr_head t) + opt_n tb_size (tr_body t).
(** definitions.rs:2935-2973 [encode_transfer_inner]. *)
Definition enc_transfer (t : transfer_t) : bytes :=
  enc_inner transfer_k (tr_head t) ++ opt_b tb_enc (tr_body t).

(** definitions.rs:34-83 [Decode for Frame]. *)
Definition dec_frame (p : profile) : parser frame := fun inp =>
  match inp with
  | [] => Ok (FEmpty, [])
  | _ =>
      '(fmt, inp) <- read_byte inp ;;
      '(d, inp) <- dec_described fmt inp ;;
      if desc_is d 16 (str "amqp:open:list") then map_res FOpen (dec_inner open_k p inp) else
      if desc_is d 17 (str "amqp:begin:list") then map_res FBegin (dec_inner begin_k p inp) else
      if desc_is d 18 (str "amqp:attach:list") then map_res FAttach (dec_inner attach_k p inp) else
      if desc_is d 19 (str "amqp:flow:list") then map_res FFlow (dec_inner flow_k p inp) else
      if desc_is d 20 (str "amqp:transfer:list") then map_res FTransfer (dec_transfer p inp) else
      if desc_is d 21 (str "amqp:disposition:list")
      then map_res FDisposition (dec_inner disposition_k p inp) else
      if desc_is d 22 (str "amqp:detach:list") then map_res FDetach (dec_inner detach_k p inp) else
      if desc_is d 23 (str "amqp:end:list") then map_res FEnd (dec_inner end_k p inp) else
      if desc_is d 24 (str "amqp:close:list") then map_res FClose (dec_inner close_k p inp) else
      Err (InvalidDescriptor d)
  end.
(** definitions.rs:85-98. *)
Definition sz_frame (f : frame) : N :=
  match f with
  | FOpen x => sz_inner open_k x | FBegin x => sz_inner begin_k x
  | FAttach x => sz_inner attach_k x | FFlow x => sz_inner flow_k x
  | FTransfer x => sz_transfer x | FDisposition x => sz_inner disposition_k x
  | FDetach x => sz_inner detach_k x | FEnd x => sz_inner end_k x
  | FClose x => sz_inner close_k x | FEmpty => 0
  end.
(** definitions.rs:99-113. *)
Definition enc_frame (f : frame) : bytes :=
  match f with
  | FOpen x => enc_inner open_k x | FBegin x => enc_inner begin_k x
  | FAttach x => enc_inner attach_k x | FFlow x => enc_inner flow_k x
  | FTransfer x => enc_transfer x | FDisposition x => enc_inner disposition_k x
  | FDetach x => enc_inner detach_k x | FEnd x => enc_inner end_k x
  | FClose x => enc_inner close_k x | FEmpty => []
  end.

(** definitions.rs:313-319 [SaslFrameBody]; 320-356 decoder, 358-366 size,
    367-376 encoder. *)
Inductive sasl_body : Type :=
| SbMechanisms (x : sasl_mechanisms_t) | SbInit (x : sasl_init_t)
| SbChallenge (x : sasl_challenge_t) | SbResponse (x : sasl_response_t)
| SbOutcome (x : sasl_outcome_t).
Definition sasl_body_c : codec sasl_body :=
  mk_codec
    (fun b => match b with
              | SbMechanisms x => sz_inner sasl_mechanisms_k x | SbInit x => sz_inner sasl_init_k x
              | SbChallenge x => sz_inner sasl_challenge_k x | SbResponse x => sz_inner sasl_response_k x
              | SbOutcome x => sz_inner sasl_outcome_k x
              end)
    (fun b => match b with
              | SbMechanisms x => enc_inner sasl_mechanisms_k x | SbInit x => enc_inner sasl_init_k x
              | SbChallenge x => enc_inner sasl_challenge_k x | SbResponse x => enc_inner sasl_response_k x
              | SbOutcome x => enc_inner sasl_outcome_k x
              end)
    (fun p fmt inp =>
       '(d, inp) <- dec_described fmt inp ;;
       if desc_is d 64 (str "amqp:sasl-mechanisms:list")
       then map_res SbMechanisms (dec_inner sasl_mechanisms_k p inp) else
       if desc_is d 65 (str "amqp:sasl-init:list")
       then map_res SbInit (dec_inner sasl_init_k p inp) else
       if desc_is d 66 (str "amqp:sasl-challenge:list")
       then map_res SbChallenge (dec_inner sasl_challenge_k p inp) else
       if desc_is d 67 (str "amqp:sasl-response:list")
       then map_res SbResponse (dec_inner sasl_response_k p inp) else
       if desc_is d 68 (str "amqp:sasl-outcome:list")
       then map_res SbOutcome (dec_inner sasl_outcome_k p inp) else
       Err (InvalidDescriptor d)).

(** ** Frames *)

(** framing.rs:12-15 [AmqpFrame]; 42-44 [SaslFrame] is its body alone. *)
Record amqp_frame : Type := mk_frame { fr_channel : N; fr_body : frame }.

(** decode.rs:575-593 [decode_frame_header]; what follows the size word. *)
Definition dec_frame_header (expected : byte) : parser N := fun inp =>
  _ <- check_len 4 inp ;;
  doff <- index 0 inp ;;
  ty <- index 1 inp ;;
  if negb (Byte.eqb ty expected) then Err (UnexpectedFrameType ty) else
  let channel := be_val (firstn 2 (skipn 2 inp)) in
  let doff := Byte.to_N doff * 4 in
  if doff <? 8 then Err InvalidSize else
  let ext := doff - 8 + 4 in
  _ <- check_len ext inp ;;
  inp <- advance ext inp ;;
  Ok (channel, inp).

(** decode.rs:516-522, 524-530. *)
Definition dec_amqp_frame (p : profile) : parser amqp_frame := fun inp =>
  '(ch, inp) <- dec_frame_header x00 inp ;;
  '(f, inp) <- dec_frame p inp ;;
  Ok (mk_frame ch f, inp).
Definition dec_sasl_frame (p : profile) : parser sasl_body := fun inp =>
  '(_, inp) <- dec_frame_header x01 inp ;;
  decode_with (c_dec sasl_body_c p) inp.

(** encode.rs:829-842, 844-857. *)
Definition sz_amqp_frame (f : amqp_frame) : N := 8 + sz_frame (fr_body f).
Definition enc_amqp_frame (f : amqp_frame) : bytes :=
  be 4 (sz_amqp_frame f) ++ [x02; x00] ++ be 2 (fr_channel f) ++ enc_frame (fr_body f).
Definition sz_sasl_frame (b : sasl_body) : N := 8 + c_sz sasl_body_c b.
Definition enc_sasl_frame (b : sasl_body) : bytes :=
  be 4 (sz_sasl_frame b) ++ [x02; x01] ++ be 2 0 ++ c_enc sasl_body_c b.

(** ** The frame codec over a byte stream: io.rs *)

(** error.rs:32-42 [AmqpCodecError]; [CodecPanic] is a panic of the frame
    decoder, [CodecFuel] the model's own budget (unreachable). *)
Inductive codec_error : Type :=
| ParseError (e : parse_error) | UnparsedBytesLeft | MaxSizeExceeded | InvalidFrameSize
| CodecPanic (q : panic) | CodecFuel.

(** io.rs:18-22 [DecodeState]. *)
Inductive decode_state : Type := FrameHeader | FrameBody (size : N).

(** [Ok(None)], [Ok(Some(frame))], [Err(e)]. *)
Inductive decoded (T : Type) : Type := DNone | DFrame (t : T) | DErr (e : codec_error).
Arguments DNone {T}.
Arguments DFrame {T} _.
Arguments DErr {T} _.

(** io.rs:81-96, the [Frame(size)] arm: the state is reset only on success. *)
Definition decode_body {T} (dec : parser T) (size : N) (src : bytes)
  : decoded T * decode_state * bytes :=
  if blen src <? size then (DNone, FrameBody size, src)
  else
    let frame_buf := firstn (N.to_nat size) src in
    let src := skipn (N.to_nat size) src in
    match dec frame_buf with
    | Ok (t, []) => (DFrame t, FrameHeader, src)
    | Ok (_, _ :: _) => (DErr UnparsedBytesLeft, FrameBody size, src)
    | Err e => (DErr (ParseError e), FrameBody size, src)
    | Panic q => (DErr (CodecPanic q), FrameBody size, src)
    | NoFuel => (DErr CodecFuel, FrameBody size, src)
    end.

(** io.rs:58-100 [Decoder::decode]; the loop passes from the header to the body
    at most once.  [max] is [max_size], 0 for no limit. *)
Definition decode_call {T} (dec : parser T) (max : N) (st : decode_state) (src : bytes)
  : decoded T * decode_state * bytes :=
  match st with
  | FrameBody size => decode_body dec size src
  | FrameHeader =>
      if blen src <? 8 then (DNone, FrameHeader, src) else
      let size := be_val (firstn 4 src) in
      if negb (max =? 0) && (max <? size) then (DErr MaxSizeExceeded, FrameHeader, src) else
      if size <=? 4 then (DErr InvalidFrameSize, FrameHeader, src) else
      let len := blen src in
      let src := skipn 4 src in
      if len <? size then (DNone, FrameBody (size - 4), src)
      else decode_body dec (size - 4) src
  end.

(** io.rs:102-119 [Encoder::encode]: appends the encoding; the [debug_assert]
    compares the announced size. *)
Definition encode_call {T} (sz : T -> N) (enc : T -> bytes) (p : profile) (t : T) (dst : bytes)
  : res bytes :=
  match p with
  | Debug => if blen (enc t) =? sz t then Ok (dst ++ enc t) else Panic POverflow
  | Release => Ok (dst ++ enc t)
  end.

(** How ntex io uses a decoder: bytes read from the network are appended to the
    buffer and [decode] is called until it asks for more or fails.
    [rd_error]: the first error; nothing is decoded after it. *)
Record reader (T : Type) : Type := mk_reader {
  rd_state : decode_state;
  rd_buf : bytes;
  rd_frames : list T;
  rd_error : option codec_error
}.
Arguments mk_reader {T} _ _ _ _.
Arguments rd_state {T} _.
Arguments rd_buf {T} _.
Arguments rd_frames {T} _.
Arguments rd_error {T} _.

Fixpoint drain {T} (dec : parser T) (max : N) (fuel : nat) (st : decode_state) (src : bytes)
         (acc : list T) : reader T :=
  match fuel with
  | O => mk_reader st src acc (Some CodecFuel)
  | S fuel =>
      match decode_call dec max st src with
      | (DNone, st, src) => mk_reader st src acc None
      | (DErr e, st, src) => mk_reader st src acc (Some e)
      | (DFrame t, st, src) => drain dec max fuel st src (acc ++ [t])
      end
  end.

Definition read_chunk {T} (dec : parser T) (max : N) (r : reader T) (chunk : bytes) : reader T :=
  match rd_error r with
  | Some _ => r
  | None =>
      let buf := rd_buf r ++ chunk in
      drain dec max (S (length buf)) (rd_state r) buf (rd_frames r)
  end.
Definition reader0 {T} : reader T := mk_reader FrameHeader [] [] None.
Definition read_all {T} (dec : parser T) (max : N) (chunks : list bytes) : reader T :=
  fold_left (read_chunk dec max) chunks reader0.

(** ** The protocol header: io.rs:123-167, protocol/mod.rs:22-26 [ProtocolId] *)

Inductive protocol_id : Type := PidAmqp | PidTls | PidSasl.
(** error.rs:44-54 [ProtocolIdError], those the codec returns. *)
Inductive protocol_id_error : Type := InvalidHeader | Incompatible | UnknownProtocol.

Definition pid_prefix : bytes := str "AMQP".
Definition pid_version : bytes := [x01; x00; x00].
Definition pid_byte (i : protocol_id) : byte :=
  match i with PidAmqp => x00 | PidTls => x02 | PidSasl => x03 end.

(** io.rs:131-154: the result and what is left in the buffer. *)
Definition decode_protocol_id (src : bytes)
  : (option protocol_id + protocol_id_error) * bytes :=
  if blen src <? 8 then (inl None, src)
  else
    let h := firstn 8 src in
    let rest := skipn 8 src in
    if negb (beqb (firstn 4 h) pid_prefix) then (inr InvalidHeader, rest) else
    if negb (beqb (skipn 5 h) pid_version) then (inr Incompatible, rest) else
    match nth_error h 4 with
    | Some x00 => (inl (Some PidAmqp), rest)
    | Some x02 => (inl (Some PidTls), rest)
    | Some x03 => (inl (Some PidSasl), rest)
    | _ => (inr UnknownProtocol, rest)
    end.

(** io.rs:156-166. *)
Definition encode_protocol_id (i : protocol_id) (dst : bytes) : bytes :=
  dst ++ pid_prefix ++ [pid_byte i] ++ pid_version.
