(** * Specification vocabulary for messages, frames and byte streams *)

From Coq Require Import Strings.String.
From Verif Require Import Framing Spec SpecProtocol.

Definition legal_section (x : section) : Prop :=
  match x with
  | SHeader h => legal_header h
  | SDeliveryAnnotations m | SMessageAnnotations m | SApplicationProperties m => legal_pairs m
  | SData _ => True
  | SSequence l => Forall legal_value l
  | SValue v => legal_value v
  | SFooter m => legal_fields m
  | SProperties p => legal_properties p
  end.

Definition legal_parts (s : parts) : Prop :=
  optional legal_header (ms_header s)
  /\ optional legal_pairs (ms_delivery_annotations s)
  /\ optional legal_pairs (ms_message_annotations s)
  /\ optional legal_properties (ms_properties s)
  /\ optional legal_pairs (ms_application_properties s)
  /\ optional legal_fields (ms_footer s)
  /\ Forall (Forall legal_value) (ms_sequence s)
  /\ optional legal_value (ms_value s).

(** A legal message whose remembered size, if there is one, is the number of
    bytes it is written as, and so for the messages nested in it. *)
Inductive sound_message : message -> Prop :=
| sound_msg s nested cache :
    legal_parts s -> Forall sound_body nested ->
    cache = 0 \/ cache = blen (msg_enc (Msg s nested cache)) ->
    sound_message (Msg s nested cache)
with sound_body : transfer_body -> Prop :=
| sound_data d : sound_body (TBData d)
| sound_nested m : sound_message m -> sound_body (TBMessage m).

(** What the receiver of a message gets: nested messages arrive as data, the
    message format is not part of the encoding, nothing is remembered. *)
Definition received_message (m : message) : message :=
  match msg_parts m with
  | mk_parts _ hdr da ma pr ap ft data seq val =>
      Msg (mk_parts None hdr da ma pr ap ft (data ++ map tb_enc (msg_nested m)) seq val) [] 0
  end.

Definition legal_frame (f : frame) : Prop :=
  match f with
  | FOpen x => legal_open x | FBegin x => legal_begin x | FAttach x => legal_attach x
  | FFlow x => legal_flow x
  | FTransfer x => legal_transfer (tr_head x) /\ optional sound_body (tr_body x)
  | FDisposition x => legal_disposition x | FDetach x => legal_detach x
  | FEnd x => legal_end x | FClose x => legal_close x | FEmpty => True
  end.
Definition legal_sasl (b : sasl_body) : Prop :=
  match b with
  | SbMechanisms x => legal_sasl_mechanisms x | SbInit x => legal_sasl_init x
  | SbChallenge x => legal_sasl_challenge x | SbResponse x => legal_sasl_response x
  | SbOutcome x => legal_sasl_outcome x
  end.

(** What the receiver of a frame gets: the body of a transfer arrives as bytes,
    and an empty one as none. *)
Definition received_body (b : option transfer_body) : option transfer_body :=
  match b with
  | Some b => match tb_enc b with [] => None | d => Some (TBData d) end
  | None => None
  end.
Definition received_frame (f : frame) : frame :=
  match f with
  | FTransfer x => FTransfer (mk_transfer_t (tr_head x) (received_body (tr_body x)))
  | f => f
  end.

(** A frame that can be written: legal, 16-bit channel, below 4 GiB. *)
Definition legal_amqp_frame (f : amqp_frame) : Prop :=
  unsigned 16 (fr_channel f) /\ legal_frame (fr_body f) /\ blen (enc_amqp_frame f) < 2 ^ 32.
Definition received_amqp_frame (f : amqp_frame) : amqp_frame :=
  mk_frame (fr_channel f) (received_frame (fr_body f)).

(** A byte stream made of frames: each is a size word and that many bytes less
    four. *)
Definition frame_bytes (size : N) (content : bytes) : bytes := be 4 size ++ content.

(** ** Changing messages through the public methods *)

(** The arguments are legal, closures keep legal things legal. *)
Definition legal_body (b : body_t) : Prop :=
  match b with
  | (_, q, n, v) => Forall (Forall legal_value) q /\ Forall sound_body n /\ optional legal_value v
  end.
Inductive legal_op : msg_op -> Prop :=
| lo_size : legal_op OpEncodedSize
| lo_header h : legal_header h -> legal_op (OpSetHeader h)
| lo_format f : legal_op (OpSetFormat f)
| lo_props_mut f : (forall x, legal_properties x -> legal_properties (f x)) -> legal_op (OpPropertiesMut f)
| lo_props f : (forall x, legal_properties x -> legal_properties (f x)) -> legal_op (OpSetProperties f)
| lo_app_mut f : (forall x, legal_pairs x -> legal_pairs (f x)) -> legal_op (OpAppPropertiesMut f)
| lo_app k v : text k -> legal_value v -> legal_op (OpSetAppProperty k v)
| lo_ann k v : text k -> legal_value v -> legal_op (OpAddMessageAnnotation k v)
| lo_ann_mut f : (forall x, legal_pairs x -> legal_pairs (f x)) -> legal_op (OpMessageAnnotationsMut f)
| lo_del_mut f : (forall x, legal_pairs x -> legal_pairs (f x)) -> legal_op (OpDeliveryAnnotationsMut f)
| lo_update ops : Forall legal_op ops -> legal_op (OpUpdate ops)
| lo_body_mut f : (forall b, legal_body b -> legal_body (f b)) -> legal_op (OpBodyMut f)
| lo_value v : legal_value v -> legal_op (OpSetValue v)
| lo_body f : (forall b, legal_body b -> legal_body (f b)) -> legal_op (OpSetBody f).

(** The methods that change what is written and keep the remembered size. *)
Definition forgets_to_reset (o : msg_op) : Prop :=
  match o with
  | OpAppPropertiesMut _ | OpMessageAnnotationsMut _ | OpDeliveryAnnotationsMut _
  | OpBodyMut _ | OpSetValue _ => True
  | _ => False
  end.

(** [tame asked ops asked']: in [ops] none of those methods is called between a
    size query and the next method that resets the size; [asked]/[asked'] tell
    whether such a query is pending before/after. *)
Inductive tame : bool -> list msg_op -> bool -> Prop :=
| tame_nil a : tame a [] a
| tame_size a l z : tame true l z -> tame a (OpEncodedSize :: l) z
| tame_format a f l z : tame a l z -> tame a (OpSetFormat f :: l) z
| tame_quiet o l z : forgets_to_reset o -> tame false l z -> tame false (o :: l) z
| tame_update a ops l y z : tame false ops y -> tame y l z -> tame a (OpUpdate ops :: l) z
| tame_reset a o l z :
    (match o with
     | OpSetHeader _ | OpPropertiesMut _ | OpSetProperties _ | OpSetAppProperty _ _
     | OpAddMessageAnnotation _ _ | OpSetBody _ => True
     | _ => False
     end) -> tame false l z -> tame a (o :: l) z.

Definition apply_ops (ops : list msg_op) (m : message) : message :=
  fold_left (fun m o => apply_op o m) ops m.

(** ** Byte streams *)

(** A stretch of the stream that holds one frame: the size announced, what
    follows the size word, the frame it decodes to. *)
Definition piece (T : Type) : Type := (N * bytes * T)%type.
Definition piece_bytes {T} (x : piece T) : bytes := match x with (size, c, _) => frame_bytes size c end.
Definition piece_frame {T} (x : piece T) : T := snd x.
(** Well formed, and within the limit [max] (0: no limit). *)
Definition piece_ok {T} (dec : parser T) (max : N) (x : piece T) : Prop :=
  match x with
  | (size, c, t) => 4 < size /\ size < 2 ^ 32 /\ blen c = size - 4 /\ (max = 0 \/ size <= max)
                    /\ dec c = Ok (t, [])
  end.

(** ** Performatives whose list ends early or has nulls *)

(** [wire] is a list of [n] fields, those below the number [length (items x)]
    being the fields of [x] or null as [sent] tells, what follows being
    arbitrary.  With it the performative numbered [code] is [seen], and an
    error if [seen] is [None]. *)
Definition reads_as {A} (code : byte) (mk : A -> frame) (legal : A -> Prop)
           (items : A -> list bytes) (seen : (nat -> bool) -> A -> option A) : Prop :=
  forall p x n sent junk wire, legal x ->
  list_form (N.of_nat n) (fields_wire sent n (items x) ++ junk) wire ->
  match seen (fun i => (i <? n)%nat && sent i) x with
  | Some y => dec_frame p ([x00; x53; code] ++ wire) = Ok (mk y, [])
  | None => exists e, dec_frame p ([x00; x53; code] ++ wire) = Err e
  end.

(** The same for the other types that are described lists, wherever they occur. *)
Definition type_reads_as {A} (code : byte) (c : codec A) (legal : A -> Prop)
           (items : A -> list bytes) (seen : (nat -> bool) -> A -> option A) : Prop :=
  forall p x n sent junk wire rest, legal x ->
  list_form (N.of_nat n) (fields_wire sent n (items x) ++ junk) wire ->
  match seen (fun i => (i <? n)%nat && sent i) x with
  | Some y => decode_with (c_dec c p) ([x00; x53; code] ++ wire ++ rest) = Ok (y, rest)
  | None => exists e, decode_with (c_dec c p) ([x00; x53; code] ++ wire ++ rest) = Err e
  end.

(** ** The symbols of AMQP 1.0 (part 2, sections 2.8.15 - 2.8.18) *)
Definition condition_names : list (error_condition * bytes) :=
  [(CondAmqp AmqpInternalError, str "amqp:internal-error");
   (CondAmqp AmqpNotFound, str "amqp:not-found");
   (CondAmqp AmqpUnauthorizedAccess, str "amqp:unauthorized-access");
   (CondAmqp AmqpDecodeError, str "amqp:decode-error");
   (CondAmqp AmqpResourceLimitExceeded, str "amqp:resource-limit-exceeded");
   (CondAmqp AmqpNotAllowed, str "amqp:not-allowed");
   (CondAmqp AmqpInvalidField, str "amqp:invalid-field");
   (CondAmqp AmqpNotImplemented, str "amqp:not-implemented");
   (CondAmqp AmqpResourceLocked, str "amqp:resource-locked");
   (CondAmqp AmqpPreconditionFailed, str "amqp:precondition-failed");
   (CondAmqp AmqpResourceDeleted, str "amqp:resource-deleted");
   (CondAmqp AmqpIllegalState, str "amqp:illegal-state");
   (CondAmqp AmqpFrameSizeTooSmall, str "amqp:frame-size-too-small");
   (CondConnection ConnConnectionForced, str "amqp:connection:forced");
   (CondConnection ConnFramingError, str "amqp:connection:framing-error");
   (CondConnection ConnRedirect, str "amqp:connection:redirect");
   (CondSession SessWindowViolation, str "amqp:session:window-violation");
   (CondSession SessErrantLink, str "amqp:session:errant-link");
   (CondSession SessHandleInUse, str "amqp:session:handle-in-use");
   (CondSession SessUnattachedHandle, str "amqp:session:unattached-handle");
   (CondLink LinkDetachForced, str "amqp:link:detach-forced");
   (CondLink LinkTransferLimitExceeded, str "amqp:link:transfer-limit-exceeded");
   (CondLink LinkMessageSizeExceeded, str "amqp:link:message-size-exceeded");
   (CondLink LinkRedirect, str "amqp:link:redirect");
   (CondLink LinkStolen, str "amqp:link:stolen")].
(** A short symbol on the wire. *)
Definition wire_symbol (s : bytes) : bytes := xa3 :: byte_of (blen s) :: s.

(** ** Types with a codec *)
Definition survives {A} (C : codec A) (legal : A -> Prop) : Prop :=
  forall p a rest, legal a -> blen (c_enc C a) < 2 ^ 32 ->
  decode_with (c_dec C p) (c_enc C a ++ rest) = Ok (a, rest).
Definition sized {A} (C : codec A) (legal : A -> Prop) : Prop :=
  forall a, legal a -> blen (c_enc C a) = c_sz C a.
