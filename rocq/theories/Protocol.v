(** * The composite types and enumerations of codec/src/protocol

    Written by tools/gen_protocol.py from codec/src/protocol/definitions.rs:
    one record per composite type, its fields in order, and for every field
    whether it is optional, mandatory or has a default.  Line numbers without a
    file name refer to definitions.rs. *)

From Coq Require Import Strings.String.
From Verif Require Export Codec.

(** ** Enumerations *)

(** 393-437 [Role]. *)
Inductive role : Type :=
| RoleSender | RoleReceiver.
Definition role_value (x : role) : bool :=
  match x with | RoleSender => false | RoleReceiver => true end.
Definition role_try_from (v : bool) : option role :=
  match v with | false => Some RoleSender | true => Some RoleReceiver end.
Definition role_c : codec role :=
  enum_c bool_c (fun x => c_sz bool_c (role_value x)) role_value role_try_from.

(** 439-493 [SenderSettleMode]. *)
Inductive sender_settle_mode : Type :=
| SenderUnsettled | SenderSettled | SenderMixed.
Definition sender_settle_mode_value (x : sender_settle_mode) : N :=
  match x with | SenderUnsettled => 0 | SenderSettled => 1 | SenderMixed => 2 end.
Definition sender_settle_mode_try_from (v : N) : option sender_settle_mode :=
  if v =? 0 then Some SenderUnsettled else
  if v =? 1 then Some SenderSettled else
  if v =? 2 then Some SenderMixed else
  None.
Definition sender_settle_mode_c : codec sender_settle_mode :=
  enum_c u8_c (fun x => c_sz u8_c (sender_settle_mode_value x)) sender_settle_mode_value sender_settle_mode_try_from.

(** 495-539 [ReceiverSettleMode]. *)
Inductive receiver_settle_mode : Type :=
| ReceiverFirst | ReceiverSecond.
Definition receiver_settle_mode_value (x : receiver_settle_mode) : N :=
  match x with | ReceiverFirst => 0 | ReceiverSecond => 1 end.
Definition receiver_settle_mode_try_from (v : N) : option receiver_settle_mode :=
  if v =? 0 then Some ReceiverFirst else
  if v =? 1 then Some ReceiverSecond else
  None.
Definition receiver_settle_mode_c : codec receiver_settle_mode :=
  enum_c u8_c (fun x => c_sz u8_c (receiver_settle_mode_value x)) receiver_settle_mode_value receiver_settle_mode_try_from.

(** 541-619 [AmqpError]. *)
Inductive amqp_error : Type :=
| AmqpInternalError | AmqpNotFound | AmqpUnauthorizedAccess | AmqpDecodeError | AmqpResourceLimitExceeded | AmqpNotAllowed | AmqpInvalidField | AmqpNotImplemented | AmqpResourceLocked | AmqpPreconditionFailed | AmqpResourceDeleted | AmqpIllegalState | AmqpFrameSizeTooSmall.
Definition amqp_error_symbol (x : amqp_error) : bytes :=
  match x with
  | AmqpInternalError => str "amqp:internal-error"
  | AmqpNotFound => str "amqp:not-found"
  | AmqpUnauthorizedAccess => str "amqp:unauthorized-access"
  | AmqpDecodeError => str "amqp:decode-error"
  | AmqpResourceLimitExceeded => str "amqp:resource-limit-exceeded"
  | AmqpNotAllowed => str "amqp:not-allowed"
  | AmqpInvalidField => str "amqp:invalid-field"
  | AmqpNotImplemented => str "amqp:not-implemented"
  | AmqpResourceLocked => str "amqp:resource-locked"
  | AmqpPreconditionFailed => str "amqp:precondition-failed"
  | AmqpResourceDeleted => str "amqp:resource-deleted"
  | AmqpIllegalState => str "amqp:illegal-state"
  | AmqpFrameSizeTooSmall => str "amqp:frame-size-too-small"
  end.
Definition amqp_error_try_from (s : bytes) : option amqp_error :=
  if beqb s (str "amqp:internal-error") then Some AmqpInternalError else
  if beqb s (str "amqp:not-found") then Some AmqpNotFound else
  if beqb s (str "amqp:unauthorized-access") then Some AmqpUnauthorizedAccess else
  if beqb s (str "amqp:decode-error") then Some AmqpDecodeError else
  if beqb s (str "amqp:resource-limit-exceeded") then Some AmqpResourceLimitExceeded else
  if beqb s (str "amqp:not-allowed") then Some AmqpNotAllowed else
  if beqb s (str "amqp:invalid-field") then Some AmqpInvalidField else
  if beqb s (str "amqp:not-implemented") then Some AmqpNotImplemented else
  if beqb s (str "amqp:resource-locked") then Some AmqpResourceLocked else
  if beqb s (str "amqp:precondition-failed") then Some AmqpPreconditionFailed else
  if beqb s (str "amqp:resource-deleted") then Some AmqpResourceDeleted else
  if beqb s (str "amqp:illegal-state") then Some AmqpIllegalState else
  if beqb s (str "amqp:frame-size-too-small") then Some AmqpFrameSizeTooSmall else
  None.
Definition amqp_error_c : codec amqp_error :=
  enum_c symbol_c
    (fun x => match x with
              | AmqpInternalError => 19 + 2
              | AmqpNotFound => 14 + 2
              | AmqpUnauthorizedAccess => 24 + 2
              | AmqpDecodeError => 17 + 2
              | AmqpResourceLimitExceeded => 28 + 2
              | AmqpNotAllowed => 16 + 2
              | AmqpInvalidField => 18 + 2
              | AmqpNotImplemented => 20 + 2
              | AmqpResourceLocked => 20 + 2
              | AmqpPreconditionFailed => 24 + 2
              | AmqpResourceDeleted => 21 + 2
              | AmqpIllegalState => 18 + 2
              | AmqpFrameSizeTooSmall => 25 + 2
              end)
    amqp_error_symbol amqp_error_try_from.

(** 621-659 [ConnectionError]. *)
Inductive connection_error : Type :=
| ConnConnectionForced | ConnFramingError | ConnRedirect.
Definition connection_error_symbol (x : connection_error) : bytes :=
  match x with
  | ConnConnectionForced => str "amqp:connection:forced"
  | ConnFramingError => str "amqp:connection:framing-error"
  | ConnRedirect => str "amqp:connection:redirect"
  end.
Definition connection_error_try_from (s : bytes) : option connection_error :=
  if beqb s (str "amqp:connection:forced") then Some ConnConnectionForced else
  if beqb s (str "amqp:connection:framing-error") then Some ConnFramingError else
  if beqb s (str "amqp:connection:redirect") then Some ConnRedirect else
  None.
Definition connection_error_c : codec connection_error :=
  enum_c symbol_c
    (fun x => match x with
              | ConnConnectionForced => 22 + 2
              | ConnFramingError => 29 + 2
              | ConnRedirect => 24 + 2
              end)
    connection_error_symbol connection_error_try_from.

(** 661-705 [SessionError]. *)
Inductive session_error : Type :=
| SessWindowViolation | SessErrantLink | SessHandleInUse | SessUnattachedHandle.
Definition session_error_symbol (x : session_error) : bytes :=
  match x with
  | SessWindowViolation => str "amqp:session:window-violation"
  | SessErrantLink => str "amqp:session:errant-link"
  | SessHandleInUse => str "amqp:session:handle-in-use"
  | SessUnattachedHandle => str "amqp:session:unattached-handle"
  end.
Definition session_error_try_from (s : bytes) : option session_error :=
  if beqb s (str "amqp:session:window-violation") then Some SessWindowViolation else
  if beqb s (str "amqp:session:errant-link") then Some SessErrantLink else
  if beqb s (str "amqp:session:handle-in-use") then Some SessHandleInUse else
  if beqb s (str "amqp:session:unattached-handle") then Some SessUnattachedHandle else
  None.
Definition session_error_c : codec session_error :=
  enum_c symbol_c
    (fun x => match x with
              | SessWindowViolation => 29 + 2
              | SessErrantLink => 24 + 2
              | SessHandleInUse => 26 + 2
              | SessUnattachedHandle => 30 + 2
              end)
    session_error_symbol session_error_try_from.

(** 707-755 [LinkError]. *)
Inductive link_error : Type :=
| LinkDetachForced | LinkTransferLimitExceeded | LinkMessageSizeExceeded | LinkRedirect | LinkStolen.
Definition link_error_symbol (x : link_error) : bytes :=
  match x with
  | LinkDetachForced => str "amqp:link:detach-forced"
  | LinkTransferLimitExceeded => str "amqp:link:transfer-limit-exceeded"
  | LinkMessageSizeExceeded => str "amqp:link:message-size-exceeded"
  | LinkRedirect => str "amqp:link:redirect"
  | LinkStolen => str "amqp:link:stolen"
  end.
Definition link_error_try_from (s : bytes) : option link_error :=
  if beqb s (str "amqp:link:detach-forced") then Some LinkDetachForced else
  if beqb s (str "amqp:link:transfer-limit-exceeded") then Some LinkTransferLimitExceeded else
  if beqb s (str "amqp:link:message-size-exceeded") then Some LinkMessageSizeExceeded else
  if beqb s (str "amqp:link:redirect") then Some LinkRedirect else
  if beqb s (str "amqp:link:stolen") then Some LinkStolen else
  None.
Definition link_error_c : codec link_error :=
  enum_c symbol_c
    (fun x => match x with
              | LinkDetachForced => 23 + 2
              | LinkTransferLimitExceeded => 33 + 2
              | LinkMessageSizeExceeded => 31 + 2
              | LinkRedirect => 18 + 2
              | LinkStolen => 16 + 2
              end)
    link_error_symbol link_error_try_from.

(** 757-831 [SaslCode]. *)
Inductive sasl_code : Type :=
| SaslOk | SaslAuth | SaslSys | SaslSysPerm | SaslSysTemp.
Definition sasl_code_value (x : sasl_code) : N :=
  match x with | SaslOk => 0 | SaslAuth => 1 | SaslSys => 2 | SaslSysPerm => 3 | SaslSysTemp => 4 end.
Definition sasl_code_try_from (v : N) : option sasl_code :=
  if v =? 0 then Some SaslOk else
  if v =? 1 then Some SaslAuth else
  if v =? 2 then Some SaslSys else
  if v =? 3 then Some SaslSysPerm else
  if v =? 4 then Some SaslSysTemp else
  None.
Definition sasl_code_c : codec sasl_code :=
  enum_c u8_c (fun x => c_sz u8_c (sasl_code_value x)) sasl_code_value sasl_code_try_from.

(** 833-887 [TerminusDurability]. *)
Inductive terminus_durability : Type :=
| TerminusDurabilityNone | TerminusDurabilityConfiguration | TerminusDurabilityUnsettledState.
Definition terminus_durability_value (x : terminus_durability) : N :=
  match x with | TerminusDurabilityNone => 0 | TerminusDurabilityConfiguration => 1 | TerminusDurabilityUnsettledState => 2 end.
Definition terminus_durability_try_from (v : N) : option terminus_durability :=
  if v =? 0 then Some TerminusDurabilityNone else
  if v =? 1 then Some TerminusDurabilityConfiguration else
  if v =? 2 then Some TerminusDurabilityUnsettledState else
  None.
Definition terminus_durability_c : codec terminus_durability :=
  enum_c u32_c (fun x => c_sz u32_c (terminus_durability_value x)) terminus_durability_value terminus_durability_try_from.

(** 889-929 [TerminusExpiryPolicy]. *)
Inductive terminus_expiry_policy : Type :=
| ExpiryLinkDetach | ExpirySessionEnd | ExpiryConnectionClose | ExpiryNever.
Definition terminus_expiry_policy_symbol (x : terminus_expiry_policy) : bytes :=
  match x with
  | ExpiryLinkDetach => str "link-detach"
  | ExpirySessionEnd => str "session-end"
  | ExpiryConnectionClose => str "connection-close"
  | ExpiryNever => str "never"
  end.
Definition terminus_expiry_policy_try_from (s : bytes) : option terminus_expiry_policy :=
  if beqb s (str "link-detach") then Some ExpiryLinkDetach else
  if beqb s (str "session-end") then Some ExpirySessionEnd else
  if beqb s (str "connection-close") then Some ExpiryConnectionClose else
  if beqb s (str "never") then Some ExpiryNever else
  None.
Definition terminus_expiry_policy_c : codec terminus_expiry_policy :=
  enum_c symbol_c
    (fun x => match x with
              | ExpiryLinkDetach => 11 + 2
              | ExpirySessionEnd => 11 + 2
              | ExpiryConnectionClose => 16 + 2
              | ExpiryNever => 5 + 2
              end)
    terminus_expiry_policy_symbol terminus_expiry_policy_try_from.

(** protocol/mod.rs:46-52 [MessageId], 66-102 its codec. *)
Inductive message_id : Type :=
| MidUlong (n : N) | MidUuid (b : bytes) | MidBinary (b : bytes) | MidString (s : bytes).
Definition message_id_c : codec message_id :=
  mk_codec
    (fun m => match m with
              | MidUlong n => sz_u64 n | MidUuid b => sz_uuid b
              | MidBinary b => sz_var b | MidString s => sz_var s
              end)
    (fun m => match m with
              | MidUlong n => enc_u64 n | MidUuid b => enc_uuid b
              | MidBinary b => enc_binary b | MidString s => enc_string s
              end)
    (fun _ fmt inp =>
       match fmt with
       | x53 | x80 | x44 => map_res MidUlong (dec_u64 fmt inp)
       | x98 => map_res MidUuid (dec_uuid fmt inp)
       | xa0 | xb0 => map_res MidBinary (dec_binary fmt inp)
       | xa1 | xb1 => map_res MidString (dec_string fmt inp)
       | _ => Err (InvalidFormatCode fmt)
       end).

(** protocol/mod.rs:104-159 [ErrorCondition]. *)
Inductive error_condition : Type :=
| CondAmqp (e : amqp_error) | CondConnection (e : connection_error)
| CondSession (e : session_error) | CondLink (e : link_error) | CondCustom (s : bytes).
Definition condition_of_symbol (s : bytes) : error_condition :=
  match amqp_error_try_from s with Some e => CondAmqp e | None =>
  match connection_error_try_from s with Some e => CondConnection e | None =>
  match session_error_try_from s with Some e => CondSession e | None =>
  match link_error_try_from s with Some e => CondLink e | None => CondCustom s
  end end end end.
Definition error_condition_c : codec error_condition :=
  mk_codec
    (fun c => match c with
              | CondAmqp e => c_sz amqp_error_c e | CondConnection e => c_sz connection_error_c e
              | CondSession e => c_sz session_error_c e | CondLink e => c_sz link_error_c e
              | CondCustom s => sz_var s
              end)
    (fun c => match c with
              | CondAmqp e => c_enc amqp_error_c e | CondConnection e => c_enc connection_error_c e
              | CondSession e => c_enc session_error_c e | CondLink e => c_enc link_error_c e
              | CondCustom s => enc_symbol s
              end)
    (fun _ fmt inp => map_res condition_of_symbol (dec_symbol fmt inp)).

(** protocol/mod.rs:161-196 [DistributionMode]. *)
Inductive distribution_mode : Type := DistMove | DistCopy | DistCustom (s : bytes).
Definition distribution_of_symbol (s : bytes) : distribution_mode :=
  if beqb s (str "move") then DistMove else
  if beqb s (str "copy") then DistCopy else DistCustom s.
Definition distribution_mode_c : codec distribution_mode :=
  mk_codec
    (fun m => match m with DistMove => 6 | DistCopy => 6 | DistCustom s => sz_var s end)
    (fun m => match m with
              | DistMove => enc_symbol (str "move") | DistCopy => enc_symbol (str "copy")
              | DistCustom s => enc_symbol s
              end)
    (fun _ fmt inp => map_res distribution_of_symbol (dec_symbol fmt inp)).

(** ** Composite types *)

(** 1025-1029 [Error]; decoder 1085-1119, size 1120-1132, encoder 1133-1152, descriptor 1153-1167. *)
Record error_t : Type := mk_err {
  err_condition : error_condition;
  err_description : option bytes;
  err_info : option (list (bytes * variant))
}.
Definition error_k : comp error_t :=
  mk_comp 29 (str "amqp:error:list")
    (FReq error_condition_c
    (FOpt string_c
    (FOpt symbol_map_c
    FNil)))
    (fun x => (err_condition x, (err_description x, (err_info x, tt))))
    (fun t => let '(v0, (v1, (v2, _))) := t in mk_err v0 v1 v2).
Definition error_c : codec error_t := comp_c error_k.

(** 5021-5024 [Received]; decoder 5046-5073, size 5074-5083, encoder 5084-5099, descriptor 5100-5114. *)
Record received_t : Type := mk_received {
  received_section_number : N;
  received_section_offset : N
}.
Definition received_k : comp received_t :=
  mk_comp 35 (str "amqp:received:list")
    (FReq u32_c
    (FReq u64_c
    FNil))
    (fun x => (received_section_number x, (received_section_offset x, tt)))
    (fun t => let '(v0, (v1, _)) := t in mk_received v0 v1).
Definition received_c : codec received_t := comp_c received_k.

(** 5124-5128 [Accepted]; decoder 5130-5137, size 5138-5147, encoder 5148-5161, descriptor 5162-5176. *)
Record accepted_t : Type := mk_accepted { }.
Definition accepted_k : comp accepted_t :=
  mk_comp 36 (str "amqp:accepted:list")
    FNil
    (fun x => tt)
    (fun t => let '_ := t in mk_accepted ).
Definition accepted_c : codec accepted_t := comp_c accepted_k.

(** 5186-5188 [Rejected]; decoder 5202-5217, size 5218-5227, encoder 5228-5242, descriptor 5243-5257. *)
Record rejected_t : Type := mk_rejected {
  rejected_error : option error_t
}.
Definition rejected_k : comp rejected_t :=
  mk_comp 37 (str "amqp:rejected:list")
    (FOpt error_c
    FNil)
    (fun x => (rejected_error x, tt))
    (fun t => let '(v0, _) := t in mk_rejected v0).
Definition rejected_c : codec rejected_t := comp_c rejected_k.

(** 5267-5271 [Released]; decoder 5273-5280, size 5281-5290, encoder 5291-5304, descriptor 5305-5319. *)
Record released_t : Type := mk_released { }.
Definition released_k : comp released_t :=
  mk_comp 38 (str "amqp:released:list")
    FNil
    (fun x => tt)
    (fun t => let '_ := t in mk_released ).
Definition released_c : codec released_t := comp_c released_k.

(** 5329-5333 [Modified]; decoder 5363-5396, size 5397-5409, encoder 5410-5429, descriptor 5430-5444. *)
Record modified_t : Type := mk_modified {
  modified_delivery_failed : option bool;
  modified_undeliverable_here : option bool;
  modified_message_annotations : option (list (bytes * variant))
}.
Definition modified_k : comp modified_t :=
  mk_comp 39 (str "amqp:modified:list")
    (FOpt bool_c
    (FOpt bool_c
    (FOpt symbol_map_c
    FNil)))
    (fun x => (modified_delivery_failed x, (modified_undeliverable_here x, (modified_message_annotations x, tt))))
    (fun t => let '(v0, (v1, (v2, _))) := t in mk_modified v0 v1 v2).
Definition modified_c : codec modified_t := comp_c modified_k.

(** 115-170 [DeliveryState]. *)
Inductive delivery_state : Type :=
| DSReceived (x : received_t)
| DSAccepted (x : accepted_t)
| DSRejected (x : rejected_t)
| DSReleased (x : released_t)
| DSModified (x : modified_t).
Definition delivery_state_c : codec delivery_state :=
  mk_codec
    (fun s => match s with
              | DSReceived x => sz_inner received_k x
              | DSAccepted x => sz_inner accepted_k x
              | DSRejected x => sz_inner rejected_k x
              | DSReleased x => sz_inner released_k x
              | DSModified x => sz_inner modified_k x
              end)
    (fun s => match s with
              | DSReceived x => enc_inner received_k x
              | DSAccepted x => enc_inner accepted_k x
              | DSRejected x => enc_inner rejected_k x
              | DSReleased x => enc_inner released_k x
              | DSModified x => enc_inner modified_k x
              end)
    (fun p fmt inp =>
       '(d, inp) <- dec_described fmt inp ;;
       if desc_is d 35 (str "amqp:received:list") then map_res DSReceived (dec_inner received_k p inp) else
       if desc_is d 36 (str "amqp:accepted:list") then map_res DSAccepted (dec_inner accepted_k p inp) else
       if desc_is d 37 (str "amqp:rejected:list") then map_res DSRejected (dec_inner rejected_k p inp) else
       if desc_is d 38 (str "amqp:released:list") then map_res DSReleased (dec_inner released_k p inp) else
       if desc_is d 39 (str "amqp:modified:list") then map_res DSModified (dec_inner modified_k p inp) else
       Err (InvalidDescriptor d)).

(** 172-220 [Outcome]. *)
Inductive outcome : Type :=
| OAccepted (x : accepted_t)
| ORejected (x : rejected_t)
| OReleased (x : released_t)
| OModified (x : modified_t).
Definition outcome_c : codec outcome :=
  mk_codec
    (fun s => match s with
              | OAccepted x => sz_inner accepted_k x
              | ORejected x => sz_inner rejected_k x
              | OReleased x => sz_inner released_k x
              | OModified x => sz_inner modified_k x
              end)
    (fun s => match s with
              | OAccepted x => enc_inner accepted_k x
              | ORejected x => enc_inner rejected_k x
              | OReleased x => enc_inner released_k x
              | OModified x => enc_inner modified_k x
              end)
    (fun p fmt inp =>
       '(d, inp) <- dec_described fmt inp ;;
       if desc_is d 36 (str "amqp:accepted:list") then map_res OAccepted (dec_inner accepted_k p inp) else
       if desc_is d 37 (str "amqp:rejected:list") then map_res ORejected (dec_inner rejected_k p inp) else
       if desc_is d 38 (str "amqp:released:list") then map_res OReleased (dec_inner released_k p inp) else
       if desc_is d 39 (str "amqp:modified:list") then map_res OModified (dec_inner modified_k p inp) else
       Err (InvalidDescriptor d)).

(** 4029-4041 [Source]; decoder 4135-4236, size 4237-4257, encoder 4258-4293, descriptor 4294-4308. *)
Record source_t : Type := mk_source {
  source_address : option bytes;
  source_durable : terminus_durability;
  source_expiry_policy : terminus_expiry_policy;
  source_timeout : N;
  source_dynamic : bool;
  source_dynamic_node_properties : option (list (bytes * variant));
  source_distribution_mode : option distribution_mode;
  source_filter : option (list (bytes * option bytes));
  source_default_outcome : option outcome;
  source_outcomes : option (list bytes);
  source_capabilities : option (list bytes)
}.
Definition source_k : comp source_t :=
  mk_comp 40 (str "amqp:source:list")
    (FOpt string_c
    (FDef terminus_durability_c TerminusDurabilityNone
    (FDef terminus_expiry_policy_c ExpirySessionEnd
    (FDef u32_c 0
    (FDef bool_c false
    (FOpt fields_c
    (FOpt distribution_mode_c
    (FOpt filter_c
    (FOpt outcome_c
    (FOpt symbols_c
    (FOpt symbols_c
    FNil)))))))))))
    (fun x => (source_address x, (source_durable x, (source_expiry_policy x, (source_timeout x, (source_dynamic x, (source_dynamic_node_properties x, (source_distribution_mode x, (source_filter x, (source_default_outcome x, (source_outcomes x, (source_capabilities x, tt))))))))))))
    (fun t => let '(v0, (v1, (v2, (v3, (v4, (v5, (v6, (v7, (v8, (v9, (v10, _))))))))))) := t in mk_source v0 v1 v2 v3 v4 v5 v6 v7 v8 v9 v10).
Definition source_c : codec source_t := comp_c source_k.

(** 4318-4326 [Target]; decoder 4388-4457, size 4458-4474, encoder 4475-4502, descriptor 4503-4517. *)
Record target_t : Type := mk_target {
  target_address : option bytes;
  target_durable : terminus_durability;
  target_expiry_policy : terminus_expiry_policy;
  target_timeout : N;
  target_dynamic : bool;
  target_dynamic_node_properties : option (list (bytes * variant));
  target_capabilities : option (list bytes)
}.
Definition target_k : comp target_t :=
  mk_comp 41 (str "amqp:target:list")
    (FOpt string_c
    (FDef terminus_durability_c TerminusDurabilityNone
    (FDef terminus_expiry_policy_c ExpirySessionEnd
    (FDef u32_c 0
    (FDef bool_c false
    (FOpt fields_c
    (FOpt symbols_c
    FNil)))))))
    (fun x => (target_address x, (target_durable x, (target_expiry_policy x, (target_timeout x, (target_dynamic x, (target_dynamic_node_properties x, (target_capabilities x, tt))))))))
    (fun t => let '(v0, (v1, (v2, (v3, (v4, (v5, (v6, _))))))) := t in mk_target v0 v1 v2 v3 v4 v5 v6).
Definition target_c : codec target_t := comp_c target_k.

(** 1181-1192 [Open]; decoder 1346-1438, size 1439-1458, encoder 1459-1492, descriptor 1493-1507. *)
Record open_t : Type := mk_open {
  open_container_id : bytes;
  open_hostname : option bytes;
  open_max_frame_size : N;
  open_channel_max : N;
  open_idle_time_out : option N;
  open_outgoing_locales : option (list bytes);
  open_incoming_locales : option (list bytes);
  open_offered_capabilities : option (list bytes);
  open_desired_capabilities : option (list bytes);
  open_properties : option (list (bytes * variant))
}.
Definition open_k : comp open_t :=
  mk_comp 16 (str "amqp:open:list")
    (FReq string_c
    (FOpt string_c
    (FDef u32_c 4294967295
    (FDef u16_c 65535
    (FOpt u32_c
    (FOpt symbols_c
    (FOpt symbols_c
    (FOpt symbols_c
    (FOpt symbols_c
    (FOpt fields_c
    FNil))))))))))
    (fun x => (open_container_id x, (open_hostname x, (open_max_frame_size x, (open_channel_max x, (open_idle_time_out x, (open_outgoing_locales x, (open_incoming_locales x, (open_offered_capabilities x, (open_desired_capabilities x, (open_properties x, tt)))))))))))
    (fun t => let '(v0, (v1, (v2, (v3, (v4, (v5, (v6, (v7, (v8, (v9, _)))))))))) := t in mk_open v0 v1 v2 v3 v4 v5 v6 v7 v8 v9).
Definition open_c : codec open_t := comp_c open_k.

(** 1521-1530 [Begin]; decoder 1658-1735, size 1736-1753, encoder 1754-1783, descriptor 1784-1798. *)
Record begin_t : Type := mk_begin {
  begin_remote_channel : option N;
  begin_next_outgoing_id : N;
  begin_incoming_window : N;
  begin_outgoing_window : N;
  begin_handle_max : N;
  begin_offered_capabilities : option (list bytes);
  begin_desired_capabilities : option (list bytes);
  begin_properties : option (list (bytes * variant))
}.
Definition begin_k : comp begin_t :=
  mk_comp 17 (str "amqp:begin:list")
    (FOpt u16_c
    (FReq u32_c
    (FReq u32_c
    (FReq u32_c
    (FDef u32_c 4294967295
    (FOpt symbols_c
    (FOpt symbols_c
    (FOpt fields_c
    FNil))))))))
    (fun x => (begin_remote_channel x, (begin_next_outgoing_id x, (begin_incoming_window x, (begin_outgoing_window x, (begin_handle_max x, (begin_offered_capabilities x, (begin_desired_capabilities x, (begin_properties x, tt)))))))))
    (fun t => let '(v0, (v1, (v2, (v3, (v4, (v5, (v6, (v7, _)))))))) := t in mk_begin v0 v1 v2 v3 v4 v5 v6 v7).
Definition begin_c : codec begin_t := comp_c begin_k.

(** 1812-1827 [Attach]; decoder 2033-2160, size 2161-2184, encoder 2185-2226, descriptor 2227-2241. *)
Record attach_t : Type := mk_attach {
  attach_name : bytes;
  attach_handle : N;
  attach_role : role;
  attach_snd_settle_mode : sender_settle_mode;
  attach_rcv_settle_mode : receiver_settle_mode;
  attach_source : option source_t;
  attach_target : option target_t;
  attach_unsettled : option (list (variant * variant));
  attach_incomplete_unsettled : bool;
  attach_initial_delivery_count : option N;
  attach_max_message_size : option N;
  attach_offered_capabilities : option (list bytes);
  attach_desired_capabilities : option (list bytes);
  attach_properties : option (list (bytes * variant))
}.
Definition attach_k : comp attach_t :=
  mk_comp 18 (str "amqp:attach:list")
    (FReq string_c
    (FReq u32_c
    (FReq role_c
    (FDef sender_settle_mode_c SenderMixed
    (FDef receiver_settle_mode_c ReceiverFirst
    (FOpt source_c
    (FOpt target_c
    (FOpt map_c
    (FDef bool_c false
    (FOpt u32_c
    (FOpt u64_c
    (FOpt symbols_c
    (FOpt symbols_c
    (FOpt fields_c
    FNil))))))))))))))
    (fun x => (attach_name x, (attach_handle x, (attach_role x, (attach_snd_settle_mode x, (attach_rcv_settle_mode x, (attach_source x, (attach_target x, (attach_unsettled x, (attach_incomplete_unsettled x, (attach_initial_delivery_count x, (attach_max_message_size x, (attach_offered_capabilities x, (attach_desired_capabilities x, (attach_properties x, tt)))))))))))))))
    (fun t => let '(v0, (v1, (v2, (v3, (v4, (v5, (v6, (v7, (v8, (v9, (v10, (v11, (v12, (v13, _)))))))))))))) := t in mk_attach v0 v1 v2 v3 v4 v5 v6 v7 v8 v9 v10 v11 v12 v13).
Definition attach_c : codec attach_t := comp_c attach_k.

(** 2255-2267 [Flow]; decoder 2434-2536, size 2537-2557, encoder 2558-2593, descriptor 2594-2608. *)
Record flow_t : Type := mk_flow {
  flow_next_incoming_id : option N;
  flow_incoming_window : N;
  flow_next_outgoing_id : N;
  flow_outgoing_window : N;
  flow_handle : option N;
  flow_delivery_count : option N;
  flow_link_credit : option N;
  flow_available : option N;
  flow_drain : bool;
  flow_echo : bool;
  flow_properties : option (list (bytes * variant))
}.
Definition flow_k : comp flow_t :=
  mk_comp 19 (str "amqp:flow:list")
    (FOpt u32_c
    (FReq u32_c
    (FReq u32_c
    (FReq u32_c
    (FOpt u32_c
    (FOpt u32_c
    (FOpt u32_c
    (FOpt u32_c
    (FDef bool_c false
    (FDef bool_c false
    (FOpt fields_c
    FNil)))))))))))
    (fun x => (flow_next_incoming_id x, (flow_incoming_window x, (flow_next_outgoing_id x, (flow_outgoing_window x, (flow_handle x, (flow_delivery_count x, (flow_link_credit x, (flow_available x, (flow_drain x, (flow_echo x, (flow_properties x, tt))))))))))))
    (fun t => let '(v0, (v1, (v2, (v3, (v4, (v5, (v6, (v7, (v8, (v9, (v10, _))))))))))) := t in mk_flow v0 v1 v2 v3 v4 v5 v6 v7 v8 v9 v10).
Definition flow_c : codec flow_t := comp_c flow_k.

(** 2622-2635 [Transfer]; decoder 2804-2912, size 2913-2934, encoder 2935-2973, descriptor 2974-2988.
    Here without the body, which follows the list: see [Frames.v]. *)
Record transfer_head : Type := mk_transfer {
  transfer_handle : N;
  transfer_delivery_id : option N;
  transfer_delivery_tag : option bytes;
  transfer_message_format : option N;
  transfer_settled : option bool;
  transfer_more : bool;
  transfer_rcv_settle_mode : option receiver_settle_mode;
  transfer_state : option delivery_state;
  transfer_resume : bool;
  transfer_aborted : bool;
  transfer_batchable : bool
}.
Definition transfer_k : comp transfer_head :=
  mk_comp 20 (str "amqp:transfer:list")
    (FReq u32_c
    (FOpt u32_c
    (FOpt binary_c
    (FOpt u32_c
    (FOpt bool_c
    (FDef bool_c false
    (FOpt receiver_settle_mode_c
    (FOpt delivery_state_c
    (FDef bool_c false
    (FDef bool_c false
    (FDef bool_c false
    FNil)))))))))))
    (fun x => (transfer_handle x, (transfer_delivery_id x, (transfer_delivery_tag x, (transfer_message_format x, (transfer_settled x, (transfer_more x, (transfer_rcv_settle_mode x, (transfer_state x, (transfer_resume x, (transfer_aborted x, (transfer_batchable x, tt))))))))))))
    (fun t => let '(v0, (v1, (v2, (v3, (v4, (v5, (v6, (v7, (v8, (v9, (v10, _))))))))))) := t in mk_transfer v0 v1 v2 v3 v4 v5 v6 v7 v8 v9 v10).
Definition transfer_c : codec transfer_head := comp_c transfer_k.

(** 3002-3009 [Disposition]; decoder 3104-3165, size 3166-3181, encoder 3182-3207, descriptor 3208-3222. *)
Record disposition_t : Type := mk_disposition {
  disposition_role : role;
  disposition_first : N;
  disposition_last : option N;
  disposition_settled : bool;
  disposition_state : option delivery_state;
  disposition_batchable : bool
}.
Definition disposition_k : comp disposition_t :=
  mk_comp 21 (str "amqp:disposition:list")
    (FReq role_c
    (FReq u32_c
    (FOpt u32_c
    (FDef bool_c false
    (FOpt delivery_state_c
    (FDef bool_c false
    FNil))))))
    (fun x => (disposition_role x, (disposition_first x, (disposition_last x, (disposition_settled x, (disposition_state x, (disposition_batchable x, tt)))))))
    (fun t => let '(v0, (v1, (v2, (v3, (v4, (v5, _)))))) := t in mk_disposition v0 v1 v2 v3 v4 v5).
Definition disposition_c : codec disposition_t := comp_c disposition_k.

(** 3236-3240 [Detach]; decoder 3296-3331, size 3332-3344, encoder 3345-3364, descriptor 3365-3379. *)
Record detach_t : Type := mk_detach {
  detach_handle : N;
  detach_closed : bool;
  detach_error : option error_t
}.
Definition detach_k : comp detach_t :=
  mk_comp 22 (str "amqp:detach:list")
    (FReq u32_c
    (FDef bool_c false
    (FOpt error_c
    FNil)))
    (fun x => (detach_handle x, (detach_closed x, (detach_error x, tt))))
    (fun t => let '(v0, (v1, (v2, _))) := t in mk_detach v0 v1 v2).
Definition detach_c : codec detach_t := comp_c detach_k.

(** 3389-3391 [End]; decoder 3405-3420, size 3421-3430, encoder 3431-3445, descriptor 3446-3460. *)
Record end_t : Type := mk_end {
  end_error : option error_t
}.
Definition end_k : comp end_t :=
  mk_comp 23 (str "amqp:end:list")
    (FOpt error_c
    FNil)
    (fun x => (end_error x, tt))
    (fun t => let '(v0, _) := t in mk_end v0).
Definition end_c : codec end_t := comp_c end_k.

(** 3470-3472 [Close]; decoder 3486-3501, size 3502-3511, encoder 3512-3526, descriptor 3527-3541. *)
Record close_t : Type := mk_close {
  close_error : option error_t
}.
Definition close_k : comp close_t :=
  mk_comp 24 (str "amqp:close:list")
    (FOpt error_c
    FNil)
    (fun x => (close_error x, tt))
    (fun t => let '(v0, _) := t in mk_close v0).
Definition close_c : codec close_t := comp_c close_k.

(** 3551-3553 [SaslMechanisms]; decoder 3567-3587, size 3588-3597, encoder 3598-3612, descriptor 3613-3627. *)
Record sasl_mechanisms_t : Type := mk_sasl_mechanisms {
  sasl_mechanisms_sasl_server_mechanisms : (list bytes)
}.
Definition sasl_mechanisms_k : comp sasl_mechanisms_t :=
  mk_comp 64 (str "amqp:sasl-mechanisms:list")
    (FReq symbols_c
    FNil)
    (fun x => (sasl_mechanisms_sasl_server_mechanisms x, tt))
    (fun t => let '(v0, _) := t in mk_sasl_mechanisms v0).
Definition sasl_mechanisms_c : codec sasl_mechanisms_t := comp_c sasl_mechanisms_k.

(** 3637-3641 [SaslInit]; decoder 3671-3705, size 3706-3718, encoder 3719-3738, descriptor 3739-3753. *)
Record sasl_init_t : Type := mk_sasl_init {
  sasl_init_mechanism : bytes;
  sasl_init_initial_response : option bytes;
  sasl_init_hostname : option bytes
}.
Definition sasl_init_k : comp sasl_init_t :=
  mk_comp 65 (str "amqp:sasl-init:list")
    (FReq symbol_c
    (FOpt binary_c
    (FOpt string_c
    FNil)))
    (fun x => (sasl_init_mechanism x, (sasl_init_initial_response x, (sasl_init_hostname x, tt))))
    (fun t => let '(v0, (v1, (v2, _))) := t in mk_sasl_init v0 v1 v2).
Definition sasl_init_c : codec sasl_init_t := comp_c sasl_init_k.

(** 3763-3765 [SaslChallenge]; decoder 3779-3795, size 3796-3805, encoder 3806-3820, descriptor 3821-3835. *)
Record sasl_challenge_t : Type := mk_sasl_challenge {
  sasl_challenge_challenge : bytes
}.
Definition sasl_challenge_k : comp sasl_challenge_t :=
  mk_comp 66 (str "amqp:sasl-challenge:list")
    (FReq binary_c
    FNil)
    (fun x => (sasl_challenge_challenge x, tt))
    (fun t => let '(v0, _) := t in mk_sasl_challenge v0).
Definition sasl_challenge_c : codec sasl_challenge_t := comp_c sasl_challenge_k.

(** 3845-3847 [SaslResponse]; decoder 3861-3877, size 3878-3887, encoder 3888-3902, descriptor 3903-3917. *)
Record sasl_response_t : Type := mk_sasl_response {
  sasl_response_response : bytes
}.
Definition sasl_response_k : comp sasl_response_t :=
  mk_comp 67 (str "amqp:sasl-response:list")
    (FReq binary_c
    FNil)
    (fun x => (sasl_response_response x, tt))
    (fun t => let '(v0, _) := t in mk_sasl_response v0).
Definition sasl_response_c : codec sasl_response_t := comp_c sasl_response_k.

(** 3927-3930 [SaslOutcome]; decoder 3952-3978, size 3979-3988, encoder 3989-4004, descriptor 4005-4019. *)
Record sasl_outcome_t : Type := mk_sasl_outcome {
  sasl_outcome_code : sasl_code;
  sasl_outcome_additional_data : option bytes
}.
Definition sasl_outcome_k : comp sasl_outcome_t :=
  mk_comp 68 (str "amqp:sasl-outcome:list")
    (FReq sasl_code_c
    (FOpt binary_c
    FNil))
    (fun x => (sasl_outcome_code x, (sasl_outcome_additional_data x, tt)))
    (fun t => let '(v0, (v1, _)) := t in mk_sasl_outcome v0 v1).
Definition sasl_outcome_c : codec sasl_outcome_t := comp_c sasl_outcome_k.

(** 4527-4533 [Header]; decoder 4579-4632, size 4633-4647, encoder 4648-4671, descriptor 4672-4686. *)
Record header_t : Type := mk_header {
  header_durable : bool;
  header_priority : N;
  header_ttl : option N;
  header_first_acquirer : bool;
  header_delivery_count : N
}.
Definition header_k : comp header_t :=
  mk_comp 112 (str "amqp:header:list")
    (FDef bool_c false
    (FDef u8_c 4
    (FOpt u32_c
    (FDef bool_c false
    (FDef u32_c 0
    FNil)))))
    (fun x => (header_durable x, (header_priority x, (header_ttl x, (header_first_acquirer x, (header_delivery_count x, tt))))))
    (fun t => let '(v0, (v1, (v2, (v3, (v4, _))))) := t in mk_header v0 v1 v2 v3 v4).
Definition header_c : codec header_t := comp_c header_k.

(** 4696-4710 [Properties]; decoder 4820-4933, size 4934-4956, encoder 4957-4996, descriptor 4997-5011. *)
Record properties_t : Type := mk_properties {
  properties_message_id : option message_id;
  properties_user_id : option bytes;
  properties_to : option bytes;
  properties_subject : option bytes;
  properties_reply_to : option bytes;
  properties_correlation_id : option message_id;
  properties_content_type : option bytes;
  properties_content_encoding : option bytes;
  properties_absolute_expiry_time : option datetime;
  properties_creation_time : option datetime;
  properties_group_id : option bytes;
  properties_group_sequence : option N;
  properties_reply_to_group_id : option bytes
}.
Definition properties_k : comp properties_t :=
  mk_comp 115 (str "amqp:properties:list")
    (FOpt message_id_c
    (FOpt binary_c
    (FOpt string_c
    (FOpt string_c
    (FOpt string_c
    (FOpt message_id_c
    (FOpt symbol_c
    (FOpt symbol_c
    (FOpt timestamp_c
    (FOpt timestamp_c
    (FOpt string_c
    (FOpt u32_c
    (FOpt string_c
    FNil)))))))))))))
    (fun x => (properties_message_id x, (properties_user_id x, (properties_to x, (properties_subject x, (properties_reply_to x, (properties_correlation_id x, (properties_content_type x, (properties_content_encoding x, (properties_absolute_expiry_time x, (properties_creation_time x, (properties_group_id x, (properties_group_sequence x, (properties_reply_to_group_id x, tt))))))))))))))
    (fun t => let '(v0, (v1, (v2, (v3, (v4, (v5, (v6, (v7, (v8, (v9, (v10, (v11, (v12, _))))))))))))) := t in mk_properties v0 v1 v2 v3 v4 v5 v6 v7 v8 v9 v10 v11 v12).
Definition properties_c : codec properties_t := comp_c properties_k.
