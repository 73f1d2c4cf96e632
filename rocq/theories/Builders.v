(** * Builders of links and sessions: src/sndlink.rs, src/rcvlink.rs,
    src/connection.rs *)

From Coq Require Import Strings.String.
From Verif Require Export Message.

(** [HashMap::remove]. *)
Fixpoint map_remove {K V} (eqb : K -> K -> bool) (k : K) (m : list (K * V)) : list (K * V) :=
  match m with
  | [] => []
  | (k', v) :: t => if eqb k' k then t else (k', v) :: map_remove eqb k t
  end.

Definition set_at_max (n : option N) (a : attach_t) : attach_t :=
  match a with mk_attach nm h r ss rs so ta u iu dc _ oc dsc pr => mk_attach nm h r ss rs so ta u iu dc n oc dsc pr end.
Definition set_at_source (so : option source_t) (a : attach_t) : attach_t :=
  match a with mk_attach nm h r ss rs _ ta u iu dc m oc dsc pr => mk_attach nm h r ss rs so ta u iu dc m oc dsc pr end.
Definition set_at_properties (pr : option (list (bytes * variant))) (a : attach_t) : attach_t :=
  match a with mk_attach nm h r ss rs so ta u iu dc m oc dsc _ => mk_attach nm h r ss rs so ta u iu dc m oc dsc pr end.
Definition set_so_capabilities (c : option (list bytes)) (s : source_t) : source_t :=
  match s with mk_source ad du ex ti dy dn dm fi de ou _ => mk_source ad du ex ti dy dn dm fi de ou c end.

(** ** Sender links *)

(** sndlink.rs:424-453 [SenderLinkBuilder::new]. *)
Definition new_sender (name address : bytes) : attach_t :=
  mk_attach name 0 RoleSender SenderMixed ReceiverFirst None
    (Some (mk_target (Some address) TerminusDurabilityNone ExpirySessionEnd 0 false None None))
    None false None (Some 262144) None None None.
(** The methods of [SenderLinkBuilder]: sndlink.rs:455-460 [max_message_size],
    462-470 [with_frame]. *)
Inductive sender_call : Type :=
| SCallMaxSize (n : N)
| SCallFrame (f : attach_t -> attach_t).
Definition call_sender (c : sender_call) (a : attach_t) : attach_t :=
  match c with
  | SCallMaxSize n => set_at_max (Some n) a
  | SCallFrame f => f a
  end.
(** session.rs:161-170 [build_sender_link], then the methods in turn. *)
Definition build_sender (name address : bytes) (calls : list sender_call) : attach_t :=
  fold_left (fun a c => call_sender c a) calls (new_sender name address).

(** ** Receiver links *)

(** rcvlink.rs:482-515 [ReceiverLinkBuilder::new]. *)
Definition new_receiver (name address : bytes) : attach_t :=
  mk_attach name 0 RoleReceiver SenderMixed ReceiverFirst
    (Some (mk_source (Some address) TerminusDurabilityNone ExpirySessionEnd 0 false None None None None None None))
    None None false None (Some 262144) None None None.
(** The methods of [ReceiverLinkBuilder]: rcvlink.rs:517-522
    [max_message_size], 524-539 [property], 541-547 [capabilities], 549-557
    [with_frame]. *)
Inductive receiver_call : Type :=
| RCallMaxSize (n : N)
| RCallProperty (k : bytes) (v : option variant)
| RCallCapabilities (caps : list bytes)
| RCallFrame (f : attach_t -> attach_t).
(** [None] is a panic: rcvlink.rs:545 unwraps the source.  [get_properties_mut]
    (definitions.rs, generated) creates the table of properties. *)
Definition call_receiver (c : receiver_call) (a : attach_t) : option attach_t :=
  match c with
  | RCallMaxSize n => Some (set_at_max (Some n) a)
  | RCallProperty k v =>
      let props := or_default [] (attach_properties a) in
      Some (set_at_properties
              (Some (match v with
                     | Some v => map_insert beqb k v props
                     | None => map_remove beqb k props
                     end)) a)
  | RCallCapabilities caps =>
      match attach_source a with
      | Some s => Some (set_at_source (Some (set_so_capabilities (Some caps) s)) a)
      | None => None
      end
  | RCallFrame f => Some (f a)
  end.
(** session.rs:172-181 [build_receiver_link], then the methods in turn. *)
Definition build_receiver (name address : bytes) (calls : list receiver_call) : option attach_t :=
  fold_left (fun a c => match a with Some a => call_receiver c a | None => None end)
    calls (Some (new_receiver name address)).

(** ** Sessions *)

(** connection.rs:490-497 [OpenSession], without the connection and the future;
    499-508 [new]. *)
Record session_request : Type := mk_request {
  sr_offered : option (list bytes);
  sr_desired : option (list bytes);
  sr_props : option (list (bytes * variant))
}.
Definition new_request : session_request := mk_request None None None.
(** The methods of [OpenSession]: connection.rs:510-515
    [offered_capabilities], 517-522 [desired_capabilities], 524-540
    [property]. *)
Inductive session_call : Type :=
| CallOffered (caps : list bytes)
| CallDesired (caps : list bytes)
| CallProperty (k : bytes) (v : variant).
Definition call_session (c : session_call) (r : session_request) : session_request :=
  match c with
  | CallOffered caps => mk_request (Some caps) (sr_desired r) (sr_props r)
  | CallDesired caps => mk_request (sr_offered r) (Some caps) (sr_props r)
  | CallProperty k v =>
      mk_request (sr_offered r) (sr_desired r) (Some (map_insert beqb k v (or_default [] (sr_props r))))
  end.
Definition build_session (calls : list session_call) : session_request :=
  fold_left (fun r c => call_session c r) calls new_request.

(** ** Errors: src/error.rs *)

(** error.rs:75-80 [AmqpError] and 166-171 [LinkError]: the error is of the own
    class or any condition.  The own class is held as its condition
    (error.rs:146-149, 224-227). *)
Inductive error_call : Type :=
| ECallText (t : bytes)          (* error.rs:128-132, 199-203 [text]; 134-141, 205-212 [description] *)
| ECallFields (f : list (bytes * variant)).   (* error.rs:214-218 [LinkError::fields] *)
Definition call_error (c : error_call) (e : error_t) : error_t :=
  match c with
  | ECallText t => mk_err (err_condition e) (Some t) (err_info e)
  | ECallFields f => mk_err (err_condition e) (err_description e) (Some f)
  end.
(** error.rs:84-98 [AmqpError::new], [with_error], 175-181 [LinkError::new],
    then the methods in turn, then 144-155, 221-233 [From for protocol::Error]. *)
Definition build_error (c : error_condition) (calls : list error_call) : error_t :=
  fold_left (fun e c => call_error c e) calls (mk_err c None None).
(** error.rs:100-126, 183-197: the constructors for one condition. *)
Definition app_internal_error := build_error (CondAmqp AmqpInternalError).
Definition not_found := build_error (CondAmqp AmqpNotFound).
Definition unauthorized_access := build_error (CondAmqp AmqpUnauthorizedAccess).
Definition app_decode_error := build_error (CondAmqp AmqpDecodeError).
Definition invalid_field := build_error (CondAmqp AmqpInvalidField).
Definition not_allowed := build_error (CondAmqp AmqpNotAllowed).
Definition not_implemented := build_error (CondAmqp AmqpNotImplemented).
Definition force_detach := build_error (CondLink LinkDetachForced).
Definition redirect := build_error (CondLink LinkRedirect).

(** ** src/error_code.rs: the names of the conditions as constants *)

(** error_code.rs:7-19, 22-24, 27-30, 33-38, with the condition each is for. *)
Definition error_codes : list (error_condition * bytes) :=
  [(CondAmqp AmqpInternalError, str "amqp:internal-error");
   (CondAmqp AmqpNotFound, str "amqp:not-found");
   (CondAmqp AmqpUnauthorizedAccess, str "amqp:unauthorized-access");
   (CondAmqp AmqpDecodeError, str "amqp:decode-error");
   (CondAmqp AmqpResourceLimitExceeded, str "amqp:resource-limit-exceeded");
   (CondAmqp AmqpNotAllowed, str "amqp:not-allowed");
   (CondAmqp AmqpInvalidField, str "amqp:invalid-field");
   (CondAmqp AmqpNotImplemented, str "amqp:not-implemented");
   (CondAmqp AmqpResourceLocked, str "amqp:resource-locked");
   (CondAmqp AmqpPreconditionFailed, str "amqp:precondition-failed");
   (CondAmqp AmqpResourceDeleted, str "amqp:resource-deleted");
   (CondAmqp AmqpIllegalState, str "amqp:illegal-state");
   (CondAmqp AmqpFrameSizeTooSmall, str "amqp:frame-size-too-small");
   (CondConnection ConnConnectionForced, str "amqp:connection:forced");
   (CondConnection ConnFramingError, str "amqp:connection:framing-error");
   (CondConnection ConnRedirect, str "amqp:connection:redirect");
   (CondSession SessWindowViolation, str "amqp:session:window-violation");
   (CondSession SessErrantLink, str "amqp:session-errant-link");
   (CondSession SessHandleInUse, str "amqp:session:handle-in-use");
   (CondSession SessUnattachedHandle, str "amqp:session:unattached-handle");
   (CondLink LinkDetachForced, str "amqp:link:detach-forced");
   (CondLink LinkTransferLimitExceeded, str "amqp:link:transfer-limit-exceeded");
   (CondLink LinkMessageSizeExceeded, str "amqp:link:message-size-exceeded");
   (CondLink LinkRedirect, str "amqp:link:redirect");
   (CondLink LinkStolen, str "amqp:link:stolen")].
