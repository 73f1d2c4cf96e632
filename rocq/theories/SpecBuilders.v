(** * Specification vocabulary: builders and errors *)

From Verif Require Export Spec SpecProtocol SpecFraming SpecLookup Builders.

(** The last of the calls that gives something gives this. *)
Fixpoint latest {C A} (gives : C -> option A) (calls : list C) : option A :=
  match calls with
  | [] => None
  | c :: calls => match latest gives calls with Some x => Some x | None => gives c end
  end.

(** What a call asks for. *)
Definition sender_size (c : sender_call) : option N := match c with SCallMaxSize n => Some n | _ => None end.
Definition receiver_size (c : receiver_call) : option N := match c with RCallMaxSize n => Some n | _ => None end.
Definition receiver_caps (c : receiver_call) : option (list bytes) :=
  match c with RCallCapabilities l => Some l | _ => None end.
(** A property is given a value, or taken away. *)
Definition receiver_property (k : bytes) (c : receiver_call) : option (option variant) :=
  match c with RCallProperty k' v => if beqb k' k then Some v else None | _ => None end.
Definition session_offered (c : session_call) : option (list bytes) :=
  match c with CallOffered l => Some l | _ => None end.
Definition session_desired (c : session_call) : option (list bytes) :=
  match c with CallDesired l => Some l | _ => None end.
Definition session_property (k : bytes) (c : session_call) : option variant :=
  match c with CallProperty k' v => if beqb k' k then Some v else None | _ => None end.
Definition error_text (c : error_call) : option bytes := match c with ECallText t => Some t | _ => None end.
Definition error_fields (c : error_call) : option (list (bytes * variant)) :=
  match c with ECallFields f => Some f | _ => None end.

(** Calls with values that exist in Rust and survive the wire; the frame is not
    edited by hand. *)
Definition plain_sender_call (c : sender_call) : Prop :=
  match c with SCallMaxSize n => unsigned 64 n | SCallFrame _ => False end.
Definition plain_receiver_call (c : receiver_call) : Prop :=
  match c with
  | RCallMaxSize n => unsigned 64 n
  | RCallProperty k v => text k /\ optional legal_value v
  | RCallCapabilities l => legal_symbols l
  | RCallFrame _ => False
  end.
Definition plain_session_call (c : session_call) : Prop :=
  match c with
  | CallOffered l | CallDesired l => legal_symbols l
  | CallProperty k v => text k /\ legal_value v
  end.
Definition plain_error_call (c : error_call) : Prop :=
  match c with ECallText t => text t | ECallFields f => legal_pairs f end.

(** The value under a key of a table that may be absent. *)
Definition has_entry (k : bytes) (m : option (list (bytes * variant))) (v : variant) : Prop :=
  exists l, m = Some l /\ In (k, v) l.
(** The frame is read by the peer as it was written. *)
Definition arrives_whole (f : frame) : Prop :=
  blen (enc_frame f) < 2 ^ 32 -> forall p, dec_frame p (enc_frame f) = Ok (f, []).
(** The terminus of a new link: an address, nothing else. *)
Definition plain_target (address : bytes) : target_t :=
  mk_target (Some address) TerminusDurabilityNone ExpirySessionEnd 0 false None None.
Definition plain_source (address : bytes) (caps : option (list bytes)) : source_t :=
  mk_source (Some address) TerminusDurabilityNone ExpirySessionEnd 0 false None None None None None caps.

(** ** Errors on their way to the other application *)

(** The error a call that closes a link is given. *)
Definition close_error_of (e : ev) : option error_t :=
  match e with
  | EvCloseSender _ x | EvDetachSender _ x | EvCloseReceiver _ x | EvDetachReceiver _ x => x
  | _ => None
  end.
(** The application that looks at the link sees this error: [SenderLink::error]
    gives it; reading from the link gives it once the deliveries are read. *)
Definition shows_error (x : link_ref) (e : error_t) (s : ses) : Prop :=
  match x with
  | LSender a => exists l, nth_error (s_snds s) a = Some l /\ sn_closed l = true /\ sn_error l = Some (ELinkDetached (Some e))
  | LReceiver a =>
      exists l, nth_error (s_rcvs s) a = Some l /\ rc_closed l = true
      /\ forall t, rc_queue l = [] -> fst (poll_recv t l) = RError e
  end.
