(** * Specification vocabulary for handshakes *)

From Coq Require Import Strings.String.
From Verif Require Import Framing Spec SpecProtocol SpecFraming Handshake.

(** Everything the peer has sent and will send that is not consumed yet. *)
Definition peer_bytes (n : net) : bytes := nt_buf n ++ concat (nt_reads n).

(** The protocol headers of the AMQP specification. *)
Definition header_bytes (i : protocol_id) : bytes :=
  [x41; x4d; x51; x50; match i with PidAmqp => x00 | PidTls => x02 | PidSasl => x03 end; x01; x00; x00].

(** The stream starts with this header, with this SASL frame, with this AMQP
    frame of at most [max] bytes (0: any size); [rest] follows. *)
Definition said_header (i : protocol_id) (stream rest : bytes) : Prop := stream = header_bytes i ++ rest.
Definition said_sasl (p : profile) (b : sasl_body) (stream rest : bytes) : Prop :=
  exists size c, stream = frame_bytes size c ++ rest /\ piece_ok (dec_sasl_frame p) 0 (size, c, b).
Definition said_frame (p : profile) (max : N) (f : amqp_frame) (stream rest : bytes) : Prop :=
  exists size c, stream = frame_bytes size c ++ rest /\ piece_ok (dec_amqp_frame p) max (size, c, f).

(** A peer that agrees to plain AMQP and opens the connection with [o]. *)
Definition said_open (p : profile) (max : N) (o : open_t) (stream rest : bytes) : Prop :=
  exists s channel, said_header PidAmqp stream s /\ said_frame p max (mk_frame channel (FOpen o)) s rest.

(** A server that agrees to SASL, sends the frame [first], announces [code]. *)
Definition said_outcome (p : profile) (first : sasl_body) (code : sasl_code) (stream rest : bytes) : Prop :=
  exists s1 s2 data, said_header PidSasl stream s1 /\ said_sasl p first s1 s2
  /\ said_sasl p (SbOutcome (mk_sasl_outcome code data)) s2 rest.

(** A connection is handed out; an error is; the credentials have been sent. *)
Definition connected {A} (r : hs A) (a : A) : Prop := exists n, r = HOk a n.
Definition failed {A} (r : hs A) : Prop := exists e n, r = HErr e n.
Definition failed_with {A} (r : hs A) (e : hs_error) : Prop := exists n, r = HErr e n.
Definition net_of {A} (r : hs A) : net := match r with HOk _ n | HErr _ n | HWait n => n end.
Definition sent_init {A} (r : hs A) : Prop := exists i, In (WSasl (SbInit i)) (nt_sent (net_of r)).
Definition writable (n : net) : Prop := nt_writes n = None.

(** A network on which nothing has happened, all writes succeed and the peer
    sends [stream] in these reads, then closes. *)
Definition net0 (reads : list bytes) : net := mk_net [] reads true None [].

(** The application goes on after an outcome only if it is [SaslOk]. *)
Definition careful (a : application) : Prop := forall c, ap_proceed a c = true -> c = SaslOk.

(** The client's side of a SASL exchange: the header, the initial frame, and
    after a challenge, the response. *)
Definition said_init (p : profile) (i : sasl_init_t) (stream rest : bytes) : Prop :=
  exists s, said_header PidSasl stream s /\ said_sasl p (SbInit i) s rest.

(** What the client and the application said when SASL ended with [c]. *)
Definition authenticated (p : profile) (a : application) (c : sasl_code) (stream rest : bytes) : Prop :=
  exists i s, said_init p i stream s /\
  ((ap_init a i = DecOutcome c /\ rest = s)
   \/ exists d r extra s1, ap_init a i = DecChallenge d /\ said_sasl p (SbResponse r) s s1
      /\ ap_response a i r = Some c /\ said_sasl p extra s1 rest).

(** The Open frame of a configuration: what is configured, and no idle time-out if
    that is 0.  A client announces the host name it was asked to connect to. *)
Definition announced (container : bytes) (c : config) (hostname : option bytes) : open_t :=
  {| open_container_id := container; open_hostname := hostname;
     open_max_frame_size := cf_max_frame_size c; open_channel_max := cf_channel_max c;
     open_idle_time_out := match cf_idle_time_out c with 0 => None | t => Some t end;
     open_outgoing_locales := None; open_incoming_locales := None;
     open_offered_capabilities := cf_offered c; open_desired_capabilities := cf_desired c;
     open_properties := None |}.
Definition own_open (container : bytes) (c : config) (hostname : option bytes) : open_t :=
  announced container c (match hostname with Some h => Some h | None => cf_hostname c end).
(** What an endpoint knows of the other one after its Open frame. *)
Definition learned (o : open_t) : remote_config :=
  {| rc_max_frame_size := open_max_frame_size o; rc_channel_max := open_channel_max o;
     rc_idle_time_out := match open_idle_time_out o with Some t => t | None => 0 end;
     rc_hostname := open_hostname o;
     rc_offered := open_offered_capabilities o; rc_desired := open_desired_capabilities o |}.
Definition opens (o : open_t) : amqp_frame := mk_frame 0 (FOpen o).
Definition small_sasl (b : sasl_body) : Prop := legal_sasl b /\ blen (enc_sasl_frame b) < 2 ^ 32.
(** The credentials as mechanism PLAIN (RFC 4616), and how a server reads them. *)
Definition plain_message (authz authn password : bytes) : bytes := authz ++ x00 :: authn ++ x00 :: password.
Definition plain_init (au : sasl_auth) (c : config) : sasl_init_t :=
  mk_sasl_init (str "PLAIN") (Some (plain_message (au_authz au) (au_authn au) (au_password au))) (cf_hostname c).
Fixpoint cut_nul (b : bytes) : bytes * bytes :=
  match b with
  | [] => ([], [])
  | x :: b => if Byte.eqb x x00 then ([], b) else let (p, q) := cut_nul b in (x :: p, q)
  end.
Definition plain_read (b : bytes) : bytes * bytes * bytes :=
  let (authz, b) := cut_nul b in let (authn, password) := cut_nul b in (authz, authn, password).
