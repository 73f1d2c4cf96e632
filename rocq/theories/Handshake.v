(** * Handshakes: client/connector.rs, server/service.rs, server/handshake.rs,
      server/sasl.rs and the configuration in lib.rs *)

From Coq Require Import Strings.String.
From Verif Require Export Framing.

(** ** The network *)

(** What an endpoint writes during a handshake; the bytes are those of
    [encode_protocol_id], [enc_sasl_frame] and [enc_amqp_frame]. *)
Inductive written : Type := WHeader (i : protocol_id) | WSasl (b : sasl_body) | WFrame (f : amqp_frame).
Definition written_bytes (w : written) : bytes :=
  match w with
  | WHeader i => encode_protocol_id i []
  | WSasl b => enc_sasl_frame b
  | WFrame f => enc_amqp_frame f
  end.

(** ntex-io [IoBoxed], external.  [nt_buf]: read and not yet decoded;
    [nt_reads]: what the following reads return; [nt_closed]: the peer closes
    after that, otherwise it stays silent; [nt_writes]: how many more writes
    succeed, [None] for all; [nt_sent]: what was written. *)
Record net : Type := mk_net {
  nt_buf : bytes;
  nt_reads : list bytes;
  nt_closed : bool;
  nt_writes : option nat;
  nt_sent : list written
}.

(** client/error.rs:8-44 [ConnectError], server/error.rs:52-79
    [HandshakeError], server/error.rs:8-31 [ServerError::Service].  A panic of
    the frame decoder is [HsCodec (CodecPanic _)]. *)
Inductive hs_error : Type :=
| HsProtocol (e : protocol_id_error)
| HsUnexpectedProtocol (exp got : protocol_id)
| HsCodec (e : codec_error)
| HsDisconnected
| HsIo
| HsSasl (c : sasl_code)
| HsExpectOpen (f : amqp_frame)
| HsUnexpected (f : frame)
| HsUnexpectedSasl (b : sasl_body)
| HsService.

(** The outcome of an [async fn] once the network has nothing more to give:
    a value, an error, or still waiting.  The handshake time-out
    (connector.rs:121, service.rs:172-180) turns waiting into an error. *)
Inductive hs (A : Type) : Type := HOk (a : A) (n : net) | HErr (e : hs_error) (n : net) | HWait (n : net).
Arguments HOk {A} _ _.
Arguments HErr {A} _ _.
Arguments HWait {A} _.
Definition hbind {A B} (x : hs A) (f : A -> net -> hs B) : hs B :=
  match x with HOk a n => f a n | HErr e n => HErr e n | HWait n => HWait n end.

(** ntex-io [IoBoxed::send], external. *)
Definition send_item (w : written) (n : net) : hs unit :=
  match nt_writes n with
  | Some O => HErr HsIo n
  | Some (S k) => HOk tt (mk_net (nt_buf n) (nt_reads n) (nt_closed n) (Some k) (nt_sent n ++ [w]))
  | None => HOk tt (mk_net (nt_buf n) (nt_reads n) (nt_closed n) None (nt_sent n ++ [w]))
  end.

(** ntex-io [IoBoxed::recv], external: decode what is buffered, read more when
    the decoder asks for it; [None] at the end of the stream. *)
Fixpoint recv_frame {T} (dec : parser T) (max : N) (closed : bool) (writes : option nat)
         (sent : list written) (reads : list bytes) (st : decode_state) (buf : bytes)
  : hs (T * decode_state) :=
  match decode_call dec max st buf with
  | (DFrame t, st, buf) => HOk (t, st) (mk_net buf reads closed writes sent)
  | (DErr e, st, buf) => HErr (HsCodec e) (mk_net buf reads closed writes sent)
  | (DNone, st, buf) =>
      match reads with
      | c :: reads => recv_frame dec max closed writes sent reads st (buf ++ c)
      | [] => if closed then HErr HsDisconnected (mk_net buf [] closed writes sent)
              else HWait (mk_net buf [] closed writes sent)
      end
  end.
Definition recv {T} (dec : parser T) (max : N) (st : decode_state) (n : net) : hs (T * decode_state) :=
  recv_frame dec max (nt_closed n) (nt_writes n) (nt_sent n) (nt_reads n) st (nt_buf n).

Fixpoint recv_header_from (closed : bool) (writes : option nat) (sent : list written)
         (reads : list bytes) (buf : bytes) : hs protocol_id :=
  match decode_protocol_id buf with
  | (inl (Some i), buf) => HOk i (mk_net buf reads closed writes sent)
  | (inr e, buf) => HErr (HsProtocol e) (mk_net buf reads closed writes sent)
  | (inl None, buf) =>
      match reads with
      | c :: reads => recv_header_from closed writes sent reads (buf ++ c)
      | [] => if closed then HErr HsDisconnected (mk_net buf [] closed writes sent)
              else HWait (mk_net buf [] closed writes sent)
      end
  end.
Definition recv_header (n : net) : hs protocol_id :=
  recv_header_from (nt_closed n) (nt_writes n) (nt_sent n) (nt_reads n) (nt_buf n).

Definition pid_eqb (a b : protocol_id) : bool := Byte.eqb (pid_byte a) (pid_byte b).

(** ** Configuration *)

(** lib.rs:61-73 [AmqpServiceConfig] without the time-out of the handshake. *)
Record config : Type := mk_config {
  cf_max_frame_size : N;
  cf_channel_max : N;
  cf_idle_time_out : N;
  cf_hostname : option bytes;
  cf_offered : option (list bytes);
  cf_desired : option (list bytes);
  cf_max_size : N
}.
(** lib.rs:104-116 [AmqpServiceConfig::new]. *)
Definition config_default : config := mk_config 65535 1024 120000 None None None 0.
(** lib.rs:213-232 [to_open]; the random container id is an argument. *)
Definition to_open (container : bytes) (c : config) : open_t :=
  mk_open container (cf_hostname c) (cf_max_frame_size c) (cf_channel_max c)
    (if 0 <? cf_idle_time_out c then Some (cf_idle_time_out c) else None)
    None None (cf_offered c) (cf_desired c) None.

(** lib.rs:77-84 [RemoteServiceConfig], 235-246 [new]. *)
Record remote_config : Type := mk_remote {
  rc_max_frame_size : N;
  rc_channel_max : N;
  rc_idle_time_out : N;
  rc_hostname : option bytes;
  rc_offered : option (list bytes);
  rc_desired : option (list bytes)
}.
Definition remote_new (o : open_t) : remote_config :=
  mk_remote (open_max_frame_size o) (open_channel_max o)
    (match open_idle_time_out o with Some x => x | None => 0 end)
    (open_hostname o) (open_offered_capabilities o) (open_desired_capabilities o).

(** ** The client: client/connector.rs *)

(** protocol/mod.rs:199-201 [SaslInit::prepare_response]. *)
Definition prepare_response (authz authn password : bytes) : bytes :=
  authz ++ [x00] ++ authn ++ [x00] ++ password.

(** client/connector.rs [SaslAuth]. *)
Record sasl_auth : Type := mk_auth { au_authz : bytes; au_authn : bytes; au_password : bytes }.

(** connector.rs:235-290 [connect_plain_inner]; a [Client] is the remote
    configuration and the frame size limit of its codec. *)
Definition connect_plain (p : profile) (container : bytes) (c : config) (hostname : option bytes)
           (n : net) : hs (remote_config * N) :=
  hbind (send_item (WHeader PidAmqp) n) (fun _ n =>
  hbind (recv_header n) (fun proto n =>
  if negb (pid_eqb proto PidAmqp) then HErr (HsUnexpectedProtocol PidAmqp proto) n else
  let open := to_open container c in
  let open := match hostname with
              | Some h => mk_open (open_container_id open) (Some h) (open_max_frame_size open)
                            (open_channel_max open) (open_idle_time_out open)
                            (open_outgoing_locales open) (open_incoming_locales open)
                            (open_offered_capabilities open) (open_desired_capabilities open)
                            (open_properties open)
              | None => open
              end in
  let max := cf_max_frame_size c in
  hbind (send_item (WFrame (mk_frame 0 (FOpen open))) n) (fun _ n =>
  hbind (recv (dec_amqp_frame p) max FrameHeader n) (fun '(f, _) n =>
  match fr_body f with
  | FOpen o => HOk (remote_new o, max) n
  | _ => HErr (HsExpectOpen f) n
  end)))).

(** connector.rs:162-233 [connect_sasl_inner]. *)
Definition connect_sasl (p : profile) (container : bytes) (auth : sasl_auth) (c : config)
           (hostname : option bytes) (n : net) : hs (remote_config * N) :=
  hbind (send_item (WHeader PidSasl) n) (fun _ n =>
  hbind (recv_header n) (fun proto n =>
  if negb (pid_eqb proto PidSasl) then HErr (HsUnexpectedProtocol PidSasl proto) n else
  hbind (recv (dec_sasl_frame p) 0 FrameHeader n) (fun '(_, st) n =>
  let response := prepare_response (au_authz auth) (au_authn auth) (au_password auth) in
  hbind (send_item (WSasl (SbInit (mk_sasl_init (str "PLAIN") (Some response) (cf_hostname c)))) n) (fun _ n =>
  hbind (recv (dec_sasl_frame p) 0 st n) (fun '(b, _) n =>
  match b with
  | SbOutcome o =>
      match sasl_outcome_code o with
      | SaslOk => connect_plain p container c hostname n
      | code => HErr (HsSasl code) n
      end
  | _ => HErr HsDisconnected n
  end))))).

(** connector.rs:101-124 [call], 135-160: with or without SASL. *)
Definition connect (p : profile) (container : bytes) (auth : option sasl_auth) (c : config)
           (hostname : option bytes) (n : net) : hs (remote_config * N) :=
  match auth with
  | Some a => connect_sasl p container a c hostname n
  | None => connect_plain p container c hostname n
  end.

(** ** The server *)

(** What the application's handshake service does, service.rs:282-289, with
    what the API lets it do: server/handshake.rs:52, 136; server/sasl.rs:46,
    119-151, 200, 238.  An application that stops is [DecStop], [None] or
    [false], and the handshake ends with its error. *)
Inductive init_decision : Type := DecStop | DecChallenge (data : bytes) | DecOutcome (c : sasl_code).
Record application : Type := mk_app {
  (** with a plain connection: wait for the Open frame? *)
  ap_plain : bool;
  (** with SASL: the mechanisms to offer *)
  ap_mechanisms : option (list bytes);
  ap_init : sasl_init_t -> init_decision;
  ap_response : sasl_init_t -> sasl_response_t -> option sasl_code;
  (** having announced this outcome: wait for the Open frame? *)
  ap_proceed : sasl_code -> bool;
  (** acknowledge? *)
  ap_ack : open_t -> bool
}.

(** handshake.rs:52-78 [HandshakeAmqp::open] and, the same code,
    sasl.rs:252-282; the codec has no size limit. *)
Definition server_open (p : profile) (a : application) (n : net) : hs open_t :=
  hbind (recv (dec_amqp_frame p) 0 FrameHeader n) (fun '(f, _) n =>
  match fr_body f with
  | FOpen o => if ap_ack a o then HOk o n else HErr HsService n
  | f => HErr (HsUnexpected f) n
  end).

(** sasl.rs:238-291 [SaslSuccess::open], called or not. *)
Definition sasl_open (p : profile) (a : application) (c : sasl_code) (n : net) : hs open_t :=
  if negb (ap_proceed a c) then HErr HsService n else
  hbind (recv_header n) (fun proto n =>
  if pid_eqb proto PidAmqp
  then hbind (send_item (WHeader PidAmqp) n) (fun _ n => server_open p a n)
  else HErr (HsUnexpectedProtocol PidAmqp proto) n).

(** sasl.rs:46-77 [Sasl::init], 124-148 [challenge_with], 151-172 and 200-226
    [outcome]; after a challenge a further SASL frame is awaited. *)
Definition server_sasl (p : profile) (a : application) (n : net) : hs open_t :=
  match ap_mechanisms a with
  | None => HErr HsService n
  | Some ms =>
  hbind (send_item (WSasl (SbMechanisms (mk_sasl_mechanisms ms))) n) (fun _ n =>
  hbind (recv (dec_sasl_frame p) 0 FrameHeader n) (fun '(b, st) n =>
  match b with
  | SbInit i =>
      match ap_init a i with
      | DecStop => HErr HsService n
      | DecOutcome c =>
          hbind (send_item (WSasl (SbOutcome (mk_sasl_outcome c None))) n) (fun _ n =>
          sasl_open p a c n)
      | DecChallenge d =>
          hbind (send_item (WSasl (SbChallenge (mk_sasl_challenge d))) n) (fun _ n =>
          hbind (recv (dec_sasl_frame p) 0 st n) (fun '(b, st) n =>
          match b with
          | SbResponse r =>
              match ap_response a i r with
              | None => HErr HsService n
              | Some c =>
                  hbind (send_item (WSasl (SbOutcome (mk_sasl_outcome c None))) n) (fun _ n =>
                  hbind (recv (dec_sasl_frame p) 0 st n) (fun '(_, _) n =>
                  sasl_open p a c n))
              end
          | b => HErr (HsUnexpectedSasl b) n
          end))
      end
  | b => HErr (HsUnexpectedSasl b) n
  end))
  end.

(** service.rs:264-319 [handshake]; the result is the peer's Open, from which
    the connection is built, and the frame size limit of the codec. *)
Definition accept (p : profile) (container : bytes) (c : config) (a : application) (n : net)
  : hs (remote_config * N) :=
  hbind (recv_header n) (fun proto n =>
  match proto with
  | PidTls => HErr (HsUnexpectedProtocol PidAmqp PidTls) n
  | _ =>
      hbind (send_item (WHeader proto) n) (fun _ n =>
      hbind (if pid_eqb proto PidAmqp
             then if ap_plain a then server_open p a n else HErr HsService n
             else server_sasl p a n) (fun o n =>
      hbind (send_item (WFrame (mk_frame 0 (FOpen (to_open container c)))) n) (fun _ n =>
      HOk (remote_new o, cf_max_size c) n)))
  end).
