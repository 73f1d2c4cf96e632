(** * Specification vocabulary for what a session is given and what it sends: C75 *)

From Verif Require Import Spec SpecProtocol SpecFraming SessionStep.

(** A body that can be sent: it has a faithful wire form and its message format,
    if it brings one, is a [u32]. *)
Definition legal_payload (b : transfer_body) : Prop :=
  sound_body b /\ match b with TBData _ => True | TBMessage m => optional (unsigned 32) (ms_format (msg_parts m)) end.
(** What the peer, the application and the control service hand to a session has a
    faithful wire form ([SpecProtocol.v]: the Rust types, and no value that the codec
    cannot write and read back, C01, C11); an edit of an attach response keeps that. *)
Definition legal_event (e : ev) : Prop :=
  match e with
  | EvFrame f => legal_frame f
  | EvAttach frm | EvAttachSender frm | EvAttachReceiver frm => legal_attach frm
  | EvDetachSender h e | EvDetachReceiver h e => unsigned 32 h /\ optional legal_error e
  | EvSend _ body _ _ format => legal_payload body /\ optional (unsigned 32) format
  | EvCloseSender _ e | EvCloseReceiver _ e => optional legal_error e
  | EvSenderMax _ n | EvReceiverMax _ n => unsigned 64 n
  | EvSettle _ st | EvUpdate _ st => legal_delivery_state st
  | EvCredit _ n => unsigned 32 n
  | EvDisposition disp => legal_disposition disp
  | EvCtlOk _ edit => forall r, legal_attach r -> legal_attach (edit r)
  | EvCtlErr _ e => legal_error e
  | EvFail _ | EvEnd | EvPollSend _ | EvCancelSend _ | EvOnClose _ | EvOnCredit _ | EvWait _ | EvPollWait _
  | EvCancelWait _ | EvDrop _ | EvRecv _ _ | EvGet _ | EvFreeReceiver _ => True
  end.

(** Frames of a session that fit the wire and the limit of the peer. *)
Definition fits (channel max : N) (f : frame) : Prop :=
  blen (enc_amqp_frame (mk_frame channel f)) < 2 ^ 32
  /\ (max = 0 \/ blen (enc_amqp_frame (mk_frame channel f)) <= max).
(** The frames that a peer reads, whatever the pieces the bytes arrive in. *)
Definition read_frames (p : profile) (max : N) (chunks : list bytes) : list frame :=
  map fr_body (rd_frames (read_all (dec_amqp_frame p) max chunks)).
(** An event of a session whose peer has sent [out]: the frames are of those, as they
    are read, and what the application and the control service do is as above. *)
Definition comes_from (out : list frame) (e : ev) : Prop :=
  match e with
  | EvFrame f => exists g, In g out /\ f = received_frame g
  | EvAttach frm => In (FAttach frm) out
  | e => legal_event e
  end.
(** Two sessions that talk to each other and to nobody else. *)
Inductive talk (p q : profile) : ses -> ses -> Prop :=
| talk_start id local rc mfs b id' local' rc' mfs' b' : legal_begin b -> legal_begin b' ->
    talk p q (ses_new id local rc mfs b) (ses_new id' local' rc' mfs' b')
| talk_left s r e s' os : talk p q s r -> comes_from (s_out r) e -> step p e s = EOk (s', os) -> talk p q s' r
| talk_right s r e r' os : talk p q s r -> comes_from (s_out s) e -> step q e r = EOk (r', os) -> talk p q s r'.
