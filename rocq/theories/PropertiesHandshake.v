(** * Theorems about handshakes: C43 - C45, C53 - C56

    Vocabulary: [SpecHandshake.v].  Model: [Handshake.v] over the codec of
    [Framing.v].  The peer is any byte stream cut into any reads, which then
    ends or stays silent; writes may start to fail at any point. *)

From Coq Require Import Strings.String.
From Verif Require Import Framing Spec SpecProtocol SpecFraming Handshake SpecHandshake.
From Verif Require Import HandshakeProofs HandshakeEnds.

(** ** Concrete peers used below *)
Definition some_open : open_t :=
  mk_open (str "peer") None 4096 7 (Some 30000) None None None None None.
Definition bad_outcome : sasl_body := SbOutcome (mk_sasl_outcome SaslAuth None).
Definition good_outcome : sasl_body := SbOutcome (mk_sasl_outcome SaslOk None).
Definition plain_only : sasl_body := SbMechanisms (mk_sasl_mechanisms [str "PLAIN"]).
Definition some_init : sasl_init_t := mk_sasl_init (str "PLAIN") (Some [x00; x75; x00; x70]) None.
Definition says (l : list written) : net := net0 (map (fun b => [b]) (flat_map written_bytes l)).
Definition some_auth : sasl_auth := mk_auth [] (str "u") (str "p").
(** An application that decides on [code] and goes on whatever it is. *)
Definition decides (code : sasl_code) (on : sasl_code -> bool) : application :=
  mk_app true (Some [str "PLAIN"]) (fun _ => DecOutcome code) (fun _ _ => None) on (fun _ => true).
(** An application that challenges. *)
Definition challenges : application :=
  mk_app true (Some [str "X"]) (fun _ => DecChallenge [x2a]) (fun _ _ => Some SaslOk) (fun _ => true) (fun _ => true).

Lemma one_by_one (l : bytes) : concat (map (fun b => [b]) l) = l.
Proof. induction l as [|a l IH]; [reflexivity|cbn; rewrite IH; reflexivity]. Qed.
Lemma says_bytes l : peer_bytes (says l) = flat_map written_bytes l.
Proof. apply one_by_one. Qed.

(** ** C43 *)
(** Without SASL a connection is handed out exactly if the server sends the
    AMQP header and then an Open frame, and it describes that Open frame. *)
Theorem C43_plain : forall p container c hostname n o max,
  connected (connect_plain p container c hostname n) (o, max) ->
  exists open rest, said_open p (cf_max_frame_size c) open (peer_bytes n) rest /\ o = learned open.
Proof.
  intros p ct c h n o m [n' H]. apply plain_sound in H. destruct H as [x [H [E _]]]. eauto.
Qed.
Print Assumptions C43_plain.
Theorem C43_plain_connects : forall p container c hostname n open rest, writable n ->
  said_open p (cf_max_frame_size c) open (peer_bytes n) rest ->
  connected (connect_plain p container c hostname n) (learned open, cf_max_frame_size c).
Proof.
  intros p ct c h n o rest W H. destruct (plain_complete p ct c h n o rest W H) as [n' [E _]]. exists n'. exact E.
Qed.
Print Assumptions C43_plain_connects.
(** With SASL: exactly if before that it sends the SASL header, one SASL frame
    and the outcome [SaslOk].  Missing: that one frame need not be the list of
    mechanisms, see the next theorem. *)
Theorem C43_sasl_partial : forall p container auth c hostname n o max,
  connected (connect_sasl p container auth c hostname n) (o, max) ->
  exists first s open rest, said_outcome p first SaslOk (peer_bytes n) s
  /\ said_open p (cf_max_frame_size c) open s rest /\ o = learned open.
Proof.
  intros p ct au c h n o m [n' H]. apply sasl_sound in H. destruct H as [f [s [x [H1 [H2 [E _]]]]]]. eauto 10.
Qed.
Print Assumptions C43_sasl_partial.
Theorem C43_sasl_connects : forall p container auth c hostname n first s open rest, writable n ->
  said_outcome p first SaslOk (peer_bytes n) s -> said_open p (cf_max_frame_size c) open s rest ->
  connected (connect_sasl p container auth c hostname n) (learned open, cf_max_frame_size c).
Proof.
  intros p ct au c h n f s o rest W H1 H2.
  destruct (sasl_complete p ct au c h n f s o rest W H1 H2) as [n' [E _]]. exists n'. exact E.
Qed.
Print Assumptions C43_sasl_connects.
(** The server may begin with the announcement that authentication failed. *)
Theorem C43_mechanisms_refuted : exists reads,
  concat reads = flat_map written_bytes [WHeader PidSasl; WSasl bad_outcome; WSasl good_outcome; WHeader PidAmqp;
                                         WFrame (mk_frame 0 (FOpen some_open))]
  /\ forall p, connected (connect p (str "me") (Some some_auth) config_default None (net0 reads))
       (learned some_open, 65535).
Proof. eexists [_]. split; [apply app_nil_r|]. intros []; eexists; vm_compute; reflexivity. Qed.
Print Assumptions C43_mechanisms_refuted.
(** A refusal is reported as such; whatever else the server does before it
    closes, the outcome is a connection or an error. *)
Theorem C43_refusal : forall p container auth c hostname n first code s, writable n -> code <> SaslOk ->
  said_outcome p first code (peer_bytes n) s ->
  failed_with (connect_sasl p container auth c hostname n) (HsSasl code).
Proof. exact sasl_refused. Qed.
Print Assumptions C43_refusal.
Theorem C43_error_otherwise : forall p container auth c hostname n, nt_closed n = true ->
  (forall a, ~ connected (connect p container auth c hostname n) a) ->
  failed (connect p container auth c hostname n).
Proof.
  intros p ct au c h n Hc N. destruct (connect p ct au c h n) as [a n'|e n'|n'] eqn:E.
  - exfalso. apply (N a). exists n'. reflexivity.
  - exists e, n'. reflexivity.
  - exfalso. destruct au as [au|]; cbn [connect] in E.
    + exact (sasl_closed _ _ _ _ _ _ _ Hc E).
    + exact (plain_closed _ _ _ _ _ _ Hc E).
Qed.
Print Assumptions C43_error_otherwise.
(** The streams exist, one byte per read; one of them ends too early. *)
Example C43_case :
  connected (connect Debug (str "me") None config_default None
               (says [WHeader PidAmqp; WFrame (mk_frame 3 (FOpen some_open))])) (learned some_open, 65535)
  /\ connected (connect Debug (str "me") (Some some_auth) config_default (Some (str "h"))
       (says [WHeader PidSasl; WSasl plain_only; WSasl good_outcome; WHeader PidAmqp;
              WFrame (mk_frame 0 (FOpen some_open))])) (learned some_open, 65535)
  /\ failed_with (connect Debug (str "me") (Some some_auth) config_default None
       (says [WHeader PidSasl; WSasl plain_only; WSasl bad_outcome])) (HsSasl SaslAuth)
  /\ failed_with (connect Debug (str "me") None config_default None (says [WHeader PidAmqp])) HsDisconnected
  /\ failed_with (connect Debug (str "me") None config_default None (says [WHeader PidSasl]))
       (HsUnexpectedProtocol PidAmqp PidSasl)
  /\ failed_with (connect Debug (str "me") None config_default None
       (says [WHeader PidAmqp; WFrame (mk_frame 0 FEmpty)])) (HsExpectOpen (mk_frame 0 FEmpty)).
Proof.
  repeat match goal with |- _ /\ _ => split end; eexists; vm_compute; reflexivity.
Qed.

(** ** C44 *)
(** A connection is accepted only if the client sent the AMQP header and an
    Open frame the application acknowledged; if it began with the SASL header,
    only after the outcome the application announced, with which the
    application went on.  Missing: that outcome need not be [SaslOk], see below. *)
Theorem C44_accepted_partial : forall p container c a n o max,
  connected (accept p container c a n) (o, max) ->
  exists open s rest, o = learned open /\ ap_ack a open = true /\ said_open p 0 open s rest
  /\ ((s = peer_bytes n /\ ap_plain a = true)
      \/ exists code, authenticated p a code (peer_bytes n) s /\ ap_proceed a code = true).
Proof.
  intros p ct c a n o m [n' H]. apply accept_sound in H.
  destruct H as [x [E [_ [K [_ [[A O]|[code [s [A [A1 [_ O]]]]]]]]]]]; eauto 15.
Qed.
Print Assumptions C44_accepted_partial.
(** An application that goes on only after [SaslOk] accepts only then. *)
Theorem C44_careful_partial : forall p container c a n o max, careful a ->
  connected (accept p container c a n) (o, max) ->
  (exists rest, said_header PidAmqp (peer_bytes n) rest)
  \/ exists s, authenticated p a SaslOk (peer_bytes n) s.
Proof.
  intros p ct c a n o m C H. apply C44_accepted_partial in H.
  destruct H as [x [s [rest [_ [_ [[s' [ch [H _]]] [[-> _]|[code [A A1]]]]]]]]]; [eauto|].
  apply C in A1. subst code. eauto.
Qed.
Print Assumptions C44_careful_partial.
(** The failure of the authentication was declared and announced, and the
    handshake goes on to a connection. *)
Theorem C44_failure_refuted : exists a reads, ap_init a some_init = DecOutcome SaslAuth
  /\ concat reads = flat_map written_bytes [WHeader PidSasl; WSasl (SbInit some_init); WHeader PidAmqp;
                                            WFrame (mk_frame 0 (FOpen some_open))]
  /\ forall p, connected (accept p (str "me") config_default a (net0 reads)) (learned some_open, 0).
Proof.
  exists (decides SaslAuth (fun _ => true)). eexists [_]. split; [reflexivity|]. split; [apply app_nil_r|].
  intros []; eexists; vm_compute; reflexivity.
Qed.
Print Assumptions C44_failure_refuted.
(** And such clients are accepted; any other that closes gets an error. *)
Theorem C44_plain_accepts : forall p container c a n open rest, writable n ->
  ap_plain a = true -> ap_ack a open = true -> said_open p 0 open (peer_bytes n) rest ->
  connected (accept p container c a n) (learned open, cf_max_size c).
Proof.
  intros p ct c a n o rest W A K H. destruct (accept_plain_complete p ct c a n o rest W A K H) as [n' [E _]].
  exists n'. exact E.
Qed.
Print Assumptions C44_plain_accepts.
Theorem C44_sasl_accepts : forall p container c a mechanisms n init code s open rest, writable n ->
  ap_mechanisms a = Some mechanisms -> ap_init a init = DecOutcome code -> ap_proceed a code = true ->
  ap_ack a open = true -> said_init p init (peer_bytes n) s -> said_open p 0 open s rest ->
  connected (accept p container c a n) (learned open, cf_max_size c).
Proof.
  intros p ct c a ms n i code s o rest W M AI A K H1 H2.
  destruct (accept_sasl_complete p ct c a ms n i code s o rest W M AI A K H1 H2) as [n' [E _]]. exists n'. exact E.
Qed.
Print Assumptions C44_sasl_accepts.
Theorem C44_error_otherwise : forall p container c a n, nt_closed n = true ->
  (forall x, ~ connected (accept p container c a n) x) -> failed (accept p container c a n).
Proof.
  intros p ct c a n Hc N. destruct (accept p ct c a n) as [x n'|e n'|n'] eqn:E.
  - exfalso. apply (N x). exists n'. reflexivity.
  - exists e, n'. reflexivity.
  - exfalso. exact (accept_closed _ _ _ _ _ _ Hc E).
Qed.
Print Assumptions C44_error_otherwise.
Example C44_case :
  careful (decides SaslOk (fun c => match c with SaslOk => true | _ => false end))
  /\ connected (accept Debug (str "me") config_default
       (decides SaslOk (fun c => match c with SaslOk => true | _ => false end))
       (says [WHeader PidSasl; WSasl (SbInit some_init); WHeader PidAmqp; WFrame (mk_frame 0 (FOpen some_open))]))
       (learned some_open, 0)
  /\ connected (accept Debug (str "me") config_default (decides SaslOk (fun _ => true))
       (says [WHeader PidAmqp; WFrame (mk_frame 0 (FOpen some_open))])) (learned some_open, 0)
  /\ failed_with (accept Debug (str "me") config_default
       (decides SaslAuth (fun c => match c with SaslOk => true | _ => false end))
       (says [WHeader PidSasl; WSasl (SbInit some_init); WHeader PidAmqp; WFrame (mk_frame 0 (FOpen some_open))]))
       HsService
  /\ failed_with (accept Debug (str "me") config_default (decides SaslOk (fun _ => true)) (says [WHeader PidTls]))
       (HsUnexpectedProtocol PidAmqp PidTls).
Proof.
  split; [intros []; cbn; congruence|].
  repeat match goal with |- _ /\ _ => split end; eexists; vm_compute; reflexivity.
Qed.

(** ** C45.  The response of PLAIN is what a server takes apart again. *)
Theorem C45_read : forall authz authn password, ~ In x00 authz -> ~ In x00 authn ->
  plain_read (prepare_response authz authn password) = (authz, authn, password).
Proof. exact response_read. Qed.
Print Assumptions C45_read.
Theorem C45_unambiguous : forall authz authn password authz' authn' password',
  ~ In x00 authz -> ~ In x00 authn -> ~ In x00 authz' -> ~ In x00 authn' ->
  prepare_response authz authn password = prepare_response authz' authn' password' ->
  authz = authz' /\ authn = authn' /\ password = password'.
Proof. exact response_injective. Qed.
Print Assumptions C45_unambiguous.
(** The condition is needed. *)
Theorem C45_nul_needed : exists authn authn' password password' : bytes, authn <> authn'
  /\ prepare_response [] authn password = prepare_response [] authn' password'.
Proof. exists [x61; x00], [x61], [x62], [x00; x62]. split; [discriminate|reflexivity]. Qed.
Print Assumptions C45_nul_needed.
Example C45_case : prepare_response (str "z") (str "user") (str "pw")
  = [x7a; x00; x75; x73; x65; x72; x00; x70; x77] /\ ~ In x00 (str "user").
Proof. split; [reflexivity|]. vm_compute. intuition discriminate. Qed.

(** ** C53.  The credentials are written only to a server that has answered
    with the SASL header and a SASL frame. *)
Theorem C53_credentials : forall p container auth c hostname n,
  nt_sent n = [] -> sent_init (connect p container auth c hostname n) ->
  auth <> None /\ exists s first rest, said_header PidSasl (peer_bytes n) s /\ said_sasl p first s rest.
Proof.
  intros p ct [au|] c h n S H; cbn [connect] in H.
  - split; [discriminate|]. eapply credentials; [|exact H]. rewrite S. intros i [].
  - exfalso. destruct H as [i H]. revert H. unfold connect_plain.
    pose proof (send_net (WHeader PidAmqp) n) as G1.
    destruct (send_item (WHeader PidAmqp) n) as [u n1|e n1|n1]; cbn [hbind net_of] in *; rewrite S in G1;
      try (intros H; destruct G1 as [G|G]; rewrite G in H; cbn in H; intuition discriminate).
    pose proof (recv_header_io n1) as [_ [_ G2]].
    assert (N1 : ~ In (WSasl (SbInit i)) (nt_sent n1)) by (destruct G1 as [-> | ->]; cbn; intuition discriminate).
    destruct (recv_header n1) as [proto n2|e n2|n2]; cbn [hbind net_of] in *; rewrite <- G2 in N1; auto.
    destruct (negb _); cbn [net_of]; auto. cbv zeta.
    match goal with |- context [send_item ?w n2] => pose proof (send_net w n2) as G3; destruct (send_item w n2) as [u3 n3|e n3|n3] end;
      cbn [hbind net_of] in *;
      (assert (N3 : ~ In (WSasl (SbInit i)) (nt_sent n3));
       [destruct G3 as [-> | ->]; [exact N1|]; rewrite in_app_iff; cbn; intuition discriminate|]); auto.
    pose proof (recv_io (dec_amqp_frame p) (cf_max_frame_size c) n3) as [_ [_ G4]].
    destruct (recv (dec_amqp_frame p) (cf_max_frame_size c) FrameHeader n3) as [[f st] n4|e n4|n4];
      cbn [hbind net_of] in *; rewrite <- G4 in N3; auto.
    destruct (fr_body f); cbn [net_of]; auto.
Qed.
Print Assumptions C53_credentials.
Example C53_case :
  sent_init (connect Debug (str "me") (Some some_auth) config_default None (says [WHeader PidSasl; WSasl plain_only]))
  /\ nt_sent (net_of (connect Debug (str "me") (Some some_auth) config_default None (says [WHeader PidAmqp])))
     = [WHeader PidSasl].
Proof. split; [eexists; vm_compute; right; left; reflexivity|vm_compute; reflexivity]. Qed.

(** ** C54.  A client that answers a challenge as the AMQP specification says,
    its AMQP header following the response, is never accepted. *)
Theorem C54_challenge_refuted : forall p container c a n init challenge response s s1 s2,
  said_init p init (peer_bytes n) s -> ap_init a init = DecChallenge challenge ->
  said_sasl p (SbResponse response) s s1 -> said_header PidAmqp s1 s2 -> blen s2 < 2 ^ 30 ->
  forall x, ~ connected (accept p container c a n) x.
Proof.
  intros p ct c a n i d r s s1 s2 HI AI HR HH L x [n' H]. exact (challenge_stalls _ _ _ _ _ _ _ _ _ _ _ HI AI HR HH L x n' H).
Qed.
Print Assumptions C54_challenge_refuted.
(** It is accepted if a superfluous SASL frame comes between. *)
Theorem C54_challenge_partial : exists reads,
  concat reads = flat_map written_bytes [WHeader PidSasl; WSasl (SbInit some_init);
    WSasl (SbResponse (mk_sasl_response [x01])); WSasl good_outcome; WHeader PidAmqp;
    WFrame (mk_frame 0 (FOpen some_open))]
  /\ forall p, connected (accept p (str "me") config_default challenges (net0 reads)) (learned some_open, 0).
Proof. eexists [_]. split; [apply app_nil_r|]. intros []; eexists; vm_compute; reflexivity. Qed.
Print Assumptions C54_challenge_partial.
Example C54_case :
  let peer := says [WHeader PidSasl; WSasl (SbInit some_init); WSasl (SbResponse (mk_sasl_response [x01]));
                    WHeader PidAmqp; WFrame (mk_frame 0 (FOpen some_open))] in
  failed_with (accept Debug (str "me") config_default challenges peer) HsDisconnected
  /\ exists s s1 s2, said_init Debug some_init (peer_bytes peer) s
     /\ said_sasl Debug (SbResponse (mk_sasl_response [x01])) s s1 /\ said_header PidAmqp s1 s2 /\ blen s2 < 2 ^ 30.
Proof.
  cbv zeta. split; [eexists; vm_compute; reflexivity|].
  rewrite says_bytes. cbn [flat_map]. do 3 eexists. split.
  - eexists. split; [apply wrote_header|]. apply wrote_sasl; vm_compute; auto.
  - split; [apply wrote_sasl; vm_compute; auto|]. split; [apply wrote_header|vm_compute; reflexivity].
Qed.

(** ** C55.  Frame size limits hold before the connection is established: on
    the client for the Open frame (C43_plain says so: [said_open] bounds the
    frame by the limit); on the server they do not. *)
Theorem C55_client_partial : forall p container c hostname n o max,
  connected (connect_plain p container c hostname n) (o, max) -> max <> 0 ->
  exists s size content rest, peer_bytes n = header_bytes PidAmqp ++ s /\ s = frame_bytes size content ++ rest
  /\ size <= max.
Proof.
  intros p ct c h n o m [n' H] M. apply plain_sound in H.
  destruct H as [x [[s [ch [H1 [size [content [H2 [_ [_ [_ [H3 _]]]]]]]]]] [_ [-> _]]]].
  exists s, size, content, (peer_bytes n'). repeat split; auto. destruct H3; [contradiction|assumption].
Qed.
Print Assumptions C55_client_partial.
Definition large_open : open_t := mk_open (repeat x61 600) None 4096 7 None None None None None None.
Theorem C55_server_refuted : exists c reads, cf_max_size c = 512
  /\ concat reads = flat_map written_bytes [WHeader PidAmqp; WFrame (mk_frame 0 (FOpen large_open))]
  /\ 512 < blen (enc_amqp_frame (mk_frame 0 (FOpen large_open)))
  /\ forall p, connected (accept p (str "me") c (decides SaslOk (fun _ => true)) (net0 reads)) (learned large_open, 512).
Proof.
  exists (mk_config 65535 1024 120000 None None None 512). eexists [_].
  split; [reflexivity|]. split; [apply app_nil_r|]. split; [vm_compute; reflexivity|].
  intros []; eexists; vm_compute; reflexivity.
Qed.
Print Assumptions C55_server_refuted.
Example C55_case : failed_with (connect Debug (str "me") None (mk_config 512 1024 0 None None None 0) None
    (says [WHeader PidAmqp; WFrame (mk_frame 0 (FOpen large_open))])) (HsCodec MaxSizeExceeded).
Proof. eexists; vm_compute; reflexivity. Qed.

(** ** C56.  A client and a server of this library connect and know each
    other's configuration: what each writes is what the other reads. *)
Theorem C56_plain : forall p ctc cts cc cs hostname a nc ns,
  let oc := own_open ctc cc hostname in let os := announced cts cs (cf_hostname cs) in
  legal_amqp_frame (opens oc) -> legal_amqp_frame (opens os) ->
  cf_max_frame_size cc = 0 \/ blen (enc_amqp_frame (opens os)) <= cf_max_frame_size cc ->
  ap_plain a = true -> ap_ack a oc = true -> writable nc -> writable ns ->
  nt_sent nc = [] -> nt_sent ns = [] ->
  peer_bytes nc = flat_map written_bytes [WHeader PidAmqp; WFrame (opens os)] ->
  peer_bytes ns = flat_map written_bytes [WHeader PidAmqp; WFrame (opens oc)] ->
  exists nc' ns', connect_plain p ctc cc hostname nc = HOk (learned os, cf_max_frame_size cc) nc'
  /\ accept p cts cs a ns = HOk (learned oc, cf_max_size cs) ns'
  /\ flat_map written_bytes (nt_sent nc') = peer_bytes ns /\ flat_map written_bytes (nt_sent ns') = peer_bytes nc
  /\ peer_bytes nc' = [] /\ peer_bytes ns' = [].
Proof. intros p ctc cts cc cs hostname a nc ns oc os. unfold os. rewrite <- to_open_announced. apply both_plain. Qed.
Print Assumptions C56_plain.
Theorem C56_sasl : forall p ctc cts auth cc cs hostname a mechanisms nc ns,
  let oc := own_open ctc cc hostname in let os := announced cts cs (cf_hostname cs) in let i := plain_init auth cc in
  legal_amqp_frame (opens oc) -> legal_amqp_frame (opens os) ->
  small_sasl (SbInit i) -> small_sasl (SbMechanisms (mk_sasl_mechanisms mechanisms)) ->
  cf_max_frame_size cc = 0 \/ blen (enc_amqp_frame (opens os)) <= cf_max_frame_size cc ->
  ap_mechanisms a = Some mechanisms -> ap_init a i = DecOutcome SaslOk -> ap_proceed a SaslOk = true ->
  ap_ack a oc = true -> writable nc -> writable ns ->
  nt_sent nc = [] -> nt_sent ns = [] ->
  peer_bytes nc = flat_map written_bytes [WHeader PidSasl; WSasl (SbMechanisms (mk_sasl_mechanisms mechanisms));
       WSasl (SbOutcome (mk_sasl_outcome SaslOk None)); WHeader PidAmqp; WFrame (opens os)] ->
  peer_bytes ns = flat_map written_bytes [WHeader PidSasl; WSasl (SbInit i); WHeader PidAmqp; WFrame (opens oc)] ->
  exists nc' ns', connect_sasl p ctc auth cc hostname nc = HOk (learned os, cf_max_frame_size cc) nc'
  /\ accept p cts cs a ns = HOk (learned oc, cf_max_size cs) ns'
  /\ flat_map written_bytes (nt_sent nc') = peer_bytes ns /\ flat_map written_bytes (nt_sent ns') = peer_bytes nc
  /\ peer_bytes nc' = [] /\ peer_bytes ns' = [].
Proof. intros p ctc cts auth cc cs hostname a mechanisms nc ns oc os i. unfold os. rewrite <- to_open_announced. apply both_sasl. Qed.
Print Assumptions C56_sasl.
(** The default configuration, cut into single bytes. *)
Example C56_case :
  let os := announced (str "srv") config_default None in let oc := own_open (str "cli") config_default (Some (str "h")) in
  legal_amqp_frame (opens oc) /\ legal_amqp_frame (opens os)
  /\ small_sasl (SbInit (plain_init some_auth config_default)) /\ small_sasl plain_only
  /\ blen (enc_amqp_frame (opens os)) <= 65535
  /\ rc_idle_time_out (learned os) = 120000 /\ rc_hostname (learned oc) = Some (str "h")
  /\ peer_bytes (says [WHeader PidAmqp; WFrame (opens os)])
     = flat_map written_bytes [WHeader PidAmqp; WFrame (opens os)].
Proof.
  cbv zeta. split; [|split; [|split; [|split; [|split; [|split; [|split]]]]]]; try (vm_compute; reflexivity).
  1,2: split; [vm_compute; reflexivity|split; [|vm_compute; reflexivity]];
    cbn [opens fr_body legal_frame]; unfold legal_open; cbn; repeat split; vm_compute; auto.
  - split; [|vm_compute; reflexivity]. cbn. repeat split; vm_compute; auto.
  - split; [|vm_compute; reflexivity]. cbn. repeat split; try (vm_compute; auto).
  - vm_compute. discriminate.
Qed.
