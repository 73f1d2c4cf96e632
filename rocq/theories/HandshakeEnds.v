(** * The server's handshake as a whole, and a client and a server of this
      library with each other *)

From Coq Require Import Strings.String.
From Verif Require Import Framing Spec SpecProtocol SpecFraming Handshake SpecHandshake.
From Verif Require Import BaseProofs CodecProofs EnumProofs ProtocolGood FrameProofs StreamProofs ProtocolTheorems
  HandshakeProofs.
From Coq Require Import ZifyBool ZifyNat ZifyN Lia.

Lemma accept_sound p ct c a n rc m n' : accept p ct c a n = HOk (rc, m) n' ->
  exists o, rc = remote_new o /\ m = cf_max_size c /\ ap_ack a o = true
  /\ (exists l, nt_sent n' = l ++ [WFrame (mk_frame 0 (FOpen (to_open ct c)))])
  /\ ((ap_plain a = true /\ said_open p 0 o (peer_bytes n) (peer_bytes n'))
      \/ exists code s, authenticated p a code (peer_bytes n) s /\ ap_proceed a code = true
         /\ In (WSasl (SbOutcome (mk_sasl_outcome code None))) (nt_sent n')
         /\ said_open p 0 o s (peer_bytes n')).
Proof.
  unfold accept. intros H. inv_bind H proto n1 E1. apply recv_header_ok in E1. destruct E1 as [P1 [_ [_ S1]]].
  assert (X : exists u n2 o n3 u4 n4, send_item (WHeader proto) n1 = HOk u n2
    /\ (if pid_eqb proto PidAmqp then if ap_plain a then server_open p a n2 else HErr HsService n2
        else server_sasl p a n2) = HOk o n3
    /\ send_item (WFrame (mk_frame 0 (FOpen (to_open ct c)))) n3 = HOk u4 n4
    /\ proto <> PidTls /\ HOk (remote_new o, cf_max_size c) n4 = HOk (rc, m) n').
  { destruct proto; [|discriminate|];
      (inv_bind H u n2 E2; inv_bind H o n3 E3; inv_bind H u4 n4 E4;
       exists u, n2, o, n3, u4, n4; repeat split; auto; discriminate). }
  clear H. destruct X as [u [n2 [o [n3 [u4 [n4 [E2 [E3 [E4 [NT H]]]]]]]]]].
  apply send_ok in E2. destruct E2 as [P2 [_ [S2 _]]].
  apply send_ok in E4. destruct E4 as [P4 [_ [S4 _]]].
  inversion H; subst. exists o. split; [reflexivity|]. split; [reflexivity|].
  destruct (pid_eqb proto PidAmqp) eqn:EP.
  - apply pid_eqb_eq in EP. subst proto. destruct (ap_plain a) eqn:A; [|discriminate].
    apply server_open_sound in E3. destruct E3 as [K [_ [ch P3]]].
    split; [exact K|]. split; [eexists; exact S4|]. left. split; [reflexivity|].
    exists (peer_bytes n2), ch. rewrite P4. rewrite <- P2 in P1. split; [exact P1|exact P3].
  - assert (proto = PidSasl) by (destruct proto; try contradiction; try discriminate; reflexivity). subst proto.
    rewrite <- P2 in P1. destruct (server_sasl_sound p a n2 o n3 _ E3 P1) as [code [s [A [A1 [K [O S3]]]]]].
    split; [exact K|]. split; [eexists; exact S4|]. right. exists code, s. rewrite P4. repeat split; auto.
    rewrite S4. apply in_or_app. left. exact S3.
Qed.

(** The same stream is read in one way only. *)
Lemma said_once {T} (dec : parser T) max t t' s r r' : eight dec -> said dec max t s r -> said dec max t' s r' ->
  t = t' /\ r = r'.
Proof.
  intros H8 H H'. apply (said_call dec max _ _ _ H8) in H. apply (said_call dec max _ _ _ H8) in H'.
  rewrite H in H'. split; congruence.
Qed.
Lemma header_once i j s r r' : said_header i s r -> said_header j s r' -> i = j /\ r = r'.
Proof.
  unfold said_header. intros -> H. destruct i, j; cbn in H; try discriminate; inversion H; auto.
Qed.
Lemma init_once p i i' s r r' : said_init p i s r -> said_init p i' s r' -> i = i' /\ r = r'.
Proof.
  intros [s1 [H1 H2]] [s2 [H3 H4]]. destruct (header_once _ _ _ _ _ H1 H3) as [_ <-].
  destruct (said_once _ _ _ _ _ _ _ (eight_sasl p) H2 H4) as [E ->]. split; [congruence|reflexivity].
Qed.

(** A header where a SASL frame is expected is taken for a frame of a gigabyte. *)
Lemma header_no_frame p b i s r : said_header i s r -> blen r < 2 ^ 30 -> forall r', ~ said_sasl p b s r'.
Proof.
  unfold said_header. intros -> L r' [size [c [E [H4 [H32 [Hc _]]]]]].
  assert (be 4 size = [x41; x4d; x51; x50]) as B.
  { unfold frame_bytes in E. apply (f_equal (firstn 4)) in E.
    rewrite <- app_assoc in E. rewrite (firstn4 (be 4 size)) in E by (rewrite blen_be; lia).
    rewrite (firstn_all2 (n := 4) (be 4 size)) in E by (rewrite length_be; lia). symmetry. exact E. }
  assert (size = 1095586128) as ->.
  { rewrite <- (be_val_be_small 4 size) by exact H32. rewrite B. reflexivity. }
  apply (f_equal blen) in E. unfold frame_bytes in E. rewrite !blen_app, Hc, blen_be in E.
  change (blen (header_bytes i)) with 8 in E. clear - E L. lia.
Qed.

Lemma challenge_stalls p ct c a n i d r s s1 s2 : said_init p i (peer_bytes n) s -> ap_init a i = DecChallenge d ->
  said_sasl p (SbResponse r) s s1 -> said_header PidAmqp s1 s2 -> blen s2 < 2 ^ 30 ->
  forall x n', accept p ct c a n <> HOk x n'.
Proof.
  intros HI AI HR HH L [rc m] n' H. apply accept_sound in H.
  destruct H as [o [_ [_ [_ [_ [[_ [s' [ch [HH' _]]]]|[code [s' [A _]]]]]]]]].
  - destruct HI as [si [HI _]]. destruct (header_once _ _ _ _ _ HI HH') as [E _]. discriminate.
  - destruct A as [i' [s3 [HI' A]]]. destruct (init_once _ _ _ _ _ _ HI HI') as [<- <-].
    destruct A as [[A _]|[d' [r' [extra [s4 [A [HR' [_ HX]]]]]]]]; [congruence|].
    destruct (said_once _ _ _ _ _ _ _ (eight_sasl p) HR HR') as [_ <-].
    exact (header_no_frame p extra _ _ _ HH L _ HX).
Qed.

Lemma accept_closed p ct c a n n' : nt_closed n = true -> accept p ct c a n <> HWait n'.
Proof.
  assert (OC : forall n n', nt_closed n = true -> server_open p a n <> HWait n').
  { clear. intros n n' Hc H. unfold server_open in H.
    apply hbind_wait in H. destruct H as [H|[[f st] [n1 [E1 H]]]]; [apply recv_closed in H; auto|].
    destruct (fr_body f); try discriminate. destruct (ap_ack a x); discriminate. }
  assert (SC : forall code n n', nt_closed n = true -> sasl_open p a code n <> HWait n').
  { clear - OC. intros code n n' Hc H. unfold sasl_open in H. destruct (negb _); [discriminate|].
    apply hbind_wait in H. destruct H as [H|[i [n1 [E1 H]]]]; [apply recv_header_closed in H; auto|].
    apply recv_header_ok in E1. destruct E1 as [_ [C1 _]].
    destruct (pid_eqb _ _); [|discriminate].
    apply hbind_wait in H. destruct H as [H|[u [n2 [E2 H]]]]; [exact (send_closed _ _ _ H)|].
    apply send_ok in E2. destruct E2 as [_ [C2 _]]. apply OC in H; [exact H|congruence]. }
  intros Hc H. unfold accept in H.
  apply hbind_wait in H. destruct H as [H|[i [n1 [E1 H]]]]; [apply recv_header_closed in H; auto|].
  apply recv_header_ok in E1. destruct E1 as [_ [C1 _]].
  assert (X : exists u n2, send_item (WHeader i) n1 = HOk u n2
    /\ (if pid_eqb i PidAmqp then if ap_plain a then server_open p a n2 else HErr HsService n2
        else server_sasl p a n2) = HWait n').
  { destruct i; [|discriminate|];
      (apply hbind_wait in H; destruct H as [H|[u [n2 [E2 H]]]]; [destruct (send_closed _ _ _ H)|];
       apply hbind_wait in H; destruct H as [H|[o [n3 [E3 H]]]]; [eauto|];
       apply hbind_wait in H; destruct H as [H|[u4 [n4 [E4 H]]]]; [destruct (send_closed _ _ _ H)|discriminate]). }
  clear H. destruct X as [u [n2 [E2 H]]]. apply send_ok in E2. destruct E2 as [_ [C2 _]].
  destruct (pid_eqb i PidAmqp).
  { destruct (ap_plain a); [|discriminate]. apply OC in H; [exact H|congruence]. }
  unfold server_sasl in H. destruct (ap_mechanisms a); [|discriminate].
  apply hbind_wait in H. destruct H as [H|[u3 [n3 [E3 H]]]]; [exact (send_closed _ _ _ H)|].
  apply send_ok in E3. destruct E3 as [_ [C3 _]].
  apply hbind_wait in H. destruct H as [H|[[b st] [n4 [E4 H]]]]; [apply recv_closed in H; [exact H|congruence]|].
  apply recv_ok in E4. destruct E4 as [-> [_ [C4 _]]]. destruct b; try discriminate.
  destruct (ap_init a x); [discriminate| |].
  - apply hbind_wait in H. destruct H as [H|[u5 [n5 [E5 H]]]]; [exact (send_closed _ _ _ H)|].
    apply send_ok in E5. destruct E5 as [_ [C5 _]].
    apply hbind_wait in H. destruct H as [H|[[b6 st6] [n6 [E6 H]]]]; [apply recv_closed in H; [exact H|congruence]|].
    apply recv_ok in E6. destruct E6 as [-> [_ [C6 _]]]. destruct b6; try discriminate.
    destruct (ap_response a x x0) as [code|]; [|discriminate].
    apply hbind_wait in H. destruct H as [H|[u7 [n7 [E7 H]]]]; [exact (send_closed _ _ _ H)|].
    apply send_ok in E7. destruct E7 as [_ [C7 _]].
    apply hbind_wait in H. destruct H as [H|[[b8 st8] [n8 [E8 H]]]]; [apply recv_closed in H; [exact H|congruence]|].
    apply recv_ok in E8. destruct E8 as [_ [_ [C8 _]]]. apply SC in H; [exact H|congruence].
  - apply hbind_wait in H. destruct H as [H|[u5 [n5 [E5 H]]]]; [exact (send_closed _ _ _ H)|].
    apply send_ok in E5. destruct E5 as [_ [C5 _]]. apply SC in H; [exact H|congruence].
Qed.

Lemma accept_plain_complete p ct c a n o rest : writable n -> ap_plain a = true -> ap_ack a o = true ->
  said_open p 0 o (peer_bytes n) rest ->
  exists n', accept p ct c a n = HOk (remote_new o, cf_max_size c) n' /\ peer_bytes n' = rest
  /\ nt_sent n' = nt_sent n ++ [WHeader PidAmqp; WFrame (mk_frame 0 (FOpen (to_open ct c)))].
Proof.
  intros W A K [s [ch [H1 H2]]]. unfold accept.
  destruct (recv_header_said n _ _ H1) as [n1 [-> [P1 I1]]]. cbn [hbind].
  destruct (send_writable (WHeader PidAmqp) n1 (same_io_writable _ _ I1 W)) as [n2 [-> [P2 [_ [S2 W2]]]]]. cbn [hbind].
  change (pid_eqb PidAmqp PidAmqp) with true. cbn iota. rewrite A.
  rewrite <- P1, <- P2 in H2. destruct (server_open_complete p a n2 o ch rest K H2) as [n3 [-> [P3 I3]]]. cbn [hbind].
  match goal with |- context [send_item ?w n3] =>
    destruct (send_writable w n3 (same_io_writable _ _ I3 W2)) as [n4 [-> [P4 [_ [S4 W4]]]]] end. cbn [hbind].
  exists n4. split; [reflexivity|]. split; [congruence|].
  rewrite S4. destruct I3 as [_ [_ ->]]. rewrite S2. destruct I1 as [_ [_ ->]]. rewrite <- app_assoc. reflexivity.
Qed.

Lemma accept_sasl_complete p ct c a ms n i code s o rest : writable n -> ap_mechanisms a = Some ms ->
  ap_init a i = DecOutcome code -> ap_proceed a code = true -> ap_ack a o = true ->
  said_init p i (peer_bytes n) s -> said_open p 0 o s rest ->
  exists n', accept p ct c a n = HOk (remote_new o, cf_max_size c) n' /\ peer_bytes n' = rest
  /\ nt_sent n' = nt_sent n ++ [WHeader PidSasl; WSasl (SbMechanisms (mk_sasl_mechanisms ms));
       WSasl (SbOutcome (mk_sasl_outcome code None)); WHeader PidAmqp;
       WFrame (mk_frame 0 (FOpen (to_open ct c)))].
Proof.
  intros W M AI A K [s0 [H1 H2]] HO. unfold accept.
  destruct (recv_header_said n _ _ H1) as [n1 [-> [P1 I1]]]. cbn [hbind].
  destruct (send_writable (WHeader PidSasl) n1 (same_io_writable _ _ I1 W)) as [n2 [-> [P2 [_ [S2 W2]]]]]. cbn [hbind].
  change (pid_eqb PidSasl PidAmqp) with false. cbn iota. unfold server_sasl. rewrite M.
  match goal with |- context [send_item ?w n2] => destruct (send_writable w n2 W2) as [n3 [-> [P3 [_ [S3 W3]]]]] end. cbn [hbind].
  rewrite <- P1, <- P2, <- P3 in H2. destruct (recv_said _ _ _ _ _ (eight_sasl p) H2) as [n4 [-> [P4 I4]]]. cbn [hbind].
  rewrite AI.
  match goal with |- context [send_item ?w n4] =>
    destruct (send_writable w n4 (same_io_writable _ _ I4 W3)) as [n5 [-> [P5 [_ [S5 W5]]]]] end. cbn [hbind].
  rewrite <- P4, <- P5 in HO.
  destruct (sasl_open_complete p a code n5 o rest W5 A K HO) as [n6 [-> [P6 [W6 S6]]]]. cbn [hbind].
  match goal with |- context [send_item ?w n6] => destruct (send_writable w n6 W6) as [n7 [-> [P7 [_ [S7 W7]]]]] end. cbn [hbind].
  exists n7. split; [reflexivity|]. split; [congruence|].
  rewrite S7, S6, S5. destruct I4 as [_ [_ ->]]. rewrite S3, S2. destruct I1 as [_ [_ ->]].
  rewrite <- !app_assoc. reflexivity.
Qed.

(** ** What this library writes is what the peer reads *)

Lemma wrote_header i rest : said_header i (written_bytes (WHeader i) ++ rest) rest.
Proof. unfold said_header. cbn [written_bytes]. rewrite header_bytes_eq. reflexivity. Qed.
Lemma wrote_sasl p b rest : legal_sasl b -> blen (enc_sasl_frame b) < 2 ^ 32 ->
  said_sasl p b (written_bytes (WSasl b) ++ rest) rest.
Proof.
  intros L B. destruct (sasl_piece_ok p 0 b L B (or_introl eq_refl)) as [P _].
  exists (sz_sasl_frame b), (sasl_content b). split; [|exact P]. reflexivity.
Qed.
Lemma wrote_open p max ch o rest : legal_amqp_frame (mk_frame ch (FOpen o)) ->
  max = 0 \/ blen (enc_amqp_frame (mk_frame ch (FOpen o))) <= max ->
  said_frame p max (mk_frame ch (FOpen o)) (written_bytes (WFrame (mk_frame ch (FOpen o))) ++ rest) rest.
Proof.
  intros L M. destruct (amqp_piece_ok p max _ L M) as [P _].
  exists (sz_amqp_frame (mk_frame ch (FOpen o))), (amqp_content (mk_frame ch (FOpen o))).
  split; [|exact P]. cbn [written_bytes]. rewrite <- amqp_piece_bytes. reflexivity.
Qed.

Lemma both_plain p ctc cts cc cs h a nc ns :
  let oc := own_open ctc cc h in let os := to_open cts cs in
  legal_amqp_frame (opens oc) -> legal_amqp_frame (opens os) ->
  cf_max_frame_size cc = 0 \/ blen (enc_amqp_frame (opens os)) <= cf_max_frame_size cc ->
  ap_plain a = true -> ap_ack a oc = true -> writable nc -> writable ns ->
  nt_sent nc = [] -> nt_sent ns = [] ->
  peer_bytes nc = flat_map written_bytes [WHeader PidAmqp; WFrame (opens os)] ->
  peer_bytes ns = flat_map written_bytes [WHeader PidAmqp; WFrame (opens oc)] ->
  exists nc' ns', connect_plain p ctc cc h nc = HOk (remote_new os, cf_max_frame_size cc) nc'
  /\ accept p cts cs a ns = HOk (remote_new oc, cf_max_size cs) ns'
  /\ flat_map written_bytes (nt_sent nc') = peer_bytes ns /\ flat_map written_bytes (nt_sent ns') = peer_bytes nc
  /\ peer_bytes nc' = [] /\ peer_bytes ns' = [].
Proof.
  intros oc os Lc Ls M A K Wc Ws Sc Ss Pc Ps.
  assert (Hc : said_open p (cf_max_frame_size cc) os (peer_bytes nc) []).
  { rewrite Pc. cbn [flat_map]. exists (written_bytes (WFrame (opens os)) ++ []), 0.
    split; [apply wrote_header|apply wrote_open; assumption]. }
  assert (Hs : said_open p 0 oc (peer_bytes ns) []).
  { rewrite Ps. cbn [flat_map]. exists (written_bytes (WFrame (opens oc)) ++ []), 0.
    split; [apply wrote_header|apply wrote_open; auto]. }
  destruct (plain_complete p ctc cc h nc os [] Wc Hc) as [nc' [E1 [E2 [_ E3]]]].
  destruct (accept_plain_complete p cts cs a ns oc [] Ws A K Hs) as [ns' [F1 [F2 F3]]].
  exists nc', ns'. split; [exact E1|]. split; [exact F1|]. rewrite E3, F3, Sc, Ss, Pc, Ps. repeat split; auto.
Qed.

Lemma both_sasl p ctc cts au cc cs h a ms nc ns :
  let oc := own_open ctc cc h in let os := to_open cts cs in let i := plain_init au cc in
  legal_amqp_frame (opens oc) -> legal_amqp_frame (opens os) ->
  small_sasl (SbInit i) -> small_sasl (SbMechanisms (mk_sasl_mechanisms ms)) ->
  cf_max_frame_size cc = 0 \/ blen (enc_amqp_frame (opens os)) <= cf_max_frame_size cc ->
  ap_mechanisms a = Some ms -> ap_init a i = DecOutcome SaslOk -> ap_proceed a SaslOk = true ->
  ap_ack a oc = true -> writable nc -> writable ns ->
  nt_sent nc = [] -> nt_sent ns = [] ->
  peer_bytes nc = flat_map written_bytes [WHeader PidSasl; WSasl (SbMechanisms (mk_sasl_mechanisms ms));
       WSasl (SbOutcome (mk_sasl_outcome SaslOk None)); WHeader PidAmqp; WFrame (opens os)] ->
  peer_bytes ns = flat_map written_bytes [WHeader PidSasl; WSasl (SbInit i); WHeader PidAmqp; WFrame (opens oc)] ->
  exists nc' ns', connect_sasl p ctc au cc h nc = HOk (remote_new os, cf_max_frame_size cc) nc'
  /\ accept p cts cs a ns = HOk (remote_new oc, cf_max_size cs) ns'
  /\ flat_map written_bytes (nt_sent nc') = peer_bytes ns /\ flat_map written_bytes (nt_sent ns') = peer_bytes nc
  /\ peer_bytes nc' = [] /\ peer_bytes ns' = [].
Proof.
  intros oc os i Lc Ls [Li Bi] [Lm Bm] M AM AI A K Wc Ws Sc Ss Pc Ps.
  assert (LO : small_sasl (SbOutcome (mk_sasl_outcome SaslOk None))).
  { split; [|vm_compute; reflexivity]. cbn. repeat split. }
  destruct LO as [Lo Bo].
  assert (Hc : exists s, said_outcome p (SbMechanisms (mk_sasl_mechanisms ms)) SaslOk (peer_bytes nc) s
    /\ said_open p (cf_max_frame_size cc) os s []).
  { rewrite Pc. cbn [flat_map]. eexists. split.
    - do 3 eexists. split; [apply wrote_header|]. split; [apply wrote_sasl; assumption|]. apply wrote_sasl; assumption.
    - do 2 eexists. split; [apply wrote_header|]. apply wrote_open; assumption. }
  assert (Hs : exists s, said_init p i (peer_bytes ns) s /\ said_open p 0 oc s []).
  { rewrite Ps. cbn [flat_map]. eexists. split.
    - eexists. split; [apply wrote_header|]. apply wrote_sasl; assumption.
    - do 2 eexists. split; [apply wrote_header|]. apply wrote_open; auto. }
  destruct Hc as [s [Hc1 Hc2]]. destruct Hs as [s' [Hs1 Hs2]].
  destruct (sasl_complete p ctc au cc h nc _ s os [] Wc Hc1 Hc2) as [nc' [E1 [E2 [_ E3]]]].
  destruct (accept_sasl_complete p cts cs a ms ns i SaslOk s' oc [] Ws AM AI A K Hs1 Hs2) as [ns' [F1 [F2 F3]]].
  exists nc', ns'. split; [exact E1|]. split; [exact F1|]. rewrite E3, F3, Sc, Ss, Pc, Ps. repeat split; auto.
Qed.

(** ** PLAIN *)
Lemma before_nul (a b x y : bytes) : ~ In x00 a -> ~ In x00 b -> a ++ x00 :: x = b ++ x00 :: y -> a = b /\ x = y.
Proof.
  revert b. induction a as [|c a IH]; intros [|d b] Ha Hb; cbn; intros H.
  - inversion H. auto.
  - inversion H. subst. exfalso. apply Hb. left. reflexivity.
  - inversion H. subst. exfalso. apply Ha. left. reflexivity.
  - inversion H. subst. destruct (IH b) as [-> ->]; auto.
    + intros X. apply Ha. right. exact X.
    + intros X. apply Hb. right. exact X.
Qed.
Lemma response_injective z n w z' n' w' : ~ In x00 z -> ~ In x00 n -> ~ In x00 z' -> ~ In x00 n' ->
  prepare_response z n w = prepare_response z' n' w' -> z = z' /\ n = n' /\ w = w'.
Proof.
  unfold prepare_response. cbn [app]. intros Hz Hn Hz' Hn' H.
  apply before_nul in H; [|assumption|assumption]. destruct H as [-> H].
  apply before_nul in H; [|assumption|assumption]. destruct H as [-> ->]. auto.
Qed.

Lemma cut_one a b : ~ In x00 a -> cut_nul (a ++ x00 :: b) = (a, b).
Proof.
  induction a as [|x a IH]; intros H; cbn [cut_nul app]; [reflexivity|]. destruct (Byte.eqb x x00) eqn:E.
  - elim H. left. destruct x; (reflexivity || discriminate E).
  - rewrite IH; [reflexivity|]. intros I. apply H. right. exact I.
Qed.
Lemma response_read z n w : ~ In x00 z -> ~ In x00 n -> plain_read (prepare_response z n w) = (z, n, w).
Proof. intros Hz Hn. unfold plain_read, prepare_response. cbn [app]. rewrite (cut_one _ _ Hz), (cut_one _ _ Hn). reflexivity. Qed.

Lemma to_open_announced ct c : to_open ct c = announced ct c (cf_hostname c).
Proof. unfold to_open, announced. destruct (cf_idle_time_out c); reflexivity. Qed.
