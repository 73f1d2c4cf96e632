(** * Proofs about handshakes *)

From Coq Require Import Strings.String.
From Verif Require Import Framing Spec SpecProtocol SpecFraming Handshake SpecHandshake.
From Verif Require Import BaseProofs CodecProofs EnumProofs ProtocolGood FrameProofs StreamProofs ProtocolTheorems.
From Coq Require Import ZifyBool ZifyNat ZifyN Lia.

Lemma header_bytes_eq i : encode_protocol_id i [] = header_bytes i.
Proof. destruct i; reflexivity. Qed.

(** ** One receive *)

Definition same_io (n n' : net) : Prop :=
  nt_closed n' = nt_closed n /\ nt_writes n' = nt_writes n /\ nt_sent n' = nt_sent n.

Lemma recv_frame_spec {T} (dec : parser T) max closed w sent reads : forall st buf, st_ok st ->
  match recv_frame dec max closed w sent reads st buf with
  | HOk (t, st') n' => decode_call dec max st (buf ++ concat reads) = (DFrame t, st', peer_bytes n')
                       /\ nt_closed n' = closed /\ nt_writes n' = w /\ nt_sent n' = sent
  | HErr e n' => nt_closed n' = closed /\ nt_writes n' = w /\ nt_sent n' = sent
                 /\ exists st', match e with
                    | HsCodec e => decode_call dec max st (buf ++ concat reads) = (DErr e, st', peer_bytes n')
                    | HsDisconnected => closed = true
                         /\ decode_call dec max st (buf ++ concat reads) = (DNone, st', peer_bytes n')
                    | _ => False
                    end
  | HWait n' => nt_closed n' = closed /\ nt_writes n' = w /\ nt_sent n' = sent /\ closed = false
                /\ exists st', decode_call dec max st (buf ++ concat reads) = (DNone, st', peer_bytes n')
  end.
Proof.
  induction reads as [|c reads IH]; intros st buf Hok; cbn [recv_frame concat].
  - rewrite app_nil_r. destruct (decode_call dec max st buf) as [[[|t|e] st'] s] eqn:E.
    + destruct closed; unfold peer_bytes; cbn; rewrite app_nil_r; eauto 10.
    + unfold peer_bytes. cbn. rewrite app_nil_r. auto.
    + unfold peer_bytes. cbn. rewrite app_nil_r. eauto.
  - destruct (decode_call dec max st buf) as [[[|t|e] st'] s] eqn:E.
    + pose proof (call_ok dec max _ _ _ _ _ Hok E) as Hok'.
      pose proof (call_resume dec max _ _ (c ++ concat reads) _ _ Hok E) as R.
      specialize (IH st' (s ++ c) Hok'). rewrite <- app_assoc, <- R in IH. exact IH.
    + pose proof (call_more dec max _ _ (c ++ concat reads) _ _ _ Hok E ltac:(discriminate)) as R.
      unfold peer_bytes. cbn. auto.
    + pose proof (call_more dec max _ _ (c ++ concat reads) _ _ _ Hok E ltac:(discriminate)) as R.
      unfold peer_bytes. cbn. eauto 10.
Qed.

Definition said {T} (dec : parser T) (max : N) (t : T) (stream rest : bytes) : Prop :=
  exists size c, stream = frame_bytes size c ++ rest /\ piece_ok dec max (size, c, t).
Definition eight {T} (dec : parser T) : Prop := forall c t r, dec c = Ok (t, r) -> 4 <= blen c.

Lemma dec_header_eight b c x : dec_frame_header b c = Ok x -> 4 <= blen c.
Proof.
  unfold dec_frame_header, check_len. destruct (blen c <? 4) eqn:E; cbn; [discriminate|lia].
Qed.
Lemma eight_amqp p : eight (dec_amqp_frame p).
Proof.
  intros c t r H. unfold dec_amqp_frame in H.
  destruct (dec_frame_header x00 c) eqn:E; try discriminate. eapply dec_header_eight; exact E.
Qed.
Lemma eight_sasl p : eight (dec_sasl_frame p).
Proof.
  intros c t r H. unfold dec_sasl_frame in H.
  destruct (dec_frame_header x01 c) eqn:E; try discriminate. eapply dec_header_eight; exact E.
Qed.

Lemma said_call {T} (dec : parser T) max t stream rest : eight dec -> said dec max t stream rest ->
  decode_call dec max FrameHeader stream = (DFrame t, FrameHeader, rest).
Proof.
  intros H8 [size [c [-> P]]].
  pose proof (call_piece dec max [] rest (size, c, t) P) as R.
  cbn [flat_map piece_bytes piece_frame snd] in R. rewrite app_nil_r in R. cbn [app] in R. rewrite R.
  destruct P as [H4 [H32 [Hc [Hm D]]]]. pose proof (H8 _ _ _ D) as L.
  unfold frame_bytes. rewrite blen_app, blen_be. change (N.of_nat 4) with 4.
  destruct (4 + blen c <? 8) eqn:E; [clear - E L; lia|reflexivity].
Qed.
Lemma call_said {T} (dec : parser T) max t stream st rest :
  decode_call dec max FrameHeader stream = (DFrame t, st, rest) -> st = FrameHeader /\ said dec max t stream rest.
Proof.
  intros E. apply header_frame in E. destruct E as [-> [size [c [-> [Hc [H4 [H32 [Hm D]]]]]]]].
  split; [reflexivity|]. exists size, c. split; [reflexivity|]. cbn. auto.
Qed.

Lemma recv_ok {T} (dec : parser T) max n t st n' :
  recv dec max FrameHeader n = HOk (t, st) n' ->
  st = FrameHeader /\ said dec max t (peer_bytes n) (peer_bytes n') /\ same_io n n'.
Proof.
  unfold recv. intros H.
  pose proof (recv_frame_spec dec max (nt_closed n) (nt_writes n) (nt_sent n) (nt_reads n) FrameHeader (nt_buf n) I) as S.
  rewrite H in S. destruct S as [S1 S2]. apply call_said in S1. destruct S1. unfold same_io. tauto.
Qed.
Lemma recv_said {T} (dec : parser T) max n t rest : eight dec ->
  said dec max t (peer_bytes n) rest ->
  exists n', recv dec max FrameHeader n = HOk (t, FrameHeader) n' /\ peer_bytes n' = rest /\ same_io n n'.
Proof.
  intros H8 H. apply (said_call dec max) in H; [|exact H8]. unfold recv.
  pose proof (recv_frame_spec dec max (nt_closed n) (nt_writes n) (nt_sent n) (nt_reads n) FrameHeader (nt_buf n) I) as S.
  unfold peer_bytes in H at 1. 
  destruct (recv_frame _ _ _ _ _ _ _ _) as [[t' st'] n'|e n'|n'].
  - destruct S as [S1 S2]. rewrite H in S1.
    assert (t = t' /\ FrameHeader = st' /\ rest = peer_bytes n') as [<- [<- ->]].
    { repeat split; congruence. }
    exists n'. unfold same_io. tauto.
  - destruct S as [_ [_ [_ [st' S]]]]. destruct e; try contradiction; [|destruct S as [_ S]]; rewrite H in S; discriminate.
  - destruct S as [_ [_ [_ [_ [st' S]]]]]. rewrite H in S. discriminate.
Qed.
Lemma recv_io {T} (dec : parser T) max n : same_io n (net_of (recv dec max FrameHeader n)).
Proof.
  unfold recv, same_io.
  pose proof (recv_frame_spec dec max (nt_closed n) (nt_writes n) (nt_sent n) (nt_reads n) FrameHeader (nt_buf n) I) as S.
  destruct (recv_frame _ _ _ _ _ _ _ _) as [[t' st'] n'|e n'|n']; cbn [net_of]; tauto.
Qed.
Lemma recv_closed {T} (dec : parser T) max n n' : nt_closed n = true -> recv dec max FrameHeader n <> HWait n'.
Proof.
  intros Hc H. unfold recv in H.
  pose proof (recv_frame_spec dec max (nt_closed n) (nt_writes n) (nt_sent n) (nt_reads n) FrameHeader (nt_buf n) I) as S.
  rewrite H in S. destruct S as [_ [_ [_ [S _]]]]. congruence.
Qed.

(** The header. *)
Lemma pid_app buf x : 8 <= blen buf ->
  decode_protocol_id (buf ++ x) = let (r, s) := decode_protocol_id buf in (r, s ++ x).
Proof.
  intros E. unfold decode_protocol_id. rewrite blen_app.
  replace (blen buf + blen x <? 8) with false by lia. replace (blen buf <? 8) with false by lia.
  assert (L : (8 <= length buf)%nat) by (unfold blen in E; lia).
  cbv zeta. rewrite firstn_app, skipn_app. replace (8 - length buf)%nat with 0%nat by lia.
  rewrite firstn_O, app_nil_r, (skipn_O x).
  destruct (negb _); [reflexivity|]. destruct (negb _); [reflexivity|].
  destruct (nth_error (firstn 8 buf) 4) as [[]|]; reflexivity.
Qed.
Lemma pid_more_err buf x e s : decode_protocol_id buf = (inr e, s) ->
  decode_protocol_id (buf ++ x) = (inr e, s ++ x).
Proof.
  intros H. rewrite pid_app, H; [reflexivity|].
  destruct (N.lt_ge_cases (blen buf) 8) as [L|L]; [|exact L]. rewrite pid_short in H by exact L. discriminate.
Qed.
Lemma pid_none_short buf : 8 <= blen buf -> fst (decode_protocol_id buf) <> inl None.
Proof.
  intros E. unfold decode_protocol_id. replace (blen buf <? 8) with false by lia. cbv zeta.
  destruct (negb _); [discriminate|]. destruct (negb _); [discriminate|].
  destruct (nth_error (firstn 8 buf) 4) as [[]|]; discriminate.
Qed.
Lemma pid_none buf s : decode_protocol_id buf = (inl None, s) -> s = buf.
Proof.
  intros H. destruct (N.lt_ge_cases (blen buf) 8) as [L|L].
  - rewrite pid_short in H by exact L. congruence.
  - exfalso. apply (pid_none_short _ L). rewrite H. reflexivity.
Qed.
Lemma pid_some buf i s : decode_protocol_id buf = (inl (Some i), s) -> buf = header_bytes i ++ s.
Proof.
  intros H. destruct (blen buf <? 8) eqn:E.
  { rewrite pid_short in H by lia. discriminate. }
  assert (L : (8 <= length buf)%nat) by (unfold blen in E; lia).
  destruct (list_eq_dec Byte.byte_eq_dec (firstn 8 buf) (encode_protocol_id PidAmqp [])) as [F|N1];
  [|destruct (list_eq_dec Byte.byte_eq_dec (firstn 8 buf) (encode_protocol_id PidTls [])) as [F|N2];
  [|destruct (list_eq_dec Byte.byte_eq_dec (firstn 8 buf) (encode_protocol_id PidSasl [])) as [F|N3]]].
  4: { rewrite <- (firstn_skipn 8 buf) in H.
       destruct (pid_other (firstn 8 buf) (skipn 8 buf)) as [e X].
       - unfold blen. rewrite firstn_length. lia.
       - intros []; assumption.
       - rewrite X in H. discriminate. }
  all: rewrite <- (firstn_skipn 8 buf), F, pid_round_trip in H; inversion H; subst;
    rewrite <- (firstn_skipn 8 buf) at 1; rewrite F; reflexivity.
Qed.

Lemma recv_header_spec closed w sent reads : forall buf,
  match recv_header_from closed w sent reads buf with
  | HOk i n' => buf ++ concat reads = header_bytes i ++ peer_bytes n'
                /\ nt_closed n' = closed /\ nt_writes n' = w /\ nt_sent n' = sent
  | HErr e n' => nt_closed n' = closed /\ nt_writes n' = w /\ nt_sent n' = sent
                 /\ exists r s, decode_protocol_id (buf ++ concat reads) = (r, s) /\ forall i, r <> inl (Some i)
  | HWait n' => nt_closed n' = closed /\ nt_writes n' = w /\ nt_sent n' = sent /\ closed = false
                /\ exists r s, decode_protocol_id (buf ++ concat reads) = (r, s) /\ forall i, r <> inl (Some i)
  end.
Proof.
  induction reads as [|c reads IH]; intros buf; cbn [recv_header_from concat].
  - rewrite app_nil_r. destruct (decode_protocol_id buf) as [[[i|]|e] s] eqn:E.
    + apply pid_some in E. unfold peer_bytes. cbn. rewrite app_nil_r. auto.
    + pose proof (pid_none _ _ E). subst s.
      destruct closed; cbn; repeat split; do 2 eexists; (split; [reflexivity|discriminate]).
    + cbn. repeat split. do 2 eexists. split; [reflexivity|discriminate].
  - destruct (decode_protocol_id buf) as [[[i|]|e] s] eqn:E.
    + apply pid_some in E. subst buf. unfold peer_bytes. cbn [nt_buf nt_reads]. rewrite <- app_assoc. auto.
    + pose proof (pid_none _ _ E). subst s. specialize (IH (buf ++ c)). rewrite <- app_assoc in IH. exact IH.
    + cbn. repeat split. do 2 eexists. split; [apply pid_more_err; exact E|discriminate].
Qed.
Lemma recv_header_ok n i n' : recv_header n = HOk i n' ->
  said_header i (peer_bytes n) (peer_bytes n') /\ same_io n n'.
Proof.
  unfold recv_header. intros H.
  pose proof (recv_header_spec (nt_closed n) (nt_writes n) (nt_sent n) (nt_reads n) (nt_buf n)) as S.
  rewrite H in S. destruct S as [S1 S2]. unfold said_header, same_io. tauto.
Qed.
Lemma recv_header_said n i rest : said_header i (peer_bytes n) rest ->
  exists n', recv_header n = HOk i n' /\ peer_bytes n' = rest /\ same_io n n'.
Proof.
  unfold recv_header, said_header. intros H.
  pose proof (recv_header_spec (nt_closed n) (nt_writes n) (nt_sent n) (nt_reads n) (nt_buf n)) as S.
  unfold peer_bytes in H at 1.
  pose proof (pid_round_trip i rest) as R. rewrite header_bytes_eq, <- H in R.
  destruct (recv_header_from _ _ _ _ _) as [j n'|e n'|n'].
  - destruct S as [S1 S2]. pose proof (pid_round_trip j (peer_bytes n')) as R'. rewrite header_bytes_eq, <- S1, R in R'.
    assert (i = j /\ rest = peer_bytes n') as [<- ->] by (split; congruence).
    exists n'. unfold same_io. tauto.
  - destruct S as [_ [_ [_ [r [s [S N]]]]]]. rewrite R in S. exfalso. apply (N i). congruence.
  - destruct S as [_ [_ [_ [_ [r [s [S N]]]]]]]. rewrite R in S. exfalso. apply (N i). congruence.
Qed.
Lemma recv_header_io n : same_io n (net_of (recv_header n)).
Proof.
  unfold recv_header, same_io.
  pose proof (recv_header_spec (nt_closed n) (nt_writes n) (nt_sent n) (nt_reads n) (nt_buf n)) as S.
  destruct (recv_header_from _ _ _ _ _) as [j n'|e n'|n']; cbn [net_of]; tauto.
Qed.
Lemma recv_header_closed n n' : nt_closed n = true -> recv_header n <> HWait n'.
Proof.
  intros Hc H. unfold recv_header in H.
  pose proof (recv_header_spec (nt_closed n) (nt_writes n) (nt_sent n) (nt_reads n) (nt_buf n)) as S.
  rewrite H in S. destruct S as [_ [_ [_ [S _]]]]. congruence.
Qed.

(** Writing. *)
Lemma send_ok w n u n' : send_item w n = HOk u n' ->
  peer_bytes n' = peer_bytes n /\ nt_closed n' = nt_closed n /\ nt_sent n' = nt_sent n ++ [w]
  /\ (writable n -> writable n').
Proof.
  unfold send_item, writable, peer_bytes. destruct (nt_writes n) as [[|k]|]; [discriminate| |];
    intros H; inversion H; subst; cbn; repeat split; auto; discriminate.
Qed.
Lemma send_writable w n : writable n -> exists n', send_item w n = HOk tt n'
  /\ peer_bytes n' = peer_bytes n /\ nt_closed n' = nt_closed n /\ nt_sent n' = nt_sent n ++ [w] /\ writable n'.
Proof.
  unfold send_item, writable, peer_bytes. intros ->. eexists. split; [reflexivity|]. cbn. auto.
Qed.
Lemma send_closed w n n' : send_item w n <> HWait n'.
Proof. unfold send_item. destruct (nt_writes n) as [[|k]|]; discriminate. Qed.

Lemma hbind_ok {A B} (x : hs A) (f : A -> net -> hs B) b n : hbind x f = HOk b n ->
  exists a n1, x = HOk a n1 /\ f a n1 = HOk b n.
Proof. destruct x; cbn; intros H; try discriminate. eauto. Qed.
Lemma hbind_wait {A B} (x : hs A) (f : A -> net -> hs B) n : hbind x f = HWait n ->
  x = HWait n \/ exists a n1, x = HOk a n1 /\ f a n1 = HWait n.
Proof. destruct x; cbn; intros H; try discriminate; eauto. left. congruence. Qed.
Lemma pid_eqb_eq a b : pid_eqb a b = true <-> a = b.
Proof. destruct a, b; cbn; split; congruence. Qed.
Lemma same_io_writable n n' : same_io n n' -> writable n -> writable n'.
Proof. unfold same_io, writable. intros [_ [-> _]]. auto. Qed.

(** ** The client *)

Ltac inv_bind H a n E := let H' := fresh H in
  apply hbind_ok in H; destruct H as [a [n [E H']]]; rename H' into H.

Lemma plain_sound p ct c h n rc m n' : connect_plain p ct c h n = HOk (rc, m) n' ->
  exists o, said_open p (cf_max_frame_size c) o (peer_bytes n) (peer_bytes n')
  /\ rc = remote_new o /\ m = cf_max_frame_size c
  /\ nt_sent n' = nt_sent n ++ [WHeader PidAmqp; WFrame (mk_frame 0 (FOpen (own_open ct c h)))].
Proof.
  unfold connect_plain. intros H.
  inv_bind H u1 n1 E1. apply send_ok in E1. destruct E1 as [P1 [_ [S1 _]]].
  inv_bind H proto n2 E2. apply recv_header_ok in E2. destruct E2 as [P2 [_ [_ S2]]].
  destruct (pid_eqb proto PidAmqp) eqn:EP; cbn [negb] in H; [|discriminate]. apply pid_eqb_eq in EP. subst proto.
  cbv zeta in H. inv_bind H u3 n3 E3. apply send_ok in E3. destruct E3 as [P3 [_ [S3 _]]].
  inv_bind H fst4 n4 E4. destruct fst4 as [[ch f] st]. apply recv_ok in E4. destruct E4 as [_ [P4 [_ [_ S4]]]].
  cbn [fr_body] in H. destruct f; try discriminate. inversion H; subst; clear H.
  exists x. split.
  - exists (peer_bytes n2), ch. split; [rewrite <- P1; exact P2|]. rewrite <- P3. exact P4.
  - split; [reflexivity|]. split; [reflexivity|].
    rewrite S4, S3, S2, S1, <- app_assoc. cbn [app]. unfold own_open, announced, to_open. destruct h, (cf_idle_time_out c); reflexivity.
Qed.

Lemma plain_complete p ct c h n o rest : writable n ->
  said_open p (cf_max_frame_size c) o (peer_bytes n) rest ->
  exists n', connect_plain p ct c h n = HOk (remote_new o, cf_max_frame_size c) n' /\ peer_bytes n' = rest
  /\ writable n' /\ nt_sent n' = nt_sent n ++ [WHeader PidAmqp; WFrame (mk_frame 0 (FOpen (own_open ct c h)))].
Proof.
  intros W [s [ch [H1 H2]]]. unfold connect_plain.
  destruct (send_writable (WHeader PidAmqp) n W) as [n1 [-> [P1 [_ [S1 W1]]]]]. cbn [hbind].
  rewrite <- P1 in H1. destruct (recv_header_said n1 _ _ H1) as [n2 [-> [P2 I2]]]. cbn [hbind].
  cbn [pid_eqb pid_byte negb]. change (Byte.eqb x00 x00) with true. cbn [negb]. cbv zeta.
  pose proof (same_io_writable _ _ I2 W1) as W2.
  match goal with |- context [send_item ?w n2] => destruct (send_writable w n2 W2) as [n3 [-> [P3 [_ [S3 W3]]]]] end.
  cbn [hbind]. rewrite <- P2, <- P3 in H2.
  destruct (recv_said _ _ _ _ _ (eight_amqp p) H2) as [n4 [-> [P4 I4]]]. cbn [hbind fr_body].
  exists n4. split; [reflexivity|]. split; [exact P4|]. split; [exact (same_io_writable _ _ I4 W3)|].
  destruct I4 as [_ [_ ->]]. rewrite S3. destruct I2 as [_ [_ ->]]. rewrite S1, <- app_assoc. cbn [app].
  unfold own_open, announced, to_open. destruct h, (cf_idle_time_out c); reflexivity.
Qed.

Lemma plain_closed p ct c h n n' : nt_closed n = true -> connect_plain p ct c h n <> HWait n'.
Proof.
  intros Hc H. unfold connect_plain in H.
  apply hbind_wait in H. destruct H as [H|[u [n1 [E1 H]]]]; [exact (send_closed _ _ _ H)|].
  apply send_ok in E1. destruct E1 as [_ [C1 _]].
  apply hbind_wait in H. destruct H as [H|[i [n2 [E2 H]]]]; [apply recv_header_closed in H; [exact H|congruence]|].
  apply recv_header_ok in E2. destruct E2 as [_ [C2 _]].
  destruct (negb _); [discriminate|]. cbv zeta in H.
  apply hbind_wait in H. destruct H as [H|[u3 [n3 [E3 H]]]]; [exact (send_closed _ _ _ H)|].
  apply send_ok in E3. destruct E3 as [_ [C3 _]].
  apply hbind_wait in H. destruct H as [H|[[f st] [n4 [E4 H]]]]; [apply recv_closed in H; [exact H|congruence]|].
  destruct (fr_body f); discriminate.
Qed.

Lemma sasl_sound p ct au c h n rc m n' : connect_sasl p ct au c h n = HOk (rc, m) n' ->
  exists first s o, said_outcome p first SaslOk (peer_bytes n) s
  /\ said_open p (cf_max_frame_size c) o s (peer_bytes n')
  /\ rc = remote_new o /\ m = cf_max_frame_size c
  /\ nt_sent n' = nt_sent n ++ [WHeader PidSasl;
       WSasl (SbInit (mk_sasl_init (str "PLAIN") (Some (prepare_response (au_authz au) (au_authn au) (au_password au))) (cf_hostname c)));
       WHeader PidAmqp; WFrame (mk_frame 0 (FOpen (own_open ct c h)))].
Proof.
  unfold connect_sasl. intros H.
  inv_bind H u1 n1 E1. apply send_ok in E1. destruct E1 as [P1 [_ [S1 _]]].
  inv_bind H proto n2 E2. apply recv_header_ok in E2. destruct E2 as [P2 [_ [_ S2]]].
  destruct (pid_eqb proto PidSasl) eqn:EP; cbn [negb] in H; [|discriminate]. apply pid_eqb_eq in EP. subst proto.
  inv_bind H fst3 n3 E3. destruct fst3 as [b st]. apply recv_ok in E3. destruct E3 as [-> [P3 [_ [_ S3]]]].
  cbv zeta in H. inv_bind H u4 n4 E4. apply send_ok in E4. destruct E4 as [P4 [_ [S4 _]]].
  inv_bind H fst5 n5 E5. destruct fst5 as [b5 st5]. apply recv_ok in E5. destruct E5 as [_ [P5 [_ [_ S5]]]].
  destruct b5 as [| | | |[code data]]; try discriminate. cbn [sasl_outcome_code] in H.
  destruct code; try discriminate. apply plain_sound in H. destruct H as [o [O [-> [-> S6]]]].
  exists b, (peer_bytes n5), o. split.
  - exists (peer_bytes n2), (peer_bytes n3), data. split; [rewrite <- P1; exact P2|].
    split; [exact P3|]. rewrite <- P4. exact P5.
  - repeat split; auto. rewrite S6, S5, S4, S3, S2, S1. rewrite <- !app_assoc. reflexivity.
Qed.

Lemma sasl_complete p ct au c h n first s o rest : writable n ->
  said_outcome p first SaslOk (peer_bytes n) s -> said_open p (cf_max_frame_size c) o s rest ->
  exists n', connect_sasl p ct au c h n = HOk (remote_new o, cf_max_frame_size c) n' /\ peer_bytes n' = rest
  /\ writable n' /\ nt_sent n' = nt_sent n ++ [WHeader PidSasl;
       WSasl (SbInit (mk_sasl_init (str "PLAIN") (Some (prepare_response (au_authz au) (au_authn au) (au_password au))) (cf_hostname c)));
       WHeader PidAmqp; WFrame (mk_frame 0 (FOpen (own_open ct c h)))].
Proof.
  intros W [s1 [s2 [data [H1 [H2 H3]]]]] HO. unfold connect_sasl.
  destruct (send_writable (WHeader PidSasl) n W) as [n1 [-> [P1 [_ [S1 W1]]]]]. cbn [hbind].
  rewrite <- P1 in H1. destruct (recv_header_said n1 _ _ H1) as [n2 [-> [P2 I2]]]. cbn [hbind].
  cbn [pid_eqb pid_byte]. change (Byte.eqb x03 x03) with true. cbn [negb].
  pose proof (same_io_writable _ _ I2 W1) as W2. rewrite <- P2 in H2.
  destruct (recv_said _ _ _ _ _ (eight_sasl p) H2) as [n3 [-> [P3 I3]]]. cbn [hbind]. cbv zeta.
  pose proof (same_io_writable _ _ I3 W2) as W3.
  match goal with |- context [send_item ?w n3] => destruct (send_writable w n3 W3) as [n4 [-> [P4 [_ [S4 W4]]]]] end.
  cbn [hbind]. rewrite <- P3, <- P4 in H3.
  destruct (recv_said _ _ _ _ _ (eight_sasl p) H3) as [n5 [-> [P5 I5]]]. cbn [hbind sasl_outcome_code].
  rewrite <- P5 in HO.
  destruct (plain_complete p ct c h n5 o rest (same_io_writable _ _ I5 W4) HO) as [n6 [-> [P6 [W6 S6]]]].
  exists n6. repeat split; auto. rewrite S6. destruct I5 as [_ [_ ->]]. rewrite S4. destruct I3 as [_ [_ ->]].
  destruct I2 as [_ [_ ->]]. rewrite S1, <- !app_assoc. reflexivity.
Qed.

Lemma sasl_refused p ct au c h n first code s : writable n -> code <> SaslOk ->
  said_outcome p first code (peer_bytes n) s ->
  exists n', connect_sasl p ct au c h n = HErr (HsSasl code) n'.
Proof.
  intros W N [s1 [s2 [data [H1 [H2 H3]]]]]. unfold connect_sasl.
  destruct (send_writable (WHeader PidSasl) n W) as [n1 [-> [P1 [_ [S1 W1]]]]]. cbn [hbind].
  rewrite <- P1 in H1. destruct (recv_header_said n1 _ _ H1) as [n2 [-> [P2 I2]]]. cbn [hbind].
  cbn [pid_eqb pid_byte]. change (Byte.eqb x03 x03) with true. cbn [negb].
  pose proof (same_io_writable _ _ I2 W1) as W2. rewrite <- P2 in H2.
  destruct (recv_said _ _ _ _ _ (eight_sasl p) H2) as [n3 [-> [P3 I3]]]. cbn [hbind]. cbv zeta.
  pose proof (same_io_writable _ _ I3 W2) as W3.
  match goal with |- context [send_item ?w n3] => destruct (send_writable w n3 W3) as [n4 [-> [P4 [_ [S4 W4]]]]] end.
  cbn [hbind]. rewrite <- P3, <- P4 in H3.
  destruct (recv_said _ _ _ _ _ (eight_sasl p) H3) as [n5 [-> [P5 I5]]]. cbn [hbind sasl_outcome_code].
  exists n5. destruct code; try reflexivity. contradiction.
Qed.

Lemma sasl_closed p ct au c h n n' : nt_closed n = true -> connect_sasl p ct au c h n <> HWait n'.
Proof.
  intros Hc H. unfold connect_sasl in H.
  apply hbind_wait in H. destruct H as [H|[u [n1 [E1 H]]]]; [exact (send_closed _ _ _ H)|].
  apply send_ok in E1. destruct E1 as [_ [C1 _]].
  apply hbind_wait in H. destruct H as [H|[i [n2 [E2 H]]]]; [apply recv_header_closed in H; [exact H|congruence]|].
  apply recv_header_ok in E2. destruct E2 as [_ [C2 _]].
  destruct (negb _); [discriminate|].
  apply hbind_wait in H. destruct H as [H|[[b st] [n3 [E3 H]]]]; [apply recv_closed in H; [exact H|congruence]|].
  apply recv_ok in E3. destruct E3 as [-> [_ [C3 _]]]. cbv zeta in H.
  apply hbind_wait in H. destruct H as [H|[u4 [n4 [E4 H]]]]; [exact (send_closed _ _ _ H)|].
  apply send_ok in E4. destruct E4 as [_ [C4 _]].
  apply hbind_wait in H. destruct H as [H|[[b5 st5] [n5 [E5 H]]]]; [apply recv_closed in H; [exact H|congruence]|].
  apply recv_ok in E5. destruct E5 as [_ [_ [C5 _]]].
  destruct b5 as [| | | |[code data]]; try discriminate. cbn [sasl_outcome_code] in H.
  destruct code; try discriminate. apply plain_closed in H; [exact H|]. congruence.
Qed.

(** The credentials. *)
Lemma send_net w n : nt_sent (net_of (send_item w n)) = nt_sent n \/ nt_sent (net_of (send_item w n)) = nt_sent n ++ [w].
Proof. unfold send_item. destruct (nt_writes n) as [[|k]|]; cbn; auto. Qed.
Definition no_init (l : list written) : Prop := forall i, ~ In (WSasl (SbInit i)) l.
Lemma no_init_app l w : no_init l -> (forall i, w <> WSasl (SbInit i)) -> no_init (l ++ [w]).
Proof. intros H N i Hi. apply in_app_or in Hi. destruct Hi as [Hi|[Hi|[]]]; [exact (H i Hi)|exact (N i Hi)]. Qed.
Lemma credentials p ct au c h n : no_init (nt_sent n) -> sent_init (connect_sasl p ct au c h n) ->
  exists s first rest, said_header PidSasl (peer_bytes n) s /\ said_sasl p first s rest.
Proof.
  intros N0. unfold connect_sasl, sent_init.
  pose proof (send_net (WHeader PidSasl) n) as G1.
  destruct (send_item (WHeader PidSasl) n) as [u n1|e n1|n1] eqn:E1; cbn [hbind net_of] in *.
  2: { intros [i Hi]. exfalso. destruct G1 as [G|G]; rewrite G in Hi; [exact (N0 i Hi)|].
       eapply no_init_app; [exact N0| |exact Hi]. discriminate. }
  2: { intros [i Hi]. exfalso. destruct G1 as [G|G]; rewrite G in Hi; [exact (N0 i Hi)|].
       eapply no_init_app; [exact N0| |exact Hi]. discriminate. }
  assert (N1 : no_init (nt_sent n1)).
  { destruct G1 as [-> | ->]; [exact N0|]. apply no_init_app; [exact N0|discriminate]. }
  apply send_ok in E1. destruct E1 as [P1 _].
  pose proof (recv_header_io n1) as [_ [_ G2]].
  destruct (recv_header n1) as [proto n2|e n2|n2] eqn:E2; cbn [hbind net_of] in *.
  2,3: intros [i Hi]; exfalso; rewrite G2 in Hi; exact (N1 i Hi).
  apply recv_header_ok in E2. destruct E2 as [P2 _].
  destruct (pid_eqb proto PidSasl) eqn:EP; cbn [negb net_of].
  2: { intros [i Hi]. exfalso. rewrite G2 in Hi. exact (N1 i Hi). }
  apply pid_eqb_eq in EP. subst proto.
  pose proof (recv_io (dec_sasl_frame p) 0 n2) as [_ [_ G3]].
  destruct (recv (dec_sasl_frame p) 0 FrameHeader n2) as [[b st] n3|e n3|n3] eqn:E3; cbn [hbind net_of] in *.
  2,3: intros [i Hi]; exfalso; rewrite G3, G2 in Hi; exact (N1 i Hi).
  apply recv_ok in E3. destruct E3 as [_ [P3 _]]. intros _.
  exists (peer_bytes n2), b, (peer_bytes n3). rewrite <- P1. split; [exact P2|exact P3].
Qed.

(** ** The server *)

Lemma server_open_sound p a n o n' : server_open p a n = HOk o n' ->
  ap_ack a o = true /\ same_io n n' /\ exists ch, said_frame p 0 (mk_frame ch (FOpen o)) (peer_bytes n) (peer_bytes n').
Proof.
  unfold server_open. intros H. inv_bind H fst1 n1 E1. destruct fst1 as [[ch f] st].
  apply recv_ok in E1. destruct E1 as [_ [P1 I1]]. cbn [fr_body] in H. destruct f; try discriminate.
  destruct (ap_ack a x) eqn:A; [|discriminate]. inversion H; subst. split; [exact A|]. split; [exact I1|].
  exists ch. exact P1.
Qed.
Lemma server_open_complete p a n o ch rest : ap_ack a o = true ->
  said_frame p 0 (mk_frame ch (FOpen o)) (peer_bytes n) rest ->
  exists n', server_open p a n = HOk o n' /\ peer_bytes n' = rest /\ same_io n n'.
Proof.
  intros A H. unfold server_open.
  destruct (recv_said _ _ _ _ _ (eight_amqp p) H) as [n1 [-> [P1 I1]]]. cbn [hbind fr_body]. rewrite A. eauto.
Qed.
Lemma sasl_open_sound p a c n o n' : sasl_open p a c n = HOk o n' ->
  ap_proceed a c = true /\ ap_ack a o = true /\ said_open p 0 o (peer_bytes n) (peer_bytes n')
  /\ nt_sent n' = nt_sent n ++ [WHeader PidAmqp].
Proof.
  unfold sasl_open. intros H. destruct (ap_proceed a c) eqn:A; cbn [negb] in H; [|discriminate].
  split; [reflexivity|]. inv_bind H proto n1 E1. apply recv_header_ok in E1. destruct E1 as [P1 [_ [_ S1]]].
  destruct (pid_eqb proto PidAmqp) eqn:EP; [|discriminate]. apply pid_eqb_eq in EP. subst proto.
  inv_bind H u n2 E2. apply send_ok in E2. destruct E2 as [P2 [_ [S2 _]]].
  apply server_open_sound in H. destruct H as [K [[_ [_ S3]] [ch P3]]]. split; [exact K|]. split.
  - exists (peer_bytes n1), ch. split; [exact P1|]. rewrite <- P2. exact P3.
  - rewrite S3, S2, S1. reflexivity.
Qed.
Lemma sasl_open_complete p a c n o rest : writable n -> ap_proceed a c = true -> ap_ack a o = true ->
  said_open p 0 o (peer_bytes n) rest ->
  exists n', sasl_open p a c n = HOk o n' /\ peer_bytes n' = rest /\ writable n'
  /\ nt_sent n' = nt_sent n ++ [WHeader PidAmqp].
Proof.
  intros W A K [s [ch [H1 H2]]]. unfold sasl_open. rewrite A. cbn [negb].
  destruct (recv_header_said n _ _ H1) as [n1 [-> [P1 I1]]]. cbn [hbind pid_eqb pid_byte].
  change (Byte.eqb x00 x00) with true. cbn [hbind].
  destruct (send_writable (WHeader PidAmqp) n1 (same_io_writable _ _ I1 W)) as [n2 [-> [P2 [_ [S2 W2]]]]]. cbn [hbind].
  rewrite <- P1, <- P2 in H2. destruct (server_open_complete p a n2 o ch rest K H2) as [n3 [-> [P3 I3]]].
  exists n3. repeat split; auto; [exact (same_io_writable _ _ I3 W2)|].
  destruct I3 as [_ [_ ->]]. rewrite S2. destruct I1 as [_ [_ ->]]. reflexivity.
Qed.

Lemma server_sasl_sound p a n o n' stream : server_sasl p a n = HOk o n' ->
  said_header PidSasl stream (peer_bytes n) ->
  exists c s, authenticated p a c stream s /\ ap_proceed a c = true /\ ap_ack a o = true
  /\ said_open p 0 o s (peer_bytes n')
  /\ In (WSasl (SbOutcome (mk_sasl_outcome c None))) (nt_sent n').
Proof.
  unfold server_sasl. intros H HS. destruct (ap_mechanisms a) as [ms|]; [|discriminate].
  inv_bind H u1 n1 E1. apply send_ok in E1. destruct E1 as [P1 [_ [S1 _]]].
  inv_bind H fst2 n2 E2. destruct fst2 as [b st]. apply recv_ok in E2. destruct E2 as [-> [P2 [_ [_ S2]]]].
  destruct b as [|i| | |]; try discriminate. rewrite P1 in P2.
  assert (HI : said_init p i stream (peer_bytes n2)) by (exists (peer_bytes n); split; [exact HS|exact P2]).
  destruct (ap_init a i) as [|d|c] eqn:AI; [discriminate| |].
  - inv_bind H u3 n3 E3. apply send_ok in E3. destruct E3 as [P3 [_ [S3 _]]].
    inv_bind H fst4 n4 E4. destruct fst4 as [b4 st4]. apply recv_ok in E4. destruct E4 as [-> [P4 [_ [_ S4]]]].
    destruct b4 as [| | |r|]; try discriminate. rewrite P3 in P4.
    destruct (ap_response a i r) as [c|] eqn:AR; [|discriminate].
    inv_bind H u5 n5 E5. apply send_ok in E5. destruct E5 as [P5 [_ [S5 _]]].
    inv_bind H fst6 n6 E6. destruct fst6 as [b6 st6]. apply recv_ok in E6. destruct E6 as [_ [P6 [_ [_ S6]]]].
    rewrite P5 in P6. apply sasl_open_sound in H. destruct H as [A [K [O S7]]].
    exists c, (peer_bytes n6). split.
    { exists i, (peer_bytes n2). split; [exact HI|]. right. exists d, r, b6, (peer_bytes n4). auto. }
    repeat split; auto. rewrite S7, S6, S5. apply in_or_app. left. apply in_or_app. right. left. reflexivity.
  - inv_bind H u3 n3 E3. apply send_ok in E3. destruct E3 as [P3 [_ [S3 _]]].
    apply sasl_open_sound in H. destruct H as [A [K [O S7]]].
    exists c, (peer_bytes n3). split.
    { exists i, (peer_bytes n2). split; [exact HI|]. left. auto. }
    repeat split; auto. rewrite S7, S3. apply in_or_app. left. apply in_or_app. right. left. reflexivity.
Qed.
