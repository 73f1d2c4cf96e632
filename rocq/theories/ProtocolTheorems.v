(** * Remaining lemmas behind PropertiesProtocol.v *)

From Coq Require Import Strings.String.
From Verif Require Import Framing Spec SpecProtocol SpecFraming.
From Verif Require Import BaseProofs EncodeProofs Roundtrip CodecProofs EnumProofs CompositeProofs
  ProtocolGood MessageProofs.
From Coq Require Import ZifyBool ZifyNat ZifyN.

(** ** C12 *)
Lemma short_descriptor code wire :
  decode_with dec_descriptor (x53 :: code :: wire) = Ok (DUlong (Byte.to_N code), wire).
Proof.
  rewrite decode_with_cons. cbn [dec_descriptor dec_u64].
  change (code :: wire) with ([code] ++ wire). rewrite <- (be_be_val [code]). cbn [length].
  rewrite read_un_be, be_val_one by (apply be_val_lt). reflexivity.
Qed.

Ltac reads_tac S :=
  intros p x n sent junk wire Hx Hw; specialize (S p x n sent junk wire [] Hx Hw);
  rewrite app_nil_r in S;
  match goal with |- match ?m with Some _ => _ | None => _ end => destruct m as [y|] end;
  [|destruct S as [e S]; exists e];
  unfold dec_frame; cbn [app]; rewrite read_byte_cons; cbn [bind];
  unfold dec_described at 1; change (Byte.eqb x00 x00) with true; cbv iota;
  rewrite short_descriptor; cbn [bind]; rewrite !desc_is_ulong; cbn [Byte.to_N N.eqb Pos.eqb];
  try unfold dec_transfer; rewrite S; reflexivity.

Lemma reads_open : reads_as x10 FOpen legal_open open_items open_seen.
Proof. pose proof seen_open as S. reads_tac S. Qed.
Lemma reads_begin : reads_as x11 FBegin legal_begin begin_items begin_seen.
Proof. pose proof seen_begin as S. reads_tac S. Qed.
Lemma reads_attach : reads_as x12 FAttach legal_attach attach_items attach_seen.
Proof. pose proof seen_attach as S. reads_tac S. Qed.
Lemma reads_flow : reads_as x13 FFlow legal_flow flow_items flow_seen.
Proof. pose proof seen_flow as S. reads_tac S. Qed.
Lemma reads_transfer :
  reads_as x14 (fun h => FTransfer (mk_transfer_t h None)) legal_transfer transfer_items transfer_seen.
Proof. pose proof seen_transfer as S. reads_tac S. Qed.
Lemma reads_disposition : reads_as x15 FDisposition legal_disposition disposition_items disposition_seen.
Proof. pose proof seen_disposition as S. reads_tac S. Qed.
Lemma reads_detach : reads_as x16 FDetach legal_detach detach_items detach_seen.
Proof. pose proof seen_detach as S. reads_tac S. Qed.
Lemma reads_end : reads_as x17 FEnd legal_end end_items end_seen.
Proof. pose proof seen_end as S. reads_tac S. Qed.
Lemma reads_close : reads_as x18 FClose legal_close close_items close_seen.
Proof. pose proof seen_close as S. reads_tac S. Qed.

(** The types that are not performatives. *)
Ltac reads_type_tac S :=
  intros p x n sent junk wire rest Hx Hw; specialize (S p x n sent junk wire rest Hx Hw);
  match goal with |- match ?m with Some _ => _ | None => _ end => destruct m as [y|] end;
  [|destruct S as [e S]; exists e];
  cbn [app]; rewrite decode_with_cons; match goal with |- context [c_dec ?c _ _ _] => unfold c end;
  unfold comp_c; cbn [c_dec];
  unfold dec_described at 1; change (Byte.eqb x00 x00) with true; cbv iota;
  rewrite short_descriptor; cbn [bind]; rewrite desc_is_ulong; cbn [Byte.to_N];
  match goal with |- context [if ?b then _ else _] => change b with true end; cbv iota;
  exact S.
Lemma reads_error : type_reads_as x1d error_c legal_error error_items error_seen.
Proof. pose proof seen_error as S. reads_type_tac S. Qed.
Lemma reads_received : type_reads_as x23 received_c legal_received received_items received_seen.
Proof. pose proof seen_received as S. reads_type_tac S. Qed.
Lemma reads_accepted : type_reads_as x24 accepted_c legal_accepted accepted_items accepted_seen.
Proof. pose proof seen_accepted as S. reads_type_tac S. Qed.
Lemma reads_rejected : type_reads_as x25 rejected_c legal_rejected rejected_items rejected_seen.
Proof. pose proof seen_rejected as S. reads_type_tac S. Qed.
Lemma reads_released : type_reads_as x26 released_c legal_released released_items released_seen.
Proof. pose proof seen_released as S. reads_type_tac S. Qed.
Lemma reads_modified : type_reads_as x27 modified_c legal_modified modified_items modified_seen.
Proof. pose proof seen_modified as S. reads_type_tac S. Qed.
Lemma reads_source : type_reads_as x28 source_c legal_source source_items source_seen.
Proof. pose proof seen_source as S. reads_type_tac S. Qed.
Lemma reads_target : type_reads_as x29 target_c legal_target target_items target_seen.
Proof. pose proof seen_target as S. reads_type_tac S. Qed.
Lemma reads_sasl_mechanisms : type_reads_as x40 sasl_mechanisms_c legal_sasl_mechanisms sasl_mechanisms_items sasl_mechanisms_seen.
Proof. pose proof seen_sasl_mechanisms as S. reads_type_tac S. Qed.
Lemma reads_sasl_init : type_reads_as x41 sasl_init_c legal_sasl_init sasl_init_items sasl_init_seen.
Proof. pose proof seen_sasl_init as S. reads_type_tac S. Qed.
Lemma reads_sasl_challenge : type_reads_as x42 sasl_challenge_c legal_sasl_challenge sasl_challenge_items sasl_challenge_seen.
Proof. pose proof seen_sasl_challenge as S. reads_type_tac S. Qed.
Lemma reads_sasl_response : type_reads_as x43 sasl_response_c legal_sasl_response sasl_response_items sasl_response_seen.
Proof. pose proof seen_sasl_response as S. reads_type_tac S. Qed.
Lemma reads_sasl_outcome : type_reads_as x44 sasl_outcome_c legal_sasl_outcome sasl_outcome_items sasl_outcome_seen.
Proof. pose proof seen_sasl_outcome as S. reads_type_tac S. Qed.
Lemma reads_header : type_reads_as x70 header_c legal_header header_items header_seen.
Proof. pose proof seen_header as S. reads_type_tac S. Qed.
Lemma reads_properties : type_reads_as x73 properties_c legal_properties properties_items properties_seen.
Proof. pose proof seen_properties as S. reads_type_tac S. Qed.

(** ** C18 *)
Lemma pid_round_trip i rest : decode_protocol_id (encode_protocol_id i [] ++ rest) = (inl (Some i), rest).
Proof.
  unfold decode_protocol_id. rewrite blen_app.
  replace (blen (encode_protocol_id i []) + blen rest <? 8) with false
    by (assert (blen (encode_protocol_id i []) = 8) by (destruct i; reflexivity); lia).
  destruct i; reflexivity.
Qed.
Lemma pid_short src : blen src < 8 -> decode_protocol_id src = (inl None, src).
Proof. intros H. unfold decode_protocol_id. replace (blen src <? 8) with true by lia. reflexivity. Qed.
Lemma length5 (h : bytes) : length h = 8%nat -> exists a b, h = firstn 4 h ++ a :: b /\ nth_error h 4 = Some a /\ skipn 5 h = b.
Proof.
  intros H. do 8 (destruct h as [|? h]; [discriminate|]). destruct h; [|discriminate].
  do 2 eexists. split; [reflexivity|]. split; reflexivity.
Qed.
Lemma pid_other h rest : blen h = 8 -> (forall i, h <> encode_protocol_id i []) ->
  exists e, decode_protocol_id (h ++ rest) = (inr e, rest).
Proof.
  intros H8 Hn. unfold decode_protocol_id. rewrite blen_app.
  replace (blen h + blen rest <? 8) with false by lia.
  assert (L : length h = 8%nat) by (unfold blen in H8; lia).
  assert (F : firstn 8 (h ++ rest) = h).
  { rewrite firstn_app, L, Nat.sub_diag, <- L, firstn_all. apply app_nil_r. }
  assert (S : skipn 8 (h ++ rest) = rest).
  { rewrite skipn_app, L, Nat.sub_diag, <- L, skipn_all. reflexivity. }
  cbv zeta. rewrite F, S.
  destruct (length5 h L) as [a [b [E [Ha Hb]]]].
  destruct (beqb (firstn 4 h) pid_prefix) eqn:E1; cbn [negb]; [|eexists; reflexivity].
  destruct (beqb (skipn 5 h) pid_version) eqn:E2; cbn [negb]; [|eexists; reflexivity].
  apply beqb_eq in E1, E2. rewrite Ha. rewrite Hb in E2. rewrite E1, E2 in E.
  pose proof (Hn PidAmqp) as N1. pose proof (Hn PidTls) as N2. pose proof (Hn PidSasl) as N3.
  rewrite E in N1, N2, N3. clear - N1 N2 N3.
  destruct a; try (eexists; reflexivity); exfalso; [apply N1|apply N2|apply N3]; reflexivity.
Qed.

(** ** C19 *)
Lemma condition_wire c s : In (c, s) condition_names -> c_enc error_condition_c c = wire_symbol s.
Proof.
  unfold condition_names. cbn [In].
  intros H. repeat (destruct H as [H|H]; [injection H as <- <-; reflexivity|]). destruct H.
Qed.
Lemma condition_names_all c : (exists s, c = CondCustom s) \/ exists s, In (c, s) condition_names.
Proof.
  unfold condition_names.
  destruct c as [[]|[]|[]|[]|s]; try (left; eexists; reflexivity); right; eexists; cbn [In]; intuition reflexivity.
Qed.
Lemma condition_rt p c rest : legal_condition c -> blen (c_enc error_condition_c c) < 2 ^ 32 ->
  decode_with (c_dec error_condition_c p) (c_enc error_condition_c c ++ rest) = Ok (c, rest).
Proof.
  intros H Hs. rewrite (g_size good_error_condition c H) in Hs.
  apply (g_rt good_error_condition); assumption.
Qed.
Lemma distribution_rt p c rest : legal_distribution c -> blen (c_enc distribution_mode_c c) < 2 ^ 32 ->
  decode_with (c_dec distribution_mode_c p) (c_enc distribution_mode_c c ++ rest) = Ok (c, rest).
Proof.
  intros H Hs. rewrite (g_size good_distribution_mode c H) in Hs.
  apply (g_rt good_distribution_mode); assumption.
Qed.
(** A custom condition that spells a known one arrives as the known one. *)
Lemma condition_custom_lost p c s rest : In (c, s) condition_names ->
  decode_with (c_dec error_condition_c p) (c_enc error_condition_c (CondCustom s) ++ rest) = Ok (c, rest)
  /\ c <> CondCustom s.
Proof.
  intros H. assert (E : c_enc error_condition_c (CondCustom s) = c_enc error_condition_c c).
  { rewrite (condition_wire c s H). revert H. unfold condition_names. cbn [In].
    intros H. repeat (destruct H as [H|H]; [injection H as _ <-; reflexivity|]). destruct H. }
  assert (L : legal_condition c /\ c <> CondCustom s /\ blen (c_enc error_condition_c c) < 2 ^ 32).
  { clear E. revert H. unfold condition_names. cbn [In].
    intros H. repeat (destruct H as [H|H];
      [injection H as <- <-; split; [exact I|split; [discriminate|vm_compute; reflexivity]]|]). destruct H. }
  destruct L as [L1 [L2 L3]]. split; [|exact L2]. rewrite E. apply condition_rt; assumption.
Qed.

(** ** C02, C11 for the supporting types *)
Lemma good_survives {A} (C : codec A) w : good C w -> survives C w.
Proof. intros G p a rest H Hs. rewrite (g_size G a H) in Hs. apply (g_rt G); assumption. Qed.
Lemma good_sized {A} (C : codec A) w : good C w -> sized C w.
Proof. intros G a H. apply (g_size G), H. Qed.

(** ** C13 *)
Lemma message_round_trip_plain p s cache : sound_message (Msg s [] cache) -> ms_format s = None ->
  blen (msg_enc (Msg s [] cache)) < 2 ^ 32 -> dec_message p (msg_enc (Msg s [] cache)) = Ok (Msg s [] 0).
Proof.
  intros H Hf Hs. rewrite message_round_trip by assumption.
  destruct s as [fmt hdr da ma pr ap ft data seq val]. cbn in Hf. subst fmt.
  unfold received_message. cbn [msg_parts msg_nested map]. rewrite app_nil_r. reflexivity.
Qed.
