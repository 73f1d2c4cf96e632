(** * Frames: sizes and round trips *)

From Verif Require Import Framing Spec SpecProtocol SpecFraming.
From Verif Require Import BaseProofs EncodeProofs Roundtrip VariantRoundtrip CodecProofs EnumProofs
  CompositeProofs ProtocolGood MessageProofs.
From Coq Require Import ZifyBool ZifyNat ZifyN.

Lemma frame_size f : legal_frame f -> blen (enc_frame f) = sz_frame f.
Proof.
  destruct f as [x|x|x|x|[h b]|x|x|x|x|]; cbn [legal_frame enc_frame sz_frame]; intros H.
  - apply (blen_enc_inner _ _ _ goodk_open H).
  - apply (blen_enc_inner _ _ _ goodk_begin H).
  - apply (blen_enc_inner _ _ _ goodk_attach H).
  - apply (blen_enc_inner _ _ _ goodk_flow H).
  - destruct H as [H Hb]. cbn [tr_head tr_body] in *. unfold enc_transfer, sz_transfer.
    cbn [tr_head tr_body]. rewrite blen_app, (blen_enc_inner _ _ _ goodk_transfer H).
    destruct b as [b|]; [|reflexivity]. cbn [opt_b opt_n optional] in *. rewrite (body_size _ Hb). reflexivity.
  - apply (blen_enc_inner _ _ _ goodk_disposition H).
  - apply (blen_enc_inner _ _ _ goodk_detach H).
  - apply (blen_enc_inner _ _ _ goodk_end H).
  - apply (blen_enc_inner _ _ _ goodk_close H).
  - reflexivity.
Qed.

Ltac frame_case K w G :=
  match goal with
  | |- dec_frame ?p (enc_inner K ?x) = _ =>
      let dl := fresh in let wire := fresh in let E := fresh in let Hd := fresh in let L := fresh in
      destruct (enc_inner_form K w x G ltac:(assumption) ltac:(assumption)) as [dl [wire [E [Hd L]]]];
      rewrite E; unfold dec_frame; rewrite read_byte_cons;
      cbn [bind]; unfold dec_described at 1; change (Byte.eqb x00 x00) with true; cbv iota;
      rewrite Hd; cbn [bind]; rewrite !desc_is_ulong; cbn [K k_code N.eqb Pos.eqb];
      rewrite <- (app_nil_r wire);
      rewrite (dec_inner_rt K w x wire p [] G ltac:(assumption) L); reflexivity
  end.

Lemma frame_round_trip p f : legal_frame f -> blen (enc_frame f) < 2 ^ 32 ->
  dec_frame p (enc_frame f) = Ok (received_frame f, []).
Proof.
  intros H Hs. pose proof (frame_size f H) as Z. rewrite Z in Hs.
  destruct f as [x|x|x|x|[h b]|x|x|x|x|]; cbn [legal_frame enc_frame sz_frame received_frame] in *.
  - frame_case open_k legal_open goodk_open.
  - frame_case begin_k legal_begin goodk_begin.
  - frame_case attach_k legal_attach goodk_attach.
  - frame_case flow_k legal_flow goodk_flow.
  - clear Z. destruct H as [H Hb]. unfold enc_transfer, sz_transfer in *. cbn [tr_head tr_body] in *.
    assert (Hh : sz_inner transfer_k h < 2 ^ 32) by lia.
    destruct (enc_inner_form transfer_k legal_transfer h goodk_transfer H Hh) as [dl [wire [E [Hd L]]]].
    rewrite E. rewrite <- app_comm_cons, <- app_assoc. unfold dec_frame. rewrite read_byte_cons.
    cbn [bind]. unfold dec_described at 1. change (Byte.eqb x00 x00) with true. cbv iota.
    rewrite Hd. cbn [bind]. rewrite !desc_is_ulong. cbn [transfer_k k_code N.eqb Pos.eqb].
    unfold dec_transfer. rewrite (dec_inner_rt transfer_k legal_transfer h wire p _ goodk_transfer H L).
    cbn [bind map_res]. destruct b as [b|]; [|reflexivity]. cbn [opt_b received_body].
    destruct (tb_enc b); reflexivity.
  - frame_case disposition_k legal_disposition goodk_disposition.
  - frame_case detach_k legal_detach goodk_detach.
  - frame_case end_k legal_end goodk_end.
  - frame_case close_k legal_close goodk_close.
  - reflexivity.
Qed.

Lemma good_sasl_body : good sasl_body_c legal_sasl.
Proof.
  constructor.
  - intros [x|x|x|x|x] H; cbn [sasl_body_c c_sz c_enc legal_sasl] in *.
    + apply (blen_enc_inner _ _ _ goodk_sasl_mechanisms H).
    + apply (blen_enc_inner _ _ _ goodk_sasl_init H).
    + apply (blen_enc_inner _ _ _ goodk_sasl_challenge H).
    + apply (blen_enc_inner _ _ _ goodk_sasl_response H).
    + apply (blen_enc_inner _ _ _ goodk_sasl_outcome H).
  - intros [x|x|x|x|x] H; cbn [sasl_body_c c_sz legal_sasl] in *.
    + exact (g_pos good_sasl_mechanisms x H).
    + exact (g_pos good_sasl_init x H).
    + exact (g_pos good_sasl_challenge x H).
    + exact (g_pos good_sasl_response x H).
    + exact (g_pos good_sasl_outcome x H).
  - intros p [x|x|x|x|x] rest H Hs; cbn [sasl_body_c c_sz c_enc legal_sasl] in *.
    + union_case sasl_mechanisms_k legal_sasl_mechanisms goodk_sasl_mechanisms.
    + union_case sasl_init_k legal_sasl_init goodk_sasl_init.
    + union_case sasl_challenge_k legal_sasl_challenge goodk_sasl_challenge.
    + union_case sasl_response_k legal_sasl_response goodk_sasl_response.
    + union_case sasl_outcome_k legal_sasl_outcome goodk_sasl_outcome.
Qed.

(** ** Whole frames *)
Lemma amqp_frame_size f : legal_frame (fr_body f) -> blen (enc_amqp_frame f) = sz_amqp_frame f.
Proof.
  intros H. unfold enc_amqp_frame, sz_amqp_frame. rewrite !blen_app, !blen_be, (frame_size _ H).
  rewrite !blen_cons, blen_nil. lia.
Qed.
Lemma sasl_frame_size b : legal_sasl b -> blen (enc_sasl_frame b) = sz_sasl_frame b.
Proof.
  intros H. unfold enc_sasl_frame, sz_sasl_frame. rewrite !blen_app, !blen_be, (g_size good_sasl_body b H).
  rewrite !blen_cons, blen_nil. lia.
Qed.

Lemma frame_header_rt ty ch body : ch < 65536 ->
  dec_frame_header ty ([x02; ty] ++ be 2 ch ++ body) = Ok (ch, body).
Proof.
  intros Hc. unfold dec_frame_header.
  pose proof (length_be 2 ch) as L. destruct (be 2 ch) as [|a [|b [|? ?]]] eqn:E; try discriminate.
  rewrite check_len_ok by (rewrite !blen_app, !blen_cons, blen_nil; lia).
  cbn [bind app index nth_error N.to_nat Pos.to_nat Pos.iter_op Nat.add skipn firstn].
  change (index 0 (x02 :: ty :: a :: b :: body)) with (Ok x02).
  change (index 1 (x02 :: ty :: a :: b :: body)) with (Ok ty). cbn [bind].
  replace (Byte.eqb ty ty) with true by (symmetry; apply byte_eqb_eq; reflexivity). cbn [negb].
  change (Byte.to_N x02 * 4 <? 8) with false. cbv iota.
  change (Byte.to_N x02 * 4 - 8 + 4) with 4.
  rewrite check_len_ok by (rewrite !blen_cons; lia). cbn [bind].
  change (x02 :: ty :: a :: b :: body) with ([x02; ty; a; b] ++ body).
  rewrite advance_app' by reflexivity. cbn [bind].
  rewrite <- E, be_val_be_small by (exact Hc). reflexivity.
Qed.

Definition amqp_content (f : amqp_frame) : bytes := [x02; x00] ++ be 2 (fr_channel f) ++ enc_frame (fr_body f).
Definition sasl_content (b : sasl_body) : bytes := [x02; x01] ++ be 2 0 ++ c_enc sasl_body_c b.

Lemma amqp_content_rt p f : legal_amqp_frame f ->
  dec_amqp_frame p (amqp_content f) = Ok (received_amqp_frame f, []).
Proof.
  intros [Hc [Hl Hs]]. unfold dec_amqp_frame, amqp_content.
  rewrite frame_header_rt by (exact Hc). cbn [bind].
  rewrite frame_round_trip; [reflexivity|exact Hl|].
  unfold enc_amqp_frame in Hs. rewrite !blen_app in Hs. lia.
Qed.
Lemma sasl_content_rt p b : legal_sasl b -> blen (enc_sasl_frame b) < 2 ^ 32 ->
  dec_sasl_frame p (sasl_content b) = Ok (b, []).
Proof.
  intros Hl Hs. unfold dec_sasl_frame, sasl_content. rewrite frame_header_rt by lia. cbn [bind].
  rewrite <- (app_nil_r (c_enc sasl_body_c b)). apply (g_rt good_sasl_body); [exact Hl|].
  rewrite <- (g_size good_sasl_body b Hl). unfold enc_sasl_frame in Hs. rewrite !blen_app in Hs. lia.
Qed.
