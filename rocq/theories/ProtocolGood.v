(** * Every composite type has a good codec

    Written by tools/gen_protocol.py; the lemmas used are in [CodecProofs.v] and
    [CompositeProofs.v]. *)

From Coq Require Import Strings.String.
From Verif Require Import Protocol Spec SpecProtocol BaseProofs CodecProofs EnumProofs CompositeProofs.

Lemma goodk_error : good_comp error_k legal_error.
Proof. prove_good_comp. Qed.
Lemma good_error : good error_c legal_error.
Proof. exact (good_comp_c _ _ goodk_error). Qed.
Lemma nonnull_error : nonnull error_c legal_error.
Proof. apply nonnull_comp. Qed.
Global Hint Resolve good_error nonnull_error : good.
Lemma seen_error : good_seen error_k legal_error error_items error_seen.
Proof. apply (good_seen_comp _ _ _ _ goodk_error); [items_tac|unfold error_seen; seen_tac]. Qed.

Lemma goodk_received : good_comp received_k legal_received.
Proof. prove_good_comp. Qed.
Lemma good_received : good received_c legal_received.
Proof. exact (good_comp_c _ _ goodk_received). Qed.
Lemma nonnull_received : nonnull received_c legal_received.
Proof. apply nonnull_comp. Qed.
Global Hint Resolve good_received nonnull_received : good.
Lemma seen_received : good_seen received_k legal_received received_items received_seen.
Proof. apply (good_seen_comp _ _ _ _ goodk_received); [items_tac|unfold received_seen; seen_tac]. Qed.

Lemma goodk_accepted : good_comp accepted_k legal_accepted.
Proof. prove_good_comp. Qed.
Lemma good_accepted : good accepted_c legal_accepted.
Proof. exact (good_comp_c _ _ goodk_accepted). Qed.
Lemma nonnull_accepted : nonnull accepted_c legal_accepted.
Proof. apply nonnull_comp. Qed.
Global Hint Resolve good_accepted nonnull_accepted : good.
Lemma seen_accepted : good_seen accepted_k legal_accepted accepted_items accepted_seen.
Proof. apply (good_seen_comp _ _ _ _ goodk_accepted); [items_tac|unfold accepted_seen; seen_tac]. Qed.

Lemma goodk_rejected : good_comp rejected_k legal_rejected.
Proof. prove_good_comp. Qed.
Lemma good_rejected : good rejected_c legal_rejected.
Proof. exact (good_comp_c _ _ goodk_rejected). Qed.
Lemma nonnull_rejected : nonnull rejected_c legal_rejected.
Proof. apply nonnull_comp. Qed.
Global Hint Resolve good_rejected nonnull_rejected : good.
Lemma seen_rejected : good_seen rejected_k legal_rejected rejected_items rejected_seen.
Proof. apply (good_seen_comp _ _ _ _ goodk_rejected); [items_tac|unfold rejected_seen; seen_tac]. Qed.

Lemma goodk_released : good_comp released_k legal_released.
Proof. prove_good_comp. Qed.
Lemma good_released : good released_c legal_released.
Proof. exact (good_comp_c _ _ goodk_released). Qed.
Lemma nonnull_released : nonnull released_c legal_released.
Proof. apply nonnull_comp. Qed.
Global Hint Resolve good_released nonnull_released : good.
Lemma seen_released : good_seen released_k legal_released released_items released_seen.
Proof. apply (good_seen_comp _ _ _ _ goodk_released); [items_tac|unfold released_seen; seen_tac]. Qed.

Lemma goodk_modified : good_comp modified_k legal_modified.
Proof. prove_good_comp. Qed.
Lemma good_modified : good modified_c legal_modified.
Proof. exact (good_comp_c _ _ goodk_modified). Qed.
Lemma nonnull_modified : nonnull modified_c legal_modified.
Proof. apply nonnull_comp. Qed.
Global Hint Resolve good_modified nonnull_modified : good.
Lemma seen_modified : good_seen modified_k legal_modified modified_items modified_seen.
Proof. apply (good_seen_comp _ _ _ _ goodk_modified); [items_tac|unfold modified_seen; seen_tac]. Qed.

Lemma good_delivery_state : good delivery_state_c legal_delivery_state.
Proof.
  constructor; intros; match goal with H : legal_delivery_state ?s |- _ => destruct s end;
    cbn [delivery_state_c c_sz c_enc legal_delivery_state] in *.
  - apply (blen_enc_inner _ _ _ goodk_received). assumption.
  - apply (blen_enc_inner _ _ _ goodk_accepted). assumption.
  - apply (blen_enc_inner _ _ _ goodk_rejected). assumption.
  - apply (blen_enc_inner _ _ _ goodk_released). assumption.
  - apply (blen_enc_inner _ _ _ goodk_modified). assumption.
  - exact (g_pos good_received _ ltac:(eassumption)).
  - exact (g_pos good_accepted _ ltac:(eassumption)).
  - exact (g_pos good_rejected _ ltac:(eassumption)).
  - exact (g_pos good_released _ ltac:(eassumption)).
  - exact (g_pos good_modified _ ltac:(eassumption)).
  - union_case received_k legal_received goodk_received.
  - union_case accepted_k legal_accepted goodk_accepted.
  - union_case rejected_k legal_rejected goodk_rejected.
  - union_case released_k legal_released goodk_released.
  - union_case modified_k legal_modified goodk_modified.
Qed.
Lemma nonnull_delivery_state : nonnull delivery_state_c legal_delivery_state.
Proof. intros [] _; do 2 eexists; (split; [reflexivity|discriminate]). Qed.
Global Hint Resolve good_delivery_state nonnull_delivery_state : good.

Lemma good_outcome : good outcome_c legal_outcome.
Proof.
  constructor; intros; match goal with H : legal_outcome ?s |- _ => destruct s end;
    cbn [outcome_c c_sz c_enc legal_outcome] in *.
  - apply (blen_enc_inner _ _ _ goodk_accepted). assumption.
  - apply (blen_enc_inner _ _ _ goodk_rejected). assumption.
  - apply (blen_enc_inner _ _ _ goodk_released). assumption.
  - apply (blen_enc_inner _ _ _ goodk_modified). assumption.
  - exact (g_pos good_accepted _ ltac:(eassumption)).
  - exact (g_pos good_rejected _ ltac:(eassumption)).
  - exact (g_pos good_released _ ltac:(eassumption)).
  - exact (g_pos good_modified _ ltac:(eassumption)).
  - union_case accepted_k legal_accepted goodk_accepted.
  - union_case rejected_k legal_rejected goodk_rejected.
  - union_case released_k legal_released goodk_released.
  - union_case modified_k legal_modified goodk_modified.
Qed.
Lemma nonnull_outcome : nonnull outcome_c legal_outcome.
Proof. intros [] _; do 2 eexists; (split; [reflexivity|discriminate]). Qed.
Global Hint Resolve good_outcome nonnull_outcome : good.

Lemma goodk_source : good_comp source_k legal_source.
Proof. prove_good_comp. Qed.
Lemma good_source : good source_c legal_source.
Proof. exact (good_comp_c _ _ goodk_source). Qed.
Lemma nonnull_source : nonnull source_c legal_source.
Proof. apply nonnull_comp. Qed.
Global Hint Resolve good_source nonnull_source : good.
Lemma seen_source : good_seen source_k legal_source source_items source_seen.
Proof. apply (good_seen_comp _ _ _ _ goodk_source); [items_tac|unfold source_seen; seen_tac]. Qed.

Lemma goodk_target : good_comp target_k legal_target.
Proof. prove_good_comp. Qed.
Lemma good_target : good target_c legal_target.
Proof. exact (good_comp_c _ _ goodk_target). Qed.
Lemma nonnull_target : nonnull target_c legal_target.
Proof. apply nonnull_comp. Qed.
Global Hint Resolve good_target nonnull_target : good.
Lemma seen_target : good_seen target_k legal_target target_items target_seen.
Proof. apply (good_seen_comp _ _ _ _ goodk_target); [items_tac|unfold target_seen; seen_tac]. Qed.

Lemma goodk_open : good_comp open_k legal_open.
Proof. prove_good_comp. Qed.
Lemma good_open : good open_c legal_open.
Proof. exact (good_comp_c _ _ goodk_open). Qed.
Lemma nonnull_open : nonnull open_c legal_open.
Proof. apply nonnull_comp. Qed.
Global Hint Resolve good_open nonnull_open : good.
Lemma seen_open : good_seen open_k legal_open open_items open_seen.
Proof. apply (good_seen_comp _ _ _ _ goodk_open); [items_tac|unfold open_seen; seen_tac]. Qed.

Lemma goodk_begin : good_comp begin_k legal_begin.
Proof. prove_good_comp. Qed.
Lemma good_begin : good begin_c legal_begin.
Proof. exact (good_comp_c _ _ goodk_begin). Qed.
Lemma nonnull_begin : nonnull begin_c legal_begin.
Proof. apply nonnull_comp. Qed.
Global Hint Resolve good_begin nonnull_begin : good.
Lemma seen_begin : good_seen begin_k legal_begin begin_items begin_seen.
Proof. apply (good_seen_comp _ _ _ _ goodk_begin); [items_tac|unfold begin_seen; seen_tac]. Qed.

Lemma goodk_attach : good_comp attach_k legal_attach.
Proof. prove_good_comp. Qed.
Lemma good_attach : good attach_c legal_attach.
Proof. exact (good_comp_c _ _ goodk_attach). Qed.
Lemma nonnull_attach : nonnull attach_c legal_attach.
Proof. apply nonnull_comp. Qed.
Global Hint Resolve good_attach nonnull_attach : good.
Lemma seen_attach : good_seen attach_k legal_attach attach_items attach_seen.
Proof. apply (good_seen_comp _ _ _ _ goodk_attach); [items_tac|unfold attach_seen; seen_tac]. Qed.

Lemma goodk_flow : good_comp flow_k legal_flow.
Proof. prove_good_comp. Qed.
Lemma good_flow : good flow_c legal_flow.
Proof. exact (good_comp_c _ _ goodk_flow). Qed.
Lemma nonnull_flow : nonnull flow_c legal_flow.
Proof. apply nonnull_comp. Qed.
Global Hint Resolve good_flow nonnull_flow : good.
Lemma seen_flow : good_seen flow_k legal_flow flow_items flow_seen.
Proof. apply (good_seen_comp _ _ _ _ goodk_flow); [items_tac|unfold flow_seen; seen_tac]. Qed.

Lemma goodk_transfer : good_comp transfer_k legal_transfer.
Proof. prove_good_comp. Qed.
Lemma good_transfer : good transfer_c legal_transfer.
Proof. exact (good_comp_c _ _ goodk_transfer). Qed.
Lemma nonnull_transfer : nonnull transfer_c legal_transfer.
Proof. apply nonnull_comp. Qed.
Global Hint Resolve good_transfer nonnull_transfer : good.
Lemma seen_transfer : good_seen transfer_k legal_transfer transfer_items transfer_seen.
Proof. apply (good_seen_comp _ _ _ _ goodk_transfer); [items_tac|unfold transfer_seen; seen_tac]. Qed.

Lemma goodk_disposition : good_comp disposition_k legal_disposition.
Proof. prove_good_comp. Qed.
Lemma good_disposition : good disposition_c legal_disposition.
Proof. exact (good_comp_c _ _ goodk_disposition). Qed.
Lemma nonnull_disposition : nonnull disposition_c legal_disposition.
Proof. apply nonnull_comp. Qed.
Global Hint Resolve good_disposition nonnull_disposition : good.
Lemma seen_disposition : good_seen disposition_k legal_disposition disposition_items disposition_seen.
Proof. apply (good_seen_comp _ _ _ _ goodk_disposition); [items_tac|unfold disposition_seen; seen_tac]. Qed.

Lemma goodk_detach : good_comp detach_k legal_detach.
Proof. prove_good_comp. Qed.
Lemma good_detach : good detach_c legal_detach.
Proof. exact (good_comp_c _ _ goodk_detach). Qed.
Lemma nonnull_detach : nonnull detach_c legal_detach.
Proof. apply nonnull_comp. Qed.
Global Hint Resolve good_detach nonnull_detach : good.
Lemma seen_detach : good_seen detach_k legal_detach detach_items detach_seen.
Proof. apply (good_seen_comp _ _ _ _ goodk_detach); [items_tac|unfold detach_seen; seen_tac]. Qed.

Lemma goodk_end : good_comp end_k legal_end.
Proof. prove_good_comp. Qed.
Lemma good_end : good end_c legal_end.
Proof. exact (good_comp_c _ _ goodk_end). Qed.
Lemma nonnull_end : nonnull end_c legal_end.
Proof. apply nonnull_comp. Qed.
Global Hint Resolve good_end nonnull_end : good.
Lemma seen_end : good_seen end_k legal_end end_items end_seen.
Proof. apply (good_seen_comp _ _ _ _ goodk_end); [items_tac|unfold end_seen; seen_tac]. Qed.

Lemma goodk_close : good_comp close_k legal_close.
Proof. prove_good_comp. Qed.
Lemma good_close : good close_c legal_close.
Proof. exact (good_comp_c _ _ goodk_close). Qed.
Lemma nonnull_close : nonnull close_c legal_close.
Proof. apply nonnull_comp. Qed.
Global Hint Resolve good_close nonnull_close : good.
Lemma seen_close : good_seen close_k legal_close close_items close_seen.
Proof. apply (good_seen_comp _ _ _ _ goodk_close); [items_tac|unfold close_seen; seen_tac]. Qed.

Lemma goodk_sasl_mechanisms : good_comp sasl_mechanisms_k legal_sasl_mechanisms.
Proof. prove_good_comp. Qed.
Lemma good_sasl_mechanisms : good sasl_mechanisms_c legal_sasl_mechanisms.
Proof. exact (good_comp_c _ _ goodk_sasl_mechanisms). Qed.
Lemma nonnull_sasl_mechanisms : nonnull sasl_mechanisms_c legal_sasl_mechanisms.
Proof. apply nonnull_comp. Qed.
Global Hint Resolve good_sasl_mechanisms nonnull_sasl_mechanisms : good.
Lemma seen_sasl_mechanisms : good_seen sasl_mechanisms_k legal_sasl_mechanisms sasl_mechanisms_items sasl_mechanisms_seen.
Proof. apply (good_seen_comp _ _ _ _ goodk_sasl_mechanisms); [items_tac|unfold sasl_mechanisms_seen; seen_tac]. Qed.

Lemma goodk_sasl_init : good_comp sasl_init_k legal_sasl_init.
Proof. prove_good_comp. Qed.
Lemma good_sasl_init : good sasl_init_c legal_sasl_init.
Proof. exact (good_comp_c _ _ goodk_sasl_init). Qed.
Lemma nonnull_sasl_init : nonnull sasl_init_c legal_sasl_init.
Proof. apply nonnull_comp. Qed.
Global Hint Resolve good_sasl_init nonnull_sasl_init : good.
Lemma seen_sasl_init : good_seen sasl_init_k legal_sasl_init sasl_init_items sasl_init_seen.
Proof. apply (good_seen_comp _ _ _ _ goodk_sasl_init); [items_tac|unfold sasl_init_seen; seen_tac]. Qed.

Lemma goodk_sasl_challenge : good_comp sasl_challenge_k legal_sasl_challenge.
Proof. prove_good_comp. Qed.
Lemma good_sasl_challenge : good sasl_challenge_c legal_sasl_challenge.
Proof. exact (good_comp_c _ _ goodk_sasl_challenge). Qed.
Lemma nonnull_sasl_challenge : nonnull sasl_challenge_c legal_sasl_challenge.
Proof. apply nonnull_comp. Qed.
Global Hint Resolve good_sasl_challenge nonnull_sasl_challenge : good.
Lemma seen_sasl_challenge : good_seen sasl_challenge_k legal_sasl_challenge sasl_challenge_items sasl_challenge_seen.
Proof. apply (good_seen_comp _ _ _ _ goodk_sasl_challenge); [items_tac|unfold sasl_challenge_seen; seen_tac]. Qed.

Lemma goodk_sasl_response : good_comp sasl_response_k legal_sasl_response.
Proof. prove_good_comp. Qed.
Lemma good_sasl_response : good sasl_response_c legal_sasl_response.
Proof. exact (good_comp_c _ _ goodk_sasl_response). Qed.
Lemma nonnull_sasl_response : nonnull sasl_response_c legal_sasl_response.
Proof. apply nonnull_comp. Qed.
Global Hint Resolve good_sasl_response nonnull_sasl_response : good.
Lemma seen_sasl_response : good_seen sasl_response_k legal_sasl_response sasl_response_items sasl_response_seen.
Proof. apply (good_seen_comp _ _ _ _ goodk_sasl_response); [items_tac|unfold sasl_response_seen; seen_tac]. Qed.

Lemma goodk_sasl_outcome : good_comp sasl_outcome_k legal_sasl_outcome.
Proof. prove_good_comp. Qed.
Lemma good_sasl_outcome : good sasl_outcome_c legal_sasl_outcome.
Proof. exact (good_comp_c _ _ goodk_sasl_outcome). Qed.
Lemma nonnull_sasl_outcome : nonnull sasl_outcome_c legal_sasl_outcome.
Proof. apply nonnull_comp. Qed.
Global Hint Resolve good_sasl_outcome nonnull_sasl_outcome : good.
Lemma seen_sasl_outcome : good_seen sasl_outcome_k legal_sasl_outcome sasl_outcome_items sasl_outcome_seen.
Proof. apply (good_seen_comp _ _ _ _ goodk_sasl_outcome); [items_tac|unfold sasl_outcome_seen; seen_tac]. Qed.

Lemma goodk_header : good_comp header_k legal_header.
Proof. prove_good_comp. Qed.
Lemma good_header : good header_c legal_header.
Proof. exact (good_comp_c _ _ goodk_header). Qed.
Lemma nonnull_header : nonnull header_c legal_header.
Proof. apply nonnull_comp. Qed.
Global Hint Resolve good_header nonnull_header : good.
Lemma seen_header : good_seen header_k legal_header header_items header_seen.
Proof. apply (good_seen_comp _ _ _ _ goodk_header); [items_tac|unfold header_seen; seen_tac]. Qed.

Lemma goodk_properties : good_comp properties_k legal_properties.
Proof. prove_good_comp. Qed.
Lemma good_properties : good properties_c legal_properties.
Proof. exact (good_comp_c _ _ goodk_properties). Qed.
Lemma nonnull_properties : nonnull properties_c legal_properties.
Proof. apply nonnull_comp. Qed.
Global Hint Resolve good_properties nonnull_properties : good.
Lemma seen_properties : good_seen properties_k legal_properties properties_items properties_seen.
Proof. apply (good_seen_comp _ _ _ _ goodk_properties); [items_tac|unfold properties_seen; seen_tac]. Qed.
