(** * Theorems about messages, frames and byte streams: C02, C11 - C19

    Vocabulary: [Spec.v], [SpecProtocol.v], [SpecFraming.v].  Model: [Codec.v],
    [Protocol.v], [Message.v], [Framing.v]. *)

From Coq Require Import Strings.String.
From Verif Require Import Framing Spec SpecProtocol SpecFraming.
From Verif Require Import CodecProofs EnumProofs ProtocolGood MessageProofs MessageOps FrameProofs
  StreamProofs ProtocolTheorems.

Ltac legal_tac := cbn; repeat split; try (vm_compute; reflexivity); try discriminate.

(** ** Concrete frames used below *)
Definition sample_open : open_t :=
  mk_open (str "client") (Some (str "host")) 65536 9 (Some 30000) (Some [str "en-US"]) None None None
    (Some [(str "product", VString (str "x"))]).
Definition sample_transfer : transfer_t :=
  mk_transfer_t (mk_transfer 3 (Some 7) (Some [x00; x01]) (Some 0) None true None
                   (Some (DSAccepted mk_accepted)) false false true)
                (Some (TBMessage (Msg (mk_parts (Some 0) (Some (mk_header true 4 None false 2)) None None None
                                         (Some [(str "k", VUint 300)]) None [[x01]; [x02; x03]] [] None)
                                      [] 0))).
Definition sample_frames : list amqp_frame :=
  [mk_frame 0 (FOpen sample_open); mk_frame 65535 (FTransfer sample_transfer); mk_frame 1 FEmpty].
Lemma text_value s : text s -> legal_value (VString s).
Proof. intros H. split; constructor; auto; exact I. Qed.
Lemma sample_open_legal : legal_open sample_open.
Proof.
  unfold legal_open, sample_open. cbn [open_container_id open_hostname open_max_frame_size open_channel_max
    open_idle_time_out open_outgoing_locales open_incoming_locales open_offered_capabilities
    open_desired_capabilities open_properties optional].
  repeat split; try exact I; try (vm_compute; reflexivity).
  - repeat constructor; vm_compute; reflexivity.
  - constructor; [|constructor]. split; [reflexivity|]. apply text_value. reflexivity.
  - repeat constructor; cbn; tauto.
Qed.
Lemma sample_message_sound : sound_message (Msg (mk_parts (Some 0) (Some (mk_header true 4 None false 2)) None None None
                                         (Some [(str "k", VUint 300)]) None [[x01]; [x02; x03]] [] None) [] 0).
Proof.
  constructor; [|constructor|left; reflexivity].
  unfold legal_parts. cbn [ms_header ms_delivery_annotations ms_message_annotations ms_properties
    ms_application_properties ms_footer ms_sequence ms_value optional].
  assert (L : legal_value (VUint 300)) by (split; constructor; [vm_compute; reflexivity|exact I]).
  repeat split; try (vm_compute; reflexivity); [|constructor].
  constructor; [|constructor]. split; [reflexivity|exact L].
Qed.
Lemma sample_frames_legal : Forall legal_amqp_frame sample_frames.
Proof.
  unfold sample_frames. constructor; [|constructor; [|constructor; [|constructor]]].
  - split; [vm_compute; reflexivity|split; [apply sample_open_legal|vm_compute; reflexivity]].
  - split; [vm_compute; reflexivity|split; [|vm_compute; reflexivity]].
    split; [unfold legal_transfer; cbn [sample_transfer tr_head]; repeat split; vm_compute; reflexivity|].
    cbn [sample_transfer tr_body optional]. apply sound_nested, sample_message_sound.
  - split; [vm_compute; reflexivity|split; [exact I|vm_compute; reflexivity]].
Qed.

(** ** C02: every type, section, performative and frame announces the size it
    writes. *)
Theorem C02_frame_size : forall f, legal_frame (fr_body f) -> blen (enc_amqp_frame f) = sz_amqp_frame f.
Proof. exact amqp_frame_size. Qed.
Print Assumptions C02_frame_size.
Theorem C02_sasl_frame_size : forall b, legal_sasl b -> blen (enc_sasl_frame b) = sz_sasl_frame b.
Proof. exact sasl_frame_size. Qed.
Print Assumptions C02_sasl_frame_size.
Theorem C02_performative_size : forall f, legal_frame f -> blen (enc_frame f) = sz_frame f.
Proof. exact frame_size. Qed.
Print Assumptions C02_performative_size.
Theorem C02_section_size : sized section_c legal_section.
Proof. exact (good_sized _ _ good_section). Qed.
Print Assumptions C02_section_size.
Theorem C02_message_size : forall m, sound_message m -> blen (msg_enc m) = msg_size m.
Proof. exact (fun m H => proj1 (message_facts m H)). Qed.
Print Assumptions C02_message_size.
Theorem C02_type_sizes :
  sized error_c legal_error /\ sized source_c legal_source /\ sized target_c legal_target
  /\ sized delivery_state_c legal_delivery_state /\ sized outcome_c legal_outcome
  /\ sized error_condition_c legal_condition /\ sized distribution_mode_c legal_distribution
  /\ sized sasl_body_c legal_sasl.
Proof.
  exact (conj (good_sized _ _ good_error) (conj (good_sized _ _ good_source) (conj (good_sized _ _ good_target)
    (conj (good_sized _ _ good_delivery_state) (conj (good_sized _ _ good_outcome)
    (conj (good_sized _ _ good_error_condition) (conj (good_sized _ _ good_distribution_mode)
    (good_sized _ _ good_sasl_body)))))))).
Qed.
Print Assumptions C02_type_sizes.
(** Hence the encoder's own check of the size never fails. *)
Theorem C02_encoder_check : forall p f dst, legal_frame (fr_body f) ->
  encode_call sz_amqp_frame enc_amqp_frame p f dst = Ok (dst ++ enc_amqp_frame f).
Proof.
  intros p f dst H. unfold encode_call. rewrite (amqp_frame_size f H), N.eqb_refl. destruct p; reflexivity.
Qed.
Print Assumptions C02_encoder_check.
Example C02_frame_case : map sz_amqp_frame sample_frames = [66; 75; 8].
Proof. vm_compute. reflexivity. Qed.

(** ** C11.  A frame arrives as itself, but for the body of a transfer, which
    arrives as the bytes it was written as ([received_frame]). *)
Theorem C11_performative_round_trip : forall p f, legal_frame f -> blen (enc_frame f) < 2 ^ 32 ->
  dec_frame p (enc_frame f) = Ok (received_frame f, []).
Proof. exact frame_round_trip. Qed.
Print Assumptions C11_performative_round_trip.
Theorem C11_sasl_round_trip : survives sasl_body_c legal_sasl.
Proof. exact (good_survives _ _ good_sasl_body). Qed.
Print Assumptions C11_sasl_round_trip.
Theorem C11_types_round_trip :
  survives open_c legal_open /\ survives begin_c legal_begin /\ survives attach_c legal_attach
  /\ survives flow_c legal_flow /\ survives disposition_c legal_disposition
  /\ survives detach_c legal_detach /\ survives end_c legal_end /\ survives close_c legal_close
  /\ survives error_c legal_error /\ survives source_c legal_source /\ survives target_c legal_target
  /\ survives delivery_state_c legal_delivery_state /\ survives outcome_c legal_outcome
  /\ survives header_c legal_header /\ survives properties_c legal_properties
  /\ survives section_c legal_section.
Proof.
  exact (conj (good_survives _ _ good_open) (conj (good_survives _ _ good_begin)
    (conj (good_survives _ _ good_attach) (conj (good_survives _ _ good_flow)
    (conj (good_survives _ _ good_disposition) (conj (good_survives _ _ good_detach)
    (conj (good_survives _ _ good_end) (conj (good_survives _ _ good_close)
    (conj (good_survives _ _ good_error) (conj (good_survives _ _ good_source)
    (conj (good_survives _ _ good_target) (conj (good_survives _ _ good_delivery_state)
    (conj (good_survives _ _ good_outcome) (conj (good_survives _ _ good_header)
    (conj (good_survives _ _ good_properties) (good_survives _ _ good_section)))))))))))))))).
Qed.
Print Assumptions C11_types_round_trip.
(** Frames with no transfer body, or with a non-empty one in bytes, are unchanged. *)
Theorem C11_received_unchanged : forall f,
  match f with
  | FTransfer x => match tr_body x with
                   | None => received_frame f = f
                   | Some (TBData d) => d <> [] -> received_frame f = f
                   | Some (TBMessage m) => msg_enc m <> [] ->
                       received_frame f = FTransfer (mk_transfer_t (tr_head x) (Some (TBData (msg_enc m))))
                   end
  | _ => received_frame f = f
  end.
Proof.
  intros [x|x|x|x|[h [[d|m]|]]|x|x|x|x|]; try reflexivity; cbn [tr_body received_frame tr_head received_body tb_enc].
  - destruct d; [congruence|reflexivity].
  - destruct (msg_enc m); [congruence|reflexivity].
Qed.
Print Assumptions C11_received_unchanged.
Example C11_case : dec_frame Debug (enc_frame (FOpen sample_open)) = Ok (FOpen sample_open, []).
Proof. apply C11_performative_round_trip; [apply sample_open_legal|vm_compute; reflexivity]. Qed.

(** ** C12 *)
Theorem C12_omitted_fields :
  reads_as x10 FOpen legal_open open_items open_seen
  /\ reads_as x11 FBegin legal_begin begin_items begin_seen
  /\ reads_as x12 FAttach legal_attach attach_items attach_seen
  /\ reads_as x13 FFlow legal_flow flow_items flow_seen
  /\ reads_as x14 (fun h => FTransfer (mk_transfer_t h None)) legal_transfer transfer_items transfer_seen
  /\ reads_as x15 FDisposition legal_disposition disposition_items disposition_seen
  /\ reads_as x16 FDetach legal_detach detach_items detach_seen
  /\ reads_as x17 FEnd legal_end end_items end_seen
  /\ reads_as x18 FClose legal_close close_items close_seen.
Proof.
  exact (conj reads_open (conj reads_begin (conj reads_attach (conj reads_flow (conj reads_transfer
    (conj reads_disposition (conj reads_detach (conj reads_end reads_close)))))))).
Qed.
Print Assumptions C12_omitted_fields.
Theorem C12_omitted_fields_of_types :
  type_reads_as x1d error_c legal_error error_items error_seen
  /\ type_reads_as x23 received_c legal_received received_items received_seen
  /\ type_reads_as x24 accepted_c legal_accepted accepted_items accepted_seen
  /\ type_reads_as x25 rejected_c legal_rejected rejected_items rejected_seen
  /\ type_reads_as x26 released_c legal_released released_items released_seen
  /\ type_reads_as x27 modified_c legal_modified modified_items modified_seen
  /\ type_reads_as x28 source_c legal_source source_items source_seen
  /\ type_reads_as x29 target_c legal_target target_items target_seen
  /\ type_reads_as x40 sasl_mechanisms_c legal_sasl_mechanisms sasl_mechanisms_items sasl_mechanisms_seen
  /\ type_reads_as x41 sasl_init_c legal_sasl_init sasl_init_items sasl_init_seen
  /\ type_reads_as x42 sasl_challenge_c legal_sasl_challenge sasl_challenge_items sasl_challenge_seen
  /\ type_reads_as x43 sasl_response_c legal_sasl_response sasl_response_items sasl_response_seen
  /\ type_reads_as x44 sasl_outcome_c legal_sasl_outcome sasl_outcome_items sasl_outcome_seen
  /\ type_reads_as x70 header_c legal_header header_items header_seen
  /\ type_reads_as x73 properties_c legal_properties properties_items properties_seen.
Proof.
  exact (conj reads_error (conj reads_received (conj reads_accepted (conj reads_rejected (conj reads_released (conj reads_modified (conj reads_source (conj reads_target (conj reads_sasl_mechanisms (conj reads_sasl_init (conj reads_sasl_challenge (conj reads_sasl_response (conj reads_sasl_outcome (conj reads_header reads_properties)))))))))))))).
Qed.
Print Assumptions C12_omitted_fields_of_types.
(** A message header with one field: a priority of 4 is meant. *)
Example C12_type_case : decode_with (c_dec header_c Debug) ([x00; x53; x70; xc0; x02; x01; x41] ++ [x99])
  = Ok (mk_header true 4 None false 0, [x99]).
Proof. vm_compute. reflexivity. Qed.
(** An open with three of its fields, the second null, in a 32-bit list. *)
Example C12_case : dec_frame Release
  ([x00; x53; x10; xd0; x00; x00; x00; x0f; x00; x00; x00; x03; xa1; x03; x61; x62; x63; x40; x70; x00; x00; x02; x00])
  = Ok (FOpen (mk_open (str "abc") None 512 65535 None None None None None None), []).
Proof.
  refine (reads_open Release
    (mk_open (str "abc") (Some (str "h")) 512 7 None None None None None None) 3%nat
    (fun i => negb (i =? 1)%nat) [] _ _ _).
  - unfold legal_open. cbn. repeat split; vm_compute; reflexivity.
  - apply list_form32; vm_compute; reflexivity.
Qed.

(** ** C13.  What the receiver of a message gets, in general and when nothing
    is nested and no format is set.  The full claim is refuted by the two
    cases left out. *)
Theorem C13_message_received : forall p m, sound_message m -> blen (msg_enc m) < 2 ^ 32 ->
  dec_message p (msg_enc m) = Ok (received_message m).
Proof. exact message_round_trip. Qed.
Print Assumptions C13_message_received.
Theorem C13_message_round_trip_partial : forall p s cache,
  sound_message (Msg s [] cache) -> ms_format s = None -> blen (msg_enc (Msg s [] cache)) < 2 ^ 32 ->
  dec_message p (msg_enc (Msg s [] cache)) = Ok (Msg s [] 0).
Proof. exact message_round_trip_plain. Qed.
Print Assumptions C13_message_round_trip_partial.
Theorem C13_format_lost_refuted : forall p, exists m, sound_message m /\ msg_cache m = 0
  /\ dec_message p (msg_enc m) <> Ok m.
Proof.
  intros p. exists (Msg (mk_parts (Some 1) None None None None None None [] [] None) [] 0).
  split; [constructor; [unfold legal_parts; cbn; auto 10|constructor|left; reflexivity]|].
  split; [reflexivity|]. destruct p; discriminate.
Qed.
Print Assumptions C13_format_lost_refuted.
Theorem C13_nested_refuted : forall p, exists m, sound_message m /\ msg_cache m = 0 /\ ms_format (msg_parts m) = None
  /\ dec_message p (msg_enc m) <> Ok m.
Proof.
  intros p. exists (Msg parts0 [TBMessage message0] 0).
  split; [constructor; [unfold legal_parts; cbn; auto 10|constructor; [|constructor]|left; reflexivity]|].
  - constructor. constructor; [unfold legal_parts; cbn; auto 10|constructor|left; reflexivity].
  - split; [reflexivity|split; [reflexivity|]]. destruct p; vm_compute; discriminate.
Qed.
Print Assumptions C13_nested_refuted.
Example C13_case : exists s, dec_message Debug (msg_enc (Msg s [] 0)) = Ok (Msg s [] 0)
  /\ ms_application_properties s = Some [(str "k", VUint 300)] /\ ms_data s = [[x01]; [x02; x03]].
Proof.
  exists (mk_parts None (Some (mk_header true 4 None false 2)) None None None
           (Some [(str "k", VUint 300)]) None [[x01]; [x02; x03]] [] None).
  split; [vm_compute; reflexivity|split; reflexivity].
Qed.

(** ** C14.  True of every sequence of public methods in which none of the five
    that keep the remembered size comes after a size query ([tame]); those five
    refute the full claim. *)
Theorem C14_size_not_stale_partial : forall ops m z,
  sound_message m -> msg_cache m = 0 -> tame false ops z -> Forall legal_op ops ->
  msg_size (apply_ops ops m) = blen (msg_enc (apply_ops ops m)).
Proof. exact (fun ops m z => size_after_ops ops m z). Qed.
Print Assumptions C14_size_not_stale_partial.
Example C14_case : tame false [OpSetHeader (mk_header false 4 None false 0); OpSetValue (VUint 7); OpEncodedSize;
    OpUpdate [OpSetValue VNull; OpEncodedSize]; OpSetAppProperty (str "k") (VUint 1); OpEncodedSize] true
  /\ msg_size (apply_ops [OpSetHeader (mk_header false 4 None false 0); OpSetValue (VUint 7); OpEncodedSize;
    OpUpdate [OpSetValue VNull; OpEncodedSize]; OpSetAppProperty (str "k") (VUint 1); OpEncodedSize] message0) = 27.
Proof.
  split; [|vm_compute; reflexivity].
  apply tame_reset; [exact I|]. apply tame_quiet; [exact I|]. apply tame_size.
  eapply tame_update; [apply tame_quiet; [exact I|]; apply tame_size; apply tame_nil|].
  apply tame_reset; [exact I|]. apply tame_size. apply tame_nil.
Qed.
(** Each of the five, used after a size query on a message built by public
    methods, leaves a wrong size. *)
Theorem C14_stale_size_refuted :
  Forall (fun ops : list msg_op => Forall legal_op ops
            /\ msg_size (apply_ops ops message0) <> blen (msg_enc (apply_ops ops message0)))
    [[OpSetAppProperty (str "k") (VUint 1); OpEncodedSize; OpAppPropertiesMut (fun _ => [])];
     [OpAddMessageAnnotation (str "k") (VUint 1); OpEncodedSize; OpMessageAnnotationsMut (fun _ => [])];
     [OpEncodedSize; OpSetHeader (mk_header false 4 None false 0); OpEncodedSize;
      OpBodyMut (fun b => match b with (_, q, n, v) => ([[x01]], q, n, v) end)];
     [OpSetHeader (mk_header false 4 None false 0); OpEncodedSize; OpSetValue (VUint 7)]].
Proof.
  assert (L : legal_value (VUint 1)) by (split; constructor; [vm_compute; reflexivity|exact I]).
  assert (L7 : legal_value (VUint 7)) by (split; constructor; [vm_compute; reflexivity|exact I]).
  assert (H : legal_header (mk_header false 4 None false 0)) by (unfold legal_header; cbn; repeat split; vm_compute; reflexivity).
  apply Forall_cons; [|apply Forall_cons; [|apply Forall_cons; [|apply Forall_cons; [|constructor]]]];
    (split; [|vm_compute; discriminate]).
  - apply Forall_cons; [constructor; [reflexivity|exact L]|].
    apply Forall_cons; [constructor|]. apply Forall_cons; [|constructor]. apply lo_app_mut. intros. constructor.
  - apply Forall_cons; [constructor; [reflexivity|exact L]|].
    apply Forall_cons; [constructor|]. apply Forall_cons; [|constructor]. apply lo_ann_mut. intros. constructor.
  - apply Forall_cons; [constructor|]. apply Forall_cons; [constructor; exact H|].
    apply Forall_cons; [constructor|]. apply Forall_cons; [|constructor]. apply lo_body_mut.
    intros [[[d q] n] v]. exact (fun x => x).
  - apply Forall_cons; [constructor; exact H|]. apply Forall_cons; [constructor|].
    apply Forall_cons; [constructor; exact L7|constructor].
Qed.
Print Assumptions C14_stale_size_refuted.
(** Delivery annotations can only be set when decoding or through the public
    field; with them present the same holds. *)
Theorem C14_stale_size_refuted_delivery : exists m ops, sound_message m /\ msg_cache m = 0
  /\ Forall legal_op ops /\ msg_size (apply_ops ops m) <> blen (msg_enc (apply_ops ops m)).
Proof.
  exists (Msg (mk_parts None None (Some [(str "k", VNull)]) None None None None [] [] None) [] 0),
    [OpEncodedSize; OpDeliveryAnnotationsMut (fun _ => [])].
  assert (L : legal_value VNull) by (split; constructor; exact I).
  split; [|split; [reflexivity|split; [repeat constructor|vm_compute; discriminate]]].
  constructor; [|constructor|left; reflexivity]. unfold legal_parts. cbn. repeat split; auto.
  constructor; [|constructor]. split; [reflexivity|exact L].
Qed.
Print Assumptions C14_stale_size_refuted_delivery.
(** A stale message in a transfer fails the encoder's size check in debug
    builds; in release builds the frame announces the wrong size. *)
Theorem C14_stale_frame_refuted : exists m,
  m = apply_ops [OpSetHeader (mk_header false 4 None false 0); OpEncodedSize; OpSetValue (VUint 7)] message0 /\
  let f := mk_frame 0 (FTransfer (mk_transfer_t (mk_transfer 0 None None None None false None None false false false)
             (Some (TBMessage m)))) in
  encode_call sz_amqp_frame enc_amqp_frame Debug f [] = Panic POverflow
  /\ be_val (firstn 4 (enc_amqp_frame f)) <> blen (enc_amqp_frame f).
Proof. eexists. split; [reflexivity|]. split; [vm_compute; reflexivity|vm_compute; discriminate]. Qed.
Print Assumptions C14_stale_frame_refuted.

(** ** C15.  Any list of frames, any cut, and possibly the first bytes of
    another frame. *)
Theorem C15_stream_round_trip : forall p max fs rest chunks,
  Forall legal_amqp_frame fs -> Forall (fun f => max = 0 \/ blen (enc_amqp_frame f) <= max) fs ->
  blen rest < 8 -> concat chunks = flat_map enc_amqp_frame fs ++ rest ->
  read_all (dec_amqp_frame p) max chunks
  = mk_reader FrameHeader rest (map received_amqp_frame fs) None.
Proof. exact amqp_stream. Qed.
Print Assumptions C15_stream_round_trip.
Theorem C15_sasl_stream_round_trip : forall p max fs rest chunks,
  Forall (fun b => legal_sasl b /\ blen (enc_sasl_frame b) < 2 ^ 32) fs ->
  Forall (fun b => max = 0 \/ blen (enc_sasl_frame b) <= max) fs ->
  blen rest < 8 -> concat chunks = flat_map enc_sasl_frame fs ++ rest ->
  read_all (dec_sasl_frame p) max chunks = mk_reader FrameHeader rest fs None.
Proof. exact sasl_stream. Qed.
Print Assumptions C15_sasl_stream_round_trip.
(** The sample frames, one byte per read. *)
Example C15_case : rd_frames (read_all (dec_amqp_frame Debug) 100
    (map (fun b => [b]) (flat_map enc_amqp_frame sample_frames)))
  = map received_amqp_frame sample_frames.
Proof.
  assert (H : forall l : bytes, concat (map (fun b => [b]) l) = l)
    by (induction l as [|a l IH]; [reflexivity|cbn; rewrite IH; reflexivity]).
  rewrite (C15_stream_round_trip Debug 100 sample_frames []);
    [reflexivity|apply sample_frames_legal| |reflexivity|].
  - unfold sample_frames. repeat (apply Forall_cons; [right; vm_compute; discriminate|]). constructor.
  - rewrite H, app_nil_r. reflexivity.
Qed.

(** ** C16.  For any frame decoder. *)
Theorem C16_reads_do_not_matter : forall T (dec : parser T) max chunks1 chunks2,
  concat chunks1 = concat chunks2 ->
  rd_frames (read_all dec max chunks1) = rd_frames (read_all dec max chunks2)
  /\ rd_error (read_all dec max chunks1) = rd_error (read_all dec max chunks2)
  /\ (rd_error (read_all dec max chunks1) = None -> read_all dec max chunks1 = read_all dec max chunks2).
Proof. exact (fun T dec max c1 c2 => chunking_independent dec max c1 c2). Qed.
Print Assumptions C16_reads_do_not_matter.
Example C16_case :
  let bad := [x00; x00; x00; x09; x02; x01; x00; x00; x40; x00; x00; x00; x01] in
  rd_error (read_all (dec_amqp_frame Debug) 0 [bad]) = Some (ParseError (UnexpectedFrameType x01))
  /\ rd_error (read_all (dec_amqp_frame Debug) 0 (map (fun b => [b]) bad)) = Some (ParseError (UnexpectedFrameType x01)).
Proof. split; vm_compute; reflexivity. Qed.

(** ** C17 *)
(** Whatever is delivered was announced within the limit. *)
Theorem C17_delivered_within_limit : forall T (dec : parser T) max chunks, exists pieces rest,
  concat chunks = flat_map piece_bytes pieces ++ rest /\ Forall (piece_ok dec max) pieces
  /\ rd_frames (read_all dec max chunks) = map piece_frame pieces.
Proof. exact (fun T dec max => stream_sound dec max). Qed.
Print Assumptions C17_delivered_within_limit.
(** Too large a size is refused with its eighth byte, whatever follows. *)
Theorem C17_oversized_refused : forall T (dec : parser T) max chunks pieces h junk,
  concat chunks = flat_map piece_bytes pieces ++ h ++ junk ->
  Forall (piece_ok dec max) pieces -> Forall (fun x : piece T => 8 <= blen (piece_bytes x)) pieces ->
  blen h = 8 -> max <> 0 -> max < be_val (firstn 4 h) ->
  rd_frames (read_all dec max chunks) = map piece_frame pieces
  /\ rd_error (read_all dec max chunks) = Some MaxSizeExceeded.
Proof. exact (fun T dec max => stream_limit dec max). Qed.
Print Assumptions C17_oversized_refused.
(** Nor is more than that kept. *)
Theorem C17_buffer_bounded : forall T (dec : parser T) max chunks, max <> 0 ->
  rd_error (read_all dec max chunks) = None -> blen (rd_buf (read_all dec max chunks)) < N.max 8 max.
Proof. exact (fun T dec max => stream_buffer dec max). Qed.
Print Assumptions C17_buffer_bounded.
Example C17_case : Forall (piece_ok (dec_amqp_frame Debug) 90) (map amqp_piece sample_frames)
  /\ rd_error (read_all (dec_amqp_frame Debug) 90
       [flat_map enc_amqp_frame sample_frames ++ [x00; x00; x00; x5b]; [x02; x00; x00; x00]]) = Some MaxSizeExceeded.
Proof.
  split.
  - apply Forall_map, Forall_forall. intros f Hf.
    apply (amqp_piece_ok Debug 90 f); [pose proof sample_frames_legal as H; rewrite Forall_forall in H; auto|].
    destruct Hf as [<-|[<-|[<-|[]]]]; right; vm_compute; discriminate.
  - vm_compute. reflexivity.
Qed.

(** ** C18 *)
Theorem C18_header_round_trip : forall i rest,
  decode_protocol_id (encode_protocol_id i [] ++ rest) = (inl (Some i), rest).
Proof. exact pid_round_trip. Qed.
Print Assumptions C18_header_round_trip.
Theorem C18_header_rejects : forall h rest, blen h = 8 -> (forall i, h <> encode_protocol_id i []) ->
  exists e, decode_protocol_id (h ++ rest) = (inr e, rest).
Proof. exact pid_other. Qed.
Print Assumptions C18_header_rejects.
Theorem C18_header_waits : forall src, blen src < 8 -> decode_protocol_id src = (inl None, src).
Proof. exact pid_short. Qed.
Print Assumptions C18_header_waits.
(** The bytes are those of the AMQP specification. *)
Theorem C18_header_bytes : forall dst,
  encode_protocol_id PidAmqp dst = dst ++ [x41; x4d; x51; x50; x00; x01; x00; x00]
  /\ encode_protocol_id PidTls dst = dst ++ [x41; x4d; x51; x50; x02; x01; x00; x00]
  /\ encode_protocol_id PidSasl dst = dst ++ [x41; x4d; x51; x50; x03; x01; x00; x00].
Proof. exact (fun dst => conj eq_refl (conj eq_refl eq_refl)). Qed.
Print Assumptions C18_header_bytes.
Example C18_case : blen [x41; x4d; x51; x50; x01; x01; x00; x00] = 8
  /\ (forall i, [x41; x4d; x51; x50; x01; x01; x00; x00] <> encode_protocol_id i [])
  /\ decode_protocol_id [x41; x4d; x51; x50; x01; x01; x00; x00; x07] = (inr UnknownProtocol, [x07]).
Proof. split; [reflexivity|split; [intros []; discriminate|reflexivity]]. Qed.

(** ** C19.  Standard conditions, and custom ones that do not spell a standard
    one ([legal_condition]); the others refute the full claim. *)
Theorem C19_condition_round_trip_partial : forall p c rest,
  legal_condition c -> blen (c_enc error_condition_c c) < 2 ^ 32 ->
  decode_with (c_dec error_condition_c p) (c_enc error_condition_c c ++ rest) = Ok (c, rest).
Proof. exact condition_rt. Qed.
Print Assumptions C19_condition_round_trip_partial.
Theorem C19_distribution_round_trip_partial : forall p m rest,
  legal_distribution m -> blen (c_enc distribution_mode_c m) < 2 ^ 32 ->
  decode_with (c_dec distribution_mode_c p) (c_enc distribution_mode_c m ++ rest) = Ok (m, rest).
Proof. exact distribution_rt. Qed.
Print Assumptions C19_distribution_round_trip_partial.
Theorem C19_condition_symbols : forall c s, In (c, s) condition_names ->
  c_enc error_condition_c c = wire_symbol s.
Proof. exact condition_wire. Qed.
Print Assumptions C19_condition_symbols.
Theorem C19_all_named : forall c, (exists s, c = CondCustom s) \/ exists s, In (c, s) condition_names.
Proof. exact condition_names_all. Qed.
Print Assumptions C19_all_named.
Theorem C19_custom_refuted : forall p c s rest, In (c, s) condition_names ->
  decode_with (c_dec error_condition_c p) (c_enc error_condition_c (CondCustom s) ++ rest) = Ok (c, rest)
  /\ c <> CondCustom s.
Proof. exact condition_custom_lost. Qed.
Print Assumptions C19_custom_refuted.
Theorem C19_distribution_refuted : forall p,
  decode_with (c_dec distribution_mode_c p) (c_enc distribution_mode_c (DistCustom (str "copy"))) = Ok (DistCopy, []).
Proof. intros []; reflexivity. Qed.
Print Assumptions C19_distribution_refuted.
Example C19_case : legal_condition (CondCustom (str "com.example:oops"))
  /\ legal_distribution (DistCustom (str "push")) /\ In (CondLink LinkStolen, str "amqp:link:stolen") condition_names.
Proof.
  split; [split; [reflexivity|]|split; [split; [reflexivity|split; discriminate]|cbn; tauto]].
  unfold known_conditions. cbn [In]. intuition discriminate.
Qed.
