(** * Specification vocabulary for the protocol types

    Written by tools/gen_protocol.py.  [legal_T x]: [x] is a value of the Rust
    type whose parts have a faithful wire form.  [T_items x]: the wire forms of
    the fields of [x], one by one.  [T_seen sent x]: what AMQP 1.0 says a
    receiver must understand when of the fields of [x] only those with [sent i]
    are sent (the others are null, or left out at the end): an optional field
    that is not sent is absent, a field with a default has it, and a mandatory
    one is an error ([None]). *)

From Coq Require Import Strings.String.
From Verif Require Import Protocol Spec.

Definition optional {A} (P : A -> Prop) (o : option A) : Prop :=
  match o with Some a => P a | None => True end.

Definition legal_symbols (l : list bytes) : Prop := Forall text l.
Definition legal_timestamp (t : datetime) : Prop := instant t /\ wire_instant t.
Definition legal_value (v : variant) : Prop := legal v /\ wire_safe v.
Definition legal_pairs (m : list (bytes * variant)) : Prop :=
  Forall (fun kv => text (fst kv) /\ legal_value (snd kv)) m.
(** A [HashMap] holds each key once. *)
Definition legal_fields (m : list (bytes * variant)) : Prop :=
  legal_pairs m /\ NoDup (map fst m).
Definition legal_filter (m : list (bytes * option bytes)) : Prop :=
  Forall (fun kv => text (fst kv) /\ optional text (snd kv)) m /\ NoDup (map fst m).
Definition legal_map (m : list (variant * variant)) : Prop := legal_value (VMap m).
Definition legal_message_id (m : message_id) : Prop :=
  match m with
  | MidUlong n => unsigned 64 n | MidUuid b => length b = 16%nat
  | MidBinary _ => True | MidString s => text s
  end.

(** The error conditions named by AMQP 1.0; a custom condition is any other
    symbol. *)
Definition known_conditions : list bytes :=
  [str "amqp:internal-error";
   str "amqp:not-found";
   str "amqp:unauthorized-access";
   str "amqp:decode-error";
   str "amqp:resource-limit-exceeded";
   str "amqp:not-allowed";
   str "amqp:invalid-field";
   str "amqp:not-implemented";
   str "amqp:resource-locked";
   str "amqp:precondition-failed";
   str "amqp:resource-deleted";
   str "amqp:illegal-state";
   str "amqp:frame-size-too-small";
   str "amqp:connection:forced";
   str "amqp:connection:framing-error";
   str "amqp:connection:redirect";
   str "amqp:session:window-violation";
   str "amqp:session:errant-link";
   str "amqp:session:handle-in-use";
   str "amqp:session:unattached-handle";
   str "amqp:link:detach-forced";
   str "amqp:link:transfer-limit-exceeded";
   str "amqp:link:message-size-exceeded";
   str "amqp:link:redirect";
   str "amqp:link:stolen"].
Definition legal_condition (c : error_condition) : Prop :=
  match c with CondCustom s => text s /\ ~ In s known_conditions | _ => True end.
Definition legal_distribution (m : distribution_mode) : Prop :=
  match m with DistCustom s => text s /\ s <> str "move" /\ s <> str "copy" | _ => True end.

(** The wire form of an optional field. *)
Definition wire_opt {A} (enc : A -> bytes) (o : option A) : bytes :=
  match o with Some a => enc a | None => [x40] end.

(** The content of a list in which [n] of the given fields are present, each
    as its value or as null. *)
Fixpoint fields_wire (sent : nat -> bool) (n : nat) (items : list bytes) : bytes :=
  match n, items with
  | S n, item :: items =>
      (if sent 0%nat then item else [x40]) ++ fields_wire (fun i => sent (S i)) n items
  | _, _ => []
  end.

(** The three wire forms of a list with [count] elements and that content. *)
Inductive list_form (count : N) (content : bytes) : bytes -> Prop :=
| list_form0 : count = 0 -> content = [] -> list_form count content [x45]
| list_form8 : blen content + 1 < 256 -> count < 256 ->
    list_form count content (xc0 :: be 1 (blen content + 1) ++ be 1 count ++ content)
| list_form32 : blen content + 4 < 2 ^ 32 -> count < 2 ^ 32 ->
    list_form count content (xd0 :: be 4 (blen content + 4) ++ be 4 count ++ content).

Definition legal_error (x : error_t) : Prop :=
  legal_condition (err_condition x)
  /\ optional (text) (err_description x)
  /\ optional (legal_pairs) (err_info x).
Definition error_items (x : error_t) : list bytes :=
  [c_enc error_condition_c (err_condition x);
   wire_opt (c_enc string_c) (err_description x);
   wire_opt (c_enc symbol_map_c) (err_info x)].
Definition error_seen (sent : nat -> bool) (x : error_t) : option error_t :=
  if negb (sent 0%nat) then None else
  Some (mk_err
    (err_condition x)
    (if sent 1%nat then err_description x else None)
    (if sent 2%nat then err_info x else None)).

Definition legal_received (x : received_t) : Prop :=
  unsigned 32 (received_section_number x)
  /\ unsigned 64 (received_section_offset x).
Definition received_items (x : received_t) : list bytes :=
  [c_enc u32_c (received_section_number x);
   c_enc u64_c (received_section_offset x)].
Definition received_seen (sent : nat -> bool) (x : received_t) : option received_t :=
  if negb (sent 0%nat) then None else
  if negb (sent 1%nat) then None else
  Some (mk_received
    (received_section_number x)
    (received_section_offset x)).

Definition legal_accepted (x : accepted_t) : Prop :=
  True.
Definition accepted_items (x : accepted_t) : list bytes :=
  [].
Definition accepted_seen (sent : nat -> bool) (x : accepted_t) : option accepted_t :=
  Some (mk_accepted).

Definition legal_rejected (x : rejected_t) : Prop :=
  optional (legal_error) (rejected_error x).
Definition rejected_items (x : rejected_t) : list bytes :=
  [wire_opt (c_enc error_c) (rejected_error x)].
Definition rejected_seen (sent : nat -> bool) (x : rejected_t) : option rejected_t :=
  Some (mk_rejected
    (if sent 0%nat then rejected_error x else None)).

Definition legal_released (x : released_t) : Prop :=
  True.
Definition released_items (x : released_t) : list bytes :=
  [].
Definition released_seen (sent : nat -> bool) (x : released_t) : option released_t :=
  Some (mk_released).

Definition legal_modified (x : modified_t) : Prop :=
  optional (legal_pairs) (modified_message_annotations x).
Definition modified_items (x : modified_t) : list bytes :=
  [wire_opt (c_enc bool_c) (modified_delivery_failed x);
   wire_opt (c_enc bool_c) (modified_undeliverable_here x);
   wire_opt (c_enc symbol_map_c) (modified_message_annotations x)].
Definition modified_seen (sent : nat -> bool) (x : modified_t) : option modified_t :=
  Some (mk_modified
    (if sent 0%nat then modified_delivery_failed x else None)
    (if sent 1%nat then modified_undeliverable_here x else None)
    (if sent 2%nat then modified_message_annotations x else None)).

Definition legal_delivery_state (s : delivery_state) : Prop :=
  match s with | DSReceived x => legal_received x | DSAccepted x => legal_accepted x | DSRejected x => legal_rejected x | DSReleased x => legal_released x | DSModified x => legal_modified x end.

Definition legal_outcome (s : outcome) : Prop :=
  match s with | OAccepted x => legal_accepted x | ORejected x => legal_rejected x | OReleased x => legal_released x | OModified x => legal_modified x end.

Definition legal_source (x : source_t) : Prop :=
  optional (text) (source_address x)
  /\ unsigned 32 (source_timeout x)
  /\ optional (legal_fields) (source_dynamic_node_properties x)
  /\ optional (legal_distribution) (source_distribution_mode x)
  /\ optional (legal_filter) (source_filter x)
  /\ optional (legal_outcome) (source_default_outcome x)
  /\ optional (legal_symbols) (source_outcomes x)
  /\ optional (legal_symbols) (source_capabilities x).
Definition source_items (x : source_t) : list bytes :=
  [wire_opt (c_enc string_c) (source_address x);
   c_enc terminus_durability_c (source_durable x);
   c_enc terminus_expiry_policy_c (source_expiry_policy x);
   c_enc u32_c (source_timeout x);
   c_enc bool_c (source_dynamic x);
   wire_opt (c_enc fields_c) (source_dynamic_node_properties x);
   wire_opt (c_enc distribution_mode_c) (source_distribution_mode x);
   wire_opt (c_enc filter_c) (source_filter x);
   wire_opt (c_enc outcome_c) (source_default_outcome x);
   wire_opt (c_enc symbols_c) (source_outcomes x);
   wire_opt (c_enc symbols_c) (source_capabilities x)].
Definition source_seen (sent : nat -> bool) (x : source_t) : option source_t :=
  Some (mk_source
    (if sent 0%nat then source_address x else None)
    (if sent 1%nat then source_durable x else TerminusDurabilityNone)
    (if sent 2%nat then source_expiry_policy x else ExpirySessionEnd)
    (if sent 3%nat then source_timeout x else 0)
    (if sent 4%nat then source_dynamic x else false)
    (if sent 5%nat then source_dynamic_node_properties x else None)
    (if sent 6%nat then source_distribution_mode x else None)
    (if sent 7%nat then source_filter x else None)
    (if sent 8%nat then source_default_outcome x else None)
    (if sent 9%nat then source_outcomes x else None)
    (if sent 10%nat then source_capabilities x else None)).

Definition legal_target (x : target_t) : Prop :=
  optional (text) (target_address x)
  /\ unsigned 32 (target_timeout x)
  /\ optional (legal_fields) (target_dynamic_node_properties x)
  /\ optional (legal_symbols) (target_capabilities x).
Definition target_items (x : target_t) : list bytes :=
  [wire_opt (c_enc string_c) (target_address x);
   c_enc terminus_durability_c (target_durable x);
   c_enc terminus_expiry_policy_c (target_expiry_policy x);
   c_enc u32_c (target_timeout x);
   c_enc bool_c (target_dynamic x);
   wire_opt (c_enc fields_c) (target_dynamic_node_properties x);
   wire_opt (c_enc symbols_c) (target_capabilities x)].
Definition target_seen (sent : nat -> bool) (x : target_t) : option target_t :=
  Some (mk_target
    (if sent 0%nat then target_address x else None)
    (if sent 1%nat then target_durable x else TerminusDurabilityNone)
    (if sent 2%nat then target_expiry_policy x else ExpirySessionEnd)
    (if sent 3%nat then target_timeout x else 0)
    (if sent 4%nat then target_dynamic x else false)
    (if sent 5%nat then target_dynamic_node_properties x else None)
    (if sent 6%nat then target_capabilities x else None)).

Definition legal_open (x : open_t) : Prop :=
  text (open_container_id x)
  /\ optional (text) (open_hostname x)
  /\ unsigned 32 (open_max_frame_size x)
  /\ unsigned 16 (open_channel_max x)
  /\ optional (unsigned 32) (open_idle_time_out x)
  /\ optional (legal_symbols) (open_outgoing_locales x)
  /\ optional (legal_symbols) (open_incoming_locales x)
  /\ optional (legal_symbols) (open_offered_capabilities x)
  /\ optional (legal_symbols) (open_desired_capabilities x)
  /\ optional (legal_fields) (open_properties x).
Definition open_items (x : open_t) : list bytes :=
  [c_enc string_c (open_container_id x);
   wire_opt (c_enc string_c) (open_hostname x);
   c_enc u32_c (open_max_frame_size x);
   c_enc u16_c (open_channel_max x);
   wire_opt (c_enc u32_c) (open_idle_time_out x);
   wire_opt (c_enc symbols_c) (open_outgoing_locales x);
   wire_opt (c_enc symbols_c) (open_incoming_locales x);
   wire_opt (c_enc symbols_c) (open_offered_capabilities x);
   wire_opt (c_enc symbols_c) (open_desired_capabilities x);
   wire_opt (c_enc fields_c) (open_properties x)].
Definition open_seen (sent : nat -> bool) (x : open_t) : option open_t :=
  if negb (sent 0%nat) then None else
  Some (mk_open
    (open_container_id x)
    (if sent 1%nat then open_hostname x else None)
    (if sent 2%nat then open_max_frame_size x else 4294967295)
    (if sent 3%nat then open_channel_max x else 65535)
    (if sent 4%nat then open_idle_time_out x else None)
    (if sent 5%nat then open_outgoing_locales x else None)
    (if sent 6%nat then open_incoming_locales x else None)
    (if sent 7%nat then open_offered_capabilities x else None)
    (if sent 8%nat then open_desired_capabilities x else None)
    (if sent 9%nat then open_properties x else None)).

Definition legal_begin (x : begin_t) : Prop :=
  optional (unsigned 16) (begin_remote_channel x)
  /\ unsigned 32 (begin_next_outgoing_id x)
  /\ unsigned 32 (begin_incoming_window x)
  /\ unsigned 32 (begin_outgoing_window x)
  /\ unsigned 32 (begin_handle_max x)
  /\ optional (legal_symbols) (begin_offered_capabilities x)
  /\ optional (legal_symbols) (begin_desired_capabilities x)
  /\ optional (legal_fields) (begin_properties x).
Definition begin_items (x : begin_t) : list bytes :=
  [wire_opt (c_enc u16_c) (begin_remote_channel x);
   c_enc u32_c (begin_next_outgoing_id x);
   c_enc u32_c (begin_incoming_window x);
   c_enc u32_c (begin_outgoing_window x);
   c_enc u32_c (begin_handle_max x);
   wire_opt (c_enc symbols_c) (begin_offered_capabilities x);
   wire_opt (c_enc symbols_c) (begin_desired_capabilities x);
   wire_opt (c_enc fields_c) (begin_properties x)].
Definition begin_seen (sent : nat -> bool) (x : begin_t) : option begin_t :=
  if negb (sent 1%nat) then None else
  if negb (sent 2%nat) then None else
  if negb (sent 3%nat) then None else
  Some (mk_begin
    (if sent 0%nat then begin_remote_channel x else None)
    (begin_next_outgoing_id x)
    (begin_incoming_window x)
    (begin_outgoing_window x)
    (if sent 4%nat then begin_handle_max x else 4294967295)
    (if sent 5%nat then begin_offered_capabilities x else None)
    (if sent 6%nat then begin_desired_capabilities x else None)
    (if sent 7%nat then begin_properties x else None)).

Definition legal_attach (x : attach_t) : Prop :=
  text (attach_name x)
  /\ unsigned 32 (attach_handle x)
  /\ optional (legal_source) (attach_source x)
  /\ optional (legal_target) (attach_target x)
  /\ optional (legal_map) (attach_unsettled x)
  /\ optional (unsigned 32) (attach_initial_delivery_count x)
  /\ optional (unsigned 64) (attach_max_message_size x)
  /\ optional (legal_symbols) (attach_offered_capabilities x)
  /\ optional (legal_symbols) (attach_desired_capabilities x)
  /\ optional (legal_fields) (attach_properties x).
Definition attach_items (x : attach_t) : list bytes :=
  [c_enc string_c (attach_name x);
   c_enc u32_c (attach_handle x);
   c_enc role_c (attach_role x);
   c_enc sender_settle_mode_c (attach_snd_settle_mode x);
   c_enc receiver_settle_mode_c (attach_rcv_settle_mode x);
   wire_opt (c_enc source_c) (attach_source x);
   wire_opt (c_enc target_c) (attach_target x);
   wire_opt (c_enc map_c) (attach_unsettled x);
   c_enc bool_c (attach_incomplete_unsettled x);
   wire_opt (c_enc u32_c) (attach_initial_delivery_count x);
   wire_opt (c_enc u64_c) (attach_max_message_size x);
   wire_opt (c_enc symbols_c) (attach_offered_capabilities x);
   wire_opt (c_enc symbols_c) (attach_desired_capabilities x);
   wire_opt (c_enc fields_c) (attach_properties x)].
Definition attach_seen (sent : nat -> bool) (x : attach_t) : option attach_t :=
  if negb (sent 0%nat) then None else
  if negb (sent 1%nat) then None else
  if negb (sent 2%nat) then None else
  Some (mk_attach
    (attach_name x)
    (attach_handle x)
    (attach_role x)
    (if sent 3%nat then attach_snd_settle_mode x else SenderMixed)
    (if sent 4%nat then attach_rcv_settle_mode x else ReceiverFirst)
    (if sent 5%nat then attach_source x else None)
    (if sent 6%nat then attach_target x else None)
    (if sent 7%nat then attach_unsettled x else None)
    (if sent 8%nat then attach_incomplete_unsettled x else false)
    (if sent 9%nat then attach_initial_delivery_count x else None)
    (if sent 10%nat then attach_max_message_size x else None)
    (if sent 11%nat then attach_offered_capabilities x else None)
    (if sent 12%nat then attach_desired_capabilities x else None)
    (if sent 13%nat then attach_properties x else None)).

Definition legal_flow (x : flow_t) : Prop :=
  optional (unsigned 32) (flow_next_incoming_id x)
  /\ unsigned 32 (flow_incoming_window x)
  /\ unsigned 32 (flow_next_outgoing_id x)
  /\ unsigned 32 (flow_outgoing_window x)
  /\ optional (unsigned 32) (flow_handle x)
  /\ optional (unsigned 32) (flow_delivery_count x)
  /\ optional (unsigned 32) (flow_link_credit x)
  /\ optional (unsigned 32) (flow_available x)
  /\ optional (legal_fields) (flow_properties x).
Definition flow_items (x : flow_t) : list bytes :=
  [wire_opt (c_enc u32_c) (flow_next_incoming_id x);
   c_enc u32_c (flow_incoming_window x);
   c_enc u32_c (flow_next_outgoing_id x);
   c_enc u32_c (flow_outgoing_window x);
   wire_opt (c_enc u32_c) (flow_handle x);
   wire_opt (c_enc u32_c) (flow_delivery_count x);
   wire_opt (c_enc u32_c) (flow_link_credit x);
   wire_opt (c_enc u32_c) (flow_available x);
   c_enc bool_c (flow_drain x);
   c_enc bool_c (flow_echo x);
   wire_opt (c_enc fields_c) (flow_properties x)].
Definition flow_seen (sent : nat -> bool) (x : flow_t) : option flow_t :=
  if negb (sent 1%nat) then None else
  if negb (sent 2%nat) then None else
  if negb (sent 3%nat) then None else
  Some (mk_flow
    (if sent 0%nat then flow_next_incoming_id x else None)
    (flow_incoming_window x)
    (flow_next_outgoing_id x)
    (flow_outgoing_window x)
    (if sent 4%nat then flow_handle x else None)
    (if sent 5%nat then flow_delivery_count x else None)
    (if sent 6%nat then flow_link_credit x else None)
    (if sent 7%nat then flow_available x else None)
    (if sent 8%nat then flow_drain x else false)
    (if sent 9%nat then flow_echo x else false)
    (if sent 10%nat then flow_properties x else None)).

Definition legal_transfer (x : transfer_head) : Prop :=
  unsigned 32 (transfer_handle x)
  /\ optional (unsigned 32) (transfer_delivery_id x)
  /\ optional (unsigned 32) (transfer_message_format x)
  /\ optional (legal_delivery_state) (transfer_state x).
Definition transfer_items (x : transfer_head) : list bytes :=
  [c_enc u32_c (transfer_handle x);
   wire_opt (c_enc u32_c) (transfer_delivery_id x);
   wire_opt (c_enc binary_c) (transfer_delivery_tag x);
   wire_opt (c_enc u32_c) (transfer_message_format x);
   wire_opt (c_enc bool_c) (transfer_settled x);
   c_enc bool_c (transfer_more x);
   wire_opt (c_enc receiver_settle_mode_c) (transfer_rcv_settle_mode x);
   wire_opt (c_enc delivery_state_c) (transfer_state x);
   c_enc bool_c (transfer_resume x);
   c_enc bool_c (transfer_aborted x);
   c_enc bool_c (transfer_batchable x)].
Definition transfer_seen (sent : nat -> bool) (x : transfer_head) : option transfer_head :=
  if negb (sent 0%nat) then None else
  Some (mk_transfer
    (transfer_handle x)
    (if sent 1%nat then transfer_delivery_id x else None)
    (if sent 2%nat then transfer_delivery_tag x else None)
    (if sent 3%nat then transfer_message_format x else None)
    (if sent 4%nat then transfer_settled x else None)
    (if sent 5%nat then transfer_more x else false)
    (if sent 6%nat then transfer_rcv_settle_mode x else None)
    (if sent 7%nat then transfer_state x else None)
    (if sent 8%nat then transfer_resume x else false)
    (if sent 9%nat then transfer_aborted x else false)
    (if sent 10%nat then transfer_batchable x else false)).

Definition legal_disposition (x : disposition_t) : Prop :=
  unsigned 32 (disposition_first x)
  /\ optional (unsigned 32) (disposition_last x)
  /\ optional (legal_delivery_state) (disposition_state x).
Definition disposition_items (x : disposition_t) : list bytes :=
  [c_enc role_c (disposition_role x);
   c_enc u32_c (disposition_first x);
   wire_opt (c_enc u32_c) (disposition_last x);
   c_enc bool_c (disposition_settled x);
   wire_opt (c_enc delivery_state_c) (disposition_state x);
   c_enc bool_c (disposition_batchable x)].
Definition disposition_seen (sent : nat -> bool) (x : disposition_t) : option disposition_t :=
  if negb (sent 0%nat) then None else
  if negb (sent 1%nat) then None else
  Some (mk_disposition
    (disposition_role x)
    (disposition_first x)
    (if sent 2%nat then disposition_last x else None)
    (if sent 3%nat then disposition_settled x else false)
    (if sent 4%nat then disposition_state x else None)
    (if sent 5%nat then disposition_batchable x else false)).

Definition legal_detach (x : detach_t) : Prop :=
  unsigned 32 (detach_handle x)
  /\ optional (legal_error) (detach_error x).
Definition detach_items (x : detach_t) : list bytes :=
  [c_enc u32_c (detach_handle x);
   c_enc bool_c (detach_closed x);
   wire_opt (c_enc error_c) (detach_error x)].
Definition detach_seen (sent : nat -> bool) (x : detach_t) : option detach_t :=
  if negb (sent 0%nat) then None else
  Some (mk_detach
    (detach_handle x)
    (if sent 1%nat then detach_closed x else false)
    (if sent 2%nat then detach_error x else None)).

Definition legal_end (x : end_t) : Prop :=
  optional (legal_error) (end_error x).
Definition end_items (x : end_t) : list bytes :=
  [wire_opt (c_enc error_c) (end_error x)].
Definition end_seen (sent : nat -> bool) (x : end_t) : option end_t :=
  Some (mk_end
    (if sent 0%nat then end_error x else None)).

Definition legal_close (x : close_t) : Prop :=
  optional (legal_error) (close_error x).
Definition close_items (x : close_t) : list bytes :=
  [wire_opt (c_enc error_c) (close_error x)].
Definition close_seen (sent : nat -> bool) (x : close_t) : option close_t :=
  Some (mk_close
    (if sent 0%nat then close_error x else None)).

Definition legal_sasl_mechanisms (x : sasl_mechanisms_t) : Prop :=
  legal_symbols (sasl_mechanisms_sasl_server_mechanisms x).
Definition sasl_mechanisms_items (x : sasl_mechanisms_t) : list bytes :=
  [c_enc symbols_c (sasl_mechanisms_sasl_server_mechanisms x)].
Definition sasl_mechanisms_seen (sent : nat -> bool) (x : sasl_mechanisms_t) : option sasl_mechanisms_t :=
  if negb (sent 0%nat) then None else
  Some (mk_sasl_mechanisms
    (sasl_mechanisms_sasl_server_mechanisms x)).

Definition legal_sasl_init (x : sasl_init_t) : Prop :=
  text (sasl_init_mechanism x)
  /\ optional (text) (sasl_init_hostname x).
Definition sasl_init_items (x : sasl_init_t) : list bytes :=
  [c_enc symbol_c (sasl_init_mechanism x);
   wire_opt (c_enc binary_c) (sasl_init_initial_response x);
   wire_opt (c_enc string_c) (sasl_init_hostname x)].
Definition sasl_init_seen (sent : nat -> bool) (x : sasl_init_t) : option sasl_init_t :=
  if negb (sent 0%nat) then None else
  Some (mk_sasl_init
    (sasl_init_mechanism x)
    (if sent 1%nat then sasl_init_initial_response x else None)
    (if sent 2%nat then sasl_init_hostname x else None)).

Definition legal_sasl_challenge (x : sasl_challenge_t) : Prop :=
  True.
Definition sasl_challenge_items (x : sasl_challenge_t) : list bytes :=
  [c_enc binary_c (sasl_challenge_challenge x)].
Definition sasl_challenge_seen (sent : nat -> bool) (x : sasl_challenge_t) : option sasl_challenge_t :=
  if negb (sent 0%nat) then None else
  Some (mk_sasl_challenge
    (sasl_challenge_challenge x)).

Definition legal_sasl_response (x : sasl_response_t) : Prop :=
  True.
Definition sasl_response_items (x : sasl_response_t) : list bytes :=
  [c_enc binary_c (sasl_response_response x)].
Definition sasl_response_seen (sent : nat -> bool) (x : sasl_response_t) : option sasl_response_t :=
  if negb (sent 0%nat) then None else
  Some (mk_sasl_response
    (sasl_response_response x)).

Definition legal_sasl_outcome (x : sasl_outcome_t) : Prop :=
  True.
Definition sasl_outcome_items (x : sasl_outcome_t) : list bytes :=
  [c_enc sasl_code_c (sasl_outcome_code x);
   wire_opt (c_enc binary_c) (sasl_outcome_additional_data x)].
Definition sasl_outcome_seen (sent : nat -> bool) (x : sasl_outcome_t) : option sasl_outcome_t :=
  if negb (sent 0%nat) then None else
  Some (mk_sasl_outcome
    (sasl_outcome_code x)
    (if sent 1%nat then sasl_outcome_additional_data x else None)).

Definition legal_header (x : header_t) : Prop :=
  unsigned 8 (header_priority x)
  /\ optional (unsigned 32) (header_ttl x)
  /\ unsigned 32 (header_delivery_count x).
Definition header_items (x : header_t) : list bytes :=
  [c_enc bool_c (header_durable x);
   c_enc u8_c (header_priority x);
   wire_opt (c_enc u32_c) (header_ttl x);
   c_enc bool_c (header_first_acquirer x);
   c_enc u32_c (header_delivery_count x)].
Definition header_seen (sent : nat -> bool) (x : header_t) : option header_t :=
  Some (mk_header
    (if sent 0%nat then header_durable x else false)
    (if sent 1%nat then header_priority x else 4)
    (if sent 2%nat then header_ttl x else None)
    (if sent 3%nat then header_first_acquirer x else false)
    (if sent 4%nat then header_delivery_count x else 0)).

Definition legal_properties (x : properties_t) : Prop :=
  optional (legal_message_id) (properties_message_id x)
  /\ optional (text) (properties_to x)
  /\ optional (text) (properties_subject x)
  /\ optional (text) (properties_reply_to x)
  /\ optional (legal_message_id) (properties_correlation_id x)
  /\ optional (text) (properties_content_type x)
  /\ optional (text) (properties_content_encoding x)
  /\ optional (legal_timestamp) (properties_absolute_expiry_time x)
  /\ optional (legal_timestamp) (properties_creation_time x)
  /\ optional (text) (properties_group_id x)
  /\ optional (unsigned 32) (properties_group_sequence x)
  /\ optional (text) (properties_reply_to_group_id x).
Definition properties_items (x : properties_t) : list bytes :=
  [wire_opt (c_enc message_id_c) (properties_message_id x);
   wire_opt (c_enc binary_c) (properties_user_id x);
   wire_opt (c_enc string_c) (properties_to x);
   wire_opt (c_enc string_c) (properties_subject x);
   wire_opt (c_enc string_c) (properties_reply_to x);
   wire_opt (c_enc message_id_c) (properties_correlation_id x);
   wire_opt (c_enc symbol_c) (properties_content_type x);
   wire_opt (c_enc symbol_c) (properties_content_encoding x);
   wire_opt (c_enc timestamp_c) (properties_absolute_expiry_time x);
   wire_opt (c_enc timestamp_c) (properties_creation_time x);
   wire_opt (c_enc string_c) (properties_group_id x);
   wire_opt (c_enc u32_c) (properties_group_sequence x);
   wire_opt (c_enc string_c) (properties_reply_to_group_id x)].
Definition properties_seen (sent : nat -> bool) (x : properties_t) : option properties_t :=
  Some (mk_properties
    (if sent 0%nat then properties_message_id x else None)
    (if sent 1%nat then properties_user_id x else None)
    (if sent 2%nat then properties_to x else None)
    (if sent 3%nat then properties_subject x else None)
    (if sent 4%nat then properties_reply_to x else None)
    (if sent 5%nat then properties_correlation_id x else None)
    (if sent 6%nat then properties_content_type x else None)
    (if sent 7%nat then properties_content_encoding x else None)
    (if sent 8%nat then properties_absolute_expiry_time x else None)
    (if sent 9%nat then properties_creation_time x else None)
    (if sent 10%nat then properties_group_id x else None)
    (if sent 11%nat then properties_group_sequence x else None)
    (if sent 12%nat then properties_reply_to_group_id x else None)).
