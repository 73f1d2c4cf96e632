{
 "claims": [
  {
   "property": "C01",
   "status": "proved",
   "theorems": [
    "C01_value_round_trip"
   ],
   "note": "Excluded values are those named in the quantifier (wire_safe) and encodings of 4 GiB or more."
  },
  {
   "property": "C02",
   "status": "proved",
   "theorems": [
    "C02_frame_size",
    "C02_sasl_frame_size",
    "C02_performative_size",
    "C02_section_size",
    "C02_message_size",
    "C02_type_sizes",
    "C02_encoder_check",
    "C02_value_size",
    "C02_array_size",
    "C02_multiple_size"
   ],
   "note": "Values, arrays, Vec, Multiple; every composite type, section, message, performative and frame."
  },
  {
   "property": "C03",
   "status": "proved",
   "theorems": [
    "C03_prefix_local"
   ],
   "note": ""
  },
  {
   "property": "C04",
   "status": "partial",
   "theorems": [
    "C04_decoder_panics_only_if_partial",
    "C04_no_panic_refuted_debug",
    "C04_no_panic_refuted_release"
   ],
   "note": "The full claim is false of the code (two refutations): characterised which inputs can panic."
  },
  {
   "property": "C05",
   "status": "proved",
   "theorems": [
    "C05_decoded_legal"
   ],
   "note": ""
  },
  {
   "property": "C06",
   "status": "partial",
   "theorems": [
    "C06_reencode_partial",
    "C06_reencoded_size",
    "C06_reencode_refuted_descriptor",
    "C06_reencode_refuted_array"
   ],
   "note": "False in full (two refutations): proved for values without descriptor 0 and without oversized zero-width arrays."
  },
  {
   "property": "C07",
   "status": "partial",
   "theorems": [
    "C07_timestamp_round_trip_partial",
    "C07_timestamp_refuted_before_1970",
    "C07_timestamp_refuted_whole_second"
   ],
   "note": "False in full (refuted before 1970): proved exactly which instants survive."
  },
  {
   "property": "C08",
   "status": "partial",
   "theorems": [
    "C08_descriptor_round_trip_partial",
    "C08_descriptor_zero_refuted"
   ],
   "note": "False for the numeric descriptor 0 (refuted); proved for all others."
  },
  {
   "property": "C09",
   "status": "proved",
   "theorems": [
    "C09_array_round_trip",
    "C09_vec_round_trip",
    "C09_multiple_round_trip"
   ],
   "note": ""
  },
  {
   "property": "C10",
   "status": "partial",
   "theorems": [
    "C10_depth_bounded_partial",
    "C10_depth_no_fixed_limit",
    "C10_memory_refuted"
   ],
   "note": "Depth bound proved; memory bound refuted."
  },
  {
   "property": "C11",
   "status": "proved",
   "theorems": [
    "C11_performative_round_trip",
    "C11_sasl_round_trip",
    "C11_types_round_trip",
    "C11_received_unchanged"
   ],
   "note": "Transfer bodies arrive as bytes (received_frame), empty ones as none."
  },
  {
   "property": "C12",
   "status": "proved",
   "theorems": [
    "C12_omitted_fields",
    "C12_omitted_fields_of_types"
   ],
   "note": ""
  },
  {
   "property": "C13",
   "status": "partial",
   "theorems": [
    "C13_message_received",
    "C13_message_round_trip_partial",
    "C13_format_lost_refuted",
    "C13_nested_refuted"
   ],
   "note": "False in full (two refutations: message format lost, nested messages arrive as data): proved what the receiver gets for every message."
  },
  {
   "property": "C14",
   "status": "partial",
   "theorems": [
    "C14_size_not_stale_partial",
    "C14_stale_size_refuted",
    "C14_stale_size_refuted_delivery",
    "C14_stale_frame_refuted"
   ],
   "note": "False in full (five methods keep the remembered size, refuted): proved for all sequences that do not use them between a size query and a reset."
  },
  {
   "property": "C15",
   "status": "proved",
   "theorems": [
    "C15_stream_round_trip",
    "C15_sasl_stream_round_trip"
   ],
   "note": ""
  },
  {
   "property": "C16",
   "status": "proved",
   "theorems": [
    "C16_reads_do_not_matter"
   ],
   "note": ""
  },
  {
   "property": "C17",
   "status": "proved",
   "theorems": [
    "C17_delivered_within_limit",
    "C17_oversized_refused",
    "C17_buffer_bounded"
   ],
   "note": ""
  },
  {
   "property": "C18",
   "status": "proved",
   "theorems": [
    "C18_header_round_trip",
    "C18_header_rejects",
    "C18_header_waits",
    "C18_header_bytes"
   ],
   "note": ""
  },
  {
   "property": "C19",
   "status": "partial",
   "theorems": [
    "C19_condition_round_trip_partial",
    "C19_distribution_round_trip_partial",
    "C19_condition_symbols",
    "C19_all_named",
    "C19_custom_refuted",
    "C19_distribution_refuted"
   ],
   "note": "False in full for custom symbols that spell a standard one (refuted); proved for all others."
  },
  {
   "property": "C20",
   "status": "partial",
   "theorems": [
    "C20_credit_respected_partial",
    "C20_reduced_credit_refuted"
   ],
   "note": "False in full (refuted: a flow that lowers the limit makes the credit wrap): proved for every run in which the limits set by the peer never decrease."
  },
  {
   "property": "C21",
   "status": "partial",
   "theorems": [
    "C21_window_respected_partial",
    "C21_window_frames_partial",
    "C21_multi_frame_refuted",
    "C21_unset_id_refuted"
   ],
   "note": "False in full (refuted for multi-frame deliveries and for an absent next-incoming-id): proved for the number of deliveries, and for frames when every body fits in one, while limits never decrease."
  },
  {
   "property": "C22",
   "status": "proved",
   "theorems": [
    "C22_ids_sequential",
    "C22_ids_distinct",
    "C22_tags_distinct"
   ],
   "note": "For all reachable states; tags of one link while it made at most 2^32 sends."
  },
  {
   "property": "C23",
   "status": "partial",
   "theorems": [
    "C23_split_exact_partial",
    "C23_marked_partial",
    "C23_data_honest",
    "C23_message_honest",
    "C23_stale_message_refuted"
   ],
   "note": "False for messages with a stale remembered size (refuted): proved for all data and all messages whose size is right."
  },
  {
   "property": "C24",
   "status": "partial",
   "theorems": [
    "C24_transfers_fit_partial",
    "C24_small_frames_refuted",
    "C24_long_tag_refuted"
   ],
   "note": "False for frame sizes up to 2048 and for long tags (refuted twice): proved above 2048 for tags of at most 1996 bytes."
  },
  {
   "property": "C25",
   "status": "partial",
   "theorems": [
    "C25_in_order_partial",
    "C25_all_handed_out_partial",
    "C25_aborted_refuted"
   ],
   "note": "False in full (refuted: an aborted delivery is handed out): proved for every run without aborted transfers, on every link, with progress."
  },
  {
   "property": "C26",
   "status": "partial",
   "theorems": [
    "C26_credit_exact_partial",
    "C26_handed_within_credit",
    "C26_wrapped_credit_refuted"
   ],
   "note": "Sum of grants minus completed deliveries proved while attached; release builds wrap once 2^32 credits were granted (refuted). Handed out within the credit granted: proved."
  },
  {
   "property": "C27",
   "status": "partial",
   "theorems": [
    "C27_size_bounded_partial",
    "C27_one_frame_refuted"
   ],
   "note": "False in full (refuted: the first frame is never checked): proved when a later frame carries a body."
  },
  {
   "property": "C28",
   "status": "proved",
   "theorems": [
    "C28_settled_once",
    "C28_dropped_rejected",
    "C28_settle_says",
    "C28_update_says"
   ],
   "note": "For deliveries whose id is used once in the session (own_id; ids repeat after 2^32 deliveries or at the peer's will) and about which the application sends no raw disposition; the rejection of dropped deliveries, while the session has not failed."
  },
  {
   "property": "C29",
   "status": "partial",
   "theorems": [
    "C29_seen_settled_partial",
    "C29_dropped_refuted",
    "C29_late_wait_refuted"
   ],
   "note": "False in full (two refutations: a delivery dropped without a wait, or after a wait that began late, is rejected on the wire). Proved when a suspended wait has seen the settlement."
  },
  {
   "property": "C30",
   "status": "partial",
   "theorems": [
    "C30_exact_range_partial",
    "C30_wrapping_range_refuted"
   ],
   "note": "False for ranges that wrap (refuted); proved exactly for all others: entries, waits, and no other effect."
  },
  {
   "property": "C31",
   "status": "partial",
   "theorems": [
    "C31_outcomes_assigned",
    "C31_disposition_answers_partial",
    "C31_detach_answers_partial",
    "C31_failure_answers_partial",
    "C31_two_waits_refuted",
    "C31_local_close_refuted"
   ],
   "note": "False in full (refuted: two waits at a time; a link closed by this side): soundness of every returned state proved for all runs, and completion on disposition, peer detach and failure for every suspended wait."
  },
  {
   "property": "C32",
   "status": "partial",
   "theorems": [
    "C32_failure_releases_partial",
    "C32_futures_complete",
    "C32_closed_link_refuted",
    "C32_woken_send_refuted"
   ],
   "note": "False in full (refuted: sends on a link this side closed; sends woken before the failure): proved for all other pending sends, all waits, and all futures of attach, detach, close and end."
  },
  {
   "property": "C33",
   "status": "partial",
   "theorems": [
    "C33_permanent",
    "C33_no_sessions_partial",
    "C33_ignored",
    "C33_sessions_refuted"
   ],
   "note": "First error is permanent, never open again, opening fails with it: proved. No sessions: proved unless the peer begins one afterwards; refuted if it does (a Begin is answered on a failed connection)."
  },
  {
   "property": "C34",
   "status": "partial",
   "theorems": [
    "C34_unique_partial",
    "C34_bounded",
    "C34_shared_refuted"
   ],
   "note": "Bound for locally opened sessions: proved. Uniqueness: proved while at most 65536 sessions exist at a time; refuted beyond (the slot number is truncated to 16 bits)."
  },
  {
   "property": "C35",
   "status": "partial",
   "theorems": [
    "C35_routed",
    "C35_handled_partial",
    "C35_ignored_refuted"
   ],
   "note": "Routing to the session last begun on the channel, or a protocol error: proved, except that a session marked as closing ignores frames. Under equal numbering only a session that is itself being ended is so marked; refuted otherwise."
  },
  {
   "property": "C36",
   "status": "partial",
   "theorems": [
    "C36_end_partial",
    "C36_one_end_partial",
    "C36_completes_partial",
    "C36_crossed_refuted"
   ],
   "note": "Exactly one End on the own channel, alternation of Begin and End over the whole history, completion on the peer's End and no effect on others: proved when both sides use the same channel number for the session; refuted otherwise."
  },
  {
   "property": "C37",
   "status": "partial",
   "theorems": [
    "C37_at_most_partial",
    "C37_reasons",
    "C37_answered",
    "C37_two_refuted"
   ],
   "note": "At most one Close more than the peer sent, before the io layer is closed; every Close of the peer answered once: proved. At most one in total: refuted."
  },
  {
   "property": "C38",
   "status": "partial",
   "theorems": [
    "C38_distinct_handles",
    "C38_routed_partial",
    "C38_stale_refuted"
   ],
   "note": "Handles of attached links are distinct (up to 2^32 links). A frame that names the handle of an attached link reaches that link, in every history in which the peer does not reuse the handle meanwhile. Refuted for handles under which nothing is attached: the entry of a refused link stays and hits a later one."
  },
  {
   "property": "C39",
   "status": "partial",
   "theorems": [
    "C39_answered_partial",
    "C39_close_completes_partial",
    "C39_opening_refuted",
    "C39_undecided_refuted"
   ],
   "note": "Answer and completion proved for every link that was attached; refuted for a close before the peer has answered the attach, and for a detach that arrives before the control service has decided about the link: it is ignored and the link is opened later."
  },
  {
   "property": "C40",
   "status": "partial",
   "theorems": [
    "C40_detach_releases_partial",
    "C40_crossed_handles_refuted"
   ],
   "note": "False in full (refuted: crossed handles): proved for sends waiting for credit, and for sends waiting for the window when the handles agree."
  },
  {
   "property": "C41",
   "status": "partial",
   "theorems": [
    "C41_refuted",
    "C41_refuted_amount",
    "C41_partial",
    "C41_router_partial",
    "C41_agree_partial",
    "C41_agree_refuted",
    "C41_abandon_refuted",
    "C41_flow",
    "C41_send",
    "C41_grant",
    "C41_receive"
   ],
   "note": "Refuted in general: a grant made while transfers are on the way and smaller than the credit left makes the sender's credit wrap around (C41_refuted), two grants in a row leave the ends with different credit (C41_agree_refuted), a send dropped while waiting loses credit (C41_abandon_refuted). Proved for every interleaving: no transfer exceeds the credit if no grant is smaller than the credit left, and the ends agree when quiet if credit is granted only when it has run out. C41_flow, C41_send, C41_grant and C41_receive tie the pair's counters to the session model."
  },
  {
   "property": "C42",
   "status": "partial",
   "theorems": [
    "C42_no_lost_delivery_partial",
    "C42_end_wakes_partial",
    "C42_local_detach_refuted",
    "C42_two_tasks_refuted"
   ],
   "note": "False in full (refuted: Session::detach_receiver_link wakes no one; two tasks share one waker): proved for one receiving task, deliveries and every other end of the link."
  },
  {
   "property": "C43",
   "status": "partial",
   "theorems": [
    "C43_plain",
    "C43_plain_connects",
    "C43_sasl_partial",
    "C43_sasl_connects",
    "C43_mechanisms_refuted",
    "C43_refusal",
    "C43_error_otherwise"
   ],
   "note": "Exactly which server streams give a connection is proved (both directions), refusals and every other closed stream give an error. Refuted: the first SASL frame need not be the list of mechanisms, even an announced failure passes there."
  },
  {
   "property": "C44",
   "status": "partial",
   "theorems": [
    "C44_accepted_partial",
    "C44_careful_partial",
    "C44_failure_refuted",
    "C44_plain_accepts",
    "C44_sasl_accepts",
    "C44_error_otherwise"
   ],
   "note": "Exactly which client streams and application decisions give a connection is proved. With SASL the announced outcome need not be success: refuted for an application that goes on after declaring failure, proved for one that does not."
  },
  {
   "property": "C45",
   "status": "proved",
   "theorems": [
    "C45_read",
    "C45_unambiguous",
    "C45_nul_needed"
   ],
   "note": "The password may even contain NUL."
  },
  {
   "property": "C46",
   "status": "partial",
   "theorems": [
    "C46_half",
    "C46_refuted_short",
    "C46_in_time_partial",
    "C46_paced",
    "C46_none"
   ],
   "note": "The interval is at most half of every time-out. Keep-alives are sent in time from 1334 ms on; for 1 to 1333 ms none is ever sent, which C46_refuted_short proves."
  },
  {
   "property": "C47",
   "status": "partial",
   "theorems": [
    "C47_refuted_remote",
    "C47_refuted_local",
    "C47_order_partial",
    "C47_once",
    "C47_nothing_lost",
    "C47_handled_once",
    "C47_handled_after",
    "C47_fatal"
   ],
   "note": "Refuted in general: events are presented out of order after swap_remove, and local events are overtaken by remote ones. Proved: the order when polls are calm, and that each event is presented at most once, none is lost and results are acted upon once. The dispatcher ends with an error exactly when a protocol error was dealt with."
  },
  {
   "property": "C48",
   "status": "partial",
   "theorems": [
    "C48_once",
    "C48_settled_once",
    "C48_settled_with",
    "C48_settled_when",
    "C48_handed_partial",
    "C48_refuted",
    "C48_credit",
    "C48_admission",
    "C48_unknown",
    "C48_create_fails",
    "C48_confirmed_partial",
    "C48_confirmed_credit"
   ],
   "note": "Refuted when deliveries arrive before the service is created: all but the first stay queued. Proved otherwise: handed at most once, settled once with the outcome returned, handed as soon as the service is ready. Refused exactly when the credit given is used up; links with an unknown address or whose service cannot be created are closed, others confirmed with 50 credits."
  },
  {
   "property": "C49",
   "status": "partial",
   "theorems": [
    "C49_never_asks",
    "C49_answered_partial",
    "C49_accepted_partial",
    "C49_refused_refuted"
   ],
   "note": "No flow of this side asks for an answer; session flows are answered at once, link flows when the control service accepts them. Refuted when it refuses: no answer."
  },
  {
   "property": "C50",
   "status": "proved",
   "theorems": [
    "C50_described_compound",
    "C50_described_leftover"
   ],
   "note": ""
  },
  {
   "property": "C51",
   "status": "partial",
   "theorems": [
    "C51_failure_partial",
    "C51_ending_refuted"
   ],
   "note": "Proved for every session except those being ended by this side, for which it is refuted: the future of Session::end goes on waiting."
  },
  {
   "property": "C52",
   "status": "proved",
   "theorems": [
    "C52_independent",
    "C52_own_channel"
   ],
   "note": "Every session of a reachable connection is a reachable session of Session.v, so all session theorems apply to it."
  },
  {
   "property": "C53",
   "status": "proved",
   "theorems": [
    "C53_credentials"
   ],
   "note": ""
  },
  {
   "property": "C54",
   "status": "partial",
   "theorems": [
    "C54_challenge_refuted",
    "C54_challenge_partial"
   ],
   "note": "Refuted: no such client is ever accepted (for every stream below 1 GiB), because the server awaits one more SASL frame. It is accepted if it sends a superfluous SASL frame."
  },
  {
   "property": "C55",
   "status": "partial",
   "theorems": [
    "C55_client_partial",
    "C55_server_refuted"
   ],
   "note": "The client's limit holds for the Open frame; the server's is not applied to the Open frame: refuted. SASL frames are unlimited on both sides."
  },
  {
   "property": "C56",
   "status": "proved",
   "theorems": [
    "C56_plain",
    "C56_sasl"
   ],
   "note": ""
  },
  {
   "property": "C57",
   "status": "partial",
   "theorems": [
    "C57_refuted",
    "C57_refuted_attach",
    "C57_partial"
   ],
   "note": "Refuted: a reference into the table of services is held while readiness is awaited; a detach or an attach invalidates it. Proved when neither happens meanwhile."
  },
  {
   "property": "C58",
   "status": "proved",
   "theorems": [
    "C58_end_to_end",
    "C58_all"
   ],
   "note": "Assumes bodies that are what they say they are, frames that are legal and within the peer's limit, and that the transfers of the handle reach one receiver link."
  },
  {
   "property": "C59",
   "status": "proved",
   "theorems": [
    "C59_ready",
    "C59_woken",
    "C59_gone",
    "C59_on_close",
    "C59_unattached_refuted"
   ],
   "note": "Outside the statement: a link handed to the control service that has not been attached yet is not closed when the session fails, and its waiters wait on (C59_unattached_refuted)."
  },
  {
   "property": "C60",
   "status": "partial",
   "theorems": [
    "C60_reads_back_partial",
    "C60_set_twice_refuted",
    "C60_received",
    "C60_reply",
    "C60_numbers",
    "C60_text",
    "C60_body"
   ],
   "note": "Proved for keys given one value; refuted for keys given two: the setters append and the getters return the first, so the old value is read (C60_set_twice_refuted). The rest is proved."
  },
  {
   "property": "C61",
   "status": "partial",
   "theorems": [
    "C61_only",
    "C61_exactly",
    "C61_peer_partial",
    "C61_peer_checked_partial",
    "C61_connection_partial",
    "C61_count_refuted",
    "C61_accept_refuted",
    "C61_detach_refuted"
   ],
   "note": "C61_only and C61_exactly give every way in which a session of at most 2^32 links panics. Without overflow checks nothing from the peer or the network does (also at the connection). Refuted otherwise: a peer that attaches with delivery count 2^32-1 overflows it in builds with checks; a peer that detaches (or ends) before the control service accepts its attach makes the acceptance panic in every build; detaching a receiver link by handle before the peer answered its attach reaches unimplemented!()."
  },
  {
   "property": "C62",
   "status": "partial",
   "theorems": [
    "C62_asked_partial",
    "C62_sender_partial",
    "C62_receiver_first",
    "C62_receiver_partial",
    "C62_receiver_refused",
    "C62_own_partial",
    "C62_swallowed_refuted",
    "C62_role_refuted"
   ],
   "note": "Asked, if no link of the history has taken the name. Sender links: accepted and refused, with anything in between except detach frames and failures. Receiver links: accepted and refused as long as the handle is still reserved. Own links: completed, if the name is not taken and not empty. Refuted: a link named like the source address of another sender link is swallowed (no question, no answer), and the attach frame that comes with a refused sender link has the wrong role."
  },
  {
   "property": "C63",
   "status": "partial",
   "theorems": [
    "C63_handle",
    "C63_kept",
    "C63_remote_partial",
    "C63_remote_refuted",
    "C63_name_peer_partial",
    "C63_name_own_partial",
    "C63_name_refuted",
    "C63_session",
    "C63_session_partial",
    "C63_session_refuted"
   ],
   "note": "By this side's handle: exactly, for histories with at most 2^32 links. By the peer's handle: if the peer gives it to no other link. By name: if no other link uses the name or source address. Sessions: what is found has the channel and has not ended; a session that has not ended is found if no session is being ended to which the peer gave the same number. Refuted: the peer's handle of a refused link finds a later link of this side; detaching one of two links from the same source hides the other, and links of the peer are never found by their own name; ending a session hides another one."
  },
  {
   "property": "C64",
   "status": "partial",
   "theorems": [
    "C64_sender",
    "C64_receiver",
    "C64_edited",
    "C64_panic_refuted",
    "C64_session"
   ],
   "note": "Senders, receivers and sessions, if with_frame is not used; with_frame keeps the edited frame. Refuted: capabilities() panics after with_frame has removed the source."
  },
  {
   "property": "C65",
   "status": "partial",
   "theorems": [
    "C65_built",
    "C65_legal",
    "C65_named",
    "C65_link",
    "C65_connection",
    "C65_rejected",
    "C65_codes_partial",
    "C65_codes_refuted"
   ],
   "note": "Links: for open links of histories with at most 2^32 links, at the peer if it uses the handle for no other link. Connections that have not failed. Rejected deliveries. Conditions whose custom symbol is not a standard one. Refuted: the constant ERRANT_LINK is no condition of AMQP."
  },
  {
   "property": "C66",
   "status": "partial",
   "theorems": [
    "C66_answered",
    "C66_begun",
    "C66_flow_partial",
    "C66_incoming_refuted"
   ],
   "note": "Proved: the answer to begin and what the session takes from it, for every peer; that the sessions of two connections of this library know each other, whatever happens before the answer; of every flow frame the next delivery id, the windows and that the next incoming id is what the peer told last. Refuted: transfers that arrive are not counted, so the next incoming id is stale."
  },
  {
   "property": "C67",
   "status": "partial",
   "theorems": [
    "C67_send",
    "C67_receive_partial",
    "C67_begin_partial",
    "C67_limit_refuted",
    "C67_no_limit_refuted",
    "C67_count_refuted",
    "C67_known_refuted"
   ],
   "note": "Proved: both exchanges open two ends that reach each other, for every history before and between; for a link on which the attaching side sends, names, handles and the size limit agree as well; for one on which it receives, what each end says. Refuted: a receiver's announced limit is not the one it applies, a limit of 0 is announced as none but refuses, an initial delivery count set by the application is not counted from (50 credits become 55), the name of a sender link the peer attached is its source address, and the remote handle of an own receiver link is its own handle."
  },
  {
   "property": "C68",
   "status": "proved",
   "theorems": [
    "C68_round_trip",
    "C68_read",
    "C68_scalar_refused",
    "C68_maps"
   ],
   "note": "Proved: round trip and size of lists of composites and of arrays of maps, and exactly which inputs are read as a list of composites. C68_scalar_refused: a type that writes a scalar (which the trait does not forbid) is written but not read back."
  },
  {
   "property": "C69",
   "status": "partial",
   "theorems": [
    "C69_announced",
    "C69_within",
    "C69_set",
    "C69_wire_partial",
    "C69_refused",
    "C69_accepted",
    "C69_zero_refuted",
    "C69_stale_refuted"
   ],
   "note": "Proved: for every history, the size that the body gives is within the peer's announced limit (cut to u32), or within the limit the application set; the refusal and its converse; with honest sizes the bytes on the wire. Refuted: a limit of 0, which in AMQP means none, refuses every body; a message whose remembered size is stale is sent although it is too large."
  },
  {
   "property": "C70",
   "status": "partial",
   "theorems": [
    "C70_refused_for_cause_partial",
    "C70_one_reason",
    "C70_fitting",
    "C70_large_frame_refuted"
   ],
   "note": "Proved for every history (in release builds as long as the grants fit 32 bits), with the uniqueness of the reason, and that the frames of a delivery sent by this library are never refused while there is credit and the size fits. Refuted: a message that is too large is taken if it comes in one frame."
  },
  {
   "property": "C71",
   "status": "partial",
   "theorems": [
    "C71_given",
    "C71_outcome",
    "C71_answered",
    "C71_dropped",
    "C71_late",
    "C71_modified_refuted",
    "C71_flag_refuted"
   ],
   "note": "Proved for every history of both sessions that send no disposition by hand and every cut of the bytes. Refuted for modified: the first wait that returns it takes it away, and the next one hangs although the peer has settled. Refuted for is_remote_settled (C71_flag_refuted): it stays false for a delivery that the peer sent settled, and for one it settles later until a wait returns."
  },
  {
   "property": "C72",
   "status": "partial",
   "theorems": [
    "C72_messages_partial",
    "C72_empty_refuted"
   ],
   "note": "Proved for every message and body that is written as at least one byte, whose remembered size is right and that is shorter than 4 GiB. Refuted: a message without sections is sent as nothing, and load_message fails."
  },
  {
   "property": "C73",
   "status": "partial",
   "theorems": [
    "C73_alternate_partial",
    "C73_open_partial",
    "C73_twice_refuted",
    "C73_unasked_refuted",
    "C73_transfer_refuted",
    "C73_flow_refuted"
   ],
   "note": "Proved for attach and detach frames if the peer detaches no link that is still being attached, the control service leaves the answer's handle alone and the session has not failed. Refuted: a handle is attached twice when the peer abandons an attach, a link that the service has not accepted is opened by a stale completion, a message is sent after the detach frame, credit is granted before the attach frame."
  },
  {
   "property": "C74",
   "status": "partial",
   "theorems": [
    "C74_below",
    "C74_limit_partial",
    "C74_exceeded_refuted"
   ],
   "note": "Proved: handles are below the greatest number of links that the session had at one time, for every history in which the control service leaves the handle of its answers alone; so the limit is kept by a session that never has more than handle-max + 1 links. Refuted otherwise: the peer's handle-max is never looked at."
  },
  {
   "property": "C75",
   "status": "proved",
   "theorems": [
    "C75_legal",
    "C75_read",
    "C75_both",
    "C75_echo_refuted"
   ],
   "note": "All frames of the session in every history; the bytes of any prefix in any pieces are read as those frames (the body of a transfer as bytes); the same for two sessions that talk to each other. The hypothesis on the values handed over excludes what C01 and C11 exclude: the descriptor 0, timestamps before 1970, custom conditions named like a standard one, repeated keys, messages with a stale remembered size (C14). Frames are assumed to be below 4 GiB and within the limit of the peer (C24). The proviso is needed for the peer as well: a source with the descriptor 0, which the codec reads and cannot write, is echoed in the answer, which nobody can read (C75_echo_refuted)."
  },
  {
   "property": "C76",
   "status": "partial",
   "theorems": [
    "C76_in_turn",
    "C76_no_credit",
    "C76_queue_first_partial",
    "C76_fifo_partial",
    "C76_overtaken_refuted",
    "C76_overtaken_window_refuted"
   ],
   "note": "Proved: transmitted messages stay in the order of their completion, whole and apart, in every history (C76_in_turn); who waits for credit waits only while there is none (C76_no_credit); while a send keeps its place in the queue, no other send on the link gets credit (C76_queue_first_partial); polled in the order of the queue, woken sends are transmitted in it and the rest queue again in it (C76_fifo_partial, with room in the session window). False: a flow dissolves the queue before those who waited have run, so a send made later and polled earlier takes the credit and the one that was first queues again behind (C76_overtaken_refuted), and likewise for the window of the session (C76_overtaken_window_refuted)."
  },
  {
   "property": "C77",
   "status": "partial",
   "theorems": [
    "C77_asleep",
    "C77_completes",
    "C77_starved_refuted"
   ],
   "note": "Proved for every history: who sleeps lacks credit or window (C77_asleep); one poll completes a send when there are both, whatever its state (C77_completes). Refuted: that continued grants bring every send through; for every n there is a history with n grants in which n later sends are transmitted and the first, polled after each grant, still waits (C77_starved_refuted, by induction on n)."
  },
  {
   "property": "C78",
   "status": "partial",
   "theorems": [
    "C78_send",
    "C78_wait",
    "C78_never_sent",
    "C78_costless_partial",
    "C78_lost_credit_refuted"
   ],
   "note": "Proved for every state and history: a drop commutes with all that follows (C78_send, C78_wait: the runs are equal), a dropped send is never transmitted (C78_never_sent), and one that waits for credit has taken nothing (C78_costless_partial; missing: that its place in the queue leaves no trace, which is proved only for credit, window, ids and frames). Refuted: a send that is dropped while it waits for the window of the session has taken a credit of the link and does not give it back, so that the next send waits although the peer granted a credit and nothing was sent (C78_lost_credit_refuted)."
  },
  {
   "property": "C79",
   "status": "partial",
   "theorems": [
    "C79_apart_partial",
    "C79_attached",
    "C79_asleep",
    "C79_refused_refuted"
   ],
   "note": "Proved for every history: a link that no event names, and that has not got the slot of a link that is named, keeps its whole state and its slot (C79_apart_partial); if the named links are in their own slots, as attached links are, nothing more is needed (C79_attached). Refuted in full: the refusal of a link that the peer has detached meanwhile closes the link that has got its number (C79_refused_refuted). A send that waits for credit on a link that no event names keeps its place in the queue and is neither woken nor failed nor lost (C79_asleep). Not covered: sends that wait for the window of the session, which all links share; see C40."
  },
  {
   "property": "C80",
   "status": "proved",
   "theorems": [
    "C80_settled",
    "C80_sent_settled",
    "C80_displaced"
   ],
   "note": "C80_settled and C80_sent_settled for every history; C80_displaced for every reachable session. That both of two waits get the outcome, as one might expect, is refuted by C31_two_waits_refuted."
  },
  {
   "property": "C81",
   "status": "proved",
   "theorems": [
    "C81_errors",
    "C81_late"
   ],
   "note": "C81_errors and C81_late for every reachable connection; C35_routed covers frames for a channel without a session."
  },
  {
   "property": "C82",
   "status": "proved",
   "theorems": [
    "C82_told",
    "C82_only",
    "C82_failed"
   ],
   "note": "C82_told, C82_only and C82_failed for every history. Which transfers are refused is C70; a failure that comes after the link is gone is in C79 and its refutation. The check of dispatcher.rs:191 that the connection is open is not in the session model."
  }
 ]
}