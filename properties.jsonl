{"id": "C01", "title": "Value round trip", "statement": "Encoding any well-formed AMQP value and decoding the resulting bytes, with any bytes following them, yields the same value and leaves exactly the following bytes unread.", "quantifier": "every Variant of any nesting depth whose encoding is below 4 GiB (values whose Rust type cannot hold them, timestamps before 1970, described values with descriptor code 0 or with a compound body, and zero-width arrays of more than 255 elements excluded - these have their own entries), and every trailing byte string", "why_tests_cant": "Values nest without bound; every width-selection boundary (0, 127, 255, 2^31, 2^32) combines with every container.", "anchors": ["codec/src/codec/encode.rs: impl Encode for Variant", "codec/src/codec/decode.rs: impl DecodeFormatted for Variant"]}
{"id": "C02", "title": "Announced size is written size", "statement": "encoded_size() of any value is exactly the number of bytes encode() appends.", "quantifier": "every Variant, descriptor, performative, message section and frame", "why_tests_cant": "Buffers are reserved from encoded_size and the frame header carries it; one wrong case corrupts the stream, and the cases are unboundedly many.", "anchors": ["codec/src/codec/encode.rs", "codec/src/protocol/definitions.rs", "codec/src/message/message.rs: Message::encoded_size"]}
{"id": "C03", "title": "Decoding is prefix-local", "statement": "When decoding a value succeeds, it has consumed a non-empty prefix of the input, the remainder is untouched, and appending more bytes to the input changes neither the value nor what was consumed.", "quantifier": "every byte string and every continuation", "why_tests_cant": "Quantifies over all inputs and all continuations.", "anchors": ["codec/src/codec/decode.rs", "codec/src/codec/mod.rs: Decode"]}
{"id": "C04", "title": "Value decoder never crashes", "statement": "Decoding an arbitrary byte string returns a value or an error; it never panics.", "quantifier": "every byte string, in debug and in release builds", "why_tests_cant": "The input space is all byte strings; fuzzing can only sample it.", "anchors": ["codec/src/codec/decode.rs: decode_compound8, decode_compound32, Variant", "codec/src/types/variant.rs: VariantMap"]}
{"id": "C05", "title": "Decoded values are legal", "statement": "Everything the decoder returns is a legal value of its type: strings and symbols are UTF-8, characters are Unicode scalar values, integers fit their width, maps have distinct keys.", "quantifier": "every byte string on which decoding succeeds", "why_tests_cant": "Universal over inputs.", "anchors": ["codec/src/codec/decode.rs: ByteString, Symbol, char, HashMap"]}
{"id": "C06", "title": "Decoded values can be sent on", "statement": "Re-encoding a decoded value and decoding it again gives the same value back.", "quantifier": "every byte string on which decoding succeeds", "why_tests_cant": "Non-canonical encodings (wide forms of small numbers, list0, slack bytes in maps, zero-width arrays) are unboundedly many.", "anchors": ["codec/src/codec/decode.rs", "codec/src/codec/encode.rs", "codec/src/types/array.rs"]}
{"id": "C07", "title": "Timestamps survive the wire", "statement": "A timestamp with millisecond precision decodes to the instant that was encoded.", "quantifier": "every representable instant, before and after 1970", "why_tests_cant": "2^64 millisecond values; the failing ones are scattered (sub-second negatives, whole negative seconds).", "anchors": ["codec/src/codec/decode.rs: datetime_from_millis", "codec/src/codec/encode.rs: DateTime<Utc>"]}
{"id": "C08", "title": "Descriptors survive the wire", "statement": "A described value keeps its descriptor when encoded and decoded.", "quantifier": "every numeric and symbolic descriptor", "why_tests_cant": "2^64 numeric and unboundedly many symbolic descriptors.", "anchors": ["codec/src/codec/decode.rs: Descriptor", "codec/src/codec/encode.rs: Descriptor"]}
{"id": "C09", "title": "Array round trip", "statement": "An array built from a list of elements of a primitive type encodes, decodes and converts back to the same list.", "quantifier": "every list of every primitive element type, any length", "why_tests_cant": "Length unbounded; the one-byte/four-byte form switch interacts with the element width.", "anchors": ["codec/src/types/array.rs: Array::new, Array::decode", "codec/src/codec/encode.rs: Vec<T>", "codec/src/codec/decode.rs: Vec<T>"]}
{"id": "C10", "title": "Decoder resource use follows input size", "statement": "The recursion depth and the number of elements for which memory is reserved while decoding never exceed the number of bytes received.", "quantifier": "every byte string", "why_tests_cant": "A universal bound; tests can only show particular inputs.", "anchors": ["codec/src/codec/decode.rs: List, Vec<T>, HashMap, Variant described branch"]}
{"id": "C11", "title": "Performative round trip", "statement": "Each AMQP performative (open, begin, attach, flow, transfer, disposition, detach, end, close) and each SASL frame body decodes to itself after encoding, all fields included.", "quantifier": "every field assignment of every performative, including absent optional fields and values equal to defaults", "why_tests_cant": "The product of all optional fields and value ranges.", "anchors": ["codec/src/protocol/definitions.rs", "codec/codegen/definitions.rs"]}
{"id": "C12", "title": "Omitted trailing fields mean their defaults", "statement": "A performative whose list ends early decodes with the missing optional fields absent and the missing defaulted fields at the defaults of the AMQP specification; a missing or null mandatory field is an error; unknown extra fields are ignored.", "quantifier": "every performative, every number of supplied fields, every field content", "why_tests_cant": "Every truncation point of every list combined with all field values.", "anchors": ["codec/src/protocol/definitions.rs: decode_open_inner and siblings"]}
{"id": "C13", "title": "Message round trip", "statement": "A message (header, annotations, properties, application properties, body, footer) decodes to itself after encoding.", "quantifier": "every message with every combination of sections", "why_tests_cant": "Unbounded sections and bodies.", "anchors": ["codec/src/message/message.rs", "codec/src/message/body.rs"]}
{"id": "C14", "title": "Message size is never stale", "statement": "After any sequence of changes to a message through its public methods the size reported equals the bytes written.", "quantifier": "every sequence of public mutations interleaved with size queries", "why_tests_cant": "The cache makes correctness depend on the history of calls.", "anchors": ["codec/src/message/message.rs: Message::encoded_size, set_body, body_mut, set_value"]}
{"id": "C15", "title": "Frame stream round trip under any fragmentation", "statement": "A peer that receives the bytes of a sequence of encoded frames, cut into arbitrary network reads, decodes exactly that sequence of frames, in order.", "quantifier": "every list of frames and every way of cutting their concatenation", "why_tests_cant": "The cuts are exponentially many and the list unbounded.", "anchors": ["codec/src/io.rs: AmqpCodec", "codec/src/codec/encode.rs: AmqpFrame", "codec/src/codec/decode.rs: AmqpFrame"]}
{"id": "C16", "title": "Framing does not depend on network reads", "statement": "For arbitrary received bytes, valid or not, the sequence of frames and the first error produced by the codec are the same however the bytes are cut into reads.", "quantifier": "every byte string and every way of cutting it", "why_tests_cant": "Exponentially many schedules of partial reads.", "anchors": ["codec/src/io.rs: AmqpCodec::decode"]}
{"id": "C17", "title": "Frame size limit is enforced", "statement": "With a maximum frame size configured, no frame announcing a larger size is delivered, and it is refused as soon as its 8-byte header arrives, whatever follows.", "quantifier": "every configured limit, every byte stream", "why_tests_cant": "Universal over limits and streams.", "anchors": ["codec/src/io.rs: AmqpCodec::decode, AmqpCodec::set_max_size"]}
{"id": "C18", "title": "Protocol header codec", "statement": "Each of the three protocol headers decodes to itself; any other eight bytes are an error; fewer than eight bytes are never consumed.", "quantifier": "every 8-byte string, every shorter prefix, every continuation", "why_tests_cant": "2^64 headers.", "anchors": ["codec/src/io.rs: ProtocolIdCodec"]}
{"id": "C19", "title": "Error conditions and distribution modes survive the wire", "statement": "An error condition or distribution mode decodes to itself after encoding.", "quantifier": "every condition, including every custom symbol", "why_tests_cant": "Custom symbols are unboundedly many and some collide with standard ones.", "anchors": ["codec/src/protocol/mod.rs: ErrorCondition, DistributionMode"]}
{"id": "C20", "title": "Sender never exceeds link credit", "statement": "The number of deliveries a sender link puts on the wire never exceeds what the receiver's flow frames allowed at that point (delivery-count plus link-credit of the last flow).", "quantifier": "every interleaving of sends, wake-ups, cancellations and incoming flow frames", "why_tests_cant": "All schedules; bugs appear only with stale flows and wrap-around.", "anchors": ["src/sndlink.rs: SenderLinkInner::send, apply_flow"]}
{"id": "C21", "title": "Sender never exceeds the session window", "statement": "The number of transfer frames put on the wire in a session never exceeds the incoming window the peer announced.", "quantifier": "every interleaving of sends on all links and incoming flow frames, every body size", "why_tests_cant": "All schedules and body sizes.", "anchors": ["src/session.rs: send_transfer, handle_flow"]}
{"id": "C22", "title": "Delivery ids are sequential", "statement": "Within a session successive deliveries carry successive delivery ids starting at 1, so no two of any 2^32 consecutive deliveries share an id; tags generated automatically on a link are likewise distinct.", "quantifier": "every history of sends on any number of links", "why_tests_cant": "Histories are unbounded, ids wrap at 2^32.", "anchors": ["src/session.rs: send_transfer", "src/sndlink.rs: get_tag"]}
{"id": "C23", "title": "Large bodies are split without loss", "statement": "The transfer frames sent for one delivery carry, concatenated in order, exactly the body; only the first carries the delivery id and tag; every frame but the last says more, the last does not.", "quantifier": "every body length, every negotiated frame size, settled or not", "why_tests_cant": "All body lengths relative to all frame sizes.", "anchors": ["src/session.rs: send_transfer"]}
{"id": "C24", "title": "Transfer frames fit the peer's frame size", "statement": "No transfer frame put on the wire is larger than the max-frame-size the peer announced in its open frame.", "quantifier": "every peer max-frame-size, body, tag and format", "why_tests_cant": "A size inequality over all parameters.", "anchors": ["src/session.rs: send_transfer", "src/lib.rs: RemoteServiceConfig::new", "codec/src/codec/encode.rs: AmqpFrame"]}
{"id": "C25", "title": "Receiver reassembles multi-frame deliveries exactly", "statement": "What the application receives on a link are the deliveries in arrival order, each with the concatenation of the bodies of its transfer frames; an incomplete delivery is never handed out.", "quantifier": "every sequence of transfer frames interleaved with receive calls", "why_tests_cant": "All interleavings of partial transfers and reads.", "anchors": ["src/rcvlink.rs: handle_transfer, poll_recv, get_delivery, has_deliveries"]}
{"id": "C26", "title": "Receiver credit accounting", "statement": "At any time the credit reported by a receiver link equals the sum of the credit granted minus the deliveries completed, and no delivery is handed to the application beyond the credit granted.", "quantifier": "every sequence of grants and transfer frames", "why_tests_cant": "All histories, including arithmetic overflow.", "anchors": ["src/rcvlink.rs: set_link_credit, handle_transfer"]}
{"id": "C27", "title": "Receiver enforces the maximum message size", "statement": "No delivery with a body larger than the configured maximum message size reaches the application.", "quantifier": "every sequence of transfer frames, every limit", "why_tests_cant": "All fragmentations of a body.", "anchors": ["src/rcvlink.rs: handle_transfer, set_max_message_size"]}
{"id": "C28", "title": "A delivery is settled at most once", "statement": "For one delivery, whatever the application does with it (update, settle repeatedly, drop), at most one settling disposition is sent, nothing is sent for it afterwards, and a delivery dropped unsettled is rejected.", "quantifier": "every sequence of calls on a delivery interleaved with incoming dispositions", "why_tests_cant": "All call histories.", "anchors": ["src/delivery.rs: settle, update_state, wait, Drop for Delivery"]}
{"id": "C29", "title": "Nothing is sent for a delivery the peer has settled", "statement": "Once the peer has settled a delivery no further disposition for it is put on the wire.", "quantifier": "every interleaving of incoming dispositions, waits and drops", "why_tests_cant": "A race between the remote settlement and local actions.", "anchors": ["src/delivery.rs: wait, Drop for Delivery"]}
{"id": "C30", "title": "Dispositions settle exactly the named range", "statement": "An incoming disposition affects every unsettled delivery whose id lies in first..last (just first when last is absent), of the direction its role names, and no other.", "quantifier": "every disposition, every set of outstanding deliveries, including ids that wrap", "why_tests_cant": "All ranges over 2^32 ids.", "anchors": ["src/session.rs: settle_deliveries"]}
{"id": "C31", "title": "Waiting for a delivery outcome returns it", "statement": "wait() on a sent delivery returns the state the peer assigned, as soon as the peer assigned one, and otherwise returns an error when link, session or connection ends; it never hangs once one of these has happened.", "quantifier": "every interleaving of wait, dispositions, detaches and errors", "why_tests_cant": "All schedules; lost wake-ups show only in particular interleavings.", "anchors": ["src/delivery.rs: wait, check_inner, handle_disposition", "src/session.rs: set_error"]}
{"id": "C32", "title": "A failing session releases everyone who waits on it", "statement": "When a session fails or ends every pending send, every wait for an outcome, every link open or close and every wait for the session end is completed.", "quantifier": "every reachable session state", "why_tests_cant": "All combinations of outstanding operations.", "anchors": ["src/session.rs: SessionInner::set_error", "src/connection.rs: ConnectionInner::set_error"]}
{"id": "C33", "title": "Connection errors are permanent", "statement": "Once a connection has failed, it reports the first error for ever, is not open, has no sessions, and opening a session returns that error.", "quantifier": "every history of frames and calls after the error", "why_tests_cant": "Unbounded histories.", "anchors": ["src/connection.rs: set_error, open_session, is_opened, handle_frame"]}
{"id": "C34", "title": "Local channel numbers are unique and bounded", "statement": "Two sessions alive at the same time never share a local channel, and a session opened locally never uses a channel number at or above the configured channel-max.", "quantifier": "every history of session opens, remote begins, ends", "why_tests_cant": "All histories of slot reuse.", "anchors": ["src/connection.rs: open_session, register_remote_session, complete_session_creation"]}
{"id": "C35", "title": "Frames reach the session of their channel", "statement": "A frame received on a channel is handled by the session the peer began on that channel, and by no other; a frame for a channel with no session is a protocol error.", "quantifier": "every history and every incoming frame", "why_tests_cant": "All histories of begins and ends.", "anchors": ["src/connection.rs: handle_frame"]}
{"id": "C36", "title": "Ending a session", "statement": "Session::end sends exactly one End on the session's own channel, completes when the peer's End arrives, and affects no other session.", "quantifier": "every reachable connection state and every channel numbering chosen by the peer", "why_tests_cant": "Depends on the relation between local and remote channel numbers over all histories.", "anchors": ["src/session.rs: Session::end", "src/connection.rs: close_session, handle_frame"]}
{"id": "C37", "title": "Closing a connection", "statement": "At most one Close frame is sent on a connection.", "quantifier": "every history of local closes and incoming frames", "why_tests_cant": "All orders of local and remote close.", "anchors": ["src/connection.rs: close, handle_frame"]}
{"id": "C38", "title": "Link handles are unique and correctly routed", "statement": "Links alive in a session have distinct local handles, and a frame naming a remote handle reaches the link attached under that handle.", "quantifier": "every history of attaches and detaches, local and remote", "why_tests_cant": "All histories of slot and name reuse.", "anchors": ["src/session.rs: links, links_by_name, remote_handles, handle_attach, handle_detach"]}
{"id": "C39", "title": "Every attach and detach is answered", "statement": "Each remote detach of an established link is answered by exactly one detach with the link's local handle; the closing side's future completes when the answer arrives.", "quantifier": "every reachable session state", "why_tests_cant": "All link states and histories.", "anchors": ["src/session.rs: handle_detach, detach_sender_link, detach_receiver_link"]}
{"id": "C40", "title": "Detaching a link releases its pending sends", "statement": "When the peer detaches a sender link every send waiting on that link, and no send of another link, fails with the detach error.", "quantifier": "every reachable session state, every assignment of handles", "why_tests_cant": "Depends on the relation of local and remote handles over all histories.", "anchors": ["src/session.rs: handle_detach"]}
{"id": "C41", "title": "Two peers agree about credit", "statement": "When two endpoints of this library are connected by reliable ordered channels, the receiver never sees a transfer beyond the credit it granted, so never closes the link for exceeding it.", "quantifier": "every interleaving of grants, sends and message delivery", "why_tests_cant": "Asynchronous interleavings of two parties with in-flight frames.", "anchors": ["src/rcvlink.rs: set_link_credit", "src/sndlink.rs: apply_flow, send"]}
{"id": "C42", "title": "Receivers are woken", "statement": "A task waiting in recv() is woken whenever a complete delivery is available or the link is closed.", "quantifier": "every interleaving of polls, transfers, closes and detaches", "why_tests_cant": "Lost wake-ups depend on the interleaving.", "anchors": ["src/rcvlink.rs: poll_recv, handle_transfer, close, remote_detached, EstablishedReceiverLink"]}
{"id": "C43", "title": "Client handshake order", "statement": "A client connection is handed out only after the protocol headers matched, SASL (if used) succeeded and the server's Open arrived; any deviation of the peer gives an error and no connection.", "quantifier": "every sequence of peer messages", "why_tests_cant": "All peer behaviours.", "anchors": ["src/client/connector.rs: connect, _connect_plain"]}
{"id": "C44", "title": "Server handshake order", "statement": "A server accepts a connection only after a matching protocol header and an Open frame; with SASL only after the application declared the authentication successful.", "quantifier": "every sequence of peer messages and application decisions", "why_tests_cant": "All peer behaviours.", "anchors": ["src/server/service.rs: handshake", "src/server/sasl.rs", "src/server/handshake.rs"]}
{"id": "C45", "title": "SASL PLAIN response is unambiguous", "statement": "The PLAIN initial response determines the authorisation id, authentication id and password it was made from.", "quantifier": "all triples of strings without NUL", "why_tests_cant": "Universal over strings.", "anchors": ["codec/src/protocol/mod.rs: SaslInit::prepare_response"]}
{"id": "C46", "title": "Keep-alive beats the peer's idle timeout", "statement": "The interval between keep-alive frames is at most half of the peer's idle time-out, and keep-alives are sent whenever the peer asked for one.", "quantifier": "every time-out value announced by the peer", "why_tests_cant": "All 2^32 values; the small ones fail.", "anchors": ["src/dispatcher.rs: Dispatcher::new, poll", "src/lib.rs: timeout_remote_secs, to_open"]}
{"id": "C47", "title": "Control events are processed in order", "statement": "Attach, detach and flow events of one connection are presented to the control service in the order they occurred.", "quantifier": "every sequence of frames and completion order of the control service", "why_tests_cant": "All completion schedules.", "anchors": ["src/dispatcher.rs: poll, call_control_service, handle_control_frame", "src/control.rs"]}
{"id": "C48", "title": "Every routed delivery is processed once", "statement": "Each delivery arriving on a link that the router has accepted is handed to the link's service once and settled with the outcome the service returned.", "quantifier": "every interleaving of deliveries and service completion", "why_tests_cant": "All schedules.", "anchors": ["src/router.rs"]}
{"id": "C49", "title": "Session flow reports", "statement": "A flow frame asking for echo is answered exactly once and the answer never asks for an echo, so two peers never ping-pong.", "quantifier": "every incoming flow frame in every state", "why_tests_cant": "Universal over states and frames.", "anchors": ["src/session.rs: handle_flow"]}
{"id": "C50", "title": "Described compound values", "statement": "A described compound made from a type is decoded back to the same value of that type, and the whole data must be consumed.", "quantifier": "every value, every descriptor", "why_tests_cant": "Universal over values.", "anchors": ["codec/src/types/variant.rs: DescribedCompound::create, decode"]}
{"id": "C51", "title": "A failing connection tells everyone", "statement": "When a connection fails, every session that is being opened fails, every session fails with the error of the connection and everything that waits on it completes, and who waits for the connection to close is told.", "quantifier": "every reachable connection and every way in which it can fail", "why_tests_cant": "Any number of sessions in any state may be open at the moment of failure.", "anchors": ["src/connection.rs: set_error, open_session", "src/session.rs: set_error, end"]}
{"id": "C52", "title": "Sessions of a connection are independent", "statement": "Each session of a connection behaves as it would on its own: what happens to other sessions does not change it, and what it sends goes out on its own channel in the order in which it was sent.", "quantifier": "every history of a connection with any number of sessions", "why_tests_cant": "All interleavings of events on any number of sessions.", "anchors": ["src/connection.rs: handle_frame, post_frame", "src/session.rs: post_frame, id"]}
{"id": "C53", "title": "Credentials go only to servers that agreed to SASL", "statement": "A client writes its SASL credentials only after the server answered with the SASL protocol header and a SASL frame, and never when it connects without SASL.", "quantifier": "every byte stream of the server, every cut into reads, every point at which writes begin to fail", "why_tests_cant": "All server behaviours.", "anchors": ["src/client/connector.rs: connect_sasl_inner, connect_plain_inner"]}
{"id": "C54", "title": "SASL challenge and response", "statement": "A client that answers the server's SASL challenge with a response and then sends its AMQP header and Open, as the AMQP specification prescribes, is accepted when the application declares success.", "quantifier": "every challenge, response and following stream", "why_tests_cant": "All exchanges.", "anchors": ["src/server/sasl.rs: SaslResponse::outcome"]}
{"id": "C55", "title": "Size limits hold during the handshake", "statement": "No frame larger than the configured inbound limit is read before the connection is established.", "quantifier": "every stream sent during a handshake", "why_tests_cant": "All sizes and streams.", "anchors": ["src/server/handshake.rs: HandshakeAmqp::open", "src/server/sasl.rs", "src/client/connector.rs: connect_plain_inner"]}
{"id": "C56", "title": "A client and a server of this library connect", "statement": "Connected to each other by reliable ordered channels, a client and a server of this library, the application accepting, both finish the handshake, each with the other's configuration, whether or not SASL PLAIN is used.", "quantifier": "every pair of configurations, credentials and cuts of the byte streams", "why_tests_cant": "All configurations and cuts.", "anchors": ["src/client/connector.rs", "src/server/service.rs: handshake", "src/lib.rs: to_open, RemoteServiceConfig::new"]}
{"id": "C57", "title": "The router never uses a released service", "statement": "While a delivery waits for its link's service to become ready, the service stays alive and in place: detaching the link, ending the session or attaching other links does not make the router use a service that has been released or moved.", "quantifier": "every interleaving of deliveries, readiness checks, attaches and detaches", "why_tests_cant": "The dangling reference needs a particular interleaving and may go unnoticed even then.", "anchors": ["src/router.rs: service_call, RouterService::call", "src/cell.rs: Cell"]}
{"id": "C58", "title": "What one application sends the other receives", "statement": "When everything one session writes for a link reaches the peer's receiver link, however the bytes are cut into pieces, the peer's application is handed exactly the deliveries whose sends completed, in the order they were put on the wire, each once, with the body, delivery id, tag and settlement the sender gave them; nothing is left out and nothing is made up. When only part arrives, what is handed over is a prefix.", "quantifier": "every history of the sending session, every fragmentation of messages into frames and of the bytes into reads, and every history of the receiving session", "why_tests_cant": "It joins two sessions and the codec over all histories; a test fixes one message size, one schedule and one cut of the stream.", "anchors": ["src/session.rs: send_transfer, handle_frame", "src/rcvlink.rs: handle_transfer", "src/sndlink.rs: send", "codec/src/io.rs: AmqpCodec"]}
{"id": "C59", "title": "Waiting for a sender link ends", "statement": "ready() of a sender link returns true only for an open link that has credit and false only for a closed one; while it waits no grant of credit and no closing of the link escapes it: as soon as the link has credit or is closed or is no longer attached (it had been accepted by the control service and the peer, the application, the session or the connection ended it), it has been woken and returns. on_close() likewise has completed once the link is closed or no longer attached. ready() never loops without waiting.", "quantifier": "every history of the session before and during the wait, any number of waiters", "why_tests_cant": "A lost wake-up needs a particular interleaving of grants, sends, detaches and failures with the registration of the waiter.", "anchors": ["src/sndlink.rs: SenderLink::ready, on_close, on_credit_update, apply_flow, remote_detached, close, Drop for EstablishedSenderLink", "src/session.rs: set_error, detach_sender_link"]}
{"id": "C60", "title": "What is set on a message can be read back, here and by the receiver", "statement": "A property or annotation set on a message reads back as the value it was given last, whatever else is done to the message; the receiver of the message reads the same properties, annotations and value; a reply made with reply_message carries, when it arrives, the message id of the message it answers as correlation id; numbers read from a value are the numbers it holds.", "quantifier": "every message, key, value and sequence of operations on messages", "why_tests_cant": "All sequences of operations and all keys, and the composition with the codec.", "anchors": ["codec/src/message/message.rs: app_property, set_app_property, message_annotation, add_message_annotation, reply_message, if_some, update", "codec/src/types/variant.rs: as_long, as_ulong"]}
{"id": "C61", "title": "The peer cannot crash a session", "statement": "No frame of the peer, no failure of the connection and no call of the application, in whatever order, makes a session panic.", "quantifier": "every reachable session, every event and both kinds of build, with and without overflow checks", "why_tests_cant": "A crash hides in one combination of state and event out of unboundedly many; the claim is about all of them.", "anchors": ["src/session.rs: attach_remote_sender_link, detach_receiver_link, handle_frame", "src/rcvlink.rs: handle_transfer, set_link_credit, close", "src/dispatcher.rs: handle_control_frame"]}
{"id": "C62", "title": "Every attach is answered", "statement": "When the peer attaches a link, the control service is asked, and its decision is answered: if it accepts, with an attach frame of this side's own handle and the link is open (a receiver link is also granted its first credit); if it refuses, with an attach frame and a detach frame that carries the error. When this side attaches a link, the peer's attach frame of the same name opens it and completes the future with the link.", "quantifier": "every history of a session, every attach frame, every decision of the service and everything that happens while it decides", "why_tests_cant": "Between the attach frame, the decision and the answer any other events can come, and the names and handles of all other links of the history matter.", "anchors": ["src/session.rs: handle_attach, attach_remote_sender_link, detach_unconfirmed_sender_link, confirm_receiver_link, attach_local_sender_link, attach_local_receiver_link", "src/dispatcher.rs: handle_control_frame"]}
{"id": "C63", "title": "Links and sessions are found", "statement": "Looking a link up by this side's handle gives exactly the open link that has the handle, and a link that was found stays found until it reports itself closed. By the peer's handle, by name and by channel one gets the open link or session that the peer's handle, the name or the channel was given to, as long as it is open, and nothing else.", "quantifier": "every history of a session or connection, every handle, name and channel", "why_tests_cant": "The tables are changed by attaching, accepting, refusing, detaching and ending in any order, and slots, handles and names are used again; that the entries fit the links has to hold after every history.", "anchors": ["src/session.rs: get_sender_link, get_sender_link_by_local_handle, get_sender_link_by_remote_handle, get_receiver_link_by_local_handle, get_receiver_link_by_remote_handle", "src/connection.rs: get_session_by_local_id, close_session"]}
{"id": "C64", "title": "Builders ask for what they were told", "statement": "Attaching a link or opening a session through the builders sends one attach or begin frame, which the peer reads as it was written and which carries the name, address, limits, capabilities and properties given last, and defaults for everything else. No sequence of builder calls panics.", "quantifier": "every sequence of builder calls, every name, address and value, every state of the session or connection", "why_tests_cant": "The calls can come in any number and order, overwrite and remove each other's values; tests try one order with one value.", "anchors": ["src/sndlink.rs: SenderLinkBuilder", "src/rcvlink.rs: ReceiverLinkBuilder", "src/session.rs: build_sender_link, build_receiver_link", "src/connection.rs: OpenSession"]}
{"id": "C65", "title": "Errors reach the other application as given", "statement": "An error built by an application has the condition, text and fields it was given last. Closing a link, closing the connection or rejecting a delivery with it sends one frame that the peer reads as it was written, and the other application gets exactly this error: from the link, from the connection, as the outcome. The error codes are the names AMQP gives the conditions.", "quantifier": "every error with a condition, text and fields that exist in Rust, every history of the two sessions, every state of the connection", "why_tests_cant": "The error crosses two applications, two histories and the wire; tests look at one end and one value.", "anchors": ["codec/src/protocol/mod.rs: Error, ErrorInner", "src/error_code.rs", "src/sndlink.rs: close_with_error, remote_detached", "src/rcvlink.rs: close_with_error, remote_detached, poll_next", "src/connection.rs: close_with_error, handle_frame", "src/delivery.rs: settle, wait"]}
{"id": "C66", "title": "The two sides of a session count alike", "statement": "A begin frame is answered with one begin frame that names the peer's channel; when the answer arrives, the future of the opener completes with a session, and the sessions of the two sides know each other's channel, first delivery id and window. Every flow frame tells the id of this side's next delivery, the windows, and the id of the next transfer it expects.", "quantifier": "every begin frame of a peer, every state of the two connections, every history between begin and answer, every history of a session", "why_tests_cant": "The numbers depend on everything sent and received before, on both sides.", "anchors": ["src/connection.rs: open_session, register_remote_session, complete_session_creation", "src/session.rs: SessionInner::new, handle_flow, rcv_link_flow, remote_window_size"]}
{"id": "C67", "title": "The two ends of a link agree", "statement": "When one side attaches a link and the other accepts it, the answer opens the two ends of one link: one sends, the other receives, what either says under its handle reaches the other, both give the link's name and each gives the handle of the other, they start from one delivery count, and the sender takes no body larger than the receiver takes.", "quantifier": "every attach frame, every state of the two sessions, every history between attach and answer, every way the control service edits the answer", "why_tests_cant": "The two ends are kept by two processes, each from its own history; tests see both ends only on one exchange.", "anchors": ["src/session.rs: attach_local_sender_link, attach_local_receiver_link, attach_remote_receiver_link, confirm_receiver_link, attach_remote_sender_link, handle_attach", "src/sndlink.rs: SenderLinkInner::new, SenderLinkInner::with, name, remote_handle, max_message_size", "src/rcvlink.rs: ReceiverLink::name, remote_handle, set_max_message_size, confirm_receiver_link"]}
{"id": "C68", "title": "Lists of described composites and arrays of maps survive the wire", "statement": "A list of items of an application type that encodes as a described list, map or array is read back as the same items, and from any bytes items are read exactly where a list of described compounds with that type's descriptor stands; an array of maps is read back as the same maps. Both take exactly the bytes they announce.", "quantifier": "every type that meets the contract of Composite, every list of its values, every key and value type of a map, every input", "why_tests_cant": "The types are the application's, and lists and inputs are unbounded.", "anchors": ["codec/src/codec/encode.rs: impl Encode for ListDescribed<T>, impl ArrayEncode for HashMap<K, V>", "codec/src/codec/decode.rs: impl DecodeFormatted for ListDescribed<T>", "codec/src/types/variant.rs: DescribedCompound::decode"]}
{"id": "C69", "title": "No message larger than the peer's limit is sent", "statement": "A message that is sent on a sender link is at most as large as the peer's attach frame for the link allows (or as the application's own later limit allows), however the sends are polled, wait for credit and are split into frames; a larger one makes the send fail with BodyTooLarge and has no other effect, and a message within the limit, or on a link without one, is not refused for its size.", "quantifier": "every history of a session, every sender link, every body, every order of polling the sends", "why_tests_cant": "The limit is read once, in the first poll of a send that may then wait for credit and window over any number of events; whether it still holds when the frames leave depends on the whole history of the link.", "anchors": ["src/delivery.rs: DeliveryBuilder::send (TransferBuilder)", "src/sndlink.rs: SenderLinkInner::new, SenderLinkInner::with, set_max_message_size, max_message_size", "src/session.rs: handle_attach, send_transfer"]}
{"id": "C70", "title": "Transfers are refused exactly for cause", "statement": "An arriving transfer frame makes this side close the receiver link exactly if the link has no credit left, a new delivery has no id, a further frame has another id than the first, or with a further frame the message is larger than the link takes. The peer then gets one detach frame with the condition that names the reason; otherwise the link stays attached and nothing is sent.", "quantifier": "every history of a session, every receiver link, every arriving transfer frame", "why_tests_cant": "Credit, the delivery under way and its size so far depend on the whole history of grants, arrivals and reads; a wrongly refused frame shows only in histories that reach the boundary.", "anchors": ["src/rcvlink.rs: handle_transfer, close, set_max_message_size, set_link_credit", "src/session.rs: handle_frame, detach_receiver_link"]}
{"id": "C71", "title": "The outcome one application gives a delivery is the one the other application learns", "statement": "An outcome that the sender of a delivery learns, from wait or remote_state, is one that the receiving application gave that delivery: with settle, with update_state, or by dropping it. And an outcome that is given makes the other application's pending wait return it, and a later wait or remote_state too, however the bytes in between are cut.", "quantifier": "every history of both sessions, every delivery and outcome, every way the bytes arrive in pieces", "why_tests_cant": "Which disposition belongs to which delivery depends on the ids in use on both sides, on all that was settled, updated and dropped before, and on how the stream is cut; tests see one exchange.", "anchors": ["src/delivery.rs: settle, update_state, wait, remote_state, check_inner, Drop", "src/session.rs: handle_frame, settle_deliveries", "codec/src/codec.rs: decode"]}
{"id": "C72", "title": "The message that is sent is the message that is loaded", "statement": "What the receiving application reads from a delivery with load_message or get_body is the message or the bytes that the sending application passed to send, with the message format given there, in the order of the wire, however large the message is and however the bytes arrive.", "quantifier": "every history of both sessions, every message and body, every frame size and every way the bytes arrive in pieces", "why_tests_cant": "Messages have any combination of sections, are cut into frames by the peer's limit and into pieces by the network; tests see a few small ones.", "anchors": ["codec/src/protocol/mod.rs: Transfer::load_message, Transfer::get_body, TransferBody::message_format", "src/session.rs: send_transfer", "src/rcvlink.rs: handle_transfer", "src/delivery.rs: TransferBuilder::send"]}
{"id": "C73", "title": "Attach and detach frames of a handle are sent in turn", "statement": "A session attaches a handle only while it is free and detaches it only while it is attached, it opens a link only when its attach frame has been sent and the control service has accepted it, and flow and transfer frames name attached handles only.", "quantifier": "every history of frames, application calls, polls and completions of the control service, and every handle", "why_tests_cant": "Handles are reused, and attach frames are sent by the completion of calls that may come at any time, after other links have taken the handle; tests attach one link and detach it.", "anchors": ["src/session.rs: attach_local_sender_link, attach_local_receiver_link, confirm_sender_link, confirm_receiver_link, detach_sender_link, detach_receiver_link, handle_detach, detach_unconfirmed_sender_link", "src/rcvlink.rs: close, set_link_credit", "src/sndlink.rs: send_inner, close", "src/dispatcher.rs: control completions"]}
{"id": "C74", "title": "The peer's limit on handles", "statement": "A session attaches no link under a handle above the handle-max that the peer has announced in its Begin.", "quantifier": "every history of frames, application calls, polls and completions of the control service, every handle-max", "why_tests_cant": "Handles are slots of a table that is reused after every detach; whether they stay small depends on the whole history of attaches and detaches, not on the number of links of one test.", "anchors": ["src/session.rs: attach_local_sender_link, attach_local_receiver_link, new_remote_sender, attach_remote_receiver_link, attach_remote_sender_link, confirm_receiver_link, detach_receiver_link", "src/connection.rs: open_session, handle_frame (Begin)", "codec/src/protocol: Begin::handle_max"]}
{"id": "C75", "title": "What a session sends can be read", "statement": "Every frame that a session sends is read by a peer as that very frame, in the order sent, provided that what the application, the control service and the peer hand to the session has itself a faithful wire form; two sessions that talk only to each other therefore never send each other a frame that is not read back, as long as both applications hand over such values.", "quantifier": "every history of frames, application calls, polls and completions of the control service, every split of the bytes into pieces, every pair of sessions and every interleaving of their steps", "why_tests_cant": "The frames carry values that were stored by earlier events (names, sources, counters, ids, limits, responses edited by the control service) and numbers that wrap; whether all of them stay in the range that the codec can write depends on the whole history.", "anchors": ["src/session.rs: post_frame and its callers", "src/rcvlink.rs: set_link_credit, handle_transfer, close", "src/sndlink.rs: SenderLinkInner::close, apply_flow", "src/delivery.rs: settle, update_state, Drop", "codec/src/codec: Encode, Decode", "codec/src/io.rs: AmqpCodec"]}
{"id": "C76", "title": "Messages of a link keep their order", "statement": "Messages are transmitted on a link in the order in which the application started to send them: a send that is started after another has completed is transmitted after it, each message whole before the next; and a send that waits, for credit or for the window of the session, is not overtaken by one that was started later on the same link.", "quantifier": "every history of frames, application calls, polls, cancellations and completions of the control service, any number of sends and of links, every number of credits granted", "why_tests_cant": "Whether one send overtakes another depends on how polls of the futures, flow frames and cancellations interleave; a test fixes one schedule.", "anchors": ["src/sndlink.rs: SenderLinkInner::send, apply_flow", "src/session.rs: send_transfer, handle_flow", "src/delivery.rs: DeliveryBuilder::send"]}
{"id": "C77", "title": "No send is forgotten", "statement": "A send that is suspended lacks what it waits for: no wake-up is lost. As soon as its link has credit and the window of the session is open, a send that is polled completes, and it is transmitted unless the link has ended or the body is too large. If the peer goes on granting credit, every send that is polled after each grant is transmitted in the end.", "quantifier": "every history of frames, application calls, polls, cancellations and completions of the control service, any number of sends and links", "why_tests_cant": "A lost wake-up needs a particular interleaving of a flow, of polls and of sends that take the credit in between; and that a send is served in the end is a statement about unbounded histories.", "anchors": ["src/sndlink.rs: SenderLinkInner::send, apply_flow", "src/session.rs: send_transfer, handle_flow", "src/delivery.rs: DeliveryBuilder::send"]}
{"id": "C78", "title": "A send or a wait may be dropped", "statement": "An application may drop the future of a send or of a wait for an outcome at any moment. If the future is not polled any more, it makes no difference for anything else when it is dropped: the same frames are sent, every other future completes with the same result and every receiver is given the same. A send that is dropped before it completed is never transmitted, and it leaves its link and session as if it had not been made: its credit is there for the next send.", "quantifier": "every state, every history of frames, application calls, polls, cancellations and completions that follows, every future", "why_tests_cant": "The drop can come at any point of any history, with any number of other futures, links and deliveries in between; tests drop a future in one place and look at one effect.", "anchors": ["src/sndlink.rs: SenderLinkInner::send", "src/session.rs: send_transfer", "src/delivery.rs: DeliveryBuilder::send, Delivery::wait"]}
{"id": "C79", "title": "Links of a session are independent", "statement": "A frame, a call, a poll or the completion of a control call that is about one link leaves every other link of the session alone: its credit, the sends that wait on it, the deliveries that have arrived on it, its error, and that it is attached. Only the failure of the session is about all links.", "quantifier": "every history, every event of the peer, the application, the executor and the control service, any number of links in any state", "why_tests_cant": "Links share the table of slots, the peer's handles and the queues of the session, and slot numbers are reused: whether an event can reach a wrong link depends on the whole history of attaches and detaches.", "anchors": ["src/session.rs: handle_frame, handle_detach, handle_attach, attach_remote_sender_link, detach_sender_link, detach_unconfirmed_sender_link, detach_receiver_link, confirm_receiver_link", "src/sndlink.rs: SenderLinkInner::close, EstablishedSenderLink", "src/rcvlink.rs: ReceiverLinkInner::close, handle_transfer"]}
{"id": "C80", "title": "Waiting on a settled delivery returns at once, and a second wait ends the first", "statement": "wait() on a delivery that this side has settled, with settle or by sending it settled, returns Ok(None) at its first poll, whatever the peer has sent since. A wait that begins while another one is pending on the same delivery takes its place, and the one it displaces completes with an error instead of hanging.", "quantifier": "every history before and after the settlement and between the call and its first poll, every delivery and outcome", "why_tests_cant": "The settlement, the dispositions of the peer, the drop of links and the polls of several waits can come in every order.", "anchors": ["src/delivery.rs: Delivery::wait, settle, check_inner", "src/sndlink.rs: SenderLinkInner::send"]}
{"id": "C81", "title": "Which frames are protocol errors", "statement": "A frame of the peer for a live session is reported as a protocol error exactly if it is a transfer whose handle names no link, a link that is not attached yet, or a link on which this side sends; the error says which of these it is, and nothing else changes. A transfer that crosses this side's detach of the link is ignored without an error.", "quantifier": "every history of the connection and every frame", "why_tests_cant": "The frame can arrive in every state of the link table that a history of attaches, closes and decisions of the control service can produce.", "anchors": ["src/session.rs: SessionInner::handle_frame", "src/connection.rs: handle_frame", "src/dispatcher.rs: call"]}
{"id": "C82", "title": "The publish service is called once for each message, and its failure closes the link", "statement": "While the connection is open, the publish service of a receiver link is called once for each delivery that has arrived completely and was not refused, at its last frame, and at no other time. If it fails while the link is attached, or the control service fails on a flow frame for an attached sender link, that link is closed and the peer gets one detach frame with the error.", "quantifier": "every history and every frame, every error of the service", "why_tests_cant": "Deliveries of any number of frames on several links mix with closes, refusals and pending calls in every order.", "anchors": ["src/dispatcher.rs: call, call_control_service", "src/rcvlink.rs: ReceiverLinkInner::handle_transfer, close_with_error", "src/sndlink.rs: SenderLinkInner::close", "src/control.rs: ControlFrame"]}
