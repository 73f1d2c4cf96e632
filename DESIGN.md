# Formal model of ntex-amqp in Rocq (Coq 8.16.1)

This file says what is modelled, how each property of `properties.jsonl` is
stated and proved, what is trusted, and what the proofs found out about the
code.  Sources are cited relative to `/repo`.

## 1. Approach

* The model is executable Gallina: total functions, results are
  `Ok value | Err error | Panic reason | NoFuel` (codec) or
  `EOk value | EPanic reason` (engine).  A Rust `panic!`, an arithmetic overflow
  in a debug build, an out-of-range slice, an `expect` on `None` and
  `unimplemented!()` are explicit panic values.  `NoFuel` is excluded by
  theorems: the fuel passed is always enough.
* The build profile (overflow checks on or off) is an explicit argument
  wherever the code's arithmetic can overflow, so every theorem holds for both
  or says which.
* Bytes are `Coq.Init.Byte.byte`; integers are `N`/`Z` with their Rust ranges
  written as predicates; wrapping arithmetic is written as `mod 2^32`.
* A `HashMap` is an association list in iteration order.  The iteration order of
  a real `HashMap` is arbitrary, so theorems quantify over the list.  A `Slab`
  is a list of slots with its free list (first-free reuse order as in the
  `slab` crate).
* Asynchronous code is a state machine: each `poll` segment between two
  `await`s is one atomic step (the crate is single threaded, `Rc`/`Cell`), and a
  history is an arbitrary list of events: calls of the public API, polls and
  drops of futures, frames of the peer, failures, answers of the application's
  services.  Theorems quantify over all histories; invariants are proved by
  induction on them.
* Frames handed to the io layer are an append-only list of outgoing frames.
* Properties that the faithful model violates are not weakened silently.  They
  get a theorem `Cxx_..._refuted...` with a concrete history (one the Rust code
  can run through) and a theorem `Cxx_..._partial` with the weakest natural
  hypothesis under which the claim holds.  `MANIFEST.json` lists both, with
  status `partial`.

How the proofs about the engine are organised: `gen_frame.py` and `gen_rel.py`
generate, for each of the some 90 functions of the session, a lemma saying which
fields it leaves alone (`SessionFrame.v`) and that it stays within a relation
(`*Rel.v`).  A relation is a preorder on session states that implies the step
case of one invariant.  What the generators write is ordinary Coq source,
committed and checked like the rest.

## 2. Files (under rocq/theories)

<!-- files -->
| file | kind | content |
|------|------|---------|
| `Base.v` | model | Bytes, results, big-endian integers, slices, UTF-8 |
| `Types.v` | model | AMQP values: codec/src/types |
| `Encode.v` | model | Encoding: codec/src/codec/encode.rs and types/array.rs |
| `Decode.v` | model | Decoding: codec/src/codec/decode.rs, codec/mod.rs, types/array.rs |
| `BaseProofs.v` | proofs | Lemmas about bytes, big-endian integers and slices |
| `Spec.v` | specification | Specification vocabulary for AMQP values |
| `EncodeProofs.v` | proofs | Announced size = written size, for values; induction on values |
| `Roundtrip.v` | proofs | Decoding what was encoded: values |
| `VariantRoundtrip.v` | proofs | The value round trip |
| `DecodeProofs.v` | proofs | What every decoder guarantees on arbitrary input |
| `VariantDecode.v` | proofs | The value decoder on arbitrary input |
| `VariantDecode2.v` | proofs | The value decoder on arbitrary input: the induction |
| `Arrays.v` | model | Arrays of primitive elements: `ArrayEncode`, `Array::new`, `Vec`, `Multiple` |
| `ArrayProofs.v` | proofs | Arrays and vectors of primitives: sizes and round trips |
| `PanicProofs.v` | proofs | Which inputs can make the value decoder panic |
| `ValueTheorems.v` | proofs | Lemmas behind the theorems about values (PropertiesValue.v) |
| `PropertiesValue.v` | theorems | Theorems about AMQP values: C01 - C10, C50 |
| `Codec.v` | model | Codecs of field types and the shared shape of the composite types |
| `Protocol.v` | model | The composite types and enumerations of codec/src/protocol |
| `SpecProtocol.v` | specification | Specification vocabulary for the protocol types |
| `CodecProofs.v` | proofs | Good codecs: size, round trip, and the shared shape of composite types |
| `EnumProofs.v` | proofs | Codecs of the enumerations, message ids, conditions and distribution modes |
| `CompositeProofs.v` | proofs | Composite types: size, round trip and the treatment of missing fields |
| `ProtocolGood.v` | proofs | Every composite type has a good codec |
| `Message.v` | model | Messages: codec/src/message/ and the section types of definitions.rs |
| `Framing.v` | model | Performatives, frames and the byte stream: definitions.rs, framing.rs, io.rs |
| `SpecFraming.v` | specification | Specification vocabulary for messages, frames and byte streams |
| `MessageProofs.v` | proofs | Messages: sections, sizes, round trip, the remembered size |
| `MessageOps.v` | model | The remembered size of a message under the public methods |
| `FrameProofs.v` | proofs | Frames: sizes and round trips |
| `StreamProofs.v` | proofs | The frame codec over a byte stream |
| `ProtocolTheorems.v` | proofs | Remaining lemmas behind PropertiesProtocol.v |
| `PropertiesProtocol.v` | theorems | Theorems about messages, frames and byte streams: C02, C11 - C19 |
| `Engine.v` | model | Vocabulary of the engine: errors, slabs, maps, channels, conditions |
| `State.v` | model | State of the engine: src/{delivery,sndlink,rcvlink,session}.rs |
| `Session.v` | model | A session, its links and its deliveries: src/session.rs, src/sndlink.rs, src/rcvlink.rs, src/delivery.rs |
| `SessionStep.v` | model | What can happen to a session |
| `SessionFrame.v` | proofs | Which fields a function leaves alone |
| `EngineProofs.v` | proofs | Facts about tables, slabs and maps |
| `Rel.v` | proofs | Relations between a session and the session after a function |
| `SessionRel.v` | proofs | What the links keep, through every function |
| `SpecSession.v` | specification | Specification vocabulary for sessions |
| `SendProofs.v` | proofs | Sending: the deliveries on the wire |
| `SendTheorems.v` | proofs | Sending: the theorems behind C22, C23 and C24 |
| `PollProofs.v` | proofs | What one poll of a send does, in one lemma |
| `TagProofs.v` | proofs | Automatic delivery tags |
| `FitProofs.v` | proofs | The size of transfer frames |
| `CreditProofs.v` | proofs | Link credit and session window |
| `WindowProofs.v` | proofs | The session window |
| `Scenario.v` | examples | Concrete sessions, for the examples and the refutations |
| `LinkProofs.v` | proofs | The slots of a session and the links in them |
| `LinkRel.v` | proofs | The slots, through every function |
| `SpecReceive.v` | specification | Specification vocabulary for receiver links |
| `RecvProofs.v` | proofs | Receiver links: reassembly, credit, size |
| `RecvSteps.v` | proofs | What one event does to one receiver link |
| `RecvTheorems.v` | proofs | Receiver links along a run |
| `RecvRun.v` | proofs | The invariant of a receiver link holds along every run |
| `WakeProofs.v` | proofs | Tasks that wait for a delivery are woken |
| `PropertiesSending.v` | theorems | Theorems about sending: C20 - C24 |
| `PropertiesReceiving.v` | theorems | Theorems about receiving: C25 - C27, C42 |
| `Hold.v` | proofs | Where the channels that futures await are kept |
| `HoldRel.v` | proofs | The places of channels, through every function |
| `HoldProofs.v` | proofs | Channels keep their places until they are completed |
| `One.v` | proofs | A channel is kept at one place only |
| `OneRel.v` | proofs | No channel gets to a new place, through every function |
| `OneProofs.v` | proofs | A channel is kept at one place only: every event |
| `FutureProofs.v` | proofs | What the futures of a session await |
| `Keys.v` | proofs | No two unsettled deliveries of a direction have the same id |
| `KeysRel.v` | proofs | The keys of the maps of unsettled deliveries, through every function |
| `Ent.v` | proofs | What happens to the entries of unsettled deliveries |
| `EntRel.v` | proofs | The entries of unsettled deliveries, through every function |
| `SpecRelease.v` | specification | Specification vocabulary: futures and what completes them |
| `ReleaseProofs.v` | proofs | Failing sessions and detached links complete what waits for them |
| `ReleaseTheorems.v` | proofs | Failing sessions and detached links: theorems |
| `SpecSettle.v` | specification | Specification vocabulary: dispositions |
| `SettleProofs.v` | proofs | Dispositions of the peer |
| `SettleTheorems.v` | proofs | Dispositions and detaches: theorems |
| `PropertiesRelease.v` | theorems | Theorems about outcomes and released futures: C30 - C32, C40 |
| `SpecDelivery.v` | specification | Specification vocabulary: what this side says about a delivery |
| `Disp.v` | proofs | What this side says about a delivery |
| `DispRel.v` | proofs | What is said about deliveries, through every function |
| `Trk.v` | proofs | Every delivery the application holds has its entry |
| `TrkRel.v` | proofs | The entries of the deliveries that are held, through every function |
| `DispTheorems.v` | proofs | What this side says about a delivery: the theorems |
| `PropertiesSettle.v` | theorems | Theorems about what this side says of a delivery: C28, C29 |
| `Claim.v` | proofs | Which slot a link, or a future that waits for an answer, is in |
| `ClaimRel.v` | proofs | The slots of links and of futures, through every function |
| `SpecHandles.v` | specification | Specification vocabulary: handles |
| `HandleProofs.v` | proofs | Handles: which link a frame of the peer is for |
| `HandleTheorems.v` | proofs | Handles: the theorems |
| `Echo.v` | proofs | No flow frame of this side asks for an answer |
| `EchoRel.v` | proofs | No flow frame of this side asks for an answer, through every function |
| `EchoTheorems.v` | proofs | Answers to flow frames |
| `PropertiesHandles.v` | theorems | Theorems about handles, detaches and flow answers: C38, C39, C49 |
| `Connection.v` | model | A connection: src/connection.rs and the parts of src/dispatcher.rs around it |
| `Wire.v` | proofs | What only the connection does to a session |
| `WireRel.v` | proofs | What only the connection does to a session, through every function |
| `ConnProofs.v` | proofs | The tables of a connection |
| `ConnInv.v` | proofs | What holds in every reachable connection |
| `SpecConnection.v` | specification | What is claimed about connections |
| `ConnTheorems.v` | proofs | Proofs about connections |
| `ConnMoves.v` | proofs | Channels, Begin, End and Close |
| `SpecClose.v` | specification | Specification vocabulary: reasons for Close frames |
| `ConnClose.v` | proofs | Close frames have their reasons |
| `ConnFutures.v` | proofs | Futures of `Session::end` |
| `PropertiesConnection.v` | theorems | Theorems about connections: C33 - C37, C51, C52 |
| `Handshake.v` | model | Handshakes: client/connector.rs, server/service.rs, server/handshake.rs, server/sasl.rs and the configuration in lib.rs |
| `SpecHandshake.v` | specification | Specification vocabulary for handshakes |
| `HandshakeProofs.v` | proofs | Proofs about handshakes |
| `HandshakeEnds.v` | proofs | The server's handshake as a whole, and a client and a server of this library with each other |
| `PropertiesHandshake.v` | theorems | Theorems about handshakes: C43 - C45, C53 - C56 |
| `KeepAlive.v` | model | Keep-alive: lib.rs, dispatcher.rs |
| `SpecKeepAlive.v` | specification | Vocabulary of the keep-alive theorems |
| `KeepAliveProofs.v` | proofs | Proofs about keep-alive |
| `PropertiesKeepAlive.v` | theorems | Theorems about keep-alive: C46 |
| `Control.v` | model | The control queue: control.rs, dispatcher.rs |
| `SpecControl.v` | specification | Vocabulary of the control queue theorems |
| `ControlProofs.v` | proofs | Proofs about the control queue |
| `PropertiesControl.v` | theorems | Theorems about the control queue: C47 |
| `Router.v` | model | The router: router.rs, and how the dispatcher drives it |
| `SpecRouter.v` | specification | Vocabulary of the router theorems |
| `RouterProofs.v` | proofs | Proofs about the router |
| `PropertiesRouter.v` | theorems | Theorems about the router: C48, C57 |
| `TwoPeers.v` | model | The two ends of one link: sndlink.rs, rcvlink.rs |
| `SpecTwoPeers.v` | specification | Vocabulary of the theorems about two peers |
| `TwoPeersProofs.v` | proofs | Proofs about two peers |
| `TwoPeersLink.v` | proofs | The counters of the session model move as those of the pair |
| `PropertiesTwoPeers.v` | theorems | Theorems about the two ends of a link: C41 |
| `SpecEndToEnd.v` | specification | Specification vocabulary: from one application to the other |
| `EndToEndProofs.v` | proofs | From one application to the other: proofs |
| `PropertiesEndToEnd.v` | theorems | Theorems about the way from one application to the other: C58 |
| `Ready.v` | proofs | The waiters of a sender link: relations |
| `ReadyRel.v` | proofs | The waiters of a sender link, through every function |
| `Owned.v` | proofs | A sender link that leaves its slot is closed: the relation |
| `OwnedRel.v` | proofs | A sender link that leaves its slot is closed: through every function |
| `SenderReady.v` | model | Waiting until a sender link can send: `SenderLink::ready` in src/sndlink.rs |
| `SpecReady.v` | specification | Specification vocabulary: waiting for a sender link |
| `ReadyProofs.v` | proofs | A sender link wakes those who wait for it |
| `PropertiesReady.v` | theorems | Theorems about waiting for a sender link: C59 |
| `MessageRead.v` | model | Reading messages and values: codec/src/message/message.rs, body.rs and codec/src/types/variant.rs |
| `SpecMessageRead.v` | specification | Specification vocabulary: reading a message back |
| `MessageReadProofs.v` | proofs | Reading a message back |
| `PropertiesMessageRead.v` | theorems | Theorems about reading messages and values: C60 |
| `SpecPanic.v` | specification | Specification vocabulary: what can panic |
| `SessionPanicProofs.v` | proofs | Proofs: what can panic |
| `PropertiesPanic.v` | theorems | Theorems about panics of a session: C61 |
| `SpecAttach.v` | specification | Specification vocabulary: attaching links |
| `Reserve.v` | proofs | The handles reserved for links the service decides about: the relation |
| `ReserveRel.v` | proofs | The reserved handles, through every function |
| `AttachProofs.v` | proofs | Proofs: attaching links |
| `PropertiesAttach.v` | theorems | Theorems about attaching links: C62 |
| `OwnedRcv.v` | proofs | A receiver link that leaves its slot is closed: the relation |
| `OwnedRcvRel.v` | proofs | A receiver link that leaves its slot is closed, through every function |
| `Lookup.v` | model | Looking links and sessions up: src/session.rs and src/connection.rs |
| `SpecLookup.v` | specification | Specification vocabulary: looking links and sessions up |
| `LookupProofs.v` | proofs | Proofs about looking links and sessions up |
| `PropertiesLookup.v` | theorems | Theorems about looking links and sessions up: C63 |
| `Builders.v` | model | Builders of links and sessions: src/sndlink.rs, src/rcvlink.rs, src/connection.rs |
| `SpecBuilders.v` | specification | Specification vocabulary: builders and errors |
| `BuilderProofs.v` | proofs | What builders build |
| `PropertiesBuilders.v` | theorems | Theorems about what is asked of the peer: C64 |
| `ErrorProofs.v` | proofs | Errors on their way to the other application |
| `PropertiesErrors.v` | theorems | Theorems about errors on their way to the other application: C65 |
| `SpecAgree.v` | specification | Specification vocabulary: what the two sides of a session know of each other |
| `FlowState.v` | proofs | What flow frames tell about the session: the relation |
| `FlowStateRel.v` | proofs | What flow frames tell about the session, through every function |
| `FlowTheorems.v` | proofs | What flow frames tell about the session |
| `BeginProofs.v` | proofs | Proofs: beginning sessions |
| `PropertiesAgree.v` | theorems | Theorems about what the two sides of a session know of each other: C66 |
| `SpecEnds.v` | specification | Specification vocabulary: the two ends of a link |
| `EndsProofs.v` | proofs | Proofs: the two ends of a link |
| `PropertiesEnds.v` | theorems | Theorems about the two ends of a link: C67 |
| `Records.v` | model | Lists of described composites (`ListDescribed`) and arrays of maps |
| `SpecRecords.v` | specification | Specification vocabulary: composites in lists, maps in arrays |
| `RecordProofs.v` | proofs | Proofs about lists of composites and arrays of maps: C68 |
| `PropertiesRecords.v` | theorems | Theorems about lists of described composites and arrays of maps: C68 |
| `Limit.v` | proofs | The size limit of a sender link: the relation |
| `LimitRel.v` | proofs | The size limit of a sender link, through every function |
| `SpecLimit.v` | specification | Specification vocabulary: how large messages may be |
| `LimitProofs.v` | proofs | Proofs about the size limit of a sender link: C69 |
| `PropertiesLimit.v` | theorems | Theorems about the size limit of a sender link: C69 |
| `SpecRefuse.v` | specification | Specification vocabulary: when a transfer is refused |
| `RefuseProofs.v` | proofs | Proofs about refused transfers: C70 |
| `PropertiesRefuse.v` | theorems | Theorems about refused transfers: C70 |
| `Gave.v` | proofs | Where the dispositions of a session come from: the relation |
| `GaveRel.v` | proofs | Where the dispositions of a session come from, through every function |
| `Outcome.v` | model | The state of a delivery that the application can read |
| `SpecOutcome.v` | specification | Specification vocabulary: outcomes from one application to the other |
| `OutcomeProofs.v` | proofs | Outcomes from one application to the other: proofs |
| `PropertiesOutcome.v` | theorems | Theorems about outcomes from one application to the other: C71 |
| `SpecMark.v` | specification | Specification vocabulary: what the frames of a delivery carry besides its body |
| `MarkProofs.v` | proofs | What the frames of a delivery carry besides its body: proofs |
| `Load.v` | model | What the application makes of a transfer it is handed |
| `LoadProofs.v` | proofs | What the application makes of a transfer it is handed: proofs |
| `SpecLoad.v` | specification | Specification vocabulary: messages from one application to the other |
| `PropertiesLoad.v` | theorems | Theorems about messages from one application to the other: C72 |
| `SpecTurn.v` | specification | Specification vocabulary: attach and detach frames in turn |
| `Turn.v` | proofs | Attach and detach frames in turn: the relation |
| `TurnRel.v` | proofs | Attach and detach frames in turn, through every function |
| `TurnProofs.v` | proofs | Attach and detach frames in turn |
| `TurnTheorems.v` | proofs | Attach and detach frames in turn: histories |
| `PropertiesTurn.v` | theorems | Theorems about the order of attach and detach frames: C73 |
| `SpecMany.v` | specification | Specification vocabulary: how many links a session has at a time |
| `Many.v` | proofs | Handles below the number of links: the relation |
| `ManyRel.v` | proofs | Handles below the number of links, through every function |
| `ManyProofs.v` | proofs | Handles below the number of links |
| `PropertiesMany.v` | theorems | Theorems about the limit on handles: C74 |
| `SpecLegal.v` | specification | Specification vocabulary for what a session is given and what it sends: C75 |
| `Legal.v` | proofs | What a session holds and sends has a faithful wire form |
| `PropertiesLegal.v` | theorems | What a session sends can be read: C75 |
| `SpecOrder.v` | specification | Specification vocabulary: the order in which sends are transmitted |
| `Order.v` | proofs | The queue of a sender link: a relation |
| `OrderRel.v` | proofs | The queue of a sender link, through every function |
| `OrderProofs.v` | proofs | The order in which sends are transmitted: proofs |
| `OrderFifo.v` | proofs | Woken sends that are polled in the order of the queue are transmitted in it |
| `PropertiesOrder.v` | theorems | Theorems about the order in which sends are transmitted: C76 |
| `Window.v` | proofs | The queue of the session: a relation |
| `WindowRel.v` | proofs | The queue of the session, through every function |
| `SpecProgress.v` | specification | Specification vocabulary: sends that can proceed |
| `ProgressProofs.v` | proofs | Sends that can proceed: proofs |
| `Starve.v` | proofs | A send that waits can be overtaken for ever |
| `PropertiesProgress.v` | theorems | Theorems about sends that can proceed: C77 |
| `Same.v` | proofs | What does not depend on the futures |
| `SameProofs.v` | proofs | A future that is not polled does not matter |
| `SpecCancel.v` | specification | Specification vocabulary: futures that are dropped |
| `CancelProofs.v` | proofs | Sends and waits that are dropped |
| `PropertiesCancel.v` | theorems | Theorems about futures that are dropped: C78 |
| `SpecApart.v` | specification | Specification vocabulary: which links an event is about |
| `Apart.v` | proofs | A link that is not concerned |
| `ApartRel.v` | proofs | A link that is not concerned: through every function |
| `ApartProofs.v` | proofs | Links that an event does not name |
| `Asleep.v` | proofs | Who waits for credit is woken through the queue of its link only |
| `AsleepProofs.v` | proofs | Who waits for credit is woken through the queue of its link only: every event |
| `AsleepTheorems.v` | proofs | A send that waits for credit sleeps until an event names its link |
| `PropertiesApart.v` | theorems | Theorems about the links an event does not name: C79 |
| `Here.v` | proofs | Deliveries that this side has settled stay settled: the relation |
| `HereRel.v` | proofs | Deliveries that this side has settled stay settled, through every function |
| `HereProofs.v` | proofs | Waiting on a delivery that this side has settled, and two waits at a time |
| `PropertiesHere.v` | theorems | Theorems about waits on settled deliveries and about two waits at a time: C80 |
| `SpecViolation.v` | specification | Specification vocabulary: frames that break the protocol |
| `PropertiesViolation.v` | theorems | Theorems about frames that break the protocol: C81 |
| `SpecTold.v` | specification | Specification vocabulary: what the services of a link are called for |
| `Told.v` | proofs | Which transfers the publish service has been told of: the relation |
| `ToldRel.v` | proofs | No function but the dispatcher tells the service of a transfer |
| `ToldProofs.v` | proofs | Which transfers the publish service is told of, and what its failure does |
| `PropertiesTold.v` | theorems | Theorems about the services of links: C82 |
<!-- end files -->

## 3. Properties

<!-- claims -->
| id | property | status | result |
|----|----------|--------|--------|
| C01 | Value round trip | proved | Excluded values are those named in the quantifier (wire_safe) and encodings of 4 GiB or more. |
| C02 | Announced size is written size | proved | Values, arrays, Vec, Multiple; every composite type, section, message, performative and frame. |
| C03 | Decoding is prefix-local | proved | As stated. |
| C04 | Value decoder never crashes | partial | The full claim is false of the code (two refutations): characterised which inputs can panic. |
| C05 | Decoded values are legal | proved | As stated. |
| C06 | Decoded values can be sent on | partial | False in full (two refutations): proved for values without descriptor 0 and without oversized zero-width arrays. |
| C07 | Timestamps survive the wire | partial | False in full (refuted before 1970): proved exactly which instants survive. |
| C08 | Descriptors survive the wire | partial | False for the numeric descriptor 0 (refuted); proved for all others. |
| C09 | Array round trip | proved | As stated. |
| C10 | Decoder resource use follows input size | partial | Depth bound proved; memory bound refuted. |
| C11 | Performative round trip | proved | Transfer bodies arrive as bytes (received_frame), empty ones as none. |
| C12 | Omitted trailing fields mean their defaults | proved | As stated. |
| C13 | Message round trip | partial | False in full (two refutations: message format lost, nested messages arrive as data): proved what the receiver gets for every message. |
| C14 | Message size is never stale | partial | False in full (five methods keep the remembered size, refuted): proved for all sequences that do not use them between a size query and a reset. |
| C15 | Frame stream round trip under any fragmentation | proved | As stated. |
| C16 | Framing does not depend on network reads | proved | As stated. |
| C17 | Frame size limit is enforced | proved | As stated. |
| C18 | Protocol header codec | proved | As stated. |
| C19 | Error conditions and distribution modes survive the wire | partial | False in full for custom symbols that spell a standard one (refuted); proved for all others. |
| C20 | Sender never exceeds link credit | partial | False in full (refuted: a flow that lowers the limit makes the credit wrap): proved for every run in which the limits set by the peer never decrease. |
| C21 | Sender never exceeds the session window | partial | False in full (refuted for multi-frame deliveries and for an absent next-incoming-id): proved for the number of deliveries, and for frames when every body fits in one, while limits never decrease. |
| C22 | Delivery ids are sequential | proved | For all reachable states; tags of one link while it made at most 2^32 sends. |
| C23 | Large bodies are split without loss | partial | False for messages with a stale remembered size (refuted): proved for all data and all messages whose size is right. |
| C24 | Transfer frames fit the peer's frame size | partial | False for frame sizes up to 2048 and for long tags (refuted twice): proved above 2048 for tags of at most 1996 bytes. |
| C25 | Receiver reassembles multi-frame deliveries exactly | partial | False in full (refuted: an aborted delivery is handed out): proved for every run without aborted transfers, on every link, with progress. |
| C26 | Receiver credit accounting | partial | Sum of grants minus completed deliveries proved while attached; release builds wrap once 2^32 credits were granted (refuted). Handed out within the credit granted: proved. |
| C27 | Receiver enforces the maximum message size | partial | False in full (refuted: the first frame is never checked): proved when a later frame carries a body. |
| C28 | A delivery is settled at most once | proved | For deliveries whose id is used once in the session (own_id; ids repeat after 2^32 deliveries or at the peer's will) and about which the application sends no raw disposition; the rejection of dropped deliveries, while the session has not failed. |
| C29 | Nothing is sent for a delivery the peer has settled | partial | False in full (two refutations: a delivery dropped without a wait, or after a wait that began late, is rejected on the wire). Proved when a suspended wait has seen the settlement. |
| C30 | Dispositions settle exactly the named range | partial | False for ranges that wrap (refuted); proved exactly for all others: entries, waits, and no other effect. |
| C31 | Waiting for a delivery outcome returns it | partial | False in full (refuted: two waits at a time; a link closed by this side): soundness of every returned state proved for all runs, and completion on disposition, peer detach and failure for every suspended wait. |
| C32 | A failing session releases everyone who waits on it | partial | False in full (refuted: sends on a link this side closed; sends woken before the failure): proved for all other pending sends, all waits, and all futures of attach, detach, close and end. |
| C33 | Connection errors are permanent | partial | First error is permanent, never open again, opening fails with it: proved. No sessions: proved unless the peer begins one afterwards; refuted if it does (a Begin is answered on a failed connection). |
| C34 | Local channel numbers are unique and bounded | partial | Bound for locally opened sessions: proved. Uniqueness: proved while at most 65536 sessions exist at a time; refuted beyond (the slot number is truncated to 16 bits). |
| C35 | Frames reach the session of their channel | partial | Routing to the session last begun on the channel, or a protocol error: proved, except that a session marked as closing ignores frames. Under equal numbering only a session that is itself being ended is so marked; refuted otherwise. |
| C36 | Ending a session | partial | Exactly one End on the own channel, alternation of Begin and End over the whole history, completion on the peer's End and no effect on others: proved when both sides use the same channel number for the session; refuted otherwise. |
| C37 | Closing a connection | partial | At most one Close more than the peer sent, before the io layer is closed; every Close of the peer answered once: proved. At most one in total: refuted. |
| C38 | Link handles are unique and correctly routed | partial | Handles of attached links are distinct (up to 2^32 links). A frame that names the handle of an attached link reaches that link, in every history in which the peer does not reuse the handle meanwhile. Refuted for handles under which nothing is attached: the entry of a refused link stays and hits a later one. |
| C39 | Every attach and detach is answered | partial | Answer and completion proved for every link that was attached; refuted for a close before the peer has answered the attach, and for a detach that arrives before the control service has decided about the link: it is ignored and the link is opened later. |
| C40 | Detaching a link releases its pending sends | partial | False in full (refuted: crossed handles): proved for sends waiting for credit, and for sends waiting for the window when the handles agree. |
| C41 | Two peers agree about credit | partial | Refuted in general: a grant made while transfers are on the way and smaller than the credit left makes the sender's credit wrap around (C41_refuted), two grants in a row leave the ends with different credit (C41_agree_refuted), a send dropped while waiting loses credit (C41_abandon_refuted). Proved for every interleaving: no transfer exceeds the credit if no grant is smaller than the credit left, and the ends agree when quiet if credit is granted only when it has run out. C41_flow, C41_send, C41_grant and C41_receive tie the pair's counters to the session model. |
| C42 | Receivers are woken | partial | False in full (refuted: Session::detach_receiver_link wakes no one; two tasks share one waker): proved for one receiving task, deliveries and every other end of the link. |
| C43 | Client handshake order | partial | Exactly which server streams give a connection is proved (both directions), refusals and every other closed stream give an error. Refuted: the first SASL frame need not be the list of mechanisms, even an announced failure passes there. |
| C44 | Server handshake order | partial | Exactly which client streams and application decisions give a connection is proved. With SASL the announced outcome need not be success: refuted for an application that goes on after declaring failure, proved for one that does not. |
| C45 | SASL PLAIN response is unambiguous | proved | The password may even contain NUL. |
| C46 | Keep-alive beats the peer's idle timeout | partial | The interval is at most half of every time-out. Keep-alives are sent in time from 1334 ms on; for 1 to 1333 ms none is ever sent, which C46_refuted_short proves. |
| C47 | Control events are processed in order | partial | Refuted in general: events are presented out of order after swap_remove, and local events are overtaken by remote ones. Proved: the order when polls are calm, and that each event is presented at most once, none is lost and results are acted upon once. The dispatcher ends with an error exactly when a protocol error was dealt with. |
| C48 | Every routed delivery is processed once | partial | Refuted when deliveries arrive before the service is created: all but the first stay queued. Proved otherwise: handed at most once, settled once with the outcome returned, handed as soon as the service is ready. Refused exactly when the credit given is used up; links with an unknown address or whose service cannot be created are closed, others confirmed with 50 credits. |
| C49 | Session flow reports | partial | No flow of this side asks for an answer; session flows are answered at once, link flows when the control service accepts them. Refuted when it refuses: no answer. |
| C50 | Described compound values | proved | As stated. |
| C51 | A failing connection tells everyone | partial | Proved for every session except those being ended by this side, for which it is refuted: the future of Session::end goes on waiting. |
| C52 | Sessions of a connection are independent | proved | Every session of a reachable connection is a reachable session of Session.v, so all session theorems apply to it. |
| C53 | Credentials go only to servers that agreed to SASL | proved | As stated. |
| C54 | SASL challenge and response | partial | Refuted: no such client is ever accepted (for every stream below 1 GiB), because the server awaits one more SASL frame. It is accepted if it sends a superfluous SASL frame. |
| C55 | Size limits hold during the handshake | partial | The client's limit holds for the Open frame; the server's is not applied to the Open frame: refuted. SASL frames are unlimited on both sides. |
| C56 | A client and a server of this library connect | proved | As stated. |
| C57 | The router never uses a released service | partial | Refuted: a reference into the table of services is held while readiness is awaited; a detach or an attach invalidates it. Proved when neither happens meanwhile. |
| C58 | What one application sends the other receives | proved | Assumes bodies that are what they say they are, frames that are legal and within the peer's limit, and that the transfers of the handle reach one receiver link. |
| C59 | Waiting for a sender link ends | proved | Outside the statement: a link handed to the control service that has not been attached yet is not closed when the session fails, and its waiters wait on (C59_unattached_refuted). |
| C60 | What is set on a message can be read back, here and by the receiver | partial | Proved for keys given one value; refuted for keys given two: the setters append and the getters return the first, so the old value is read (C60_set_twice_refuted). The rest is proved. |
| C61 | The peer cannot crash a session | partial | C61_only and C61_exactly give every way in which a session of at most 2^32 links panics. Without overflow checks nothing from the peer or the network does (also at the connection). Refuted otherwise: a peer that attaches with delivery count 2^32-1 overflows it in builds with checks; a peer that detaches (or ends) before the control service accepts its attach makes the acceptance panic in every build; detaching a receiver link by handle before the peer answered its attach reaches unimplemented!(). |
| C62 | Every attach is answered | partial | Asked, if no link of the history has taken the name. Sender links: accepted and refused, with anything in between except detach frames and failures. Receiver links: accepted and refused as long as the handle is still reserved. Own links: completed, if the name is not taken and not empty. Refuted: a link named like the source address of another sender link is swallowed (no question, no answer), and the attach frame that comes with a refused sender link has the wrong role. |
| C63 | Links and sessions are found | partial | By this side's handle: exactly, for histories with at most 2^32 links. By the peer's handle: if the peer gives it to no other link. By name: if no other link uses the name or source address. Sessions: what is found has the channel and has not ended; a session that has not ended is found if no session is being ended to which the peer gave the same number. Refuted: the peer's handle of a refused link finds a later link of this side; detaching one of two links from the same source hides the other, and links of the peer are never found by their own name; ending a session hides another one. |
| C64 | Builders ask for what they were told | partial | Senders, receivers and sessions, if with_frame is not used; with_frame keeps the edited frame. Refuted: capabilities() panics after with_frame has removed the source. |
| C65 | Errors reach the other application as given | partial | Links: for open links of histories with at most 2^32 links, at the peer if it uses the handle for no other link. Connections that have not failed. Rejected deliveries. Conditions whose custom symbol is not a standard one. Refuted: the constant ERRANT_LINK is no condition of AMQP. |
| C66 | The two sides of a session count alike | partial | Proved: the answer to begin and what the session takes from it, for every peer; that the sessions of two connections of this library know each other, whatever happens before the answer; of every flow frame the next delivery id, the windows and that the next incoming id is what the peer told last. Refuted: transfers that arrive are not counted, so the next incoming id is stale. |
| C67 | The two ends of a link agree | partial | Proved: both exchanges open two ends that reach each other, for every history before and between; for a link on which the attaching side sends, names, handles and the size limit agree as well; for one on which it receives, what each end says. Refuted: a receiver's announced limit is not the one it applies, a limit of 0 is announced as none but refuses, an initial delivery count set by the application is not counted from (50 credits become 55), the name of a sender link the peer attached is its source address, and the remote handle of an own receiver link is its own handle. |
| C68 | Lists of described composites and arrays of maps survive the wire | proved | Proved: round trip and size of lists of composites and of arrays of maps, and exactly which inputs are read as a list of composites. C68_scalar_refused: a type that writes a scalar (which the trait does not forbid) is written but not read back. |
| C69 | No message larger than the peer's limit is sent | partial | Proved: for every history, the size that the body gives is within the peer's announced limit (cut to u32), or within the limit the application set; the refusal and its converse; with honest sizes the bytes on the wire. Refuted: a limit of 0, which in AMQP means none, refuses every body; a message whose remembered size is stale is sent although it is too large. |
| C70 | Transfers are refused exactly for cause | partial | Proved for every history (in release builds as long as the grants fit 32 bits), with the uniqueness of the reason, and that the frames of a delivery sent by this library are never refused while there is credit and the size fits. Refuted: a message that is too large is taken if it comes in one frame. |
| C71 | The outcome one application gives a delivery is the one the other application learns | partial | Proved for every history of both sessions that send no disposition by hand and every cut of the bytes. Refuted for modified: the first wait that returns it takes it away, and the next one hangs although the peer has settled. Refuted for is_remote_settled (C71_flag_refuted): it stays false for a delivery that the peer sent settled, and for one it settles later until a wait returns. |
| C72 | The message that is sent is the message that is loaded | partial | Proved for every message and body that is written as at least one byte, whose remembered size is right and that is shorter than 4 GiB. Refuted: a message without sections is sent as nothing, and load_message fails. |
| C73 | Attach and detach frames of a handle are sent in turn | partial | Proved for attach and detach frames if the peer detaches no link that is still being attached, the control service leaves the answer's handle alone and the session has not failed. Refuted: a handle is attached twice when the peer abandons an attach, a link that the service has not accepted is opened by a stale completion, a message is sent after the detach frame, credit is granted before the attach frame. |
| C74 | The peer's limit on handles | partial | Proved: handles are below the greatest number of links that the session had at one time, for every history in which the control service leaves the handle of its answers alone; so the limit is kept by a session that never has more than handle-max + 1 links. Refuted otherwise: the peer's handle-max is never looked at. |
| C75 | What a session sends can be read | proved | All frames of the session in every history; the bytes of any prefix in any pieces are read as those frames (the body of a transfer as bytes); the same for two sessions that talk to each other. The hypothesis on the values handed over excludes what C01 and C11 exclude: the descriptor 0, timestamps before 1970, custom conditions named like a standard one, repeated keys, messages with a stale remembered size (C14). Frames are assumed to be below 4 GiB and within the limit of the peer (C24). The proviso is needed for the peer as well: a source with the descriptor 0, which the codec reads and cannot write, is echoed in the answer, which nobody can read (C75_echo_refuted). |
| C76 | Messages of a link keep their order | partial | Proved: transmitted messages stay in the order of their completion, whole and apart, in every history (C76_in_turn); who waits for credit waits only while there is none (C76_no_credit); while a send keeps its place in the queue, no other send on the link gets credit (C76_queue_first_partial); polled in the order of the queue, woken sends are transmitted in it and the rest queue again in it (C76_fifo_partial, with room in the session window). False: a flow dissolves the queue before those who waited have run, so a send made later and polled earlier takes the credit and the one that was first queues again behind (C76_overtaken_refuted), and likewise for the window of the session (C76_overtaken_window_refuted). |
| C77 | No send is forgotten | partial | Proved for every history: who sleeps lacks credit or window (C77_asleep); one poll completes a send when there are both, whatever its state (C77_completes). Refuted: that continued grants bring every send through; for every n there is a history with n grants in which n later sends are transmitted and the first, polled after each grant, still waits (C77_starved_refuted, by induction on n). |
| C78 | A send or a wait may be dropped | partial | Proved for every state and history: a drop commutes with all that follows (C78_send, C78_wait: the runs are equal), a dropped send is never transmitted (C78_never_sent), and one that waits for credit has taken nothing (C78_costless_partial; missing: that its place in the queue leaves no trace, which is proved only for credit, window, ids and frames). Refuted: a send that is dropped while it waits for the window of the session has taken a credit of the link and does not give it back, so that the next send waits although the peer granted a credit and nothing was sent (C78_lost_credit_refuted). |
| C79 | Links of a session are independent | partial | Proved for every history: a link that no event names, and that has not got the slot of a link that is named, keeps its whole state and its slot (C79_apart_partial); if the named links are in their own slots, as attached links are, nothing more is needed (C79_attached). Refuted in full: the refusal of a link that the peer has detached meanwhile closes the link that has got its number (C79_refused_refuted). A send that waits for credit on a link that no event names keeps its place in the queue and is neither woken nor failed nor lost (C79_asleep). Not covered: sends that wait for the window of the session, which all links share; see C40. |
| C80 | Waiting on a settled delivery returns at once, and a second wait ends the first | proved | C80_settled and C80_sent_settled for every history; C80_displaced for every reachable session. That both of two waits get the outcome, as one might expect, is refuted by C31_two_waits_refuted. |
| C81 | Which frames are protocol errors | proved | C81_errors and C81_late for every reachable connection; C35_routed covers frames for a channel without a session. |
| C82 | The publish service is called once for each message, and its failure closes the link | proved | C82_told, C82_only and C82_failed for every history. Which transfers are refused is C70; a failure that comes after the link is gone is in C79 and its refutation. The check of dispatcher.rs:191 that the connection is open is not in the session model. |
<!-- end claims -->

The plan made before the proofs, kept for the record: C01-C19 by induction on
values and a generic composite codec; C15/C16 by refinement of the incremental
decoder to a decoder of the whole stream; C20-C40, C42, C49, C51, C52 by
invariants of the session and connection state machines over all histories;
C25-C27 by refinement of the receiver link to a list of completed deliveries;
C41 by an invariant of two endpoints and two FIFO channels; C43, C44, C53-C56 by
inversion of the handshake as a reader of a byte stream; C45 by list reasoning;
C46 by arithmetic and an invariant of the polling loop; C47, C48, C57 by
invariants of small state machines.  No property was considered inexpressible.

## 4. Trusted base

* Coq's kernel, including its `vm_compute` reduction.  `coqchk` accepts the
  compiled development.
* `Print Assumptions` follows every property theorem; each prints "Closed under
  the global context".  No axiom of the standard library or of another library
  is used by any property theorem.  (Tools that list the axioms of every loaded
  library module also see the seven parameters of the module type
  `Coq.ssr.ssrunder.Under_rel`, part of Coq's standard library, loaded by
  `ZifyBool`.  No theorem depends on them.)
* The reading of the Rust source embodied in the model.  Every definition cites
  the lines it models, simplifications are said in the same comment.
* The statements: `Spec*.v` define the words used in them.
* What the model takes for granted of the libraries underneath (below).

### 4.1 Assumed of the environment

* The executor polls one task at a time; a poll runs to its next `await` without
  interruption.  A woken task is polled again eventually (only liveness
  statements of the form "the next poll returns" are proved, no fairness is
  used).
* `ntex::channel::{oneshot, condition, pool}`: a oneshot is completed at most
  once, a dropped sender cancels it, a condition wakes every registered waiter.
* `slab::Slab` reuses the slot freed last; `HashMap`/`HashSet` behave as finite
  maps; the iteration order is arbitrary.
* `io.encode` of an outgoing frame does not fail.  (The codec model shows when it
  does not: C02, C11.)  After `io.close()` frames may still be encoded, they are
  not counted as sent where a theorem says "before the io layer is closed".
* `ntex_io::Io::{send, recv}`: `recv` decodes from the bytes read so far and
  waits for more; a closed stream makes it return `None`; the codec is the one of
  `Framing.v`.
* Time stamps come from a monotonic clock; timers fire not before their time.
* `f32` arithmetic of the keep-alive interval follows IEEE 754
  (`Coq.Floats.SpecFloat`, no axioms).
* `PipelineBinding::call`/`Pipeline::call` present a request to the service at
  the first poll after the service is ready, and own what they need.

### 4.2 Over-approximations

The model allows more histories than the code.  Properties proved for all
histories hold for the real ones; refutations were checked by hand to be
realizable.

* An event may concern any link, delivery or task that ever existed.
* `EvFreeReceiver` (the receiver's state is released) may happen whenever the
  stream is gone; a delivery may be dropped at any time.
* Control-service answers arrive in any order and may be stale.
* A `HashMap` may move its entries on every insertion (router).

### 4.3 Hypotheses that recur

* `links <= 2^32` in one session, `deliveries <= 2^32`: counters are `u32`.
* `own_id`: a delivery's id is not reused while it is held.
* `none_waits`, `same_numbers` (both sides use the same channel number for a
  session), `at_most 65536` sessions at a time: each is needed, and the theorem
  beside it refutes the claim without it.

## 5. Not modelled

* ntex-io, sockets, TLS, timers, the executor, memory safety of `Rc`/`Cell`.
* Logging, `Debug`, `Display`.
* Time-outs of the handshake.
* Floating point: `f32`/`f64` values are their bit patterns.
* `ListDescribed` and the unused parts of the generated definitions.

## 6. What the proofs found

Each item is either a `_refuted` theorem or was met while modelling.

Codec
* Decoding a compound whose size is smaller than its count field underflows: a
  panic in debug builds, a huge slice length in release builds (C04).
* A map used as a key of a map panics in `Hash` (C04).
* Numeric descriptor 0 does not survive: it is written in the one-byte form
  `ulong0`, which the decoder of descriptors refuses (C06, C08).
* Instants before 1970 do not survive (C07).
* A few bytes announcing an array of zero-width elements reserve memory for up
  to 2^32 of them (C10); such an array cannot be re-encoded (C06).
* A custom error condition that spells a standard one becomes it (C19).
* A message's remembered size is stale after five of the setters, so frames are
  encoded with the wrong size (C14, C23).  `Message`'s `==` compares that size.
* A property or annotation set twice keeps reading as the first value (C60).
* The message format is lost, nested messages arrive as data (C13).
* After a decoding error the codec stays in the state `Frame(n)`.

Sessions and links
* A flow that lowers the limit below what was already sent makes the credit
  wrap to almost 2^32 (C20); the same happens between two endpoints of this
  library when credit is granted while transfers are on the way (C41).
* Two grants in a row: the receiver adds them, the sender keeps the last (C41).
* A send dropped while it waits for the session window loses its credit (C41).
* The session window counts deliveries, not frames (C21).
* Frames exceed the peer's limit for limits up to 2048 and for tags above 1996
  bytes (C24).
* Aborted deliveries are handed out (C25).  The first frame of a delivery is not
  checked against the maximum message size (C27).
* Deliveries dropped, or waited for late, are rejected on the wire although the
  peer has settled them (C29).
* A disposition with `first > last` settles nothing; one with a range of 2^32
  ids keeps the executor busy for 2^32 rounds (C30).
* Two waits for one delivery: the first never returns.  A delivery on a link
  closed by this side, or transmitted after the session failed, can be waited
  for forever (C31, C32).
* Sends on a link this side closed are not released when the session fails; a
  send woken before the failure transmits after it (C32).
* `Session::detach_receiver_link` wakes no one; on a link whose attach is not
  answered it runs into `unimplemented!()` (C42).
* A close before the attach is answered is lost (C39).  An attach on an ended
  session sends Attach and never completes.
* A stale remote handle after a refused attach (C38); a stale confirmation may
  confirm, overwrite or detach another link in a reused slot.
* A refused flow is not answered (C49).
* A link given to the control service that is not attached yet is not closed when
  its session fails; `ready` and `on_close` of it wait on (C59).
* A peer that detaches its link, or ends the session, before the control service
  has accepted the attach makes the acceptance panic, in every build (C61).
* Detaching a receiver link by its handle before the peer answered the attach
  reaches `unimplemented!()` (C61).
* In builds with overflow checks a peer that attaches with the largest delivery
  count panics the session with one transfer (C61).
* A link that the peer names like the source address of another sender link of the
  session is swallowed: its attach frame is never answered (C62).
* The attach frame that comes with a refused sender link repeats the peer's role
  instead of the opposite one (C62).
* Sender links of the peer are known by the address of their source, not by their
  name: of two links with the same source one hides the other, and detaching
  either makes both unknown (C63).
* The peer's handle of a refused link finds a later link of this side (C63).

Connections
* A Begin is accepted after the connection has failed (C33).
* Session slot numbers are truncated to 16 bits: the 65537th session shares its
  channel with the first (C34).
* `Session::end` looks its session up under the remote channel number: with
  crossed numbers another session is marked as closing (C35, C36) and is not found
  by its channel (C63).
* Two Close frames are sent when both sides close (C37).
* The future of `Session::end` is not completed when the connection fails (C51).
* The peer's `channel-max` is ignored; a Begin on a channel in use orphans the
  old session.

Handshakes
* The client does not check that the first SASL frame lists mechanisms; even an
  outcome that announces failure passes there (C43).
* A server application can go on after announcing failure (C44).
* After a challenge and a response the server waits for one frame more, so the
  exchange stalls (C54).
* The server's limits are not applied to the Open frame (C55).
* `SaslInit` carries the configured host name, not the requested one.
  `negotiate` has no time-out.

Dispatcher and router
* The builder of a receiver panics in `capabilities` if `with_frame` has removed
  the source (C64).
* Sender links of this side attach without an initial delivery-count, which AMQP
  demands of senders (C64_sender).
* `error_code::ERRANT_LINK` is `amqp:session-errant-link`; the condition is called
  `amqp:session:errant-link` (C65).
* Arriving transfers are not counted (`let _ = next_incoming_id.wrapping_add(1)`),
  so flow frames tell a stale next-incoming-id, and the answers to flow frames in a
  session that the peer began tell none (C66).
* A receiver link announces the `max-message-size` of its builder but applies 256
  KiB; a remote receiver with limit 0 announces none and refuses every body of two
  frames (C67).
* An initial delivery-count set with `with_frame` is announced but not counted
  from: credits grow by it (C67).
* `SenderLink::name` of a link the peer attached is the source address, and
  `ReceiverLink::remote_handle` of an own link is the local handle (C67).
* `ListDescribed` writes items of any `Composite` type but reads only those that
  are lists, maps or arrays (C68).
* A peer that announces a maximum message size of 0, which in AMQP means that there
  is no limit, gets no message at all: every body is too large (C69).
* A `modified` outcome is given to one `wait` only: it is taken out of the
  delivery's entry, and a later `wait` hangs although the peer has settled (C71).
* A message without sections is sent as a transfer without body, from which
  `load_message` gives an error (C72).
* Handles are not always attached and detached in turn (C73).  A peer that detaches
  a link before the control service has decided about it, and attaches another one,
  gets two attach frames with one handle.  A receiver link that is closed while the
  service looks at the final answer is attached again when the service is done, and
  a new link that has taken the handle is opened by that, without being accepted.
  A send that credit has released, but that is not polled before the link is
  closed, is transmitted after the detach frame.  Credit that the control service
  grants with the question is sent before the attach frame.
* The peer's handle-max is never looked at: a second link is attached although the
  peer allows one (C74_exceeded_refuted).
* A detach frame for a link on which the peer sends is ignored while the control
  service decides about the link; it is opened and given credit later
  (C39_undecided_refuted).
* An attach whose source has a property described by the number 0 (short form) is
  read and answered with the same source; the answer cannot be read and fails the
  connection of a peer that uses this library (C75_echo_refuted).
* A flow wakes all sends that wait for credit and empties the queue before they
  run; a send made afterwards and polled before them takes the credit, and the
  one that was first queues again behind it (C76_overtaken_refuted; for the
  window of the session C76_overtaken_window_refuted).
* For the same reason a send can be overtaken without end: every grant may be
  taken by a newer send (C77_starved_refuted).
* A send future that is dropped while it waits for the window of the session keeps the credit it has taken from its
  link (sndlink.rs:339-368 takes it before session.rs:1204-1220 waits). The next send waits for credit although the peer
  granted one and nothing was transmitted (C78_lost_credit_refuted). Otherwise a drop is harmless: it commutes with every
  history that does not poll the future (C78_send, C78_wait).
* The refusal of a link that its peer has detached before the decision closes whatever link has got its number since: the
  slot is emptied and a detach frame with its handle is sent (`detach_unconfirmed_sender_link`, C79_refused_refuted).
* `Delivery::is_remote_settled` is false for a delivery that the peer sent settled: `new_rcv` sets the local flag (delivery.rs:58-62).
  A settlement that arrives later shows only after a `wait` has returned it (`C71_flag_refuted`).
* No keep-alive is ever sent for idle time-outs of 1 to 1333 ms (C46).
* Control events are reordered by `swap_remove` and overtaken (C47).
* Deliveries that arrive before the router has created the service stay one
  behind (C48).
* The router holds a reference into its `HashMap` of services across an `await`;
  a Detach or an Attach of the peer meanwhile invalidates it: use after free
  (C57).

## 7. Wrong programs

`tools/mutate.py` seeds one wrong program at a time into a scratch copy of the
model, rebuilds it with the proofs that no longer hold replaced by holes, and
lists the property theorems that rest on a hole.  `seeded/LOG.jsonl` is the
record; theorems that survived a change that made their claim false were
tightened, as recorded there.
