{
 "C01": [
  "proved",
  "Excluded values are those named in the quantifier (wire_safe) and encodings of 4 GiB or more."
 ],
 "C02": [
  "proved",
  "Values, arrays, Vec, Multiple; every composite type, section, message, performative and frame."
 ],
 "C04": [
  "partial",
  "The full claim is false of the code (two refutations): characterised which inputs can panic."
 ],
 "C06": [
  "partial",
  "False in full (two refutations): proved for values without descriptor 0 and without oversized zero-width arrays."
 ],
 "C07": [
  "partial",
  "False in full (refuted before 1970): proved exactly which instants survive."
 ],
 "C08": [
  "partial",
  "False for the numeric descriptor 0 (refuted); proved for all others."
 ],
 "C10": [
  "partial",
  "Depth bound proved; memory bound refuted."
 ],
 "C11": [
  "proved",
  "Transfer bodies arrive as bytes (received_frame), empty ones as none."
 ],
 "C13": [
  "partial",
  "False in full (two refutations: message format lost, nested messages arrive as data): proved what the receiver gets for every message."
 ],
 "C14": [
  "partial",
  "False in full (five methods keep the remembered size, refuted): proved for all sequences that do not use them between a size query and a reset."
 ],
 "C19": [
  "partial",
  "False in full for custom symbols that spell a standard one (refuted); proved for all others."
 ],
 "C20": [
  "partial",
  "False in full (refuted: a flow that lowers the limit makes the credit wrap): proved for every run in which the limits set by the peer never decrease."
 ],
 "C21": [
  "partial",
  "False in full (refuted for multi-frame deliveries and for an absent next-incoming-id): proved for the number of deliveries, and for frames when every body fits in one, while limits never decrease."
 ],
 "C22": [
  "proved",
  "For all reachable states; tags of one link while it made at most 2^32 sends."
 ],
 "C23": [
  "partial",
  "False for messages with a stale remembered size (refuted): proved for all data and all messages whose size is right."
 ],
 "C24": [
  "partial",
  "False for frame sizes up to 2048 and for long tags (refuted twice): proved above 2048 for tags of at most 1996 bytes."
 ],
 "C25": [
  "partial",
  "False in full (refuted: an aborted delivery is handed out): proved for every run without aborted transfers, on every link, with progress."
 ],
 "C26": [
  "partial",
  "Sum of grants minus completed deliveries proved while attached; release builds wrap once 2^32 credits were granted (refuted). Handed out within the credit granted: proved."
 ],
 "C27": [
  "partial",
  "False in full (refuted: the first frame is never checked): proved when a later frame carries a body."
 ],
 "C42": [
  "partial",
  "False in full (refuted: Session::detach_receiver_link wakes no one; two tasks share one waker): proved for one receiving task, deliveries and every other end of the link."
 ],
 "C30": [
  "partial",
  "False for ranges that wrap (refuted); proved exactly for all others: entries, waits, and no other effect."
 ],
 "C31": [
  "partial",
  "False in full (refuted: two waits at a time; a link closed by this side): soundness of every returned state proved for all runs, and completion on disposition, peer detach and failure for every suspended wait."
 ],
 "C32": [
  "partial",
  "False in full (refuted: sends on a link this side closed; sends woken before the failure): proved for all other pending sends, all waits, and all futures of attach, detach, close and end."
 ],
 "C40": [
  "partial",
  "False in full (refuted: crossed handles): proved for sends waiting for credit, and for sends waiting for the window when the handles agree."
 ],
 "C28": [
  "proved",
  "For deliveries whose id is used once in the session (own_id; ids repeat after 2^32 deliveries or at the peer's will) and about which the application sends no raw disposition; the rejection of dropped deliveries, while the session has not failed."
 ],
 "C29": [
  "partial",
  "False in full (two refutations: a delivery dropped without a wait, or after a wait that began late, is rejected on the wire). Proved when a suspended wait has seen the settlement."
 ],
 "C38": [
  "partial",
  "Handles of attached links are distinct (up to 2^32 links). A frame that names the handle of an attached link reaches that link, in every history in which the peer does not reuse the handle meanwhile. Refuted for handles under which nothing is attached: the entry of a refused link stays and hits a later one."
 ],
 "C39": [
  "partial",
  "Answer and completion proved for every link that was attached; refuted for a close before the peer has answered the attach, and for a detach that arrives before the control service has decided about the link: it is ignored and the link is opened later."
 ],
 "C49": [
  "partial",
  "No flow of this side asks for an answer; session flows are answered at once, link flows when the control service accepts them. Refuted when it refuses: no answer."
 ],
 "C33": [
  "partial",
  "First error is permanent, never open again, opening fails with it: proved. No sessions: proved unless the peer begins one afterwards; refuted if it does (a Begin is answered on a failed connection)."
 ],
 "C34": [
  "partial",
  "Bound for locally opened sessions: proved. Uniqueness: proved while at most 65536 sessions exist at a time; refuted beyond (the slot number is truncated to 16 bits)."
 ],
 "C35": [
  "partial",
  "Routing to the session last begun on the channel, or a protocol error: proved, except that a session marked as closing ignores frames. Under equal numbering only a session that is itself being ended is so marked; refuted otherwise."
 ],
 "C36": [
  "partial",
  "Exactly one End on the own channel, alternation of Begin and End over the whole history, completion on the peer's End and no effect on others: proved when both sides use the same channel number for the session; refuted otherwise."
 ],
 "C37": [
  "partial",
  "At most one Close more than the peer sent, before the io layer is closed; every Close of the peer answered once: proved. At most one in total: refuted."
 ],
 "C51": [
  "partial",
  "Proved for every session except those being ended by this side, for which it is refuted: the future of Session::end goes on waiting."
 ],
 "C52": [
  "proved",
  "Every session of a reachable connection is a reachable session of Session.v, so all session theorems apply to it."
 ],
 "C43": [
  "partial",
  "Exactly which server streams give a connection is proved (both directions), refusals and every other closed stream give an error. Refuted: the first SASL frame need not be the list of mechanisms, even an announced failure passes there."
 ],
 "C44": [
  "partial",
  "Exactly which client streams and application decisions give a connection is proved. With SASL the announced outcome need not be success: refuted for an application that goes on after declaring failure, proved for one that does not."
 ],
 "C45": [
  "proved",
  "The password may even contain NUL."
 ],
 "C53": [
  "proved",
  ""
 ],
 "C54": [
  "partial",
  "Refuted: no such client is ever accepted (for every stream below 1 GiB), because the server awaits one more SASL frame. It is accepted if it sends a superfluous SASL frame."
 ],
 "C55": [
  "partial",
  "The client's limit holds for the Open frame; the server's is not applied to the Open frame: refuted. SASL frames are unlimited on both sides."
 ],
 "C56": [
  "proved",
  ""
 ],
 "C46": [
  "partial",
  "The interval is at most half of every time-out. Keep-alives are sent in time from 1334 ms on; for 1 to 1333 ms none is ever sent, which C46_refuted_short proves."
 ],
 "C47": [
  "partial",
  "Refuted in general: events are presented out of order after swap_remove, and local events are overtaken by remote ones. Proved: the order when polls are calm, and that each event is presented at most once, none is lost and results are acted upon once. The dispatcher ends with an error exactly when a protocol error was dealt with."
 ],
 "C48": [
  "partial",
  "Refuted when deliveries arrive before the service is created: all but the first stay queued. Proved otherwise: handed at most once, settled once with the outcome returned, handed as soon as the service is ready. Refused exactly when the credit given is used up; links with an unknown address or whose service cannot be created are closed, others confirmed with 50 credits."
 ],
 "C57": [
  "partial",
  "Refuted: a reference into the table of services is held while readiness is awaited; a detach or an attach invalidates it. Proved when neither happens meanwhile."
 ],
 "C41": [
  "partial",
  "Refuted in general: a grant made while transfers are on the way and smaller than the credit left makes the sender's credit wrap around (C41_refuted), two grants in a row leave the ends with different credit (C41_agree_refuted), a send dropped while waiting loses credit (C41_abandon_refuted). Proved for every interleaving: no transfer exceeds the credit if no grant is smaller than the credit left, and the ends agree when quiet if credit is granted only when it has run out. C41_flow, C41_send, C41_grant and C41_receive tie the pair's counters to the session model."
 ],
 "C58": [
  "proved",
  "Assumes bodies that are what they say they are, frames that are legal and within the peer's limit, and that the transfers of the handle reach one receiver link."
 ],
 "C59": [
  "proved",
  "Outside the statement: a link handed to the control service that has not been attached yet is not closed when the session fails, and its waiters wait on (C59_unattached_refuted)."
 ],
 "C60": [
  "partial",
  "Proved for keys given one value; refuted for keys given two: the setters append and the getters return the first, so the old value is read (C60_set_twice_refuted). The rest is proved."
 ],
 "C61": [
  "partial",
  "C61_only and C61_exactly give every way in which a session of at most 2^32 links panics. Without overflow checks nothing from the peer or the network does (also at the connection). Refuted otherwise: a peer that attaches with delivery count 2^32-1 overflows it in builds with checks; a peer that detaches (or ends) before the control service accepts its attach makes the acceptance panic in every build; detaching a receiver link by handle before the peer answered its attach reaches unimplemented!()."
 ],
 "C62": [
  "partial",
  "Asked, if no link of the history has taken the name. Sender links: accepted and refused, with anything in between except detach frames and failures. Receiver links: accepted and refused as long as the handle is still reserved. Own links: completed, if the name is not taken and not empty. Refuted: a link named like the source address of another sender link is swallowed (no question, no answer), and the attach frame that comes with a refused sender link has the wrong role."
 ],
 "C63": [
  "partial",
  "By this side's handle: exactly, for histories with at most 2^32 links. By the peer's handle: if the peer gives it to no other link. By name: if no other link uses the name or source address. Sessions: what is found has the channel and has not ended; a session that has not ended is found if no session is being ended to which the peer gave the same number. Refuted: the peer's handle of a refused link finds a later link of this side; detaching one of two links from the same source hides the other, and links of the peer are never found by their own name; ending a session hides another one."
 ],
 "C64": [
  "partial",
  "Senders, receivers and sessions, if with_frame is not used; with_frame keeps the edited frame. Refuted: capabilities() panics after with_frame has removed the source."
 ],
 "C65": [
  "partial",
  "Links: for open links of histories with at most 2^32 links, at the peer if it uses the handle for no other link. Connections that have not failed. Rejected deliveries. Conditions whose custom symbol is not a standard one. Refuted: the constant ERRANT_LINK is no condition of AMQP."
 ],
 "C66": [
  "partial",
  "Proved: the answer to begin and what the session takes from it, for every peer; that the sessions of two connections of this library know each other, whatever happens before the answer; of every flow frame the next delivery id, the windows and that the next incoming id is what the peer told last. Refuted: transfers that arrive are not counted, so the next incoming id is stale."
 ],
 "C67": [
  "partial",
  "Proved: both exchanges open two ends that reach each other, for every history before and between; for a link on which the attaching side sends, names, handles and the size limit agree as well; for one on which it receives, what each end says. Refuted: a receiver's announced limit is not the one it applies, a limit of 0 is announced as none but refuses, an initial delivery count set by the application is not counted from (50 credits become 55), the name of a sender link the peer attached is its source address, and the remote handle of an own receiver link is its own handle."
 ],
 "C68": [
  "proved",
  "Proved: round trip and size of lists of composites and of arrays of maps, and exactly which inputs are read as a list of composites. C68_scalar_refused: a type that writes a scalar (which the trait does not forbid) is written but not read back."
 ],
 "C69": [
  "partial",
  "Proved: for every history, the size that the body gives is within the peer's announced limit (cut to u32), or within the limit the application set; the refusal and its converse; with honest sizes the bytes on the wire. Refuted: a limit of 0, which in AMQP means none, refuses every body; a message whose remembered size is stale is sent although it is too large."
 ],
 "C70": [
  "partial",
  "Proved for every history (in release builds as long as the grants fit 32 bits), with the uniqueness of the reason, and that the frames of a delivery sent by this library are never refused while there is credit and the size fits. Refuted: a message that is too large is taken if it comes in one frame."
 ],
 "C71": [
  "partial",
  "Proved for every history of both sessions that send no disposition by hand and every cut of the bytes. Refuted for modified: the first wait that returns it takes it away, and the next one hangs although the peer has settled. Refuted for is_remote_settled (C71_flag_refuted): it stays false for a delivery that the peer sent settled, and for one it settles later until a wait returns."
 ],
 "C72": [
  "partial",
  "Proved for every message and body that is written as at least one byte, whose remembered size is right and that is shorter than 4 GiB. Refuted: a message without sections is sent as nothing, and load_message fails."
 ],
 "C73": [
  "partial",
  "Proved for attach and detach frames if the peer detaches no link that is still being attached, the control service leaves the answer's handle alone and the session has not failed. Refuted: a handle is attached twice when the peer abandons an attach, a link that the service has not accepted is opened by a stale completion, a message is sent after the detach frame, credit is granted before the attach frame."
 ],
 "C74": [
  "partial",
  "Proved: handles are below the greatest number of links that the session had at one time, for every history in which the control service leaves the handle of its answers alone; so the limit is kept by a session that never has more than handle-max + 1 links. Refuted otherwise: the peer's handle-max is never looked at."
 ],
 "C75": [
  "proved",
  "All frames of the session in every history; the bytes of any prefix in any pieces are read as those frames (the body of a transfer as bytes); the same for two sessions that talk to each other. The hypothesis on the values handed over excludes what C01 and C11 exclude: the descriptor 0, timestamps before 1970, custom conditions named like a standard one, repeated keys, messages with a stale remembered size (C14). Frames are assumed to be below 4 GiB and within the limit of the peer (C24). The proviso is needed for the peer as well: a source with the descriptor 0, which the codec reads and cannot write, is echoed in the answer, which nobody can read (C75_echo_refuted)."
 ],
 "C76": [
  "partial",
  "Proved: transmitted messages stay in the order of their completion, whole and apart, in every history (C76_in_turn); who waits for credit waits only while there is none (C76_no_credit); while a send keeps its place in the queue, no other send on the link gets credit (C76_queue_first_partial); polled in the order of the queue, woken sends are transmitted in it and the rest queue again in it (C76_fifo_partial, with room in the session window). False: a flow dissolves the queue before those who waited have run, so a send made later and polled earlier takes the credit and the one that was first queues again behind (C76_overtaken_refuted), and likewise for the window of the session (C76_overtaken_window_refuted)."
 ],
 "C77": [
  "partial",
  "Proved for every history: who sleeps lacks credit or window (C77_asleep); one poll completes a send when there are both, whatever its state (C77_completes). Refuted: that continued grants bring every send through; for every n there is a history with n grants in which n later sends are transmitted and the first, polled after each grant, still waits (C77_starved_refuted, by induction on n)."
 ],
 "C78": [
  "partial",
  "Proved for every state and history: a drop commutes with all that follows (C78_send, C78_wait: the runs are equal), a dropped send is never transmitted (C78_never_sent), and one that waits for credit has taken nothing (C78_costless_partial; missing: that its place in the queue leaves no trace, which is proved only for credit, window, ids and frames). Refuted: a send that is dropped while it waits for the window of the session has taken a credit of the link and does not give it back, so that the next send waits although the peer granted a credit and nothing was sent (C78_lost_credit_refuted)."
 ],
 "C79": [
  "partial",
  "Proved for every history: a link that no event names, and that has not got the slot of a link that is named, keeps its whole state and its slot (C79_apart_partial); if the named links are in their own slots, as attached links are, nothing more is needed (C79_attached). Refuted in full: the refusal of a link that the peer has detached meanwhile closes the link that has got its number (C79_refused_refuted). A send that waits for credit on a link that no event names keeps its place in the queue and is neither woken nor failed nor lost (C79_asleep). Not covered: sends that wait for the window of the session, which all links share; see C40."
 ],
 "C80": [
  "proved",
  "C80_settled and C80_sent_settled for every history; C80_displaced for every reachable session. That both of two waits get the outcome, as one might expect, is refuted by C31_two_waits_refuted."
 ],
 "C81": [
  "proved",
  "C81_errors and C81_late for every reachable connection; C35_routed covers frames for a channel without a session."
 ],
 "C82": [
  "proved",
  "C82_told, C82_only and C82_failed for every history. Which transfers are refused is C70; a failure that comes after the link is gone is in C79 and its refutation. The check of dispatcher.rs:191 that the connection is open is not in the session model."
 ]
}