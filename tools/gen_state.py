#!/usr/bin/env python3
"""Generate rocq/theories/State.v: the records of the engine model with their
field setters.  The records themselves are listed here by hand, with the Rust
lines they model; only the setters are mechanical."""
import os, textwrap

HEAD = '''(** * State of the engine: src/{delivery,sndlink,rcvlink,session}.rs

    Generated by tools/gen_state.py: the records, and for every field [f] the
    function [set_f v s] which replaces it.

    Cells ([Rc<UnsafeCell<T>>], cell.rs) are addresses: positions in an
    append-only table of the session.  An address is a [nat]; numbers of the
    protocol are [N]. *)

From Verif Require Export Engine.

'''

RECORDS = []

def rec(name, cite, prefix_doc, fields):
    RECORDS.append((name, cite, prefix_doc, fields))

rec('slink', 'sndlink.rs:20-34 [SenderLinkInner].  [sn_pending]: the senders of\n    [pending_transfers] are the addresses of their channels.', '', [
  ('sn_id', 'N', 'usize, key in the slab'),
  ('sn_name', 'bytes', ''),
  ('sn_rhandle', 'N', 'remote_handle'),
  ('sn_dc', 'N', 'delivery_count, u32'),
  ('sn_tag', 'N', 'delivery_tag, u32'),
  ('sn_credit', 'N', 'link_credit, u32'),
  ('sn_pending', 'list nat', ''),
  ('sn_error', 'option perr', ''),
  ('sn_closed', 'bool', ''),
  ('sn_max', 'option N', 'max_message_size'),
  ('sn_on_close', 'cond', ''),
  ('sn_on_credit', 'cond', ''),
])
rec('rlink', 'rcvlink.rs:22-36 [ReceiverLinkInner].  [rc_waker]: the task registered in\n    [reader_task]; [rc_parked]: the tasks whose last [recv] returned [Pending]\n    and that have not been woken since.', '', [
  ('rc_name', 'bytes', ''),
  ('rc_handle', 'N', ''),
  ('rc_rhandle', 'N', ''),
  ('rc_closed', 'bool', ''),
  ('rc_waker', 'option nat', ''),
  ('rc_parked', 'list nat', ''),
  ('rc_queue', 'list (nat * transfer_t)', 'delivery and its first transfer'),
  ('rc_credit', 'N', 'u32'),
  ('rc_dc', 'N', 'delivery_count, u32'),
  ('rc_error', 'option error_t', ''),
  ('rc_partial', 'option bytes', 'partial_body'),
  ('rc_max', 'N', 'max_message_size, u64'),
])
rec('dinner', 'delivery.rs:29-36 [DeliveryInner].', '', [
  ('di_handle', 'N', 'local handle of the link'),
  ('di_settled', 'bool', ''),
  ('di_state', 'option delivery_state', ''),
  ('di_error', 'option perr', ''),
  ('di_tx', 'option nat', ''),
])
rec('dlv', 'delivery.rs:14-28 [Delivery] and its flags.  [dl_alive]: not dropped yet.', '', [
  ('dl_id', 'N', ''),
  ('dl_tag', 'bytes', ''),
  ('dl_sender', 'bool', 'SENDER'),
  ('dl_local', 'bool', 'LOCAL_SETTLED'),
  ('dl_remote', 'bool', 'REMOTE_SETTLED'),
  ('dl_alive', 'bool', ''),
])
rec('stask', 'A future of [TransferBuilder::send] (delivery.rs:286-297, 328-359).\n    [tk_took]: whether the code after the credit loop (sndlink.rs:359-361) has\n    run, i.e. the future has used up one unit of credit.', '', [
  ('tk_link', 'nat', ''),
  ('tk_tag', 'option bytes', ''),
  ('tk_body', 'transfer_body', ''),
  ('tk_settled', 'bool', ''),
  ('tk_format', 'option N', ''),
  ('tk_took', 'bool', ''),
  ('tk_st', 'tstate', ''),
])
rec('wtask', 'A future of [Delivery::wait] (delivery.rs:149-195).', '', [
  ('wk_dlv', 'nat', ''),
  ('wk_st', 'wstate', ''),
])
rec('ses', 'session.rs:30-57 [SessionInner], followed by the tables of the cells it\n    reaches, the frames handed to the io layer and the control frames\n    (control.rs:29-43) that the control service has not finished with.', '', [
  ('s_id', 'N', 'usize, key in the connection slab'),
  ('s_local', 'bool', 'flag LOCAL'),
  ('s_ended', 'bool', 'flag ENDED'),
  ('s_ending', 'bool', 'flag ENDING'),
  ('s_rchan', 'N', 'remote_channel_id'),
  ('s_mfs', 'N', 'sink.max_frame_size'),
  ('s_nout', 'N', 'next_outgoing_id'),
  ('s_nin', 'N', 'next_incoming_id'),
  ('s_owin', 'N', 'remote_outgoing_window'),
  ('s_iwin', 'N', 'remote_incoming_window'),
  ('s_links', 'slab link', ''),
  ('s_names', 'list (bytes * N)', 'links_by_name'),
  ('s_rhandles', 'list (N * N)', 'remote_handles'),
  ('s_error', 'option perr', ''),
  ('s_closed', 'cond', ''),
  ('s_pending', 'list (nat * N)', 'pending_transfers: tx, link_handle'),
  ('s_snd', 'list (N * dinner)', 'unsettled_snd_deliveries'),
  ('s_rcv', 'list (N * dinner)', 'unsettled_rcv_deliveries'),
  ('s_chans', 'list chan', 'table: channels'),
  ('s_snds', 'list slink', 'table: sender links'),
  ('s_rcvs', 'list rlink', 'table: receiver links'),
  ('s_dlvs', 'list dlv', 'table: deliveries'),
  ('s_tasks', 'list stask', 'table: send futures'),
  ('s_waits', 'list wtask', 'table: wait futures'),
  ('s_ctl', 'list (option ctl)', 'table: unfinished control frames'),
  ('s_out', 'list frame', 'frames posted, oldest first'),
])

out = HEAD
for name, cite, doc, fields in RECORDS:
    out += '(** %s *)\n' % cite
    out += 'Record %s : Type := mk_%s {\n' % (name, name)
    for i, (f, t, c) in enumerate(fields):
        out += '  %s : %s%s%s\n' % (f, t, ';' if i + 1 < len(fields) else '', '   (* %s *)' % c if c else '')
    out += '}.\n'
    for f, t, c in fields:
        out += 'Definition set_%s (v : %s) (s : %s) : %s :=\n' % (f, t, name, name)
        args = ' '.join('v' if g == f else '(%s s)' % g for g, _, _ in fields)
        out += textwrap.fill('mk_%s %s.' % (name, args), 88, initial_indent='  ', subsequent_indent='    ') + '\n'
    out += '\n'
out += '(** For proofs: reduce projections of setters and nothing else. *)\n'
allf = [f for _, _, _, fs in RECORDS for f, _, _ in fs]
names = ' '.join(allf) + ' ' + ' '.join('set_' + f for f in allf)
out += 'Ltac st_cbn :=\n' + textwrap.fill('cbn [' + names + '].', 88, initial_indent='  ', subsequent_indent='    ') + '\n'
out += 'Ltac st_cbn_in H :=\n' + textwrap.fill('cbn [' + names + '] in H.', 88, initial_indent='  ', subsequent_indent='    ') + '\n'
out += 'Ltac st_cbn_all :=\n' + textwrap.fill('cbn [' + names + '] in *.', 88, initial_indent='  ', subsequent_indent='    ') + '\n'

path = os.path.join(os.path.dirname(os.path.abspath(__file__)), '..', 'rocq', 'theories', 'State.v')
open(path, 'w').write(out)
