#!/usr/bin/env python3
"""Carries relations between sessions (theories/Rel.v) through the functions of
theories/Session.v: writes theories/SessionRel.v and its like."""
import os, re, sys
here = os.path.dirname(os.path.abspath(__file__))
src = open(os.path.join(here, 'gen_frame.py')).read()
env = {}
i = src.index('LK =') if 'LK =' in src else 0
exec(re.search(r'(?ms)^(UN|LK)\b.*?^\]\n', src).group(0), env)
T = env['T']


def gen(R, fields, manual, skip, drop=()):
    """R: the relation; fields it sees; functions with an instance by hand;
    functions for which it does not hold."""
    o = []
    for name, args, kind, fp in T:
        if not (set(fp.split()) & set(fields.split())) or name in manual.split() or name in skip.split():
            continue
        a = args.split()
        call = ' '.join([name] + a)
        qa = ' '.join(a)
        t = f'{R}_{name}'
        if kind == 's':
            o.append(f'#[export] Instance {t} {qa} s : stable {R} s ({call} s).\n'
                     f'Proof. unfold {name}. st_solve. Qed.')
        elif kind == 'i':
            o.append(f'#[export] Instance {t} {qa} s : stable {R} s ({call} s).\n'
                     f'Proof.\n  unfold {name}. revert s. induction l as [|x l IH]; intros s; '
                     f'cbn [fold_left]; [apply stable_refl; exact _|].\n'
                     f'  eapply stable_trans; [exact _| |apply IH]. st_solve.\nQed.')
        elif kind == 'fl':
            o.append(f'#[export] Instance {t} {qa} s x : stable {R} s ({call} s x).\n'
                     f'Proof. unfold {name}. st_solve. Qed.')
        elif kind in ('p1', 'p2'):
            pr = {'p1': 'fst', 'p2': 'snd'}[kind]
            o.append(f'#[export] Instance {t} {qa} s : stable {R} s ({pr} ({call} s)).\n'
                     f'Proof. unfold {name}. st_solve. Qed.')
        elif kind == 'e':
            o.append(f"#[export] Instance {t} {qa} s : stable_er {R} (fun x => x) s ({call} s).\n"
                     f"Proof. intros x H. change (stable {R} s x). unfold {name} in H. st_er H. Qed.")
        elif kind in ('ep', 'ea'):
            o.append(f"#[export] Instance {t} {qa} s : stable_er {R} fst s ({call} s).\n"
                     f"Proof. intros [x r] H. change (stable {R} s x). unfold {name} in H. st_er H. Qed.")
        elif kind == 'o':
            o.append(f"#[export] Instance {t} {qa} s : stable_opt {R} s ({call} s).\n"
                     f"Proof. intros x H. change (stable {R} s x). unfold {name} in H. st_er H. Qed.")
    return '\n'.join(o) + '\n'


def write(name, head, parts):
    path = os.path.join(here, '..', 'rocq', 'theories', name + '.v')
    open(path, 'w').write(head + '\n'.join(parts))


write('SessionRel', """(** * What the links keep, through every function

    Generated by tools/gen_rel.py. *)

From Verif Require Export Rel.

""", [
    '(** ** Sender links *)\n\n' +
    gen('keeps_snds', 'snds', 'notify_lock_snd snd_remote_detached upd_snd',
        'apply_flow handle_flow link_loop poll_send control_ok'),
    '\n(** ** Receiver links *)\n\n' +
    gen('keeps_rcvs', 'rcvs', 'rcv_remote_detached upd_rcv',
        'set_link_credit rcv_transfer ses_handle_frame control_ok rcv_detached handle_detach'),
    '\n(** ** Identities *)\n\n' + gen('keeps_objs', 'snds dlvs', 'upd_snd upd_dlv', ''),
    '\n(** ** Tag counters *)\n\n' + gen('keeps_tags', 'snds', 'upd_snd', 'poll_send'),
])

write('LinkRel', """(** * The slots, through every function

    Generated by tools/gen_rel.py. *)

From Verif Require Export LinkProofs.

""", [
    '(** ** What the slots hold *)\n\n' +
    gen('lk_rel', 'links snds rcvs error',
        'upd_rcv upd_snd remove_link ses_set_error notify_lock_snd snd_remote_detached attach_remote_sender '
        'attach_local_receiver confirm_receiver on_attach detach_receiver rcv_close handle_detach',
        'drop_established_rcv rcv_remote_detached rcv_detached drop_link drop_links fail_link fail_links '
        'put_link attach_remote_receiver handle_attach'),
    '\n(** ** Links that no slot holds *)\n\n' +
    gen('uh_rel', 'links rcvs', 'upd_rcv drop_link remove_link rcv_remote_detached attach_remote_receiver '
        'attach_local_receiver confirm_receiver handle_attach', 'put_link'),
    '\n(** ** The number of slots *)\n\n' +
    gen('len_rel', 'links', 'put_link remove_link',
        'attach_local_sender attach_remote_receiver attach_local_receiver on_attach'),
])

write('HoldRel', """(** * The places of channels, through every function

    Generated by tools/gen_rel.py. *)

From Verif Require Export Hold.

""", [
    gen('hold_rel', 'links chans snds pending snd rcv closed',
        'fire drop_tx fire_opt drop_opt fire_all upd_snd notify_lock_snd snd_remote_detached drop_established_snd apply_flow '
        'drop_link put_link remove_link set_unsettled put_unsettled del_unsettled settle_one fail_all fail_unsettled '
        'poll_wait drain_pending ses_end fail_link fail_links drop_links handle_flow ses_set_error handle_attach', ''),
])

write('OneRel', """(** * No channel gets to a new place, through every function

    Generated by tools/gen_rel.py. *)

From Verif Require Export One.

""", [
    gen('shr_rel', 'links chans snds pending snd rcv closed',
        'fire drop_tx fire_opt drop_opt fire_all upd_snd put_link set_unsettled put_unsettled del_unsettled settle_one '
        'fail_all fail_unsettled drain_pending',
        'attach_local_sender attach_local_receiver detach_sender detach_receiver snd_close rcv_close ses_detach_receiver '
        'ses_detach_sender session_loop link_loop poll_send poll_wait ses_end rcv_transfer ses_handle_frame control_err'),
])

write('KeysRel', """(** * The keys of the maps of unsettled deliveries, through every function

    Generated by tools/gen_rel.py. *)

From Verif Require Export Keys.

""", [
    gen('keys_rel', 'snd rcv', 'set_unsettled put_unsettled del_unsettled settle_one fail_unsettled', ''),
])

write('EntRel', """(** * The entries of unsettled deliveries, through every function

    Generated by tools/gen_rel.py. *)

From Verif Require Export Ent.

""", [
    gen('ent_rel', 'snd rcv', 'set_unsettled put_unsettled del_unsettled fail_unsettled poll_wait',
        'settle_one settle_all settle_deliveries ses_handle_frame'),
])

write('DispRel', """(** * What is said about deliveries, through every function

    Generated by tools/gen_rel.py. *)

From Verif Require Export Disp.

""", [
    gen('dsp_rel', 'dlvs out', 'upd_dlv post post_all dlv_update dlv_settle dlv_drop', ''),
])

write('TrkRel', """(** * The entries of the deliveries that are held, through every function

    Generated by tools/gen_rel.py. *)

From Verif Require Export Trk.

""", [
    gen('trk_rel', 'dlvs snd rcv error', 'upd_dlv set_unsettled put_unsettled del_unsettled new_rcv transmit dlv_drop fail_unsettled settle_one poll_wait ses_set_error', ''),
])

write('ClaimRel', """(** * The slots of links and of futures, through every function

    Generated by tools/gen_rel.py. *)

From Verif Require Export Claim.

""", [
    gen('clm_rel', 'links rhandles snds rcvs chans',
        'fire drop_tx fire_opt drop_opt fire_all upd_snd upd_rcv notify_lock_snd drop_established_snd drop_established_rcv drop_link remove_link '
        'attach_local_sender attach_local_receiver confirm_receiver snd_close rcv_close ses_detach_sender ses_detach_receiver',
        'put_link detach_sender detach_receiver attach_remote_sender attach_remote_receiver handle_attach handle_detach on_attach control_ok ses_handle_frame'),
    gen('kas_rel', 'ctl', 'control', 'dispatch on_attach'),
])

write('EchoRel', """(** * No flow frame of this side asks for an answer, through every function

    Generated by tools/gen_rel.py. *)

From Verif Require Export Echo.

""", [
    gen('echo_rel', 'out', 'post post_all transmit', ''),
])

write('WireRel', """(** * What only the connection does to a session, through every function

    Generated by tools/gen_rel.py. *)

From Verif Require Export Wire.

""", [
    gen('wire_rel', 'out', 'post post_all transmit', 'ses_end'),
])

write('ReadyRel', """(** * The waiters of a sender link, through every function

    Generated by tools/gen_rel.py. *)

From Verif Require Export Ready.

""", [
    '(** ** Waiters for credit *)\n\n' + gen('crd_rel', 'snds', 'upd_snd apply_flow', ''),
    '\n(** ** Closed links *)\n\n' +
    gen('stl_rel', 'snds', 'upd_snd drop_established_snd snd_remote_detached', 'notify_lock_snd snd_close control_err'),
    '''#[export] Instance stl_rel_snd_close a e s : stable stl_rel s (snd_close a e s).
Proof.
  unfold snd_close. destruct (nth_error (s_snds s) a) as [l|]; [|apply stable_refl; exact _].
  destruct (sn_closed l); [apply stable_refl; exact _|]. cbv beta iota zeta delta [new_chan].
  eapply stable_trans; [exact _|apply (stl_lock a (set_sn_closed true) s); reflexivity|]. st_chain.
Qed.
#[export] Instance stl_rel_control_err e k s : stable_er stl_rel (fun x => x) s (control_err e k s).
Proof. intros x H. change (stable stl_rel s x). unfold control_err in H. st_er H. Qed.
''',
])

write('OwnedRel', """(** * A sender link that leaves its slot is closed: through every function

    Generated by tools/gen_rel.py. *)

From Verif Require Export Owned.

""", [
    gen('own_rel', 'links snds',
        'upd_snd notify_lock_snd snd_remote_detached drop_established_snd drop_link put_link remove_link fail_link fail_links '
        'drop_links ses_set_error handle_attach', ''),
])

write('OwnedRcvRel', """(** * A receiver link that leaves its slot is closed, through every function

    Generated by tools/gen_rel.py. *)

From Verif Require Export OwnedRcv.

""", [
    gen('rown_rel', 'links rcvs',
        'upd_rcv rcv_remote_detached drop_established_snd drop_established_rcv drop_link put_link remove_link fail_link fail_links '
        'drop_links ses_set_error handle_attach', ''),
    gen('rch_rel', 'rcvs', 'upd_rcv', ''),
])

write('ReserveRel', """(** * The reserved handles, through every function

    Generated by tools/gen_rel.py. *)

From Verif Require Export Reserve.

""", [
    gen('rsv_rel', 'links', 'detach_sender confirm_receiver detach_receiver handle_attach',
        'put_link remove_link ses_set_error attach_remote_sender detach_unconfirmed handle_detach ses_handle_frame control_ok control_err'),
    re.sub(r'Instance \(kp_rel i0\)_(\w+)', r'Instance kp_rel_\1 i0', gen('(kp_rel i0)', 'ctl', 'control', '')),
    '\n' + gen('nsn_rel', 'snds', 'upd_snd', 'handle_attach on_attach'),
    '\n' + gen('op_rel', 'links chans', 'fire drop_tx fire_all fire_opt drop_opt notify_lock_snd drop_established_snd drop_established_rcv drop_link upd_snd put_link remove_link attach_local_sender attach_local_receiver', ''),
])

write('FlowStateRel', """(** * What flow frames tell about the session, through every function

    Generated by tools/gen_rel.py. *)

From Verif Require Export FlowState.

""", [
    gen('fst_rel', 'out nout nin iwin', 'post rcv_link_flow',
        'post_all transmit session_loop link_loop poll_send handle_flow ses_handle_frame control_ok'),
])

write('LimitRel', """(** * The size limit of a sender link, through every function

    Generated by tools/gen_rel.py. *)

From Verif Require Export Limit.

""", [
    gen('mx_rel', 'snds', 'upd_snd', ''),
])

write('GaveRel', """(** * Where the dispositions of a session come from, through every function

    Generated by tools/gen_rel.py. *)

From Verif Require Export Gave.

""", [
    gen('gv_rel', 'dlvs out', 'upd_dlv post post_all dlv_update dlv_settle dlv_drop', ''),
])

write('HereRel', """(** * Deliveries that this side has settled stay settled, through every function

    Generated by tools/gen_rel.py. *)

From Verif Require Export Here.

""", [
    gen('hr_rel', 'dlvs', 'upd_dlv', ''),
])

write('TurnRel', """(** * Attach and detach frames in turn, through every function

    Generated by tools/gen_rel.py. *)

From Verif Require Export Turn.

""", [
    gen('tn_rel', 'links out rcvs error', 'post post_all upd_rcv transmit ses_set_error detach_sender detach_receiver handle_attach',
        'put_link remove_link attach_local_sender attach_remote_sender attach_remote_receiver attach_local_receiver '
        'detach_unconfirmed confirm_receiver handle_detach ses_handle_frame control_ok control_err on_attach'),
    '\n' + gen('ra_rel', 'ctl', 'control', 'dispatch on_attach control_ok'),
])

def by_hand(text, proofs):
    """Give the instances named in proofs the proofs written by hand."""
    for name, proof in proofs.items():
        i = text.index(f'_{name} n0 ')
        j = text.index('Proof.', i)
        text = text[:j] + 'Proof.\n' + proof + 'Qed.' + text[text.index('Qed.', j) + 4:]
    return text

write('ManyRel', """(** * Handles below the number of links, through every function

    Generated by tools/gen_rel.py. *)

From Verif Require Export Many.

""", [
    by_hand(re.sub(r'Instance \(mk_rel n0\)_(\w+)', r'Instance mk_rel_\1 n0', gen('(mk_rel n0)', 'links snds rcvs out',
        'post post_all upd_snd upd_rcv transmit',
        'attach_local_sender attach_local_receiver attach_remote_receiver confirm_receiver control_ok on_attach')), {
    'detach_receiver': """  intros x H. change (stable (mk_rel n0) s x). unfold detach_receiver in H.
  destruct (slab_get (s_links s) id) as [lk|] eqn:E; [destruct lk as [| | | |inner| | |]|]; try discriminate H; try solve [st_er H].
  apply EOk_inj in H. subst x.
  assert (Q : stable (mk_rel n0) s (match inner with
               | Some (a, source) =>
                   match nth_error (s_rcvs s) a with
                   | Some l =>
                       post (FAttach (mk_attach (rc_name l) id RoleReceiver SenderMixed
                                        ReceiverFirst source None None false (Some 0) None None
                                        None None)) s
                   | None => s end
               | None => s end)).
  { destruct inner as [[a src]|]; [|st_solve]. destruct (nth_error (s_rcvs s) a) as [l|]; [|st_solve].
    apply mk_post_attach. intros M. cbn [attach_handle]. exact (MK_slot _ _ _ _ M E). }
  eapply stable_trans; [exact _ | exact Q | st_solve].
""",
    'detach_unconfirmed': """  unfold detach_unconfirmed. destruct (nth_error (s_snds s) a) as [l|] eqn:E; [|st_solve]. cbv zeta.
  match goal with |- context [post (FAttach ?x) s] => assert (Q : stable (mk_rel n0) s (post (FAttach x) s)) end.
  { apply mk_post_attach. intros M. cbn [attach_handle]. eapply N.le_lt_trans; [apply u32_le | exact (proj1 (proj2 (proj2 M)) _ _ E)]. }
  eapply stable_trans; [exact _ | exact Q | st_solve].
""",
    'attach_remote_sender': """  intros x H. change (stable (mk_rel n0) s x). unfold attach_remote_sender in H.
  destruct (nth_error (s_snds s) a) as [l|] eqn:E; [|st_er H]. cbv zeta in H.
  intros M. assert (L : sn_id l < n0) by exact (proj1 (proj2 (proj2 M)) _ _ E). revert M. change (stable (mk_rel n0) s x).
  match type of H with context [slab_get (s_links ?y) _] => assert (Q : stable (mk_rel n0) s y) by st_solve; set (z := y) in * end.
  destruct (slab_get (s_links z) (sn_id l)); [|discriminate H]. apply EOk_inj in H. subst x.
  eapply stable_trans; [exact _ | exact Q|]. eapply stable_trans; [exact _ | | apply mk_post_attach; intros _; cbn [set_max_size set_handle attach_handle];
    eapply N.le_lt_trans; [apply u32_le | exact L]]. st_solve.
""",
    'handle_attach': """  intros x H. change (stable (mk_rel n0) s x). unfold handle_attach in H.
  destruct (name_get (attach_name frm) (s_names s)) as [i|]; [|discriminate]. apply Some_inj in H. subst x.
  destruct (slab_get (s_links s) i) as [lk|] eqn:E; [|st_solve]. destruct lk as [| |tx| | |[[a tx]|]| |]; try st_solve.
  cbv zeta. intros M. assert (L := MK_slot _ _ _ _ M E). revert M.
  change (stable (mk_rel n0) s (let y := set_s_rhandles (map_put (attach_handle frm) i (s_rhandles s)) s in
    let z := set_s_snds (s_snds y ++ [snd_new i (attach_name frm) (attach_handle frm) (or_default 0 (attach_initial_delivery_count frm))
      (option_map clamp_u32 (attach_max_message_size frm))]) y in
    let u := set_s_links (slab_set i (SEstablished (length (s_snds s))) (s_links z)) z in fire_opt tx (VSender (length (s_snds s))) u)). cbv zeta.
  match goal with |- stable _ _ (fire_opt _ _ ?u) => match u with set_s_links _ ?z => match z with set_s_snds _ ?y =>
    assert (Q1 : stable (mk_rel n0) s y) by st_solve; assert (Q2 : stable (mk_rel n0) y z) by (apply mk_add_snd; exact L);
    assert (Q3 : stable (mk_rel n0) z u) by apply mk_set; assert (Q4 : stable (mk_rel n0) u (fire_opt tx (VSender (length (s_snds s))) u)) by st_solve end end end.
  exact (fun M => Q4 (Q3 (Q2 (Q1 M)))).
"""}),
])

write('OrderRel', """(** * The queue of a sender link, through every function

    Generated by tools/gen_rel.py. *)

From Verif Require Export Order.

""", [gen('pnd_rel', 'snds', 'upd_snd', 'link_loop poll_send')])

write('WindowRel', """(** * The queue of the session, through every function

    Generated by tools/gen_rel.py. *)

From Verif Require Export Window.

""", [gen('win_rel', 'pending iwin', 'drain_pending handle_flow', 'session_loop link_loop poll_send')])

write('ToldRel', """(** * No function but the dispatcher tells the service of a transfer

    Generated by tools/gen_rel.py. *)

From Verif Require Export Told.

""", [
    gen('ktr_rel', 'ctl', 'control', 'dispatch on_attach'),
])
