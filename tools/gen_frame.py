#!/usr/bin/env python3
"""Generate theories/SessionFrame.v: for every function of Session.v and every
field of the session it leaves alone, the lemma saying so.  The table below is
the footprint of each function; the lemmas are proved by Coq."""
FIELDS = '''s_id s_local s_ended s_ending s_rchan s_mfs s_nout s_nin s_owin s_iwin
s_links s_names s_rhandles s_error s_closed s_pending s_snd s_rcv s_chans s_snds
s_rcvs s_dlvs s_tasks s_waits s_ctl s_out'''.split()

LK = 'links chans snds rcvs'          # overwriting a slot
UN = 'chans snd rcv'                  # the maps of unsettled deliveries
# name, binders, kind, footprint
# kind: s  = the function gives a session
#       i  = the same, by induction on the list argument named l
#       e  = er ses ; ep = er (ses * action) ; ea = er (ses * (action + perr))
#       o  = option ses ; p1 = fst gives the session; p2 = snd gives it
T = [
 ('post', 'f', 's', 'out'),
 ('post_all', 'l', 'i', 'out'),
 ('upd_snd', 'a f', 's', 'snds'),
 ('upd_rcv', 'a f', 's', 'rcvs'),
 ('upd_dlv', 'a f', 's', 'dlvs'),
 ('upd_task', 'a f', 's', 'tasks'),
 ('upd_wait', 'a f', 's', 'waits'),
 ('fire', 'c v', 's', 'chans'),
 ('drop_tx', 'c', 's', 'chans'),
 ('fire_opt', 'c v', 's', 'chans'),
 ('drop_opt', 'c', 's', 'chans'),
 ('fire_all', 'l v', 'i', 'chans'),
 ('control', 'k', 's', 'ctl'),
 ('notify_lock_snd', 'a', 's', 'chans snds'),
 ('snd_remote_detached', 'a e', 's', 'chans snds'),
 ('drop_established_snd', 'a', 's', 'chans snds'),
 ('apply_flow', 'f a', 's', 'chans snds'),
 ('rcv_remote_detached', 'a e', 's', 'rcvs'),
 ('drop_established_rcv', 'a', 's', 'rcvs'),
 ('drop_link', 'l', 's', 'chans snds rcvs'),
 ('put_link', 'k l', 's', LK),
 ('remove_link', 'k', 's', LK),
 ('set_unsettled', 'b m', 's', 'snd rcv'),
 ('put_unsettled', 'b id d', 's', UN),
 ('del_unsettled', 'b id', 's', UN),
 ('new_rcv', 'id h tag settled', 'p2', 'chans snd rcv dlvs'),
 ('dlv_settle', 'i st', 's', 'dlvs out'),
 ('dlv_update', 'i st', 's', 'out'),
 ('dlv_drop', 'i', 's', UN + ' dlvs out'),
 ('drop_dlvs', 'l', 'i', UN + ' dlvs out'),
 ('poll_wait', 'w', 's', UN + ' waits dlvs'),
 ('fail_all', 'l', 'i', 'chans'),
 ('fail_link', 'e', 'fl', 'chans snds rcvs'),
 ('fail_links', 'e l', 'i', 'chans snds rcvs'),
 ('drop_links', 'l', 'i', 'chans snds rcvs'),
 ('ses_set_error', 'e', 's', 'pending snd rcv names ended error closed ' + LK),
 ('attach_local_sender', 'frm', 'p2', 'chans links names out'),
 ('attach_remote_sender', 'frm r a', 'e', 'names rhandles out ' + LK),
 ('detach_sender', 'id c e tx', 's', 'out ctl ' + LK),
 ('detach_unconfirmed', 'frm a e', 's', 'out ' + LK),
 ('attach_remote_receiver', 'frm', 'p2', 'rcvs links rhandles'),
 ('attach_local_receiver', 'frm', 'p2', 'chans rcvs links names out'),
 ('confirm_receiver', 'a r', 's', 'out ' + LK),
 ('detach_receiver', 'id c e tx', 'e', 'out ctl ' + LK),
 ('snd_close', 'a e', 's', 'out ctl ' + LK),
 ('rcv_close', 'a e', 'e', 'out ctl ' + LK),
 ('ses_detach_receiver', 'h e', 'e', 'out ctl ' + LK),
 ('ses_detach_sender', 'h e', 's', 'out ctl ' + LK),
 ('handle_flow', 'f o', 's', 'nin owin iwin pending chans out snds'),
 ('rcv_link_flow', 'h dc c', 's', 'out'),
 ('set_link_credit', 'p a c', 'e', 'rcvs out'),
 ('transmit', 't tk l tag', 's', 'iwin nout snd rcv chans out dlvs tasks'),
 ('session_loop', 't tk l tag', 's', 'pending iwin nout snd rcv chans out dlvs tasks'),
 ('link_loop', 't tk l tag', 's', 'snds pending iwin nout snd rcv chans out dlvs tasks'),
 ('poll_send', 't', 's', 'snds pending iwin nout snd rcv chans out dlvs tasks'),
 ('settle_one', 'disp b', 'fl', UN),
 ('settle_all', 'disp b l', 'i', UN),
 ('settle_deliveries', 'disp', 's', UN),
 ('rcv_transfer', 'p tr a', 'ep', UN + ' dlvs out ctl ' + LK),
 ('fail_unsettled', 'b h e', 's', UN),
 ('drain_pending', 'h e', 's', 'pending chans'),
 ('answer', 'tx e', 's', 'chans'),
 ('rcv_detached', 'a', 's', UN + ' rcvs dlvs out'),
 ('handle_detach', 'd', 'p1', UN + ' names rhandles pending dlvs out ' + LK),
 ('dispatch', 'act', 's', 'ctl'),
 ('ses_handle_frame', 'p f', 'ea',
   UN + ' names rhandles pending dlvs out ctl nin owin iwin ' + LK),
 ('handle_attach', 'frm', 'o', 'rhandles snds links chans'),
 ('on_attach', 'frm', 's', 'rhandles snds links chans rcvs ctl'),
 ('ses_end', '', 's', 'ending out chans closed'),
 ('control_ok', 'p edit k', 'e',
   'names rhandles out ctl nin owin iwin pending ' + LK),
 ('control_err', 'e k', 'e', 'out ctl ' + LK),
]


def tag(f): return 'F' + f[2:]
o = []
o.append("""(** * Which fields a function leaves alone

    Generated by tools/gen_frame.py.  [framed s s' M]: the session [s'] differs
    from [s] only in the fields [M]. *)

From Verif Require Export SessionStep.
""")
o.append('Inductive fld : Type :=\n| ' + ' | '.join(tag(f) for f in FIELDS) + '.')
o.append('Scheme Equality for fld.')
o.append('Definition same (f : fld) (s s\' : ses) : Prop :=\n  match f with')
for f in FIELDS:
    o.append(f"  | {tag(f)} => {f} s' = {f} s")
o.append('  end.')
o.append(r"""
Definition memf (f : fld) (M : list fld) : bool := existsb (fld_beq f) M.
Class framed (s s' : ses) (M : list fld) : Prop :=
  get_framed : forall f, memf f M = false -> same f s s'.

Lemma EOk_inj : forall A (a b : A), EOk a = EOk b -> a = b.
Proof. intros A a b H. congruence. Qed.
Lemma Some_inj : forall A (a b : A), Some a = Some b -> a = b.
Proof. intros A a b H. congruence. Qed.
Lemma same_refl : forall f s, same f s s.
Proof. intros []; reflexivity. Qed.
Lemma same_trans : forall f s s1 s2, same f s s1 -> same f s1 s2 -> same f s s2.
Proof. intros []; cbn [same]; congruence. Qed.
Lemma fr_refl : forall M s, framed s s M.
Proof. intros M s f _. apply same_refl. Qed.
Lemma fr_trans : forall M s s1 s2, framed s s1 M -> framed s1 s2 M -> framed s s2 M.
Proof. intros M s s1 s2 H1 H2 f Hf. eapply same_trans; [apply H1 | apply H2]; exact Hf. Qed.
Lemma fr_weaken : forall m M s s',
  forallb (fun f => memf f M) m = true -> framed s s' m -> framed s s' M.
Proof.
  intros m M s s' Hm H f Hf. apply H. unfold memf in *. apply Bool.not_true_iff_false. intros E.
  apply existsb_exists in E as [g [Hg Eg]]. apply internal_fld_dec_bl in Eg. subst g.
  rewrite forallb_forall in Hm. rewrite (Hm _ Hg) in Hf. discriminate.
Qed.
""")
for f in FIELDS:
    o.append(f"Lemma get_{f[2:]} : forall s s' M {{H : framed s s' M}}, memf {tag(f)} M = false -> {f} s' = {f} s.\n"
             f"Proof. intros s s' M H. exact (H {tag(f)}). Qed.")
for f in FIELDS:
    o.append(f"#[export] Instance fr_set_{f[2:]} v s : framed s (set_{f} v s) [{tag(f)}].\n"
             f"Proof. intros []; cbn; try discriminate; reflexivity. Qed.")
o.append(r"""
(** [frw]: replace [s_X (f s)] by [s_X s] wherever [f] leaves [X] alone. *)
Ltac frw_step P L :=
  match goal with
  | |- context [P ?t] =>
      tryif is_var t then fail else
      (let H := fresh in
       eassert (H : framed _ t _) by typeclasses eauto;
       rewrite (L _ t _ H eq_refl); clear H)
  end.
Ltac frw_step_in H P L :=
  match type of H with
  | context [P ?t] =>
      tryif is_var t then fail else
      (let K := fresh in
       eassert (K : framed _ t _) by typeclasses eauto;
       rewrite (L _ t _ K eq_refl) in H; clear K)
  end.
""")
o.append('Ltac frw1 := first\n  [ ' + '\n  | '.join(f'frw_step {f} @get_{f[2:]}' for f in FIELDS) + ' ].')
o.append('Ltac frw1_in H := first\n  [ ' + '\n  | '.join(f'frw_step_in H {f} @get_{f[2:]}' for f in FIELDS) + ' ].')
o.append(r"""Ltac frw := repeat frw1.
Ltac frw_in H := repeat frw1_in H.

(** Splitting on every test of the goal. *)
Ltac fr_break :=
  match goal with
  | |- context [match ?x with _ => _ end] =>
      lazymatch x with context [match _ with _ => _ end] => fail | _ => destruct x eqn:? end
  end.
Ltac fr_small :=
  cbv beta iota zeta delta [new_chan insert_link cond_wait]; cbn [fst snd].
(** [framed s t M] where [t] is a composition. *)
Ltac fr_chain :=
  lazymatch goal with
  | |- framed ?s ?s _ => apply fr_refl
  | |- framed ?s ?t ?M =>
      first
      [ match goal with
        | H : framed s t ?m |- _ => exact (fr_weaken m M s t eq_refl H)
        | H : framed ?u t ?m |- _ =>
            apply (fr_trans M s u t); [ fr_chain | exact (fr_weaken m M u t eq_refl H) ]
        end
      | let x := lazymatch t with
                 | snd (?g ?x) => x
                 | fst (?g ?x) => x
                 | fail_link _ ?x _ => x
                 | settle_one _ _ ?x _ => x
                 | ?g ?x => x
                 end in
        lazymatch type of x with ses => idtac end;
        apply (fr_trans M s x t);
        [ fr_chain | eapply fr_weaken; [|typeclasses eauto]; reflexivity ]
      | eapply fr_weaken; [|typeclasses eauto]; reflexivity ]
  end.
Ltac fr_pair :=
  match goal with
  | E : _ = (_, ?s0) |- _ =>
      lazymatch type of s0 with ses => is_var s0; apply (f_equal snd) in E; cbn [snd] in E; subst s0 end
  | E : _ = (?s0, _) |- _ =>
      lazymatch type of s0 with ses => is_var s0; apply (f_equal fst) in E; cbn [fst] in E; subst s0 end
  end.
Ltac fr_know H := fail.
Ltac fr_knows :=
  repeat match goal with
         | E : _ = EOk _ |- _ => progress fr_know E
         | E : _ = Some _ |- _ => progress fr_know E
         end.
Ltac fr_solve :=
  fr_small; repeat (fr_break; fr_small); try discriminate; fr_knows; repeat fr_pair; fr_chain.
(** The same with the result in a hypothesis [m = EOk s']. *)
Ltac fr_break_in H :=
  match type of H with
  | context [match ?x with _ => _ end] =>
      lazymatch x with context [match _ with _ => _ end] => fail | _ => destruct x eqn:? end
  end.
""")
def lst(fp):
    fs = [f for f in FIELDS if f[2:] in fp.split()]
    return '[' + '; '.join(tag(f) for f in fs) + ']'
ER = []
for name, args, kind, fp in T:
    touched = {'s_' + x for x in fp.split()}
    assert touched <= set(FIELDS), (name, touched - set(FIELDS))
    a = args.split()
    call = ' '.join([name] + a)
    qa = ' '.join(a)
    if kind == 's':
        o.append(f'#[export] Instance fr_{name} {qa} s : framed s ({call} s) {lst(fp)}.\n'
                 f'Proof. unfold {name}. fr_solve. Qed.')
    elif kind == 'i':
        o.append(f'#[export] Instance fr_{name} {qa} s : framed s ({call} s) {lst(fp)}.\n'
                 f'Proof.\n  unfold {name}. revert s. induction l as [|x l IH]; intros s; '
                 f'cbn [fold_left]; [apply fr_refl|].\n  eapply fr_trans; [|apply IH]. fr_solve.\nQed.')
    elif kind == 'fl':
        o.append(f'#[export] Instance fr_{name} {qa} s x : framed s ({call} s x) {lst(fp)}.\n'
                 f'Proof. unfold {name}. fr_solve. Qed.')
    elif kind in ('p1', 'p2'):
        pr = {'p1': 'fst', 'p2': 'snd'}[kind]
        o.append(f'#[export] Instance fr_{name} {qa} s : framed s ({pr} ({call} s)) {lst(fp)}.\n'
                 f'Proof. unfold {name}. fr_solve. Qed.')
    elif kind in ('e', 'ep', 'ea', 'o'):
        pat = {'e': "EOk s'", 'ep': "EOk (s', r)", 'ea': "EOk (s', r)", 'o': "Some s'"}[kind]
        extra = ' r' if kind in ('ep', 'ea') else ''
        o.append(f"Lemma fr_{name} : forall {qa} s s'{extra}, {call} s = {pat} -> framed s s' {lst(fp)}.\n"
                 f"Proof. intros * H. unfold {name} in H. fr_er H. Qed.")
        ER.append(name)
        ms = '\n  | '.join(f'match type of H with {n} {" ".join("_" for _ in range(1 + len([x for x in T if x[0] == n][0][1].split())))} = _ => apply fr_{n} in H end' for n in ER)
        o.append(f"Ltac fr_know H ::= first\n  [ {ms} ]." if len(ER) > 1 else f"Ltac fr_know H ::= first [ {ms} ].")
    if name == 'drop_links':
        o.append(r"""
Ltac fr_er H :=
  cbv beta iota zeta delta [new_chan insert_link cond_wait ebind emap] in H; cbn [fst snd] in H;
  repeat (fr_break_in H; cbn [fst snd] in H; try discriminate H);
  fr_knows;
  repeat fr_pair;
  try discriminate H; try solve [fr_chain];
  first [apply EOk_inj in H | apply Some_inj in H];
  try (apply (f_equal fst) in H; cbn [fst] in H); subst; fr_chain.
""")

# Steps: fields an event may touch.
o.append("""
(** ** What a function posts

    [posted s s' K]: between [s] and [s'] the frames posted are of the kinds [K]. *)
Inductive fkind : Type :=
| KindOpen | KindBegin | KindAttach | KindFlow | KindEcho | KindTransfer | KindDisposition
| KindDetach | KindEnd | KindClose | KindEmpty.
Scheme Equality for fkind.
Definition kind_of (f : frame) : fkind :=
  match f with
  | FOpen _ => KindOpen | FBegin _ => KindBegin | FAttach _ => KindAttach
  | FFlow f => if flow_echo f then KindEcho else KindFlow
  | FTransfer _ => KindTransfer | FDisposition _ => KindDisposition | FDetach _ => KindDetach
  | FEnd _ => KindEnd | FClose _ => KindClose | FEmpty => KindEmpty
  end.
Definition memk (k : fkind) (K : list fkind) : bool := existsb (fkind_beq k) K.
Class posted (s s' : ses) (K : list fkind) : Prop :=
  get_posted : exists fs, s_out s' = s_out s ++ fs /\\ Forall (fun f => memk (kind_of f) K = true) fs.

Lemma po_refl : forall K s, posted s s K.
Proof. intros K s. exists []. rewrite app_nil_r. auto. Qed.
Lemma po_framed : forall M K s s', framed s s' M -> memf Fout M = false -> posted s s' K.
Proof.
  intros M K s s' H Hm. exists []. rewrite app_nil_r. split; [exact (H Fout Hm) | constructor].
Qed.
Lemma po_trans : forall K s s1 s2, posted s s1 K -> posted s1 s2 K -> posted s s2 K.
Proof.
  intros K s s1 s2 [f1 [E1 H1]] [f2 [E2 H2]]. exists (f1 ++ f2). rewrite E2, E1, app_assoc.
  split; [reflexivity | apply Forall_app; auto].
Qed.
Lemma memk_in : forall k K, memk k K = true <-> In k K.
Proof.
  intros k K. unfold memk. rewrite existsb_exists. split.
  - intros [x [Hx E]]. apply internal_fkind_dec_bl in E. subst. exact Hx.
  - intros H. exists k. split; [exact H | apply internal_fkind_dec_lb; reflexivity].
Qed.
Lemma po_weaken : forall k K s s',
  forallb (fun x => memk x K) k = true -> posted s s' k -> posted s s' K.
Proof.
  intros k K s s' Hk [fs [E H]]. exists fs. split; [exact E|].
  eapply Forall_impl; [|exact H]. cbn beta. intros f Hf. rewrite forallb_forall in Hk.
  apply Hk. apply memk_in. exact Hf.
Qed.
#[export] Instance po_post f s : posted s (post f s) [kind_of f].
Proof.
  exists [f]. split; [reflexivity | constructor; [|constructor]].
  apply memk_in. left. reflexivity.
Qed.
Lemma po_post_all : forall K l s,
  Forall (fun f => memk (kind_of f) K = true) l -> posted s (post_all l s) K.
Proof.
  intros K l s H. exists l. split; [|exact H].
  unfold post_all. revert s. clear H. induction l as [|f l IH]; intros s; cbn [fold_left].
  - rewrite app_nil_r. reflexivity.
  - rewrite IH. unfold post. st_cbn. rewrite <- app_assoc. reflexivity.
Qed.

Lemma more_frames_kind : forall fuel max h fmt b,
  Forall (fun f => memk (kind_of f) [KindTransfer] = true) (more_frames fuel max h fmt b).
Proof.
  induction fuel as [|fuel IH]; intros max h fmt b; cbn [more_frames]; [constructor|].
  destruct b; [constructor|]. constructor; [reflexivity | apply IH].
Qed.
Lemma transfer_frames_kind : forall mfs h id tag body st fmt,
  Forall (fun f => memk (kind_of f) [KindTransfer] = true) (transfer_frames mfs h id tag body st fmt).
Proof.
  intros. unfold transfer_frames. fr_break.
  - constructor; [reflexivity | apply more_frames_kind].
  - constructor; [reflexivity | constructor].
Qed.
#[export] Instance po_transfers mfs h id tag body st fmt s :
  posted s (post_all (transfer_frames mfs h id tag body st fmt) s) [KindTransfer].
Proof. apply po_post_all, transfer_frames_kind. Qed.

Ltac po_one :=
  first [ eapply po_framed; [typeclasses eauto | reflexivity]
        | eapply po_weaken; [|typeclasses eauto]; reflexivity ].
Ltac po_chain :=
  lazymatch goal with
  | |- posted ?s ?s _ => apply po_refl
  | |- posted ?s ?t ?K =>
      first
      [ match goal with
        | H : posted s t ?k |- _ => exact (po_weaken k K s t eq_refl H)
        | H : framed s t ?m |- _ => exact (po_framed m K s t H eq_refl)
        | H : posted ?u t ?k |- _ =>
            apply (po_trans K s u t); [ po_chain | exact (po_weaken k K u t eq_refl H) ]
        | H : framed ?u t ?m |- _ =>
            apply (po_trans K s u t); [ po_chain | exact (po_framed m K u t H eq_refl) ]
        end
      | let x := lazymatch t with
                 | snd (?g ?x) => x
                 | fst (?g ?x) => x
                 | fail_link _ ?x _ => x
                 | settle_one _ _ ?x _ => x
                 | ?g ?x => x
                 end in
        lazymatch type of x with ses => idtac end;
        apply (po_trans K s x t); [ po_chain | po_one ]
      | po_one ]
  end.
Ltac po_know H := fail.
Ltac po_knows :=
  repeat match goal with
         | E : _ = EOk _ |- _ => progress po_know E
         | E : _ = EOk _ |- _ => progress fr_know E
         | E : _ = Some _ |- _ => progress fr_know E
         end.
Ltac po_solve :=
  fr_small; repeat (fr_break; fr_small); try discriminate; po_knows; repeat fr_pair; po_chain.
Ltac po_er H :=
  cbv beta iota zeta delta [new_chan insert_link cond_wait ebind emap] in H; cbn [fst snd] in H;
  repeat (fr_break_in H; cbn [fst snd] in H; try discriminate H);
  po_knows;
  repeat fr_pair;
  try discriminate H; try solve [po_chain];
  first [apply EOk_inj in H | apply Some_inj in H];
  try (apply (f_equal fst) in H; cbn [fst] in H); subst; po_chain.
""")
A, D, I, F, X, E = ('KindAttach', 'KindDetach', 'KindDisposition', 'KindFlow', 'KindTransfer', 'KindEnd')
P = [
 ('dlv_settle', [I]), ('dlv_update', [I]), ('dlv_drop', [I]), ('drop_dlvs', [I]),
 ('attach_local_sender', [A]), ('attach_remote_sender', [A]), ('detach_sender', [D]),
 ('detach_unconfirmed', [A, D]), ('attach_local_receiver', [A]), ('confirm_receiver', [A]),
 ('detach_receiver', [A, D]), ('snd_close', [D]), ('rcv_close', [A, D]),
 ('ses_detach_receiver', [A, D]), ('ses_detach_sender', [D]), ('handle_flow', [F]),
 ('rcv_link_flow', [F]), ('set_link_credit', [F]), ('transmit', [X]), ('session_loop', [X]),
 ('link_loop', [X]), ('poll_send', [X]), ('rcv_transfer', [A, D]), ('rcv_detached', [I]),
 ('handle_detach', [D, I]), ('ses_handle_frame', [A, F, I, D]), ('ses_end', [E]),
 ('control_ok', [A, F]), ('control_err', [A, D]),
]
TT = {x[0]: x for x in T}
ER = []
for name, ks in P:
    _, args, kind, _ = TT[name]
    a = args.split()
    call = ' '.join([name] + a)
    qa = ' '.join(a)
    k = '[' + '; '.join(ks) + ']'
    if kind == 's':
        o.append(f'#[export] Instance po_{name} {qa} s : posted s ({call} s) {k}.\n'
                 f'Proof. unfold {name}. po_solve. Qed.')
    elif kind == 'i':
        o.append(f'#[export] Instance po_{name} {qa} s : posted s ({call} s) {k}.\n'
                 f'Proof.\n  unfold {name}. revert s. induction l as [|x l IH]; intros s; '
                 f'cbn [fold_left]; [apply po_refl|].\n  eapply po_trans; [|apply IH]. po_solve.\nQed.')
    elif kind in ('p1', 'p2'):
        pr = {'p1': 'fst', 'p2': 'snd'}[kind]
        o.append(f'#[export] Instance po_{name} {qa} s : posted s ({pr} ({call} s)) {k}.\n'
                 f'Proof. unfold {name}. po_solve. Qed.')
    else:
        pat = {'e': "EOk s'", 'ep': "EOk (s', r)", 'ea': "EOk (s', r)", 'o': "Some s'"}[kind]
        extra = ' r' if kind in ('ep', 'ea') else ''
        o.append(f"Lemma po_{name} : forall {qa} s s'{extra}, {call} s = {pat} -> posted s s' {k}.\n"
                 f"Proof. intros * H. unfold {name} in H. po_er H. Qed.")
        ER.append(name)
        ms = '\n  | '.join(f'match type of H with {n} {" ".join("_" for _ in range(1 + len(TT[n][1].split())))} = _ => apply po_{n} in H end' for n in ER)
        o.append(f"Ltac po_know H ::= first\n  [ {ms} ].")
open('/verif/rocq/theories/SessionFrame.v', 'w').write('\n'.join(o) + '\n')
