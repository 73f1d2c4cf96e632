#!/usr/bin/env python3
"""Shows of the functions of theories/Session.v that they do not look at the
futures of sends and waits: writes theories/Same.v."""
import os, re
here = os.path.dirname(os.path.abspath(__file__))
src = open(os.path.join(here, 'gen_frame.py')).read()
env = {}
exec(re.search(r'(?ms)^(UN|LK)\b.*?^\]\n', src).group(0), env)
T = env['T']
fields = ('id local ended ending rchan mfs nout nin owin iwin links names rhandles error closed pending snd rcv '
          'chans snds rcvs dlvs ctl out').split()
o = ["""(** * What does not depend on the futures

    Generated by tools/gen_same.py.  [with_futures gt gw s] is the session [s] with
    other futures of sends and waits.  Functions that do not touch futures give
    the same result with them. *)

From Verif Require Export SessionFrame.
Import ListNotations.

Definition with_futures (gt : list stask -> list stask) (gw : list wtask -> list wtask) (s : ses) : ses :=
  set_s_tasks (gt (s_tasks s)) (set_s_waits (gw (s_waits s)) s).
"""]
for f in fields:
    o.append(f'Lemma wf_{f} gt gw s : s_{f} (with_futures gt gw s) = s_{f} s.\nProof. reflexivity. Qed.')
    o.append(f'Lemma wf_set_{f} gt gw v s : set_s_{f} v (with_futures gt gw s) = with_futures gt gw (set_s_{f} v s).\nProof. reflexivity. Qed.')
o.append('Lemma wf_tasks gt gw s : s_tasks (with_futures gt gw s) = gt (s_tasks s).\nProof. reflexivity. Qed.')
o.append('Lemma wf_waits gt gw s : s_waits (with_futures gt gw s) = gw (s_waits s).\nProof. reflexivity. Qed.')
o.append('#[export] Hint Rewrite ' + ' '.join(f'wf_{f} wf_set_{f}' for f in fields) + ' wf_tasks wf_waits : wf.')
o.append("""
(** In a pair, an option and a result. *)
Definition on_fst {A} (f : ses -> ses) (x : ses * A) : ses * A := let '(s, a) := x in (f s, a).
Definition on_snd {A} (f : ses -> ses) (x : A * ses) : A * ses := let '(a, s) := x in (a, f s).
Ltac wf_small :=
  cbv beta iota zeta delta [new_chan insert_link cond_wait new_remote_sender unsettled get_all_links];
  cbn [fst snd on_fst on_snd ebind emap option_map].
Ltac wf_break :=
  match goal with
  | |- context [match ?x with _ => _ end] =>
      lazymatch x with context [match _ with _ => _ end] => fail | context [with_futures] => fail | _ => destruct x end
  | |- context [ebind (emap _ ?x) _] => destruct x
  | |- context [emap _ (ebind ?x _)] => destruct x
  | |- context [emap _ ?x] => lazymatch x with context [with_futures] => fail | ebind _ _ => fail | _ => destruct x end
  | |- context [option_map _ ?x] => lazymatch x with context [with_futures] => fail | _ => destruct x end
  end.
Ltac wf_go := wf_small; repeat (autorewrite with wf; wf_small; try reflexivity; wf_break; wf_small); autorewrite with wf; try reflexivity.
""")
skip = 'upd_task upd_wait transmit session_loop link_loop poll_send poll_wait'.split()
for name, args, kind, fp in T:
    if name in skip:
        continue
    a = args.split()
    call = ' '.join([name] + a)
    qa = ' '.join(a)
    if name == 'fail_links' or kind == 'i':
        o.append(f'Lemma wf_{name} {qa} gt gw s : {call} (with_futures gt gw s) = with_futures gt gw ({call} s).\n'
                 f'Proof.\n  unfold {name}. revert s. induction l as [|x l IH]; intros s; cbn [fold_left]; [reflexivity|].\n'
                 f'  rewrite <- IH. f_equal; wf_go.\nQed.')
    elif kind == 'fl':
        o.append(f'Lemma wf_{name} {qa} gt gw s x : {call} (with_futures gt gw s) x = with_futures gt gw ({call} s x).\n'
                 f'Proof. unfold {name}. wf_go. Qed.')
    else:
        lift = {'s': 'with_futures gt gw', 'e': 'emap (with_futures gt gw)', 'o': 'option_map (with_futures gt gw)',
                'p1': 'on_fst (with_futures gt gw)', 'p2': 'on_snd (with_futures gt gw)',
                'ep': 'emap (on_fst (with_futures gt gw))', 'ea': 'emap (on_fst (with_futures gt gw))'}[kind]
        o.append(f'Lemma wf_{name} {qa} gt gw s : {call} (with_futures gt gw s) = {lift} ({call} s).\n'
                 f'Proof. unfold {name}. wf_go. Qed.')
    o.append(f'#[export] Hint Rewrite wf_{name} : wf.')
open(os.path.join(here, '..', 'rocq', 'theories', 'Same.v'), 'w').write('\n'.join(o) + '\n')
