(** * Waiting until a sender link can send: [SenderLink::ready] in src/sndlink.rs *)

From Verif Require Export SessionStep.

(** What the future of [ready] is doing: it has not been polled; it awaits the
    waiter with this channel; it has returned; it goes round its loop without
    ever returning or waiting. *)
Inductive rdy : Type :=
| RdNew
| RdWait (c : nat)
| RdDone (alive : bool)
| RdSpin.

(** sndlink.rs:85-100, one turn of the loop: [closed] before [link_credit], then
    a new waiter, which is awaited.  A condition that lets its waiter through at
    once changes nothing, so the next turn does the same: [RdSpin]. *)
Definition ready_turn (a : nat) (s : ses) : rdy * ses :=
  match nth_error (s_snds s) a with
  | None => (RdDone false, s)
  | Some l =>
      if sn_closed l then (RdDone false, s)
      else if 0 <? sn_credit l then (RdDone true, s)
      else
        let c := length (s_chans s) in
        let lock := cd_lock (sn_on_credit l) in
        let '(cd, s) := cond_wait (sn_on_credit l) s in
        ((if lock then RdSpin else RdWait c), upd_snd a (set_sn_on_credit cd) s)
  end.

(** sndlink.rs:83-103: the future of [ready] of link [a] is polled.  A link of
    that number always exists: the application holds it. *)
Definition ready_poll (a : nat) (r : rdy) (s : ses) : rdy * ses :=
  match r with
  | RdNew => ready_turn a s
  | RdWait c =>
      match nth_error (s_chans s) c with
      | Some CWait => (RdWait c, s)
      | _ => ready_turn a s
      end
  | RdDone _ | RdSpin => (r, s)
  end.
