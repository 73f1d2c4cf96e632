(** * Specification vocabulary: futures and what completes them *)

From Verif Require Export SpecReceive.

(** ** Sends *)

(** Send future [t], on sender link [a], was polled, had to wait for credit on
    the link, and nothing has woken it since. *)
Definition awaits_credit (t a : nat) (s : ses) : Prop :=
  exists tk tag c, nth_error (s_tasks s) t = Some tk /\ tk_link tk = a
    /\ tk_st tk = TLink tag c /\ nth_error (s_chans s) c = Some CWait.
(** The same, for room in the window of the session. *)
Definition awaits_window (t a : nat) (s : ses) : Prop :=
  exists tk tag c, nth_error (s_tasks s) t = Some tk /\ tk_link tk = a
    /\ tk_st tk = TSess tag c /\ nth_error (s_chans s) c = Some CWait.
(** The send future has completed with this. *)
Definition send_result (t : nat) (s : ses) (r : nat + perr) : Prop :=
  exists tk, nth_error (s_tasks s) t = Some tk /\ tk_st tk = TDone r.
(** When it is polled next, it completes with the error. *)
Definition send_fails (p : profile) (t : nat) (e : perr) (s : ses) : Prop :=
  exists s' os, step p (EvPollSend t) s = EOk (s', os) /\ send_result t s' (inr e).

(** ** Waits for an outcome *)

(** Future [w] of [Delivery::wait] on delivery [d] is suspended. *)
Definition awaits_outcome (w d : nat) (s : ses) : Prop :=
  exists c, nth_error (s_waits s) w = Some (mk_wtask d (WWait c)) /\ nth_error (s_chans s) c = Some CWait.
Definition wait_result (w : nat) (s : ses) (r : option delivery_state + perr) : Prop :=
  exists d, nth_error (s_waits s) w = Some (mk_wtask d (WDone r)).
(** When it is polled next, it completes with this. *)
Definition wait_gives (p : profile) (w : nat) (r : option delivery_state + perr) (s : ses) : Prop :=
  exists s' os, step p (EvPollWait w) s = EOk (s', os) /\ wait_result w s' r.

(** ** The other futures *)

(** Calls that make a future which completes when the peer has answered:
    [attach] of the two builders, [close] of the two links,
    [detach_sender_link], [detach_receiver_link] and [end] of the session. *)
Definition makes_future (e : ev) : bool :=
  match e with
  | EvEnd | EvAttachSender _ | EvAttachReceiver _ | EvDetachSender _ _ | EvDetachReceiver _ _
  | EvCloseSender _ _ | EvCloseReceiver _ _ => true
  | _ => false
  end.
(** The future made by a call in state [s] awaits the next channel. *)
Definition next_future (s : ses) : nat := length (s_chans s).
Definition still_waits (c : nat) (s : ses) : Prop := nth_error (s_chans s) c = Some CWait.

(** Sender link [a] is attached. *)
Definition sender_open (a : nat) (s : ses) : Prop :=
  exists k, slab_get (s_links s) k = Some (SEstablished a).
(** The detach frame names sender link [a]. *)
Definition names_sender (d : detach_t) (a : nat) (s : ses) : Prop :=
  exists i, map_get (detach_handle d) (s_rhandles s) = Some i /\ slab_get (s_links s) i = Some (SEstablished a).
