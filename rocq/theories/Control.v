(** * The control queue: control.rs, dispatcher.rs *)

From Verif Require Import Base.

(** control.rs:13, 28-41: a control frame.  [cf_id] tells frames apart,
    [cf_fatal] is set for [ProtocolError], whose completion ends the
    dispatcher (dispatcher.rs:322-325, 357-360). *)
Record ctl_frame := mk_cframe { cf_id : N; cf_fatal : bool }.

(** control.rs:76-80 and dispatcher.rs:25-27: the futures of the control
    service with the frames they were created for, each with whether the
    service has got the frame ([PipelineBinding::call] hands it over when the
    future is first polled with the service ready), and the queued frames. *)
Record ctl := mk_ctl {
  ct_futs : list (ctl_frame * bool);
  ct_pending : list ctl_frame;
  ct_error : bool
}.
Definition ctl_init : ctl := mk_ctl [] [] false.

(** What the control service says when the future of a frame is polled: it is
    not ready for the frame, its readiness check fails, it is at work, or it is
    done. *)
Inductive answer := ANotReady | AUnready | APending | ADone (ok : bool).

(** What can be seen: the service gets a frame; [handle_control_frame] gets the
    service's result for a frame. *)
Inductive note := NPresent (f : ctl_frame) | NHandled (f : ctl_frame) (ok : bool).

(** [Vec::swap_remove] of the first of the futures from [idx] on: the last one
    takes its place. *)
Definition swap_out {A} (tl : list A) : list A :=
  match rev tl with [] => [] | x :: l => x :: rev l end.

(** dispatcher.rs:118-139 [poll]: the loop over the futures; [kept] are those
    before [idx], [rest] those from [idx] on.  Each is polled once, so [ans] is
    a function.  The last component is [ctl_error] (dispatcher.rs:134-138). *)
Fixpoint poll_futs (fuel : nat) (ans : ctl_frame -> answer) (kept rest : list (ctl_frame * bool))
  : list note * list (ctl_frame * bool) * bool :=
  match fuel, rest with
  | S fuel, (f, got) :: tl =>
      match ans f with
      | ANotReady => poll_futs fuel ans (kept ++ [(f, got)]) tl
      | APending =>
          let '(n, futs, err) := poll_futs fuel ans (kept ++ [(f, true)]) tl in
          ((if got then [] else [NPresent f]) ++ n, futs, err)
      | AUnready =>
          if cf_fatal f then ([NHandled f false], kept ++ swap_out tl, true)
          else let '(n, futs, err) := poll_futs fuel ans kept (swap_out tl) in
               (NHandled f false :: n, futs, err)
      | ADone ok =>
          let n0 := (if got then [] else [NPresent f]) ++ [NHandled f ok] in
          if cf_fatal f then (n0, kept ++ swap_out tl, true)
          else let '(n, futs, err) := poll_futs fuel ans kept (swap_out tl) in
               (n0 ++ n, futs, err)
      end
  | _, _ => ([], kept ++ rest, false)
  end.

(** dispatcher.rs:107-139 [poll] without the keep-alive at its end. *)
Definition ctl_poll (ans : ctl_frame -> answer) (c : ctl) : list note * ctl :=
  let futs := ct_futs c ++ map (fun f => (f, false)) (ct_pending c) in
  let '(n, futs, err) := poll_futs (length futs) ans [] futs in
  (n, mk_ctl futs [] (ct_error c || err)).

(** control.rs:83-87 [enqueue_frame] (local detaches and ends, session.rs:113,
    525, 745). *)
Definition ctl_enqueue (f : ctl_frame) (c : ctl) : ctl :=
  mk_ctl (ct_futs c) (ct_pending c ++ [f]) (ct_error c).
(** dispatcher.rs:51-55 [call_control_service] (events caused by the peer's
    frames). *)
Definition ctl_call (f : ctl_frame) (c : ctl) : ctl :=
  mk_ctl (ct_futs c ++ [(f, false)]) (ct_pending c) (ct_error c).

(** What happens to one connection's control events. *)
Inductive ctl_event :=
| LocalEvent (f : ctl_frame)    (* the application detaches a link or ends a session *)
| RemoteEvent (f : ctl_frame)   (* a frame from the peer causes an event *)
| Polled (ans : ctl_frame -> answer).

Definition ctl_step (e : ctl_event) (c : ctl) : list note * ctl :=
  match e with
  | LocalEvent f => ([], ctl_enqueue f c)
  | RemoteEvent f => ([], ctl_call f c)
  | Polled ans => ctl_poll ans c
  end.
Fixpoint ctl_run (h : list ctl_event) (c : ctl) : list note * ctl :=
  match h with
  | [] => ([], c)
  | e :: h => let (n, c) := ctl_step e c in let (m, c) := ctl_run h c in (n ++ m, c)
  end.
