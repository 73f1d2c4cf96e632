(** * Vocabulary of the control queue theorems *)

From Verif Require Import Base Control.

(** The events in the order they occurred. *)
Definition occurred (h : list ctl_event) : list ctl_frame :=
  flat_map (fun e => match e with LocalEvent f | RemoteEvent f => [f] | Polled _ => [] end) h.
(** What can be seen during a history of a new connection. *)
Definition observed (h : list ctl_event) : list note := fst (ctl_run h ctl_init).
(** The frames the control service gets, in order. *)
Definition presented (l : list note) : list ctl_frame :=
  flat_map (fun n => match n with NPresent f => [f] | NHandled _ _ => [] end) l.
(** The frames whose result is acted upon, in order. *)
Definition handled (l : list note) : list ctl_frame :=
  flat_map (fun n => match n with NPresent _ => [] | NHandled f _ => [f] end) l.
(** No event is a protocol error. *)
Definition no_fatal (h : list ctl_event) : Prop := Forall (fun f => cf_fatal f = false) (occurred h).
(** The control service is always ready. *)
Definition always_ready (h : list ctl_event) : Prop :=
  Forall (fun e => match e with Polled ans => forall f, ans f <> ANotReady /\ ans f <> AUnready | _ => True end) h.

(** At each poll either at most one event has occurred since the poll before,
    or no call of the service completes and no remote event follows a local
    one.  [fresh]: the events since the last poll. *)
Fixpoint calm (fresh : list ctl_event) (h : list ctl_event) : Prop :=
  match h with
  | [] => True
  | Polled ans :: h =>
      ((length fresh <= 1)%nat
       \/ ((forall f, ans f = APending)
           /\ exists r l, fresh = map RemoteEvent r ++ map LocalEvent l))
      /\ calm [] h
  | e :: h => calm (fresh ++ [e]) h
  end.
(** The dispatcher ends with an error. *)
Definition fails_with (h : list ctl_event) : Prop := ct_error (snd (ctl_run h ctl_init)) = true.
