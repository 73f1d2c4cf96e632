(** * Concrete sessions, for the examples and the refutations *)

From Coq Require Import Strings.String.
From Verif Require Export SpecSession.

Definition begin_of (incoming_window : N) : begin_t :=
  mk_begin (Some 0) 1 incoming_window 100 4294967295 None None None.
(** A session this side began, on channel 0 of both sides. *)
Definition start (mfs window : N) : ses := ses_new 0 true 0 mfs (begin_of window).

(** An attach of the peer with this name, handle and role. *)
Definition attach_of (name : bytes) (handle : N) (r : role) (count : option N) : attach_t :=
  mk_attach name handle r SenderMixed ReceiverFirst None None None false count None None None None.
(** A flow of the peer for the link it calls [handle]. *)
Definition flow_link (handle dc credit : N) : flow_t :=
  mk_flow (Some 1) 1000 1 100 (Some handle) (Some dc) (Some credit) None false false None.
(** A flow of the peer about the session only. *)
Definition flow_session (next : option N) (window : N) : flow_t :=
  mk_flow next window 1 100 None None None None false false None.
Definition bytes_of (n : nat) : transfer_body := TBData (repeat x61 n).

Definition result (p : profile) (evs : list ev) (s : ses) : ses :=
  match run p evs s with EOk (s', _) => s' | EPanic _ => s end.
Definition observed (p : profile) (evs : list ev) (s : ses) : list obs :=
  match run p evs s with EOk (_, os) => os | EPanic _ => [] end.
Definition runs (p : profile) (evs : list ev) (s : ses) : bool :=
  match run p evs s with EOk _ => true | EPanic _ => false end.
Lemma runs_ok : forall p evs s, runs p evs s = true ->
  run p evs s = EOk (result p evs s, observed p evs s).
Proof.
  intros p evs s H. unfold runs, result, observed in *.
  destruct (run p evs s) as [[]|]; [reflexivity|discriminate].
Qed.
Lemma runs_reachable : forall p evs mfs w, runs p evs (start mfs w) = true ->
  reachable p (result p evs (start mfs w)).
Proof. intros. do 7 eexists. apply runs_ok. exact H. Qed.

Definition same_frame (a : attach_t) : attach_t := a.
(** The peer attaches as receiver under handle 0 and the control service accepts:
    sender link 0. *)
Definition sender_link : list ev :=
  [EvAttach (attach_of (str "in") 0 RoleReceiver None); EvCtlOk 0 same_frame].
(** A flow for that link, accepted by the control service as event [i]. *)
Definition credit_event (i : nat) (dc credit : N) : list ev :=
  [EvFrame (FFlow (flow_link 0 dc credit)); EvCtlOk i same_frame].
(** A send on link [a], which becomes send future [t], polled once. *)
Definition send_event (a t : nat) (body : transfer_body) : list ev :=
  [EvSend a body None false None; EvPollSend t].

(** The peer attaches as sender under handle 0, the control service accepts and the
    publish service takes the link: receiver link 0, with the 50 credits that this side grants. *)
Definition receiver_link : list ev :=
  [EvAttach (attach_of (str "out") 0 RoleSender (Some 0)); EvCtlOk 0 same_frame; EvCtlOk 1 same_frame].
(** A transfer of the peer on the link it calls 0. *)
Definition transfer_of (id : option N) (more aborted : bool) (body : option transfer_body) : transfer_t :=
  mk_transfer_t (mk_transfer 0 id (match id with Some _ => Some [x07] | None => None end) None None more None None false
                   aborted false) body.
Definition arrives (id : option N) (more : bool) (n : nat) : ev :=
  EvFrame (FTransfer (transfer_of id more false (Some (bytes_of n)))).
