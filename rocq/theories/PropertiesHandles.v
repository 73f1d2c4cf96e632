(** * Theorems about handles, detaches and flow answers: C38, C39, C49

    Vocabulary: [SpecHandles.v] (and [SpecRelease.v], [SpecReceive.v]); model:
    [Engine.v], [State.v], [Session.v], [SessionStep.v]; concrete runs:
    [Scenario.v]. *)

From Coq Require Import Strings.String.
From Verif Require Import SpecHandles Scenario HandleTheorems EchoTheorems.
Import ListNotations.
Ltac lit := repeat match goal with |- _ /\ _ => split end; vm_compute; reflexivity.

(** ** C38.  Links that are attached at the same time have different handles. *)
Theorem C38_distinct_handles : forall p evs id local rc mfs b s os x y h h',
  run p evs (ses_new id local rc mfs b) = EOk (s, os) -> links_opened evs <= 2 ^ 32 ->
  is_open x s -> is_open y s -> x <> y -> own_handle x s h -> own_handle y s h' -> h <> h'.
Proof. exact distinct_handles. Qed.
Print Assumptions C38_distinct_handles.
(** What the peer says with the handle of an attached link is for that link: in
    every history before the attach and after it, as long as the peer does not
    attach another link under the handle, and did not do so before while the
    control service had not decided.  Not shown: what becomes of frames that name
    a handle under which no link is attached (see the refutation). *)
Theorem C38_routed_partial : forall p id local rc mfs b evs1 evs2 frm x s1 s2 s3 os1 os2 os3,
  run p evs1 (ses_new id local rc mfs b) = EOk (s1, os1) ->
  step p (EvAttach frm) s1 = EOk (s2, os2) -> run p evs2 s2 = EOk (s3, os3) ->
  begins_link x frm s1 s2 ->
  none_waits (attach_handle frm) s1 -> unused_handle (attach_handle frm) evs2 ->
  links_opened (evs1 ++ EvAttach frm :: evs2) <= 2 ^ 32 ->
  s_error s3 = None -> is_open x s3 -> reaches p (attach_handle frm) x s3.
Proof. exact routed. Qed.
Print Assumptions C38_routed_partial.
(** A sender and a receiver link, the handles of the peer are 7 and 3, the own
    ones 0 and 1; a third link, detached before, also had handle 7. *)
Definition C38_before : list ev :=
  [EvAttach (attach_of (str "a") 7 RoleReceiver None); EvCtlOk 0 same_frame; EvFrame (FDetach (mk_detach 7 true None))].
Definition C38_frm : attach_t := attach_of (str "b") 7 RoleReceiver None.
Definition C38_after : list ev :=
  [EvAttach (attach_of (str "c") 3 RoleSender (Some 0)); EvCtlOk 3 same_frame; EvCtlOk 2 same_frame; EvCtlOk 4 same_frame].
Example C38_case : let s0 := start 512 10 in
  let s1 := result Debug C38_before s0 in let s2 := result Debug [EvAttach C38_frm] s1 in let s3 := result Debug C38_after s2 in
  runs Debug (C38_before ++ EvAttach C38_frm :: C38_after) s0 = true
  /\ begins_link (LSender 1) C38_frm s1 s2 /\ none_waits 7 s1 /\ unused_handle 7 C38_after
  /\ links_opened (C38_before ++ EvAttach C38_frm :: C38_after) <= 2 ^ 32
  /\ s_error s3 = None /\ is_open (LSender 1) s3 /\ is_open (LReceiver 0) s3
  /\ own_handle (LSender 1) s3 0 /\ own_handle (LReceiver 0) s3 1.
Proof.
  cbv zeta. split; [lit|]. split; [vm_compute; auto|]. split.
  { intros frm r a H. vm_compute in H. intuition discriminate. }
  split. { intros frm H. cbn in H. destruct H as [H|[H|[H|[H|[]]]]]; try discriminate H. injection H as <-. vm_compute. discriminate. }
  split; [vm_compute; discriminate|]. split; [lit|]. split; [exists 0; lit|]. split; [exists 1; lit|].
  split; (eexists; split; vm_compute; reflexivity).
Qed.
(** The peer's handle of a link that the control service refuses stays in the
    table.  The peer attaches under handle 0, the control service refuses; then
    this side attaches a link, which gets the same slot; then the peer's answer to
    the refusal, the detach of handle 0, ends the attach of the new link. *)
Theorem C38_stale_refuted : exists evs frm e d s1 s2 s3,
  run Debug evs (start 512 10) = EOk (s1, [])
  /\ evs = [EvAttach (attach_of (str "a") 0 RoleSender (Some 0)); EvCtlErr 0 e]
  /\ step Debug (EvAttachSender frm) s1 = EOk (s2, [])
  /\ still_waits (next_future s1) s2
  /\ detach_handle d = 0 /\ detach_error d = None
  /\ step Debug (EvFrame (FDetach d)) s2 = EOk (s3, [])
  /\ nth_error (s_chans s3) (next_future s1) = Some (CSent (VErr (ELinkDetached None))).
Proof.
  set (er := mk_err (CondAmqp AmqpNotAllowed) None None).
  set (l := [EvAttach (attach_of (str "a") 0 RoleSender (Some 0)); EvCtlErr 0 er]).
  exists l, (attach_of (str "b") 0 RoleSender None), er, (mk_detach 0 true None),
    (result Debug l (start 512 10)), (result Debug [EvAttachSender (attach_of (str "b") 0 RoleSender None)] (result Debug l (start 512 10))),
    (result Debug (l ++ [EvAttachSender (attach_of (str "b") 0 RoleSender None); EvFrame (FDetach (mk_detach 0 true None))]) (start 512 10)).
  split; [lit|]. split; [reflexivity|]. lit.
Qed.
Print Assumptions C38_stale_refuted.

(** ** C39.  The peer's detach of an attached link is answered with one frame, a
    detach with the own handle of the link, and the link is not attached any more. *)
Theorem C39_answered_partial : forall p id local rc mfs b evs1 evs2 frm x s1 s2 s3 os1 os2 os3,
  run p evs1 (ses_new id local rc mfs b) = EOk (s1, os1) ->
  step p (EvAttach frm) s1 = EOk (s2, os2) -> run p evs2 s2 = EOk (s3, os3) ->
  begins_link x frm s1 s2 ->
  none_waits (attach_handle frm) s1 -> unused_handle (attach_handle frm) evs2 ->
  links_opened (evs1 ++ EvAttach frm :: evs2) <= 2 ^ 32 ->
  forall d s' os, s_error s3 = None -> is_open x s3 -> detach_handle d = attach_handle frm ->
  step p (EvFrame (FDetach d)) s3 = EOk (s', os) ->
  exists f, detach_answer x d s3 f /\ s_out s' = s_out s3 ++ [f] /\ ~ is_open x s'.
Proof. exact answered. Qed.
Print Assumptions C39_answered_partial.
(** This side closes an attached link: when the peer's detach frame arrives, the
    future completes (unless it had already), with the error of the frame. *)
Theorem C39_close_completes_partial : forall p id local rc mfs b evs1 evs2 frm x s1 s2 s3 os1 os2 os3,
  run p evs1 (ses_new id local rc mfs b) = EOk (s1, os1) ->
  step p (EvAttach frm) s1 = EOk (s2, os2) -> run p evs2 s2 = EOk (s3, os3) ->
  begins_link x frm s1 s2 ->
  none_waits (attach_handle frm) s1 -> unused_handle (attach_handle frm) evs2 ->
  links_opened (evs1 ++ EvAttach frm :: evs2) <= 2 ^ 32 ->
  forall e s4 os4 evs3 s5 os5 d s6 os6, is_open x s3 -> closes x e s3 ->
  step p e s3 = EOk (s4, os4) -> still_waits (next_future s3) s4 ->
  run p evs3 s4 = EOk (s5, os5) -> unused_handle (attach_handle frm) evs3 -> s_error s5 = None ->
  still_waits (next_future s3) s5 ->
  detach_handle d = attach_handle frm -> step p (EvFrame (FDetach d)) s5 = EOk (s6, os6) ->
  nth_error (s_chans s6) (next_future s3) = Some (CSent (close_result d)).
Proof. exact close_completes. Qed.
Print Assumptions C39_close_completes_partial.
(** The history of [C38_case]: each of the two links is closed by this side, in
    the four ways. *)
Example C39_case : let s3 := result Debug (C38_before ++ EvAttach C38_frm :: C38_after) (start 512 10) in
  (forall e, In e [EvCloseSender 1 None; EvDetachSender 0 None] -> closes (LSender 1) e s3
     /\ still_waits (next_future s3) (result Debug [e] s3) /\ s_error (result Debug [e] s3) = None)
  /\ (forall e, In e [EvCloseReceiver 0 None; EvDetachReceiver 1 None] -> closes (LReceiver 0) e s3
     /\ still_waits (next_future s3) (result Debug [e] s3)).
Proof.
  cbv zeta. split; intros e [<-|[<-|[]]]; (split; [|lit]).
  - reflexivity.
  - eexists; split; vm_compute; reflexivity.
  - reflexivity.
  - eexists; split; vm_compute; reflexivity.
Qed.
(** A close that comes before the peer has answered the attach is lost: the
    peer's attach does not enter its handle into the table, and its detach with
    that handle is ignored. *)
Theorem C39_opening_refuted : exists frm a d s,
  attach_handle a = 5 /\ attach_name a = attach_name frm /\ detach_handle d = 5 /\ s_error s = None
  /\ run Debug [EvAttachSender frm; EvDetachSender 0 None; EvAttach a; EvFrame (FDetach d)] (start 512 10) = EOk (s, [])
  /\ still_waits 1 s /\ s_out s = [FAttach frm; FDetach (mk_detach 0 false None)].
Proof.
  exists (attach_of (str "b") 0 RoleSender None), (attach_of (str "b") 5 RoleReceiver None), (mk_detach 5 true None),
    (result Debug [EvAttachSender (attach_of (str "b") 0 RoleSender None); EvDetachSender 0 None; EvAttach (attach_of (str "b") 5 RoleReceiver None); EvFrame (FDetach (mk_detach 5 true None))] (start 512 10)).
  lit.
Qed.
Print Assumptions C39_opening_refuted.

(** Nor is the detach frame for a link on which the peer sends and about which the
    control service has not yet decided: it changes nothing.  The service accepts
    later, the link is opened and given credit, and no detach frame is ever sent. *)
Definition given_up (evs : list ev) : list ev :=
  [EvAttach (attach_of (str "c") 5 RoleSender (Some 0)); EvFrame (FDetach (mk_detach 5 true None))] ++ evs.
Theorem C39_undecided_refuted : forall p,
  result p (given_up []) (start 512 10) = result p [EvAttach (attach_of (str "c") 5 RoleSender (Some 0))] (start 512 10)
  /\ exists s, run p (given_up [EvCtlOk 0 same_frame; EvCtlOk 1 same_frame]) (start 512 10) = EOk (s, [])
     /\ s_error s = None /\ is_open (LReceiver 0) s
     /\ map (fun f => match f with FAttach _ => 1 | FFlow _ => 2 | _ => 3 end) (s_out s) = [1; 2].
Proof.
  intros p. split; [destruct p; vm_compute; reflexivity|].
  exists (result p (given_up [EvCtlOk 0 same_frame; EvCtlOk 1 same_frame]) (start 512 10)).
  split; [destruct p; vm_compute; reflexivity|]. split; [destruct p; vm_compute; reflexivity|]. split; [|destruct p; vm_compute; reflexivity].
  exists 0. destruct p; vm_compute; reflexivity.
Qed.
Print Assumptions C39_undecided_refuted.

(** ** C49.  No flow frame of this side asks for an answer. *)
Theorem C49_never_asks : forall p s f, reachable p s -> In (FFlow f) (s_out s) -> flow_echo f = false.
Proof. exact never_asks. Qed.
Print Assumptions C49_never_asks.
(** A flow frame goes to the control service, and nothing is sent yet; or it is
    answered at once, if it asks for an answer, with exactly one frame. *)
Theorem C49_answered_partial : forall p f s s' os, s_error s = None -> step p (EvFrame (FFlow f)) s = EOk (s', os) ->
  (exists a, s' = control (KFlow f a) s) \/ (flow_answers f s s' /\ s_ctl s' = s_ctl s).
Proof. exact step_flow. Qed.
Print Assumptions C49_answered_partial.
(** When the control service accepts it, it is answered, and is done. *)
Theorem C49_accepted_partial : forall p i edit f a s s' os,
  nth_error (s_ctl s) i = Some (Some (KFlow f a)) -> step p (EvCtlOk i edit) s = EOk (s', os) ->
  flow_answers f s s' /\ nth_error (s_ctl s') i = Some None.
Proof. exact step_flow_ok. Qed.
Print Assumptions C49_accepted_partial.
Definition C49_asks (h : option N) : flow_t := mk_flow (Some 1) 1000 1 100 h (Some 0) (Some 10) None false true None.
Example C49_case : let s := result Debug sender_link (start 512 10) in
  let s1 := result Debug [EvFrame (FFlow (C49_asks None))] s in let s2 := result Debug [EvFrame (FFlow (C49_asks (Some 0)))] s in
  runs Debug sender_link (start 512 10) = true /\ s_error s = None
  /\ length (s_out s1) = S (length (s_out s)) /\ nth_error (s_ctl s2) 1 = Some (Some (KFlow (C49_asks (Some 0)) 0))
  /\ length (s_out (result Debug [EvCtlOk 1 same_frame] s2)) = S (length (s_out s2)).
Proof. cbv zeta. lit. Qed.
(** The control service refuses the flow: it is not answered; the link is closed. *)
Theorem C49_refused_refuted : exists f s e s',
  reachable Debug s /\ flow_echo f = true
  /\ run Debug [EvFrame (FFlow f); EvCtlErr 1 e] s = EOk (s', [])
  /\ s_out s' = s_out s ++ [FDetach (mk_detach 0 true (Some e))] /\ nth_error (s_ctl s') 1 = Some None.
Proof.
  set (e := mk_err (CondAmqp AmqpNotAllowed) None None).
  exists (C49_asks (Some 0)), (result Debug sender_link (start 512 10)), e,
    (result Debug [EvFrame (FFlow (C49_asks (Some 0))); EvCtlErr 1 e] (result Debug sender_link (start 512 10))).
  split; [apply runs_reachable; lit|]. lit.
Qed.
Print Assumptions C49_refused_refuted.
