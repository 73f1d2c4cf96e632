(** * Theorems about the links an event does not name: C79

    Vocabulary: [SpecRelease.v], [SpecOrder.v], [SpecApart.v]. *)

From Coq Require Import Strings.String.
From Verif Require Import Base SpecApart Scenario ApartProofs AsleepTheorems.
Import ListNotations.

(** ** C79 *)
(** In every history, as long as no event names the link [x], or a link whose
    number [x] has got later, the link [x] stays as it is, with its credit, its
    queue of sends, its deliveries and its error, and it stays attached. *)
Theorem C79_apart_partial : forall p evs s s' os x, reachable p s -> link_state x s <> None -> spared p evs x s ->
  run p evs s = EOk (s', os) -> link_state x s' = link_state x s /\ (forall k, at_slot k x s -> at_slot k x s').
Proof. exact apart_reachable. Qed.
Print Assumptions C79_apart_partial.
(** An event that names other links only, which all have their own slots, as
    attached links do, leaves the link alone. *)
Theorem C79_attached : forall p e s s' os x, reachable p s -> link_state x s <> None -> (forall y, named e y s -> y <> x /\ settled_in y s) ->
  step p e s = EOk (s', os) -> link_state x s' = link_state x s /\ (forall k, at_slot k x s -> at_slot k x s').
Proof. exact apart_settled. Qed.
Print Assumptions C79_attached.

(** Two links; on the first a send waits for credit, and a send on the second waits
    as well.  The peer detaches the first: this names the first link only, which
    is in its slot; the second is as before. *)
Definition C79_links (x y : N) : list ev :=
  [EvAttach (attach_of (str "a") x RoleReceiver None); EvCtlOk 0 same_frame;
   EvAttach (attach_of (str "b") y RoleReceiver None); EvCtlOk 1 same_frame].
Definition C79_events : list ev := C79_links 0 1 ++ send_event 0 0 (bytes_of 3) ++ send_event 1 1 (bytes_of 3).
Definition C79_detach : ev := EvFrame (FDetach (mk_detach 0 true None)).
Example C79_case : let s := result Debug C79_events (start 512 10) in
  reachable Debug s /\ link_state (inl 1%nat) s <> None /\ at_slot 1 (inl 1%nat) s
  /\ named C79_detach (inl 0%nat) s /\ (forall y, named C79_detach y s -> y <> inl 1%nat /\ settled_in y s)
  /\ untouched C79_detach (inl 1%nat) s /\ runs Debug [C79_detach] s = true
  /\ link_state (inl 0%nat) (result Debug [C79_detach] s) <> link_state (inl 0%nat) s
  /\ link_state (inl 1%nat) (result Debug [C79_detach] s) = link_state (inl 1%nat) s.
Proof.
  cbv zeta. split; [apply runs_reachable; vm_compute; reflexivity|].
  split; [vm_compute; discriminate|]. split; [eexists; split; [vm_compute; reflexivity|reflexivity]|].
  split; [apply (detach_names _ _ 0); vm_compute; reflexivity|].
  assert (Nm : forall y, named C79_detach y (result Debug C79_events (start 512 10)) ->
    y <> inl 1%nat /\ settled_in y (result Debug C79_events (start 512 10))).
  { intros y H. eapply (detach_only (mk_detach 0 true None) _ 0 0%nat) in H as [-> H];
      [split; [discriminate|exact H]|vm_compute; reflexivity|vm_compute; reflexivity|vm_compute; reflexivity|reflexivity|vm_compute; reflexivity]. }
  split; [exact Nm|]. split; [intros y Hy; destruct (Nm y Hy); split; [assumption|apply settled_apart; assumption]|].
  split; [vm_compute; reflexivity|]. split; [vm_compute; discriminate|vm_compute; reflexivity].
Qed.

(** In every history, a send that waits for credit keeps waiting, at its place in
    the queue, as long as no event names its link and the send is not dropped: no
    flow, detach, refusal or close of another link, no disposition, and no poll
    of another link's send wakes it, fails it or loses it. *)
Theorem C79_asleep : forall p evs s s' os t a c, reachable p s -> queued_at t a c s -> unnamed p evs (inl a) s -> ~ In (EvCancelSend t) evs ->
  run p evs s = EOk (s', os) -> queued_at t a c s'.
Proof. exact asleep_run. Qed.
Print Assumptions C79_asleep.
(** The send of [C79_case] on the second link sleeps through the detach of the
    first, which wakes the send on the first link with an error. *)
Example C79_asleep_case : let s := result Debug C79_events (start 512 10) in
  reachable Debug s /\ queued_at 1 1 1 s /\ unnamed Debug [C79_detach] (inl 1%nat) s /\ runs Debug [C79_detach] s = true
  /\ queued_at 0 0 0 s /\ ~ queued_at 0 0 0 (result Debug [C79_detach] s) /\ queued_at 1 1 1 (result Debug [C79_detach] s).
Proof.
  cbv zeta. split; [apply runs_reachable; vm_compute; reflexivity|].
  split; [do 2 eexists; split; [vm_compute; reflexivity|]; repeat split; vm_compute; reflexivity|].
  split.
  { cbn [unnamed]. split; [|intros; exact I]. intros H.
    eapply (detach_only (mk_detach 0 true None) _ 0 0%nat) in H as [H _];
      [discriminate H|vm_compute; reflexivity|vm_compute; reflexivity|vm_compute; reflexivity|reflexivity|vm_compute; reflexivity]. }
  split; [vm_compute; reflexivity|].
  split; [do 2 eexists; split; [vm_compute; reflexivity|]; repeat split; vm_compute; reflexivity|].
  split; [|do 2 eexists; split; [vm_compute; reflexivity|]; repeat split; vm_compute; reflexivity].
  intros (tk & tag & _ & _ & _ & W). vm_compute in W. discriminate W.
Qed.

(** But a link can be hit by the answer to another one.  The peer attaches a link
    and detaches it before the control service has decided; it attaches a second
    link, which gets the number of the first and is accepted.  When the service
    refuses the first link, the second one is closed: its slot is emptied, a
    detach frame with its handle is sent, and a send on it fails. *)
Theorem C79_refused_refuted : exists p evs s s' os e,
  s = result p evs (start 512 10) /\ reachable p s
  /\ (exists frm r, nth_error (s_ctl s) 0 = Some (Some (KAttachSender frm r 0)))
  /\ sender_open 1 s /\ (exists l, nth_error (s_snds s) 1 = Some l /\ sn_closed l = false)
  /\ step p (EvCtlErr 0 e) s = EOk (s', os)
  /\ (forall y, named (EvCtlErr 0 e) y s -> y = inl 0%nat)
  /\ ~ sender_open 1 s' /\ (exists l, nth_error (s_snds s') 1 = Some l /\ sn_closed l = true)
  /\ (exists f, s_out s' = s_out s ++ [f; FDetach (mk_detach 0 true (Some e))])
  /\ send_result 0 (result p (send_event 1 0 (bytes_of 3)) s') (inr EDisconnected).
Proof.
  set (evs := [EvAttach (attach_of (str "a") 0 RoleReceiver None); EvFrame (FDetach (mk_detach 0 true None));
               EvAttach (attach_of (str "b") 1 RoleReceiver None); EvCtlOk 1 same_frame]).
  set (e := mk_err (CondLink LinkDetachForced) None None).
  set (s := result Debug evs (start 512 10)).
  exists Debug, evs, s, (result Debug [EvCtlErr 0 e] s), (observed Debug [EvCtlErr 0 e] s), e.
  split; [reflexivity|]. split; [apply runs_reachable; vm_compute; reflexivity|].
  split; [do 2 eexists; vm_compute; reflexivity|]. split; [exists 0; vm_compute; reflexivity|].
  split; [eexists; split; [vm_compute; reflexivity|reflexivity]|]. split; [vm_compute; reflexivity|].
  split.
  { intros y (k & Ek & ->). assert (X : option_map (option_map ctl_link) (nth_error (s_ctl s) 0) = Some (Some (inl 0%nat))) by (vm_compute; reflexivity).
    rewrite Ek in X. cbn [option_map] in X. congruence. }
  split.
  { intros (k & G). assert (X : sl_items (s_links (result Debug [EvCtlErr 0 e] s)) = [None]) by (vm_compute; reflexivity).
    unfold slab_get in G. rewrite X in G. destruct (N.to_nat k) as [|[|]]; discriminate G. }
  split; [eexists; split; [vm_compute; reflexivity|reflexivity]|].
  split; [eexists; vm_compute; reflexivity|]. eexists. split; [vm_compute; reflexivity|reflexivity].
Qed.
Print Assumptions C79_refused_refuted.
