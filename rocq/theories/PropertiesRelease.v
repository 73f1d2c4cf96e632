(** * Theorems about outcomes and released futures: C30 - C32, C40

    Vocabulary: [SpecRelease.v], [SpecSettle.v] (and [SpecSession.v]); model:
    [Engine.v], [State.v], [Session.v], [SessionStep.v]; concrete runs:
    [Scenario.v]. *)

From Coq Require Import Strings.String.
From Verif Require Import SpecSettle Scenario SettleTheorems.
Import ListNotations.
Ltac lit := repeat match goal with |- _ /\ _ => split end; vm_compute; reflexivity.

(** ** C30.  A disposition whose range does not wrap changes the entries it
    covers, and these only, answers the waits for these, and these only, and has
    no other effect. *)
Theorem C30_exact_range_partial : forall p disp s s' os, reachable p s -> s_error s = None -> no_wrap disp ->
  step p (EvFrame (FDisposition disp)) s = EOk (s', os) ->
  (forall sender id, id < 2 ^ 32 ->
     (covers disp sender id -> forall d, outstanding sender id d s -> exists d', outstanding sender id d' s' /\ told disp d d')
     /\ (~ covers disp sender id -> forall d, outstanding sender id d s -> outstanding sender id d s')
     /\ (forall d', outstanding sender id d' s' -> exists d, outstanding sender id d s))
  /\ (forall w i x, awaits_outcome w i s -> nth_error (s_dlvs s) i = Some x -> dl_id x < 2 ^ 32 ->
       (covers disp (dl_sender x) (dl_id x) -> wait_gives p w (inl (disposition_state disp)) s')
       /\ (~ covers disp (dl_sender x) (dl_id x) -> awaits_outcome w i s'))
  /\ (forall t a, awaits_credit t a s -> awaits_credit t a s') /\ (forall t a, awaits_window t a s -> awaits_window t a s')
  /\ s_out s' = s_out s /\ s_dlvs s' = s_dlvs s.
Proof. exact dispositions. Qed.
Print Assumptions C30_exact_range_partial.
(** Three deliveries with a wait each; the peer accepts the first two. *)
Definition three_sent : list ev :=
  sender_link ++ credit_event 1 0 5 ++ send_event 0 0 (bytes_of 3) ++ send_event 0 1 (bytes_of 3) ++ send_event 0 2 (bytes_of 3)
  ++ [EvWait 0; EvPollWait 0; EvWait 1; EvPollWait 1; EvWait 2; EvPollWait 2].
Definition accept (first : N) (last : option N) : disposition_t :=
  mk_disposition RoleReceiver first last true (Some (DSAccepted mk_accepted)) false.
Example C30_case : let s := result Debug three_sent (start 512 10) in let disp := accept 1 (Some 2) in
  runs Debug three_sent (start 512 10) = true /\ s_error s = None /\ no_wrap disp
  /\ map dl_id (s_dlvs s) = [1; 2; 3]
  /\ awaits_outcome 0 0 s /\ awaits_outcome 1 1 s /\ awaits_outcome 2 2 s
  /\ covers disp true 1 /\ covers disp true 2 /\ ~ covers disp true 3.
Proof.
  cbv zeta. split; [vm_compute; reflexivity|]. split; [vm_compute; reflexivity|]. split; [vm_compute; intuition discriminate|].
  split; [vm_compute; reflexivity|]. split; [exists 0%nat; split; vm_compute; reflexivity|]. split; [exists 1%nat; split; vm_compute; reflexivity|].
  split; [exists 2%nat; split; vm_compute; reflexivity|]. split; [split; vm_compute; [reflexivity | discriminate]|].
  split; [split; vm_compute; [reflexivity | discriminate]|]. intros [_ H]. vm_compute in H. apply H. reflexivity.
Qed.
(** A range that runs over 2^32 - 1 covers nothing: the wait for delivery 1 goes
    on although the peer accepted 4294967295, 0 and 1. *)
Theorem C30_wrapping_range_refuted : forall p, exists evs s disp s' os x,
  run p evs (start 512 10) = EOk (s, []) /\ s_error s = None /\ awaits_outcome 0 0 s
  /\ nth_error (s_dlvs s) 0 = Some x /\ covers disp (dl_sender x) (dl_id x)
  /\ step p (EvFrame (FDisposition disp)) s = EOk (s', os) /\ awaits_outcome 0 0 s'.
Proof.
  intros p. set (evs := sender_link ++ credit_event 1 0 5 ++ send_event 0 0 (bytes_of 3) ++ [EvWait 0; EvPollWait 0]).
  exists evs, (result p evs (start 512 10)), (accept 4294967295 (Some 1)). eexists. exists []. eexists.
  split; [destruct p; vm_compute; reflexivity|]. split; [destruct p; vm_compute; reflexivity|].
  split; [exists 0%nat; destruct p; split; vm_compute; reflexivity|]. split; [destruct p; vm_compute; reflexivity|].
  split; [split; [vm_compute; reflexivity | vm_compute; discriminate]|].
  split; [destruct p; vm_compute; reflexivity|]. exists 0%nat; destruct p; split; vm_compute; reflexivity.
Qed.
Print Assumptions C30_wrapping_range_refuted.

(** ** C31.  Every state that a wait returned was assigned by a disposition of the
    peer that names the delivery. *)
Theorem C31_outcomes_assigned : forall p id local rc mfs b evs s os w d st,
  run p evs (ses_new id local rc mfs b) = EOk (s, os) ->
  nth_error (s_waits s) w = Some (mk_wtask d (WDone (inl (Some st)))) ->
  exists x, nth_error (s_dlvs s) d = Some x
    /\ exists disp, In (EvFrame (FDisposition disp)) evs /\ disposition_state disp = Some st
         /\ names_id disp (dl_sender x) (dl_id x).
Proof. exact outcomes_assigned. Qed.
Print Assumptions C31_outcomes_assigned.
(** A suspended wait completes when a disposition covers its delivery: with the
    state the peer assigned; ... *)
Theorem C31_disposition_answers_partial : forall p disp s s' os w i x, reachable p s -> s_error s = None -> no_wrap disp ->
  step p (EvFrame (FDisposition disp)) s = EOk (s', os) -> awaits_outcome w i s ->
  nth_error (s_dlvs s) i = Some x -> dl_id x < 2 ^ 32 -> covers disp (dl_sender x) (dl_id x) ->
  wait_gives p w (inl (disposition_state disp)) s'.
Proof.
  intros p disp s s' os w i x R E N H A D L C. exact (proj1 (proj1 (proj2 (dispositions p disp s s' os R E N H)) w i x A D L) C).
Qed.
Print Assumptions C31_disposition_answers_partial.
(** ... when the peer detaches the link it was sent on: with the error of the
    detach; ... *)
Theorem C31_detach_answers_partial : forall p d s s' os a l w i x di, reachable p s -> s_error s = None ->
  names_sender d a s -> nth_error (s_snds s) a = Some l -> step p (EvFrame (FDetach d)) s = EOk (s', os) ->
  awaits_outcome w i s -> nth_error (s_dlvs s) i = Some x -> dl_sender x = true ->
  outstanding true (dl_id x) di s -> di_handle di = as_u32 (sn_id l) ->
  wait_gives p w (inr (ELinkDetached (detach_error d))) s'.
Proof.
  intros p d s s' os a l w i x di R E Nm El H A D Sx O Eh.
  destruct (detach_releases p d s s' os a l R E Nm El H) as (_ & _ & _ & _ & W).
  rewrite <- Sx in O. exact (proj1 (W w i x di A D O) (conj Sx Eh)).
Qed.
Print Assumptions C31_detach_answers_partial.
(** ... and when the session or the connection fails. *)
Theorem C31_failure_answers_partial : forall p s e s' os w d, reachable p s -> step p (EvFail e) s = EOk (s', os) ->
  awaits_outcome w d s -> wait_gives p w (inr (ELinkDetached None)) s'.
Proof. intros p s e s' os w d R H. exact (proj2 (proj2 (failure_releases p s e s' os R H)) w d). Qed.
Print Assumptions C31_failure_answers_partial.
Example C31_case : let s := result Debug three_sent (start 512 10) in
  (exists l, nth_error (s_snds s) 0 = Some l /\ names_sender (mk_detach 0 true None) 0 s
     /\ exists di, outstanding true 2 di s /\ di_handle di = as_u32 (sn_id l))
  /\ wait_result 1 (result Debug [EvFrame (FDisposition (accept 1 (Some 2))); EvPollWait 1] s) (inl (Some (DSAccepted mk_accepted)))
  /\ wait_result 1 (result Debug [EvFrame (FDetach (mk_detach 0 true None)); EvPollWait 1] s) (inr (ELinkDetached None))
  /\ wait_result 1 (result Debug [EvFail EDisconnected; EvPollWait 1] s) (inr (ELinkDetached None)).
Proof.
  cbv zeta. split.
  - eexists. split; [vm_compute; reflexivity|]. split; [exists 0; split; vm_compute; reflexivity|].
    eexists. split; vm_compute; reflexivity.
  - split; [|split]; exists 1%nat; vm_compute; reflexivity.
Qed.
(** Two waits for one delivery at a time: the first gets an error as soon as the
    second begins, although the connection is up and the delivery accepted later. *)
Theorem C31_two_waits_refuted : forall p, exists evs s,
  run p evs (start 512 10) = EOk (s, []) /\ s_error s = None
  /\ wait_result 0 s (inr EConnectionDropped)
  /\ wait_result 1 s (inl (Some (DSAccepted mk_accepted))).
Proof.
  intros p. set (evs := sender_link ++ credit_event 1 0 5 ++ send_event 0 0 (bytes_of 3)
    ++ [EvWait 0; EvPollWait 0; EvWait 0; EvPollWait 1; EvPollWait 0; EvFrame (FDisposition (accept 1 None)); EvPollWait 1]).
  exists evs, (result p evs (start 512 10)). split; [destruct p; vm_compute; reflexivity|]. split; [destruct p; vm_compute; reflexivity|].
  split; exists 0%nat; destruct p; vm_compute; reflexivity.
Qed.
Print Assumptions C31_two_waits_refuted.
(** A link that this side closed, and whose detach the peer answered, does not
    answer the waits for its deliveries. *)
Theorem C31_local_close_refuted : forall p, exists evs s,
  run p evs (start 512 10) = EOk (s, []) /\ s_error s = None
  /\ slab_values (s_links s) = [] /\ map sn_closed (s_snds s) = [true] /\ awaits_outcome 0 0 s.
Proof.
  intros p. set (evs := sender_link ++ credit_event 1 0 5 ++ send_event 0 0 (bytes_of 3)
    ++ [EvWait 0; EvPollWait 0; EvCloseSender 0 None; EvFrame (FDetach (mk_detach 0 true None))]).
  exists evs, (result p evs (start 512 10)). split; [destruct p; vm_compute; reflexivity|]. split; [destruct p; vm_compute; reflexivity|].
  split; [destruct p; vm_compute; reflexivity|]. split; [destruct p; vm_compute; reflexivity|].
  exists 0%nat; destruct p; split; vm_compute; reflexivity.
Qed.
Print Assumptions C31_local_close_refuted.

(** ** C32.  When the session fails, every send that waits for the window, every
    send that waits for credit on an attached link and every wait for an outcome
    completes ... *)
Theorem C32_failure_releases_partial : forall p s e s' os, reachable p s -> step p (EvFail e) s = EOk (s', os) ->
  (forall t a, awaits_window t a s -> send_fails p t e s')
  /\ (forall t a, awaits_credit t a s -> sender_open a s -> send_fails p t e s')
  /\ (forall w d, awaits_outcome w d s -> wait_gives p w (inr (ELinkDetached None)) s').
Proof. exact failure_releases. Qed.
Print Assumptions C32_failure_releases_partial.
(** ... and so does every attach, detach, close and [end] that was called
    before. *)
Theorem C32_futures_complete : forall p s1 e s2 evs s3 err s4 os2 os3 os4,
  reachable p s1 -> makes_future e = true -> step p e s1 = EOk (s2, os2) -> still_waits (next_future s1) s2 ->
  run p evs s2 = EOk (s3, os3) -> step p (EvFail err) s3 = EOk (s4, os4) -> ~ still_waits (next_future s1) s4.
Proof. exact futures_complete. Qed.
Print Assumptions C32_futures_complete.
Definition C32_events : list ev :=
  sender_link ++ credit_event 1 0 1 ++ send_event 0 0 (bytes_of 3) ++ send_event 0 1 (bytes_of 3) ++ [EvWait 0; EvPollWait 0].
Example C32_case : let s := result Debug C32_events (start 512 10) in
  runs Debug C32_events (start 512 10) = true
  /\ awaits_credit 1 0 s /\ sender_open 0 s /\ awaits_outcome 0 0 s
  /\ (exists evs, runs Debug evs (start 512 0) = true /\ awaits_window 0 0 (result Debug evs (start 512 0)))
  /\ forall e, In e [EvEnd; EvAttachSender (attach_of (str "x") 0 RoleSender None); EvAttachReceiver (attach_of (str "x") 0 RoleReceiver None);
                     EvDetachSender 0 None; EvCloseSender 0 None] ->
       makes_future e = true /\ still_waits (next_future s) (result Debug [e] s).
Proof.
  cbv zeta. split; [vm_compute; reflexivity|]. split; [eexists; eexists; exists 0%nat; lit|].
  split; [exists 0; vm_compute; reflexivity|]. split; [exists 1%nat; split; vm_compute; reflexivity|]. split.
  - exists (sender_link ++ [EvFrame (FFlow (mk_flow (Some 1) 0 1 100 (Some 0) (Some 0) (Some 5) None false false None)); EvCtlOk 1 same_frame]
            ++ send_event 0 0 (bytes_of 3)). split; [vm_compute; reflexivity|]. eexists; eexists; exists 0%nat; lit.
  - intros e [<-|[<-|[<-|[<-|[<-|[]]]]]]; split; vm_compute; reflexivity.
Qed.
(** A send that waits for credit on a link that this side closed is not told. *)
Theorem C32_closed_link_refuted : forall p err, exists evs s s' os,
  run p evs (start 512 10) = EOk (s, []) /\ step p (EvFail err) s = EOk (s', os)
  /\ awaits_credit 0 0 s /\ awaits_credit 0 0 s' /\ s_error s' = Some err.
Proof.
  intros p err. set (evs := sender_link ++ send_event 0 0 (bytes_of 3) ++ [EvCloseSender 0 None]).
  exists evs, (result p evs (start 512 10)), (ses_set_error err (result p evs (start 512 10))), [].
  split; [destruct p; vm_compute; reflexivity|]. split; [reflexivity|].
  split; [eexists; eexists; exists 0%nat; destruct p; lit|].
  split; [eexists; eexists; exists 0%nat; destruct p; lit|]. destruct p; vm_compute; reflexivity.
Qed.
Print Assumptions C32_closed_link_refuted.
(** Two sends wait for credit, the peer grants one, and then the session fails
    before they are polled: the first puts its transfer on the wire of the failed
    session, the second waits for ever. *)
Theorem C32_woken_send_refuted : forall p, exists evs s s1 s2,
  run p evs (start 512 10) = EOk (s, []) /\ s_error s = None
  /\ step p (EvFail EDisconnected) s = EOk (s1, [])
  /\ run p [EvPollSend 0; EvPollSend 1] s1 = EOk (s2, [])
  /\ length (transfers (s_out s1)) = 0%nat /\ length (transfers (s_out s2)) = 1%nat
  /\ s_error s2 = Some EDisconnected /\ awaits_credit 1 0 s2.
Proof.
  intros p. set (evs := sender_link ++ send_event 0 0 (bytes_of 3) ++ send_event 0 1 (bytes_of 3) ++ credit_event 1 0 1).
  exists evs, (result p evs (start 512 10)), (result p [EvFail EDisconnected] (result p evs (start 512 10))),
    (result p [EvFail EDisconnected; EvPollSend 0; EvPollSend 1] (result p evs (start 512 10))).
  repeat match goal with |- _ /\ _ => split end; try (destruct p; vm_compute; reflexivity).
  eexists; eexists; exists 2%nat; destruct p; lit.
Qed.
Print Assumptions C32_woken_send_refuted.

(** ** C40.  When the peer detaches a sender link, the sends that wait for credit
    on it fail with the error of the detach; so do those that wait for the window,
    if both sides gave the link the same handle; the sends of another link go on
    waiting, unless this side gave that link the number the peer gave to the
    detached one. *)
Theorem C40_detach_releases_partial : forall p d s s' os a l, reachable p s -> s_error s = None ->
  names_sender d a s -> nth_error (s_snds s) a = Some l -> step p (EvFrame (FDetach d)) s = EOk (s', os) ->
  (forall t, awaits_credit t a s -> send_fails p t (ELinkDetached (detach_error d)) s')
  /\ (forall t, awaits_window t a s -> sn_rhandle l = as_u32 (sn_id l) -> send_fails p t (ELinkDetached (detach_error d)) s')
  /\ (forall t b, b <> a -> awaits_credit t b s -> awaits_credit t b s')
  /\ (forall t b lb, nth_error (s_snds s) b = Some lb -> as_u32 (sn_id lb) <> sn_rhandle l ->
        awaits_window t b s -> awaits_window t b s').
Proof.
  intros p d s s' os a l R E Nm El H. destruct (detach_releases p d s s' os a l R E Nm El H) as (A & B & C & D & _). auto.
Qed.
Print Assumptions C40_detach_releases_partial.
(** Two sender links; [two_links x y]: the peer calls them [x] and [y], this side 0
    and 1. *)
Definition two_links (x y : N) : list ev :=
  [EvAttach (attach_of (str "a") x RoleReceiver None); EvCtlOk 0 same_frame;
   EvAttach (attach_of (str "b") y RoleReceiver None); EvCtlOk 1 same_frame].
(** Credit for the link the peer calls [h], but no window. *)
Definition shut_flow (h : N) (i : nat) : list ev :=
  [EvFrame (FFlow (mk_flow (Some 1) 0 1 100 (Some h) (Some 0) (Some 5) None false false None)); EvCtlOk i same_frame].
Definition two_stuck (x y : N) : list ev :=
  two_links x y ++ shut_flow x 2 ++ shut_flow y 3 ++ send_event 0 0 (bytes_of 3) ++ send_event 1 1 (bytes_of 3).
Definition two_idle : list ev := two_links 0 1 ++ send_event 0 0 (bytes_of 3) ++ send_event 1 1 (bytes_of 3).
Example C40_case :
  (let s := result Debug two_idle (start 512 0) in runs Debug two_idle (start 512 0) = true
     /\ names_sender (mk_detach 0 true None) 0 s /\ awaits_credit 0 0 s /\ awaits_credit 1 1 s)
  /\ (let s := result Debug (two_stuck 0 1) (start 512 0) in runs Debug (two_stuck 0 1) (start 512 0) = true
     /\ names_sender (mk_detach 0 true None) 0 s /\ awaits_window 0 0 s /\ awaits_window 1 1 s
     /\ map sn_rhandle (s_snds s) = [0; 1] /\ map sn_id (s_snds s) = [0; 1]).
Proof.
  cbv zeta. repeat match goal with |- _ /\ _ => split end; try (vm_compute; reflexivity).
  - exists 0. split; vm_compute; reflexivity.
  - eexists; eexists; exists 0%nat; lit.
  - eexists; eexists; exists 1%nat; lit.
  - exists 0. split; vm_compute; reflexivity.
  - eexists; eexists; exists 0%nat; lit.
  - eexists; eexists; exists 1%nat; lit.
Qed.
(** Two links whose handles are crossed: the detach of the first leaves its send
    waiting and fails the send of the other link, which is still attached. *)
Theorem C40_crossed_handles_refuted : forall p, exists evs s d s' os,
  run p evs (start 512 0) = EOk (s, []) /\ s_error s = None /\ names_sender d 0 s
  /\ step p (EvFrame (FDetach d)) s = EOk (s', os)
  /\ awaits_window 0 0 s /\ awaits_window 1 1 s
  /\ awaits_window 0 0 s' /\ sender_open 1 s' /\ send_fails p 1 (ELinkDetached (detach_error d)) s'.
Proof.
  intros p. set (evs := two_stuck 1 0).
  exists evs, (result p evs (start 512 0)), (mk_detach 1 true None), (result p [EvFrame (FDetach (mk_detach 1 true None))] (result p evs (start 512 0))), [].
  repeat match goal with |- _ /\ _ => split end; try (destruct p; vm_compute; reflexivity).
  - exists 0. destruct p; split; vm_compute; reflexivity.
  - eexists; eexists; exists 0%nat; destruct p; lit.
  - eexists; eexists; exists 1%nat; destruct p; lit.
  - eexists; eexists; exists 0%nat; destruct p; lit.
  - exists 1. destruct p; vm_compute; reflexivity.
  - eexists. eexists. split; [reflexivity|]. eexists. destruct p; split; vm_compute; reflexivity.
Qed.
Print Assumptions C40_crossed_handles_refuted.
