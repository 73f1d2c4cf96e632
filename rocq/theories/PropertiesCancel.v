(** * Theorems about futures that are dropped: C78

    Vocabulary: [SpecRelease.v], [SpecOrder.v], [SpecProgress.v], [SpecCancel.v]. *)

From Coq Require Import Strings.String.
From Verif Require Import Base SpecCancel Scenario CancelProofs.
Import ListNotations.

(** ** C78 *)
(** A send that is not polled any more may be dropped now or later, or at the end:
    every other future, every link, every frame that is sent and whatever the
    receivers are given is the same.  This holds in every state, reachable or not. *)
Theorem C78_send : forall p t evs s, is_send t s -> ~ In (EvPollSend t) evs ->
  run p (EvCancelSend t :: evs) s = run p (evs ++ [EvCancelSend t]) s.
Proof. exact drop_any_time. Qed.
Print Assumptions C78_send.
(** The same for a wait for the outcome of a delivery. *)
Theorem C78_wait : forall p w evs s, is_wait w s -> ~ In (EvPollWait w) evs ->
  run p (EvCancelWait w :: evs) s = run p (evs ++ [EvCancelWait w]) s.
Proof. exact drop_wait_any_time. Qed.
Print Assumptions C78_wait.
(** A send that is dropped before it completed is never transmitted. *)
Theorem C78_never_sent : forall p t evs s s' os, is_send t s -> ~ (exists r, send_result t s r) ->
  run p (EvCancelSend t :: evs) s = EOk (s', os) -> ~ alive t s' /\ ~ sent t s' /\ ~ (exists r, send_result t s' r).
Proof. exact dropped_never. Qed.
Print Assumptions C78_never_sent.
(** A poll that leaves a send waiting for credit takes nothing, so that nothing is
    lost if it is dropped then. *)
Theorem C78_costless_partial : forall p t a s s' os, step p (EvPollSend t) s = EOk (s', os) -> awaits_credit t a s' -> costless s s'.
Proof. exact wait_costless. Qed.
Print Assumptions C78_costless_partial.

(** Send 0 has taken the only credit and waits for the window, send 1 waits for
    credit.  Send 1 is dropped and window and credit come, in this order or the
    other; send 0 goes out. *)
Definition C78_window : ev := EvFrame (FFlow (mk_flow (Some 1) 0 1 100 (Some 0) (Some 0) (Some 1) None false false None)).
Definition C78_events : list ev :=
  sender_link ++ [C78_window; EvCtlOk 1 same_frame] ++ send_event 0 0 (bytes_of 3) ++ [EvSend 0 (bytes_of 4) None false None].
Definition C78_later : list ev := credit_event 2 0 2 ++ [EvPollSend 0; EvSend 0 (bytes_of 5) None false None; EvPollSend 2]%nat.
Example C78_case :
  let s := result Debug C78_events (start 512 10) in
  let s1 := result Debug [EvPollSend 1%nat] s in
  reachable Debug s /\ awaits_window 0 0 s /\ step Debug (EvPollSend 1) s = EOk (s1, []) /\ awaits_credit 1 0 s1
  /\ is_send 1 s1 /\ ~ (exists r, send_result 1 s1 r) /\ ~ In (EvPollSend 1) C78_later
  /\ runs Debug (EvCancelSend 1 :: C78_later) s1 = true
  /\ map (fun x => blen (body_of x)) (transfers (s_out (result Debug (EvCancelSend 1 :: C78_later) s1))) = [3; 5].
Proof.
  cbn zeta. split; [apply runs_reachable; vm_compute; reflexivity|].
  split; [do 3 eexists; split; [vm_compute; reflexivity|]; split; [reflexivity|]; split; [reflexivity|vm_compute; reflexivity]|].
  split; [vm_compute; reflexivity|].
  split; [do 3 eexists; split; [vm_compute; reflexivity|]; split; [reflexivity|]; split; [reflexivity|vm_compute; reflexivity]|].
  split; [vm_compute; auto|].
  split; [intros (r & k & Ek & D); vm_compute in Ek; apply Some_inj in Ek; subst k; discriminate D|].
  split; [cbn; intuition discriminate|]. split; vm_compute; reflexivity.
Qed.
(** A delivery whose outcome is awaited twice; the first wait is dropped before the
    disposition of the peer arrives. *)
Definition C78_settled : list ev :=
  [EvFrame (FDisposition (mk_disposition RoleReceiver 1 None true (Some (DSAccepted mk_accepted)) false)); EvWait 0; EvPollWait 1]%nat.
Example C78_wait_case :
  let s := result Debug (sender_link ++ credit_event 1 0 9 ++ send_event 0 0 (bytes_of 10) ++ [EvWait 0; EvPollWait 0]%nat) (start 512 10) in
  reachable Debug s /\ awaits_outcome 0 0 s /\ is_wait 0 s /\ ~ In (EvPollWait 0) C78_settled
  /\ runs Debug (EvCancelWait 0 :: C78_settled) s = true
  /\ wait_result 1 (result Debug (EvCancelWait 0 :: C78_settled) s) (inl (Some (DSAccepted mk_accepted))).
Proof.
  cbn zeta. split; [apply runs_reachable; vm_compute; reflexivity|].
  split; [eexists; split; vm_compute; reflexivity|]. split; [vm_compute; auto|]. split; [cbn; intuition discriminate|].
  split; [vm_compute; reflexivity|]. eexists. vm_compute. reflexivity.
Qed.

(** But a send that is dropped does leave a trace when it waited for the window of
    the session: it has taken a credit of its link and does not give it back.
    Between the two histories that follow the only difference is a send that is
    made, polled and dropped.  The peer has granted one credit and then opens the
    window; in the second history nothing was ever transmitted, and yet the next
    send waits for credit. *)
Theorem C78_lost_credit_refuted : exists p evs1 evs2 evs3 s1 s2,
  s1 = result p (evs1 ++ evs3 0%nat) (start 512 10) /\ reachable p s1
  /\ s2 = result p (evs1 ++ evs2 ++ evs3 1%nat) (start 512 10) /\ reachable p s2
  /\ evs2 = [EvSend 0 (bytes_of 3) None false None; EvPollSend 0; EvCancelSend 0]%nat
  /\ (forall t, evs3 t = [EvFrame (FFlow (flow_session (Some 1) 10)); EvSend 0 (bytes_of 4) None false None; EvPollSend t])
  /\ sent 0 s1 /\ link_credit 0 s1 0
  /\ awaits_credit 1 0 s2 /\ window_open s2 /\ transfers (s_out s2) = [].
Proof.
  set (e1 := sender_link ++ [C78_window; EvCtlOk 1 same_frame]).
  set (e2 := [EvSend 0 (bytes_of 3) None false None; EvPollSend 0; EvCancelSend 0]%nat).
  set (e3 := fun t => [EvFrame (FFlow (flow_session (Some 1) 10)); EvSend 0 (bytes_of 4) None false None; EvPollSend t]).
  exists Debug, e1, e2, e3, (result Debug (e1 ++ e3 0%nat) (start 512 10)), (result Debug (e1 ++ e2 ++ e3 1%nat) (start 512 10)).
  split; [reflexivity|]. split; [apply runs_reachable; vm_compute; reflexivity|].
  split; [reflexivity|]. split; [apply runs_reachable; vm_compute; reflexivity|].
  split; [reflexivity|]. split; [reflexivity|].
  split; [do 2 eexists; split; [vm_compute; reflexivity|]; eexists; split; [reflexivity|vm_compute; reflexivity]|].
  split; [eexists; split; [vm_compute; reflexivity|reflexivity]|].
  split; [do 3 eexists; split; [vm_compute; reflexivity|]; split; [reflexivity|]; split; [reflexivity|vm_compute; reflexivity]|].
  split; vm_compute; reflexivity.
Qed.
Print Assumptions C78_lost_credit_refuted.
