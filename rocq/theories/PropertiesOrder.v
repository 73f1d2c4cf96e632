(** * Theorems about the order in which sends are transmitted: C76

    Vocabulary: [SpecSession.v], [SpecRelease.v], [SpecOrder.v]. *)

From Coq Require Import Strings.String.
From Verif Require Import Base SpecOrder Scenario OrderFifo.
Import ListNotations.

(** ** C76 *)
(** Sends are transmitted one at a time and for good: whatever happens after a
    moment, the transfer frames on the wire are those of the sends that were
    transmitted by then, each whole, followed by those of the others.  So two
    sends of which the second is made, or first polled, after the first has
    completed are transmitted in that order. *)
Theorem C76_in_turn : forall p s evs s' os, reachable p s -> run p evs s = EOk (s', os) ->
  (forall t tk, nth_error (s_tasks s') t = Some tk -> honest (tk_body tk)) ->
  exists before after gs,
    transfers (s_out s') = concat gs /\ length gs = length (before ++ after) /\ NoDup (before ++ after)
    /\ (forall t, In t before <-> sent t s)
    /\ (forall t, In t (before ++ after) <-> sent t s')
    /\ forall k t g, nth_error (before ++ after) k = Some t -> nth_error gs k = Some g -> wire_of s' k t g.
Proof. exact transmitted_in_turn. Qed.
Print Assumptions C76_in_turn.
(** A send that waits for credit waits only as long as there is none. *)
Theorem C76_no_credit : forall p s t a n, reachable p s -> awaits_credit t a s -> link_credit a s n -> n = 0.
Proof. exact no_credit. Qed.
Print Assumptions C76_no_credit.
(** While a send keeps its place in the queue of a link, no other send on that
    link is given credit: one that has credit at the end of that time had it
    when the time began. *)
Theorem C76_queue_first_partial : forall p s evs s' os t a c u, reachable p s -> queued_at t a c s ->
  run p evs s = EOk (s', os) -> queued_at t a c s' ->
  on_link u a s' -> has_credit u s' -> on_link u a s /\ has_credit u s.
Proof. exact waits_its_turn. Qed.
Print Assumptions C76_queue_first_partial.
(** The peer has granted [n] credits and the sends that waited are polled in the
    order of the queue: the first [n] are transmitted in that order, under
    consecutive ids, and the others are queued again in that order. *)
Theorem C76_fifo_partial : forall p s a ts n, reachable p s -> NoDup ts -> Forall (fun t => woken_on t a s) ts ->
  link_credit a s n -> 0 < n -> N.min n (N.of_nat (length ts)) <= s_iwin s ->
  exists s' os, run p (map EvPollSend ts) s = EOk (s', os)
    /\ (forall k t, nth_error ts k = Some t -> N.of_nat k < n ->
          exists tk d, send_done s' t tk d /\ dl_id d = (s_nout s + N.of_nat k) mod 2 ^ 32)
    /\ queue a s' (skipn (N.to_nat n) ts).
Proof. exact fifo. Qed.
Print Assumptions C76_fifo_partial.

(** Four sends on a link.  The first has taken the only credit and waits for the
    window; the others are queued.  The window opens and the first is sent, while
    the others keep their places.  Two credits arrive: polled in turn, the second
    and the third are sent and the fourth is queued again. *)
Definition C76_events : list ev :=
  sender_link ++ [EvFrame (FFlow (mk_flow (Some 1) 0 1 100 (Some 0) (Some 0) (Some 1) None false false None)); EvCtlOk 1 same_frame]
  ++ send_event 0 0 (bytes_of 3) ++ send_event 0 1 (bytes_of 4) ++ send_event 0 2 (bytes_of 5) ++ send_event 0 3 (bytes_of 6).
Definition C76_open : list ev := [EvFrame (FFlow (flow_session (Some 1) 10)); EvPollSend 0].
Example C76_case :
  let s := result Debug C76_events (start 512 10) in
  let s1 := result Debug C76_open s in
  let s2 := result Debug (credit_event 2 1 2) s1 in
  let s3 := result Debug (map EvPollSend [1; 2; 3]%nat) s2 in
  reachable Debug s /\ queued_at 1 0 1 s /\ runs Debug C76_open s = true /\ queued_at 1 0 1 s1
  /\ on_link 0 0 s1 /\ has_credit 0 s1 /\ awaits_credit 3 0 s1 /\ link_credit 0 s1 0
  /\ runs Debug (credit_event 2 1 2) s1 = true /\ Forall (fun t => woken_on t 0 s2) [1; 2; 3]%nat /\ link_credit 0 s2 2 /\ 2 <= s_iwin s2
  /\ runs Debug (map EvPollSend [1; 2; 3]%nat) s2 = true
  /\ map (fun x => blen (body_of x)) (transfers (s_out s3)) = [3; 4; 5]
  /\ sent 2 s3 /\ awaits_credit 3 0 s3.
Proof.
  cbn zeta. split; [apply runs_reachable; vm_compute; reflexivity|].
  split; [do 2 eexists; split; [vm_compute; reflexivity|]; split; [reflexivity|]; split; [reflexivity|vm_compute; reflexivity]|].
  split; [vm_compute; reflexivity|].
  split; [do 2 eexists; split; [vm_compute; reflexivity|]; split; [reflexivity|]; split; [reflexivity|vm_compute; reflexivity]|].
  split; [eexists; split; [vm_compute; reflexivity|reflexivity]|].
  split; [eexists; split; [vm_compute; reflexivity|right; eexists; reflexivity]|].
  split; [do 3 eexists; split; [vm_compute; reflexivity|]; split; [reflexivity|]; split; [reflexivity|vm_compute; reflexivity]|].
  split; [eexists; split; [vm_compute; reflexivity|reflexivity]|].
  split; [vm_compute; reflexivity|].
  split.
  { apply Forall_cons; [|apply Forall_cons; [|apply Forall_cons; [|apply Forall_nil]]];
      do 3 eexists; (split; [vm_compute; reflexivity|]; split; [reflexivity|]; split; [reflexivity|vm_compute; reflexivity]). }
  split; [eexists; split; [vm_compute; reflexivity|reflexivity]|].
  split; [vm_compute; discriminate|]. split; [vm_compute; reflexivity|]. split; [vm_compute; reflexivity|].
  split; [do 2 eexists; split; [vm_compute; reflexivity|]; eexists; split; [reflexivity|vm_compute; reflexivity]|].
  do 3 eexists; split; [vm_compute; reflexivity|]; split; [reflexivity|]; split; [reflexivity|vm_compute; reflexivity].
Qed.

(** But the queue is dissolved when credit arrives, before those who waited have
    run.  A send that is made after that, and polled before them, takes the
    credit: the send that was first is still in the queue when the second, made
    later on the same link, has been transmitted. *)
Theorem C76_overtaken_refuted : exists p evs1 evs2 s1 s2 os,
  reachable p s1 /\ s1 = result p evs1 (start 512 10) /\ awaits_credit 0 0 s1 /\ length (s_tasks s1) = 1%nat
  /\ run p evs2 s1 = EOk (s2, os)
  /\ on_link 1 0 s2 /\ sent 1 s2 /\ awaits_credit 0 0 s2
  /\ map (fun x => blen (body_of x)) (transfers (s_out s2)) = [4].
Proof.
  set (e1 := sender_link ++ send_event 0 0 (bytes_of 3)). set (e2 := credit_event 1 0 1 ++ send_event 0 1 (bytes_of 4) ++ [EvPollSend 0%nat]).
  exists Debug, e1, e2, (result Debug e1 (start 512 10)), (result Debug e2 (result Debug e1 (start 512 10))),
    (observed Debug e2 (result Debug e1 (start 512 10))). split; [apply runs_reachable; vm_compute; reflexivity|]. split; [reflexivity|].
  split; [do 3 eexists; split; [vm_compute; reflexivity|]; split; [reflexivity|]; split; [reflexivity|vm_compute; reflexivity]|].
  split; [vm_compute; reflexivity|]. split; [apply runs_ok; vm_compute; reflexivity|].
  split; [eexists; split; [vm_compute; reflexivity|reflexivity]|].
  split; [do 2 eexists; split; [vm_compute; reflexivity|]; eexists; split; [reflexivity|vm_compute; reflexivity]|].
  split; [do 3 eexists; split; [vm_compute; reflexivity|]; split; [reflexivity|]; split; [reflexivity|vm_compute; reflexivity]|].
  vm_compute. reflexivity.
Qed.
Print Assumptions C76_overtaken_refuted.
(** The same for the window of the session, with credit enough for both: the one
    that waited is transmitted second. *)
Theorem C76_overtaken_window_refuted : exists p evs1 evs2 s1 s2 os,
  reachable p s1 /\ s1 = result p evs1 (start 512 0) /\ awaits_window 0 0 s1 /\ length (s_tasks s1) = 1%nat
  /\ run p evs2 s1 = EOk (s2, os) /\ sent 0 s2 /\ sent 1 s2 /\ on_link 1 0 s2
  /\ map (fun x => blen (body_of x)) (transfers (s_out s2)) = [4; 3].
Proof.
  set (e1 := sender_link ++ [EvFrame (FFlow (mk_flow (Some 1) 0 1 100 (Some 0) (Some 0) (Some 5) None false false None)); EvCtlOk 1 same_frame]
                  ++ send_event 0 0 (bytes_of 3)).
  set (e2 := [EvFrame (FFlow (flow_session (Some 1) 10))] ++ send_event 0 1 (bytes_of 4) ++ [EvPollSend 0%nat]).
  exists Debug, e1, e2, (result Debug e1 (start 512 0)), (result Debug e2 (result Debug e1 (start 512 0))),
    (observed Debug e2 (result Debug e1 (start 512 0))). split; [apply runs_reachable; vm_compute; reflexivity|]. split; [reflexivity|].
  split; [do 3 eexists; split; [vm_compute; reflexivity|]; split; [reflexivity|]; split; [reflexivity|vm_compute; reflexivity]|].
  split; [vm_compute; reflexivity|]. split; [apply runs_ok; vm_compute; reflexivity|].
  split; [do 2 eexists; split; [vm_compute; reflexivity|]; eexists; split; [reflexivity|vm_compute; reflexivity]|].
  split; [do 2 eexists; split; [vm_compute; reflexivity|]; eexists; split; [reflexivity|vm_compute; reflexivity]|].
  split; [eexists; split; [vm_compute; reflexivity|reflexivity]|].
  vm_compute. reflexivity.
Qed.
Print Assumptions C76_overtaken_window_refuted.
