(** * Theorems about sends that can proceed: C77

    Vocabulary: [SpecRelease.v], [SpecOrder.v], [SpecProgress.v]. *)

From Coq Require Import Strings.String.
From Verif Require Import Base SpecProgress Scenario Starve.
Import ListNotations.

(** ** C77 *)
(** No wake-up is lost: a send that sleeps lacks what it sleeps for, at every
    moment of every history. *)
Theorem C77_asleep : forall p s t, reachable p s -> asleep t s ->
  exists a, on_link t a s /\ ((awaits_credit t a s /\ link_credit a s 0) \/ (awaits_window t a s /\ ~ window_open s)).
Proof. exact none_asleep. Qed.
Print Assumptions C77_asleep.
(** Polled when its link has credit and the window is open, a send completes at
    once, in whatever state it was; and it is transmitted unless the link has
    ended or the body is too large. *)
Theorem C77_completes : forall p s t a n, reachable p s -> alive t s -> on_link t a s ->
  link_credit a s n -> 0 < n -> window_open s ->
  exists s' os r, step p (EvPollSend t) s = EOk (s', os) /\ send_result t s' r
    /\ (unrefused t a s -> exists i, r = inl i).
Proof. exact poll_completes. Qed.
Print Assumptions C77_completes.

(** Three sends: one has taken the only credit and waits for the window, one waits
    for credit and one is new.  Window and credit come: the first has been woken,
    and completes; then the second; the third as well. *)
Definition C77_events : list ev :=
  sender_link ++ [EvFrame (FFlow (mk_flow (Some 1) 0 1 100 (Some 0) (Some 0) (Some 1) None false false None)); EvCtlOk 1 same_frame]
  ++ send_event 0 0 (bytes_of 3) ++ send_event 0 1 (bytes_of 4) ++ [EvSend 0 (bytes_of 5) None false None].
Example C77_case :
  let s := result Debug C77_events (start 512 10) in
  let s1 := result Debug (credit_event 2 1 2) s in
  reachable Debug s /\ asleep 0 s /\ asleep 1 s /\ link_credit 0 s 0 /\ ~ window_open s
  /\ runs Debug (credit_event 2 1 2) s = true
  /\ link_credit 0 s1 2 /\ window_open s1
  /\ (alive 0 s1 /\ on_link 0 0 s1 /\ unrefused 0 0 s1) /\ (alive 1 s1 /\ on_link 1 0 s1 /\ unrefused 1 0 s1)
  /\ (alive 2 s1 /\ on_link 2 0 s1 /\ unrefused 2 0 s1)
  /\ map (fun x => blen (body_of x)) (transfers (s_out (result Debug (map EvPollSend [0; 2; 1]%nat) s1))) = [3; 5; 4].
Proof.
  cbn zeta. split; [apply runs_reachable; vm_compute; reflexivity|].
  split; [exists 0%nat; right; do 3 eexists; split; [vm_compute; reflexivity|]; split; [reflexivity|]; split; [reflexivity|vm_compute; reflexivity]|].
  split; [exists 0%nat; left; do 3 eexists; split; [vm_compute; reflexivity|]; split; [reflexivity|]; split; [reflexivity|vm_compute; reflexivity]|].
  split; [eexists; split; [vm_compute; reflexivity|reflexivity]|].
  split; [intros H; vm_compute in H; discriminate H|].
  split; [vm_compute; reflexivity|].
  split; [eexists; split; [vm_compute; reflexivity|reflexivity]|].
  split; [vm_compute; reflexivity|].
  split; [split; [eexists; split; [vm_compute; reflexivity|discriminate]|]; split; [eexists; split; [vm_compute; reflexivity|reflexivity]|];
          do 2 eexists; split; [vm_compute; reflexivity|]; split; [reflexivity|]; split; [vm_compute; reflexivity|vm_compute; reflexivity]|].
  split; [split; [eexists; split; [vm_compute; reflexivity|discriminate]|]; split; [eexists; split; [vm_compute; reflexivity|reflexivity]|];
          do 2 eexists; split; [vm_compute; reflexivity|]; split; [reflexivity|]; split; [vm_compute; reflexivity|vm_compute; reflexivity]|].
  split; [split; [eexists; split; [vm_compute; reflexivity|discriminate]|]; split; [eexists; split; [vm_compute; reflexivity|reflexivity]|];
          do 2 eexists; split; [vm_compute; reflexivity|]; split; [reflexivity|]; split; [vm_compute; reflexivity|];
          split; [reflexivity|]; split; [reflexivity|]; intros m H; discriminate H|].
  vm_compute. reflexivity.
Qed.

(** But credit that comes again and again does not bring every send through, even
    if each is polled after each grant: for every number there is a history in
    which that many sends, all made after the first, have been transmitted on its
    link, and it still waits. *)
Theorem C77_starved_refuted : forall n, exists evs s os ts,
  run Debug evs (start 512 10) = EOk (s, os) /\ overtaken ts s /\ length ts = n.
Proof. exact starved. Qed.
Print Assumptions C77_starved_refuted.
