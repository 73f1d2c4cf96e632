(** * Theorems about the services of links: C82

    Vocabulary: [SpecTold.v], [SpecReceive.v], [SpecPanic.v]. *)

From Coq Require Import Strings.String ZifyBool ZifyNat ZifyN.
From Verif Require Import Base SpecTold SpecReceive Scenario ToldProofs.
Import ListNotations.

(** ** C82 *)
(** A transfer frame arrives on an attached receiver link.  If it is the last of
    its delivery and the link takes it (and so stays attached, see C70), the publish service of the
    link is called, once; otherwise no publish service is called. *)
Theorem C82_told : forall p evs id local rch mfs b s os a t s' os', run p evs (ses_new id local rch mfs b) = EOk (s, os) -> links_opened evs <= 2 ^ 32 ->
  arrival a (EvFrame (FTransfer t)) s = [t] -> step p (EvFrame (FTransfer t)) s = EOk (s', os') ->
  (says_more t = false /\ attached a s' /\ s_ctl s' = s_ctl s ++ [Some (KTransfer a)])
  \/ ((says_more t = true \/ ~ attached a s') /\ forall i c, called i (KTransfer c) s' -> called i (KTransfer c) s).
Proof. exact told. Qed.
Print Assumptions C82_told.
(** No other event calls it. *)
Theorem C82_only : forall p e s s' os, step p e s = EOk (s', os) -> (forall a, arrival a e s = []) ->
  forall i a, called i (KTransfer a) s' -> called i (KTransfer a) s.
Proof. exact step_ktr. Qed.
Print Assumptions C82_only.
(** The service fails: if its link is still attached and not closed here, the link is closed
    and the peer gets one detach frame with the error of the service. *)
Theorem C82_failed : forall p evs id local rch mfs b s os i k x e s' os', run p evs (ses_new id local rch mfs b) = EOk (s, os) -> links_opened evs <= 2 ^ 32 ->
  called i k s -> serves k x -> is_open x s -> ~ says_closed x s -> step p (EvCtlErr i e) s = EOk (s', os') ->
  exists h, own_handle x s h /\ s_out s' = s_out s ++ [FDetach (mk_detach h true (Some e))] /\ says_closed x s'.
Proof. exact failed. Qed.
Print Assumptions C82_failed.

(** A delivery of two frames arrives, the service is called and fails.  The
    same for the flow frame that gives credit to a sender link. *)
Definition C82_first : list ev := receiver_link ++ [arrives (Some 1) true 4].
Definition C82_last : ev := arrives None false 3.
Definition C82_flow : list ev := sender_link ++ [EvFrame (FFlow (mk_flow (Some 1) 50 1 100 (Some 0) (Some 0) (Some 5) None false false None))].
Example C82_case : let s := result Debug C82_first (start 512 10) in let s' := result Debug [C82_last] s in let f := result Debug C82_flow (start 512 10) in
  (exists t, C82_last = EvFrame (FTransfer t) /\ arrival 0 C82_last s = [t] /\ says_more t = false)
  /\ attached 0 s' /\ ~ says_closed (LReceiver 0) s' /\ called (length (s_ctl s)) (KTransfer 0) s'
  /\ (forall i, ~ called i (KTransfer 0) s)
  /\ (exists i g, called i (KFlow g 0) f) /\ is_open (LSender 0) f /\ ~ says_closed (LSender 0) f.
Proof.
  cbv zeta. split; [eexists; split; [reflexivity|]; split; vm_compute; reflexivity|].
  split; [exists 0; vm_compute; reflexivity|]. split; [intros (l & H & C); vm_compute in H; injection H as <-; discriminate C|].
  split; [vm_compute; reflexivity|].
  split; [intros i H; unfold called in H; vm_compute in H; repeat (destruct i as [|i]; [discriminate H|]; cbn in H); destruct i; discriminate H|].
  split; [|split; [exists 0; vm_compute; reflexivity | intros (l & H & C); vm_compute in H; injection H as <-; discriminate C]].
  exists (length (s_ctl (result Debug sender_link (start 512 10)))). eexists. vm_compute. reflexivity.
Qed.
