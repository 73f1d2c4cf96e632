(** * Theorems about the way from one application to the other: C58

    Vocabulary: [SpecEndToEnd.v].  The sender's session, the codec, the bytes in
    any pieces, the peer's codec and the receiver's session are put together. *)

From Coq Require Import Strings.String.
From Verif Require Import Base SpecProtocol Framing SpecFraming SpecSession SpecReceive SpecEndToEnd Scenario.
From Verif Require Import MessageOps RecvRun WakeProofs EndToEndProofs.
Import ListNotations.

(** ** C58 *)
(** Let any part [fs] of what a session has sent reach the peer, in any pieces,
    and let the transfers of the link with handle [h] that the peer has read be
    those that reach its receiver link [a] (which may end early: [later]).  Then
    what the peer's application was handed on that link are the first of the
    sends that completed here, in the order of the wire, each once and with the
    same body, id, tag, settlement and message format.  Both sides do anything else meanwhile. *)
Theorem C58_end_to_end : forall p q s h, reachable p s ->
  (forall t tk, nth_error (s_tasks s) t = Some tk -> honest (tk_body tk)) ->
  forall fs unsent channel max chunks rest, s_out s = fs ++ unsent -> Forall (carried channel max) fs -> blen rest < 8 ->
  concat chunks = written channel fs ++ rest ->
  forall a evs id local rch mfs b r os later, let r0 := ses_new id local rch mfs b in
  run q evs r0 = EOk (r, os) -> grants_fit evs -> links_opened evs <= 2 ^ 32 ->
  on_handle h (read_transfers q max chunks) = arrivals q a evs r0 ++ later ->
  exists sends, NoDup sends /\ (forall t, In t sends <-> sent_over s h t) /\ wire_order s h sends
    /\ Forall2 (same_delivery s r) (handed a os) (firstn (length (handed a os)) sends).
Proof.
  intros p q s h R HO fs unsent channel max chunks rest EO CA BR EC a evs id local rch mfs b r os later r0 RN GF LO AR.
  destruct (end_to_end p q s h R HO fs unsent channel max chunks rest EO CA BR EC a evs id local rch mfs b r os RN GF LO later AR)
    as [sends [ND [I [W [F _]]]]].
  exists sends. auto.
Qed.
Print Assumptions C58_end_to_end.
(** And nothing is left out: when everything has arrived on the link, which is
    attached, and the application finds nothing more on it, it was handed all. *)
Theorem C58_all : forall p q s h, reachable p s ->
  (forall t tk, nth_error (s_tasks s) t = Some tk -> honest (tk_body tk)) ->
  forall channel max chunks rest, Forall (carried channel max) (s_out s) -> blen rest < 8 ->
  concat chunks = written channel (s_out s) ++ rest ->
  forall a evs e id local rch mfs b r1 r os o, let r0 := ses_new id local rch mfs b in
  run q evs r0 = EOk (r1, os) -> grants_fit evs -> links_opened evs <= 2 ^ 32 ->
  on_handle h (read_transfers q max chunks) = arrivals q a evs r0 ->
  step q e r1 = EOk (r, o) -> ((exists t, e = EvRecv a t) \/ e = EvGet a) -> handed a o = [] -> attached a r1 ->
  exists sends, NoDup sends /\ (forall t, In t sends <-> sent_over s h t) /\ wire_order s h sends
    /\ Forall2 (same_delivery s r1) (handed a os) sends.
Proof.
  intros p q s h R HO channel max chunks rest CA BR EC a evs e id local rch mfs b r1 r os o r0 RN GF LO AR ST EE HN AT.
  assert (EO : s_out s = s_out s ++ []) by (rewrite app_nil_r; reflexivity).
  assert (AR' : on_handle h (read_transfers q max chunks) = arrivals q a evs r0 ++ []) by (rewrite app_nil_r; exact AR).
  destruct (end_to_end p q s h R HO (s_out s) [] channel max chunks rest EO CA BR EC a evs id local rch mfs b r1 os RN GF LO [] AR')
    as [sends [ND [I [W [F L]]]]].
  exists sends. split; [exact ND|]. split; [exact I|]. split; [exact W|].
  assert (NA : Forall (fun t => says_abort t = false) (arrivals q a evs r0)).
  { exact (arrivals_whole p q s h R (s_out s) [] channel max chunks rest EO CA BR EC a evs id local rch mfs b [] AR'). }
  pose proof (all_handed q a evs e id local rch mfs b r1 os r o _ RN ST GF LO eq_refl NA EE HN AT) as A.
  rewrite A, (L eq_refl eq_refl), firstn_all in F. exact F.
Qed.
Print Assumptions C58_all.
(** Two deliveries, the first in three frames, on a link of one session, read by
    the peer byte by byte, and a receiver that is handed both. *)
Definition C58_sender : list ev := sender_link ++ credit_event 1 0 9 ++ send_event 0 0 (bytes_of 120) ++ send_event 0 1 (bytes_of 10).
Definition C58_sent : ses := result Debug C58_sender (start 2100 100).
Definition C58_chunks : list bytes := map (fun b => [b]) (written 3 (s_out C58_sent)).
Definition C58_receiver : list ev :=
  receiver_link ++ map (fun t => EvFrame (FTransfer t)) (read_transfers Debug 2100 C58_chunks) ++ [EvRecv 0 7; EvRecv 0 7].
Example C58_case : let r := result Debug C58_receiver (start 512 10) in let os := observed Debug C58_receiver (start 512 10) in
  reachable Debug C58_sent /\ (forall t tk, nth_error (s_tasks C58_sent) t = Some tk -> honest (tk_body tk))
  /\ Forall (carried 3 2100) (s_out C58_sent) /\ concat C58_chunks = written 3 (s_out C58_sent)
  /\ runs Debug C58_receiver (start 512 10) = true /\ grants_fit C58_receiver /\ links_opened C58_receiver <= 2 ^ 32
  /\ on_handle 0 (read_transfers Debug 2100 C58_chunks) = arrivals Debug 0 C58_receiver (start 512 10)
  /\ length (read_transfers Debug 2100 C58_chunks) = 4%nat
  /\ handed 0 (observed Debug [EvGet 0] r) = [] /\ attached 0 r
  /\ map (fun x => blen (body_of (snd x))) (handed 0 os) = [120; 10].
Proof.
  cbn zeta. split; [apply runs_reachable; vm_compute; reflexivity|]. split.
  { intros [|[|t]] tk H; vm_compute in H; [injection H as <-; reflexivity|injection H as <-; reflexivity|].
    destruct t; discriminate H. }
  split.
  { match goal with |- Forall _ ?l => let v := eval vm_compute in l in assert (E : l = v) by (vm_compute; reflexivity); rewrite E end.
    repeat apply Forall_cons; try apply Forall_nil; (split; [|right; vm_compute; discriminate]); (split; [vm_compute; reflexivity|]);
      (split; [|vm_compute; reflexivity]); cbn [fr_body legal_frame]; idtac.
    all: unfold legal_attach, legal_flow, legal_transfer; cbn. all: repeat split; try exact I; try (apply sound_data); vm_compute; reflexivity. }
  split.
  { assert (H : forall l : bytes, concat (map (fun b => [b]) l) = l)
      by (induction l as [|a l IH]; [reflexivity|cbn; rewrite IH; reflexivity]).
    apply H. }
  repeat match goal with |- _ /\ _ => split end; try match goal with |- _ = _ => vm_compute; reflexivity end.
  - unfold grants_fit, C58_receiver. apply Forall_app. split; [repeat constructor|]. apply Forall_app.
    split; [apply Forall_map, Forall_forall; intros; exact I|repeat constructor].
  - vm_compute. discriminate.
  - exists 0. vm_compute. reflexivity.
Qed.
