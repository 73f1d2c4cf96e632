(** * Theorems about messages from one application to the other: C72

    Vocabulary: [SpecLoad.v]. *)

From Coq Require Import Strings.String.
From Verif Require Import Base SpecProtocol Framing SpecFraming SpecSession SpecReceive SpecEndToEnd SpecLoad Scenario.
From Verif Require Import MessageOps ProtocolTheorems RecvRun WakeProofs MessageProofs EndToEndProofs LoadProofs.
Import ListNotations.

(** ** C72 *)
(** Let any part [fs] of what a session has sent reach the peer, in any pieces, and
    let the transfers of the link with handle [h] that the peer has read reach its
    receiver link [a].  Then what the peer's application reads from what it was handed
    is what was sent, in the order of the wire: [load_message] gives the message,
    [get_body] the bytes. *)
Theorem C72_messages_partial : forall p q s h, reachable p s ->
  (forall t tk, nth_error (s_tasks s) t = Some tk -> honest (tk_body tk)) ->
  forall fs unsent channel max chunks rest, s_out s = fs ++ unsent -> Forall (carried channel max) fs -> blen rest < 8 ->
  concat chunks = written channel fs ++ rest ->
  forall a evs id local rch mfs b r os later, let r0 := ses_new id local rch mfs b in
  run q evs r0 = EOk (r, os) -> grants_fit evs -> links_opened evs <= 2 ^ 32 ->
  on_handle h (read_transfers q max chunks) = arrivals q a evs r0 ++ later ->
  exists sends, NoDup sends /\ (forall t, In t sends <-> sent_over s h t) /\ wire_order s h sends
    /\ Forall2 (reads_as q s) (handed a os) (firstn (length (handed a os)) sends).
Proof.
  intros p q s h R HO fs unsent channel max chunks rest EO CA BR EC a evs id local rch mfs b r os later r0 RN GF LO AR.
  destruct (end_to_end p q s h R HO fs unsent channel max chunks rest EO CA BR EC a evs id local rch mfs b r os RN GF LO later AR)
    as [sends [ND [I [W [F _]]]]].
  exists sends. split; [exact ND|]. split; [exact I|]. split; [exact W|].
  assert (PL : Forall (fun x => plain (snd x)) (handed a os)).
  { apply (handed_plain q a evs id local rch mfs b r os RN LO). fold r0. rewrite (read_back q max channel chunks fs rest CA BR EC), on_handle_rcvd in AR.
    assert (X : Forall plain (arrivals q a evs r0 ++ later)) by (rewrite <- AR; apply Forall_map, Forall_forall; intros; apply rcvd_plain).
    apply Forall_app in X. apply X. }
  revert F PL. generalize (firstn (length (handed a os)) sends), (handed a os). clear. intros ts0 xs0 F. induction F as [|x t xs ts S F IH]; intros PL; [constructor|].
  inversion PL as [|? ? Px PL']; subst. constructor; [|exact (IH PL')].
  destruct S as (tk & d & e & SD & _ & B & _ & _ & _ & MF). exists tk, d. split; [exact SD|]. split; [exact MF|].
  destruct (tk_body tk) as [bd|m]; cbn [tb_enc] in B.
  - intros NE. destruct (plain_body _ Px) as [G|[_ Z]]; [rewrite G, B; reflexivity|congruence].
  - intros SM L NE. split.
    + destruct (plain_body _ Px) as [G|[_ Z]]; [rewrite G, B; reflexivity|congruence].
    + rewrite plain_load by (try exact Px; congruence). rewrite B. apply message_round_trip; assumption.
Qed.
Print Assumptions C72_messages_partial.
(** A message without sections is written as no bytes at all, and a transfer without
    body does not load: what the peer's application gets is an error. *)
Definition C72_sender (m : message) : list ev := sender_link ++ credit_event 1 0 9 ++ send_event 0 0 (TBMessage m).
Definition C72_sent (m : message) : ses := result Debug (C72_sender m) (start 2100 100).
Definition C72_chunks (m : message) : list bytes := map (fun b => [b]) (written 3 (s_out (C72_sent m))).
Definition C72_receiver (m : message) : list ev :=
  receiver_link ++ map (fun t => EvFrame (FTransfer t)) (read_transfers Debug 2100 (C72_chunks m)) ++ [EvRecv 0 7].
Definition C72_handed (m : message) : list (nat * transfer_t) := handed 0 (observed Debug (C72_receiver m) (start 512 10)).
Theorem C72_empty_refuted : exists m x, sound_message m /\ honest (TBMessage m)
  /\ map tk_st (s_tasks (C72_sent m)) = [TDone (inl 0%nat)] /\ C72_handed m = [x] /\ load_message Debug (snd x) = Err UnexpectedType.
Proof.
  exists message0. eexists. split; [constructor; [unfold legal_parts; cbn; auto 10|constructor|left; reflexivity]|].
  split; [vm_compute; reflexivity|]. split; [vm_compute; reflexivity|]. split; [vm_compute; reflexivity|]. reflexivity.
Qed.
Print Assumptions C72_empty_refuted.
(** A message with a header, a property of the application and 120 bytes of data, in
    several frames. *)
Definition C72_message : message :=
  Msg (mk_parts (Some 7) (Some (mk_header true 4 None false 2)) None None None (Some [(str "k", VUint 300)]) None [repeat x61 120] [] None) [] 0.
Example C72_case : reachable Debug (C72_sent C72_message)
  /\ (forall t tk, nth_error (s_tasks (C72_sent C72_message)) t = Some tk -> honest (tk_body tk))
  /\ sound_message C72_message /\ blen (msg_enc C72_message) < 2 ^ 32
  /\ length (read_transfers Debug 2100 (C72_chunks C72_message)) = 3%nat
  /\ map (fun x => (load_message Debug (snd x), transfer_message_format (tr_head (snd x)))) (C72_handed C72_message)
     = [(Ok (received_message C72_message), Some 7)].
Proof.
  split; [apply runs_reachable; vm_compute; reflexivity|]. split.
  { intros [|t] tk H; vm_compute in H; [injection H as <-; vm_compute; reflexivity|]. destruct t; discriminate H. }
  split.
  { constructor; [|constructor|left; reflexivity]. unfold legal_parts. cbn [ms_header ms_delivery_annotations ms_message_annotations
      ms_properties ms_application_properties ms_footer ms_sequence ms_value optional].
    refine (conj _ (conj I (conj I (conj I (conj _ (conj I (conj (Forall_nil _) I))))))).
    - split; [reflexivity|]. split; [exact I|reflexivity].
    - repeat constructor; vm_compute; reflexivity. }
  split; [vm_compute; reflexivity|]. split; vm_compute; reflexivity.
Qed.
