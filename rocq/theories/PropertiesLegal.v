(** * What a session sends can be read: C75

    Vocabulary: [SpecLegal.v], [SpecProtocol.v], [SpecFraming.v]. *)

From Coq Require Import Strings.String.
From Verif Require Import Base Spec SpecProtocol Framing SpecFraming StreamProofs SpecLegal SpecEndToEnd SessionFrame Legal Scenario.
Import ListNotations.

Ltac lit := repeat match goal with |- _ /\ _ => split end; vm_compute; reflexivity.

Lemma legal_received f : legal_frame f -> legal_frame (received_frame f).
Proof.
  intros L. destruct f; try exact L. destruct L as [L _]. split; [exact L|]. cbn [tr_body]. destruct (tr_body x) as [b|]; [|exact I].
  cbn [received_body]. destruct (tb_enc b); [exact I|constructor].
Qed.
Lemma legal_fits channel max fs : unsigned 16 channel -> Forall legal_frame fs -> Forall (fits channel max) fs -> Forall (carried channel max) fs.
Proof.
  intros C L F. rewrite Forall_forall in *. intros f I0. destruct (F f I0) as [F1 F2]. split; [|exact F2]. split; [exact C|]. split; [exact (L f I0)|exact F1].
Qed.

(** ** C75 *)
(** Whatever the peer, the application and the control service do, if what they hand
    to the session has a faithful wire form then so has every frame it sends: *)
Theorem C75_legal : forall p id local rc mfs b evs s os, legal_begin b -> Forall legal_event evs ->
  run p evs (ses_new id local rc mfs b) = EOk (s, os) -> Forall legal_frame (s_out s).
Proof. intros p id local rc mfs b evs s os B E R. exact (ls_out _ (LS_run p evs _ s os (LS_new id local rc mfs b B) E R)). Qed.
Print Assumptions C75_legal.
(** a peer that gets the bytes of any part of them, in any pieces, reads those very
    frames, in this order, and nothing else. *)
Theorem C75_read : forall p q id local rc mfs b evs s os, legal_begin b -> Forall legal_event evs ->
  run p evs (ses_new id local rc mfs b) = EOk (s, os) ->
  forall fs unsent channel max chunks rest, s_out s = fs ++ unsent -> unsigned 16 channel -> Forall (fits channel max) fs -> blen rest < 8 ->
  concat chunks = written channel fs ++ rest ->
  read_frames q max chunks = map received_frame fs.
Proof.
  intros p q id local rc mfs b evs s os B E R fs unsent channel max chunks rest O C F BR EC.
  pose proof (C75_legal p id local rc mfs b evs s os B E R) as L. rewrite O in L. apply Forall_app in L as [L _].
  pose proof (legal_fits channel max fs C L F) as CA. unfold read_frames.
  rewrite (amqp_stream q max (map (mk_frame channel) fs) rest chunks).
  - cbn [rd_frames]. rewrite !map_map. reflexivity.
  - apply Forall_map. revert CA. apply Forall_impl. intros f [H _]. exact H.
  - apply Forall_map. revert CA. apply Forall_impl. intros f [_ H]. exact H.
  - exact BR.
  - rewrite EC. f_equal. unfold written. clear. induction fs as [|f fs IH]; [reflexivity|]. cbn [map flat_map]. rewrite <- IH. reflexivity.
Qed.
Print Assumptions C75_read.
(** Two sessions that talk to each other never send anything else: what the one reads
    is faithful again, so only the two applications have to keep to it. *)
Theorem C75_both : forall p q s r, talk p q s r -> Forall legal_frame (s_out s) /\ Forall legal_frame (s_out r).
Proof.
  intros p q s r T. assert (X : LS s /\ LS r); [|split; apply X].
  assert (G : forall out e, Forall legal_frame out -> comes_from out e -> legal_event e).
  { intros out e F C. rewrite Forall_forall in F. destruct e; try exact C.
    - destruct C as (g & I0 & ->). apply legal_received. exact (F g I0).
    - exact (F _ C). }
  induction T as [id local rc mfs b id' local' rc' mfs' b' B B'|s r e s' os T [L R] C S|s r e r' os T [L R] C S].
  - split; apply LS_new; assumption.
  - split; [|exact R]. exact (LS_step p e s s' os L (G _ e (ls_out _ R) C) S).
  - split; [exact L|]. exact (LS_step q e r r' os R (G _ e (ls_out _ L) C) S).
Qed.
Print Assumptions C75_both.

(** The proviso is needed, and the peer can break it: an attach whose source has a
    property described by the number 0, in the short form that the codec reads but
    never writes (C08), is read; it is answered with that source; a peer that uses this
    library cannot read the answer, and its reader fails. *)
Definition asks_zero : bytes :=
  set_nth 55 x00 (enc_amqp_frame (mk_frame 0 (FAttach (mk_attach (str "in") 0 RoleReceiver SenderMixed ReceiverFirst
    (Some (mk_source None TerminusDurabilityNone ExpirySessionEnd 0 false (Some [(str "k", VDescribed (DUlong 1) VNull)]) None None None None None))
    None None false None None None None None)))).
Definition asked_zero : attach_t :=
  mk_attach (str "in") 0 RoleReceiver SenderMixed ReceiverFirst
    (Some (mk_source None TerminusDurabilityNone ExpirySessionEnd 0 false (Some [(str "k", VDescribed (DUlong 0) VNull)]) None None None None None))
    None None false None None None None None.
Theorem C75_echo_refuted : forall p q, exists s os,
  read_frames p 0 [asks_zero] = [FAttach asked_zero]
  /\ run p [EvAttach asked_zero; EvCtlOk 0 same_frame] (start 0 10) = EOk (s, os)
  /\ (exists answer, s_out s = [FAttach answer] /\ attach_source answer = attach_source asked_zero)
  /\ read_frames q 0 [written 0 (s_out s)] = []
  /\ rd_error (read_all (dec_amqp_frame q) 0 [written 0 (s_out s)]) = Some (ParseError (InvalidFormatCode x44)).
Proof.
  intros p q. exists (result p [EvAttach asked_zero; EvCtlOk 0 same_frame] (start 0 10)), (observed p [EvAttach asked_zero; EvCtlOk 0 same_frame] (start 0 10)).
  split; [destruct p; vm_compute; reflexivity|]. split; [apply runs_ok; destruct p; vm_compute; reflexivity|].
  split; [|split; destruct p, q; vm_compute; reflexivity].
  exists (match s_out (result p [EvAttach asked_zero; EvCtlOk 0 same_frame] (start 0 10)) with FAttach a :: _ => a | _ => asked_zero end).
  split; destruct p; vm_compute; reflexivity.
Qed.
Print Assumptions C75_echo_refuted.

(** A session that attaches, sends a message in two frames, receives one, settles it,
    grants credit, echoes a flow, closes its links and ends. *)
Definition busy : list ev :=
  sender_link ++ credit_event 1 0 5 ++ [EvSend 0 (bytes_of 3000) (Some [x01]) false (Some 7); EvPollSend 0]
  ++ [EvAttach (attach_of (str "out") 1 RoleSender (Some 0)); EvCtlOk 2 same_frame; EvCtlOk 3 same_frame;
      EvFrame (FTransfer (mk_transfer_t (mk_transfer 1 (Some 9) (Some [x07]) None None false None None false false false) (Some (bytes_of 4))));
      EvSettle 1 (DSAccepted mk_accepted); EvCredit 0 10;
      EvFrame (FFlow (mk_flow (Some 1) 1000 1 100 None None None None false true None));
      EvCloseReceiver 0 (Some internal_error); EvCloseSender 0 None; EvEnd].
Ltac ev :=
  unfold legal_event, legal_frame, legal_attach, legal_flow, legal_transfer, legal_payload;
  repeat match goal with |- _ /\ _ => split end;
  first [exact I | reflexivity | exact (fun r H => H) | exact (sound_data _) | exact (proj2 legal_internal) | exact legal_internal | idtac].
Example C75_case :
  legal_begin (begin_of 10) /\ Forall legal_event busy
  /\ (let s := result Release busy (start 4000 10) in
      runs Release busy (start 4000 10) = true
      /\ map (fun f => match f with FAttach _ => 1 | FFlow _ => 2 | FTransfer _ => 3 | FDisposition _ => 4 | FDetach _ => 5 | FEnd _ => 6 | _ => 0 end) (s_out s)
         = [1; 3; 3; 1; 2; 4; 2; 2; 5; 5; 6]
      /\ Forall (fits 0 4000) (s_out s)).
Proof.
  split; [|split; [|cbv zeta; split; [|split]]].
  - unfold legal_begin. cbn. repeat split.
  - unfold busy, sender_link, credit_event. cbn [app]. repeat (apply Forall_cons; [ev|]). apply Forall_nil.
  - vm_compute. reflexivity.
  - vm_compute. reflexivity.
  - apply Forall_forall. intros f I0.
    assert (Q : forallb (fun f => blen (enc_amqp_frame (mk_frame 0 f)) <=? 4000) (s_out (result Release busy (start 4000 10))) = true) by (vm_compute; reflexivity).
    rewrite forallb_forall in Q. specialize (Q f I0). apply N.leb_le in Q. split; [|right; exact Q]. eapply N.le_lt_trans; [exact Q|reflexivity].
Qed.
(** Two sessions: the left one attaches a link to the right one, which accepts, and
    gets the answer. *)
Definition opens : ev := EvAttachSender (attach_of (str "l") 0 RoleSender (Some 0)).
Definition left1 : ses := result Debug [opens] (start 0 10).
Definition right1 : ses := result Debug [EvAttach (attach_of (str "l") 0 RoleSender (Some 0)); EvCtlOk 0 same_frame; EvCtlOk 1 same_frame] (start 0 10).
Definition answer_of : attach_t := match s_out right1 with FAttach a :: _ => a | _ => attach_of [] 0 RoleSender None end.
Definition left2 : ses := result Debug [EvAttach answer_of] left1.
Lemma talk_run p q evs s s' r os : Forall (comes_from (s_out r)) evs -> run p evs s = EOk (s', os) -> talk p q s r -> talk p q s' r.
Proof.
  intros F R. revert s os F R. induction evs as [|e evs IH]; intros s os F R T; cbn [run] in R.
  - apply EOk_inj in R. apply pair_equal_spec in R as [<- _]. exact T.
  - inversion F; subst. destruct (step p e s) as [[s1 o1]|] eqn:E1; cbn [ebind] in R; [|discriminate R].
    destruct (run p evs s1) as [[s2 o2]|] eqn:E2; cbn [ebind] in R; [|discriminate R]. apply EOk_inj in R. apply pair_equal_spec in R as [<- _].
    eapply IH; [eassumption|exact E2|]. eapply talk_left; [exact T|eassumption|exact E1].
Qed.
Lemma talk_swap p q s r : talk p q s r -> talk q p r s.
Proof. intros T. induction T; [apply talk_start; assumption|eapply talk_right; eassumption|eapply talk_left; eassumption]. Qed.
Lemma talk_result p q evs s r : Forall (comes_from (s_out r)) evs -> runs p evs s = true -> talk p q s r -> talk p q (result p evs s) r.
Proof. intros F R T. exact (talk_run p q evs s _ r _ F (runs_ok p evs s R) T). Qed.
Example C75_talk_case : talk Debug Debug left2 right1 /\ length (s_out left2) = 1%nat /\ length (s_out right1) = 2%nat
  /\ length (s_snds left2) = 1%nat.
Proof.
  split; [|lit].
  assert (B : legal_begin (begin_of 10)) by (unfold legal_begin; cbn; repeat split).
  assert (T1 : talk Debug Debug left1 (start 0 10)).
  { unfold left1. apply talk_result; [|vm_compute; reflexivity|apply talk_start; exact B].
    apply Forall_cons; [|apply Forall_nil]. unfold opens, comes_from. ev. }
  assert (O1 : s_out left1 = [FAttach (attach_of (str "l") 0 RoleSender (Some 0))]) by (vm_compute; reflexivity).
  assert (T2 : talk Debug Debug left1 right1).
  { apply talk_swap. apply talk_swap in T1. unfold right1. apply talk_result; [|vm_compute; reflexivity|exact T1]. rewrite O1.
    apply Forall_cons; [left; reflexivity|]. apply Forall_cons; [exact (fun r H => H)|]. apply Forall_cons; [exact (fun r H => H)|]. apply Forall_nil. }
  assert (O2 : exists l, s_out right1 = FAttach answer_of :: l) by (eexists; vm_compute; reflexivity).
  unfold left2. apply talk_result; [|vm_compute; reflexivity|exact T2]. destruct O2 as [l ->].
  apply Forall_cons; [left; reflexivity|apply Forall_nil].
Qed.
