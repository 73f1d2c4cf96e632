(** * Theorems about what is asked of the peer: C64

    Vocabulary: [SpecBuilders.v] (and [SpecHandles.v], [SpecLookup.v],
    [SpecProtocol.v]).  Model: [Builders.v]. *)

From Coq Require Import Strings.String.
From Coq Require Import List NArith Lia.
From Verif Require Import Base SpecBuilders Scenario BuilderProofs ErrorProofs HandleTheorems ProtocolTheorems.
Import ListNotations.
Local Open Scope N_scope.

Ltac lit := repeat match goal with |- _ /\ _ => split end; vm_compute; reflexivity.

(** ** C64 *)
(** A sender link is built for an address and attached: one attach frame is sent,
    the peer reads it as it was written, and it says what was asked for and nothing
    else.  The largest message is what the last call said, or 256 KiB. *)
Theorem C64_sender : forall p name address calls s s' os,
  text name -> text address -> Forall plain_sender_call calls ->
  step p (EvAttachSender (build_sender name address calls)) s = EOk (s', os) ->
  exists a, s_out s' = s_out s ++ [FAttach a] /\ arrives_whole (FAttach a)
  /\ attach_name a = name /\ attach_role a = RoleSender /\ attach_handle a = as_u32 (slab_key (s_links s))
  /\ attach_target a = Some (plain_target address) /\ attach_source a = None
  /\ attach_max_message_size a = Some (match latest sender_size calls with Some n => n | None => 256 * 1024 end)
  /\ attach_snd_settle_mode a = SenderMixed /\ attach_rcv_settle_mode a = ReceiverFirst
  /\ attach_unsettled a = None /\ attach_incomplete_unsettled a = false /\ attach_initial_delivery_count a = None
  /\ attach_offered_capabilities a = None /\ attach_desired_capabilities a = None /\ attach_properties a = None.
Proof.
  intros p name address calls s s' os Tn Ta Pc H. rewrite (sender_built name address calls Pc) in H.
  assert (Ls := sender_size_legal calls Pc). change (256 * 1024) with 262144.
  set (n := match latest sender_size calls with Some n => n | None => 262144 end) in *. clearbody n.
  cbn [step] in H. apply (f_equal (fun r => match r with EOk (s, _) => Some s | _ => None end)) in H.
  injection H as <-. unfold attach_local_sender, new_chan, insert_link. cbv zeta beta iota. cbn [snd].
  eexists. split; [rewrite post_out; reflexivity|]. split.
  - apply legal_arrives; [discriminate|]. cbn [legal_frame set_handle]. unfold legal_attach.
    cbn [attach_name attach_handle attach_source attach_target attach_unsettled attach_initial_delivery_count
      attach_max_message_size attach_offered_capabilities attach_desired_capabilities attach_properties optional].
    repeat match goal with |- _ /\ _ => split end; try exact I; auto.
    + unfold unsigned, as_u32. apply N.mod_lt. discriminate.
    + unfold legal_target, plain_target. cbn. repeat match goal with |- _ /\ _ => split end; auto. reflexivity.
  - cbn. repeat match goal with |- _ /\ _ => split end; reflexivity.
Qed.
Print Assumptions C64_sender.

(** The same for a receiver link, with capabilities and properties: the last call
    for a key decides, a property that was reset is absent. *)
Theorem C64_receiver : forall p name address calls, text name -> text address -> Forall plain_receiver_call calls ->
  exists frm, build_receiver name address calls = Some frm /\ forall s s' os,
  step p (EvAttachReceiver frm) s = EOk (s', os) ->
  exists a, s_out s' = s_out s ++ [FAttach a] /\ arrives_whole (FAttach a)
  /\ attach_name a = name /\ attach_role a = RoleReceiver /\ own_handle (LReceiver (length (s_rcvs s))) s' (attach_handle a)
  /\ attach_source a = Some (plain_source address (latest receiver_caps calls)) /\ attach_target a = None
  /\ attach_max_message_size a = Some (match latest receiver_size calls with Some n => n | None => 256 * 1024 end)
  /\ (forall k v, has_entry k (attach_properties a) v <-> latest (receiver_property k) calls = Some (Some v))
  /\ attach_snd_settle_mode a = SenderMixed /\ attach_rcv_settle_mode a = ReceiverFirst
  /\ attach_unsettled a = None /\ attach_incomplete_unsettled a = false /\ attach_initial_delivery_count a = None
  /\ attach_offered_capabilities a = None /\ attach_desired_capabilities a = None.
Proof.
  intros p name address calls Tn Ta Pc. destruct (receiver_built name address calls Pc) as (props & B & Lp & E & Lc & Ls).
  change (256 * 1024) with 262144. set (n := match latest receiver_size calls with Some n => n | None => 262144 end) in *. clearbody n.
  eexists. split; [exact B|]. intros s s' os H.
  cbn [step] in H. apply (f_equal (fun r => match r with EOk (s, _) => Some s | _ => None end)) in H.
  injection H as <-. unfold attach_local_receiver, new_chan, insert_link. cbv zeta beta iota. cbn [snd].
  eexists. split; [rewrite post_out; reflexivity|]. split.
  - apply legal_arrives; [discriminate|]. cbn [legal_frame set_handle]. unfold legal_attach.
    cbn [attach_name attach_handle attach_source attach_target attach_unsettled attach_initial_delivery_count
      attach_max_message_size attach_offered_capabilities attach_desired_capabilities attach_properties optional].
    repeat match goal with |- _ /\ _ => split end; try exact I; auto.
    + unfold unsigned, as_u32. apply N.mod_lt. discriminate.
    + unfold legal_source, plain_source. cbn. repeat match goal with |- _ /\ _ => split end; auto. reflexivity.
  - cbn [set_handle attach_name attach_role attach_handle attach_source attach_target attach_max_message_size attach_properties
      attach_snd_settle_mode attach_rcv_settle_mode attach_unsettled attach_incomplete_unsettled attach_initial_delivery_count
      attach_offered_capabilities attach_desired_capabilities].
    repeat match goal with |- _ /\ _ => split end; try reflexivity; [|exact E].
    eexists. split. { cbn -[as_u32 nth_error]. rewrite nth_error_app2 by lia. rewrite PeanoNat.Nat.sub_diag. reflexivity. } reflexivity.
Qed.
Print Assumptions C64_receiver.

(** A frame that the application edits by hand is sent as it is, with the handle of
    the link. *)
Theorem C64_edited : forall p frm s s' os e, e = EvAttachSender frm \/ e = EvAttachReceiver frm -> step p e s = EOk (s', os) ->
  exists h, s_out s' = s_out s ++ [FAttach (set_handle h frm)].
Proof.
  intros p frm s s' os e D H. exists (as_u32 (slab_key (s_links s))).
  destruct D as [-> | ->]; cbn [step] in H; apply (f_equal (fun r => match r with EOk (s, _) => Some s | _ => None end)) in H; injection H as <-; reflexivity.
Qed.
Print Assumptions C64_edited.
(** A builder whose frame was edited can panic: the source is removed, then
    capabilities are set. *)
Theorem C64_panic_refuted : exists edit caps,
  build_receiver (str "r") (str "q") [RCallFrame edit] <> None
  /\ build_receiver (str "r") (str "q") [RCallFrame edit; RCallCapabilities caps] = None.
Proof. exists (set_at_source None), []. split; [discriminate|reflexivity]. Qed.
Print Assumptions C64_panic_refuted.

(** A session is opened: the begin frame says what was asked for. *)
Theorem C64_session : forall p calls c c' os, Forall plain_session_call calls ->
  let r := build_session calls in
  cstep p (CvOpen (sr_offered r) (sr_desired r) (sr_props r)) c = EOk (c', os) ->
  c_error c = None -> slab_key (c_slots c) < c_chmax c ->
  exists b, c_out c' = c_out c ++ [(as_u16 (slab_key (c_slots c)), FBegin b)] /\ arrives_whole (FBegin b)
  /\ begin_offered_capabilities b = latest session_offered calls
  /\ begin_desired_capabilities b = latest session_desired calls
  /\ (forall k v, has_entry k (begin_properties b) v <-> latest (session_property k) calls = Some v)
  /\ begin_remote_channel b = None /\ begin_next_outgoing_id b = 1
  /\ begin_incoming_window b = 2 ^ 32 - 1 /\ begin_outgoing_window b = 2 ^ 32 - 1 /\ begin_handle_max b = 2 ^ 32 - 1.
Proof.
  intros p calls c c' os Pc r H Er Lt. destruct (session_built calls Pc) as (Eo & Ed & Lp & E & Lo & Ld). fold r in Eo, Ed, Lp, E, Lo, Ld.
  cbn [cstep] in H. apply (f_equal (fun r => match r with EOk (s, _) => Some s | _ => None end)) in H. injection H as <-.
  unfold open_session. rewrite Er. cbv zeta. destruct (N.leb_spec (c_chmax c) (slab_key (c_slots c))) as [X|_]; [lia|].
  eexists. split; [reflexivity|]. split; [|cbn; repeat match goal with |- _ /\ _ => split end; auto; try (vm_compute; reflexivity)].
  apply legal_arrives; [discriminate|]. cbn [legal_frame]. unfold legal_begin.
  cbn [begin_remote_channel begin_next_outgoing_id begin_incoming_window begin_outgoing_window begin_handle_max
    begin_offered_capabilities begin_desired_capabilities begin_properties optional].
  repeat match goal with |- _ /\ _ => split end; auto; vm_compute; reflexivity.
Qed.
Print Assumptions C64_session.

Definition sample_calls : list receiver_call :=
  [RCallProperty (str "a") (Some (VUint 1)); RCallCapabilities [str "queue"]; RCallProperty (str "b") (Some (VBool true));
   RCallMaxSize 1000; RCallProperty (str "a") None; RCallProperty (str "b") (Some (VString (str "x")))].
Lemma plain_value v : legal v -> wire_safe v -> legal_value v.
Proof. split; assumption. Qed.
Example C64_case : text (str "r") /\ text (str "queue") /\ Forall plain_receiver_call sample_calls
  /\ Forall plain_sender_call [SCallMaxSize 10]
  /\ Forall plain_session_call [CallOffered [str "x"]; CallProperty (str "k") (VUint 3)]
  /\ option_map attach_properties (build_receiver (str "r") (str "queue") sample_calls) = Some (Some [(str "b", VString (str "x"))])
  /\ latest (receiver_property (str "a")) sample_calls = Some None.
Proof.
  assert (T : forall s, text s -> legal_value (VString s)) by (intros s H; split; constructor; auto; exact I).
  split; [reflexivity|]. split; [reflexivity|]. split.
  { repeat constructor; cbn; try (vm_compute; reflexivity); try exact I. }
  split; [repeat constructor|]. split; [|lit].
  repeat constructor; vm_compute; reflexivity.
Qed.
