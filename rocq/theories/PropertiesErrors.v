(** * Theorems about errors on their way to the other application: C65

    Vocabulary: [SpecBuilders.v] (and [SpecHandles.v], [SpecLookup.v],
    [SpecDelivery.v], [SpecRelease.v], [SpecProtocol.v]).  Model: [Builders.v],
    [Session.v], [Connection.v], [Codec.v]. *)

From Coq Require Import Strings.String.
From Coq Require Import List NArith Lia ZifyBool ZifyNat ZifyN.
From Verif Require Import Base SpecBuilders SpecDelivery SpecRelease SpecConnection Scenario.
From Verif Require BuilderProofs LinkProofs ErrorProofs HandleTheorems SettleTheorems DispTheorems ConnMoves.
Import ListNotations.
Local Open Scope N_scope.

Ltac lit := repeat match goal with |- _ /\ _ => split end; vm_compute; reflexivity.

(** ** C65 *)
(** An error that an application builds has the condition it asked for and the text
    and the fields it gave last, ... *)
Theorem C65_built : forall c calls,
  err_condition (build_error c calls) = c
  /\ err_description (build_error c calls) = latest error_text calls
  /\ err_info (build_error c calls) = latest error_fields calls.
Proof. intros c calls. rewrite BuilderProofs.error_built. repeat split. Qed.
Print Assumptions C65_built.
(** ... so that it can be written to the peer as it is. *)
Theorem C65_legal : forall c calls, legal_condition c -> Forall plain_error_call calls -> legal_error (build_error c calls).
Proof.
  intros c calls Lc P. rewrite BuilderProofs.error_built. split; [exact Lc|].
  assert (X : forall A (g : error_call -> option A) (Q : A -> Prop),
    (forall k a, In k calls -> plain_error_call k -> g k = Some a -> Q a) -> optional Q (latest g calls)).
  { intros A g Q. induction P as [|k l Hk Hl IH]; intros HQ; [exact I|]. cbn [latest].
    assert (Y := IH (fun k' a Hin => HQ k' a (or_intror Hin))).
    destruct (latest g l); [exact Y|]. destruct (g k) as [a|] eqn:E; [|exact I]. exact (HQ k a (or_introl eq_refl) Hk E). }
  split; apply X; intros k a _ Hk E; destruct k; cbn in E; try discriminate; injection E as <-; exact Hk.
Qed.
Print Assumptions C65_legal.
(** The constructors of [protocol::Error] by name. *)
Theorem C65_named : forall calls,
  map (fun f => err_condition (f calls))
    [app_internal_error; not_found; unauthorized_access; app_decode_error; invalid_field; not_allowed; not_implemented; force_detach; redirect]
  = [CondAmqp AmqpInternalError; CondAmqp AmqpNotFound; CondAmqp AmqpUnauthorizedAccess; CondAmqp AmqpDecodeError;
     CondAmqp AmqpInvalidField; CondAmqp AmqpNotAllowed; CondAmqp AmqpNotImplemented; CondLink LinkDetachForced; CondLink LinkRedirect].
Proof.
  intros calls. unfold app_internal_error, not_found, unauthorized_access, app_decode_error, invalid_field, not_allowed, not_implemented, force_detach, redirect.
  cbn [map]. rewrite !BuilderProofs.error_built. reflexivity.
Qed.
Print Assumptions C65_named.

(** An application closes an open link with an error: one detach frame is sent, the
    peer reads it as it was written, and the application of the peer, whose session
    has attached the link under that handle, sees exactly this error. *)
Theorem C65_link : forall p id local rc mfs b evs x e err s s' os os',
  run p evs (ses_new id local rc mfs b) = EOk (s, os) -> links_opened evs <= 2 ^ 32 ->
  is_open x s -> ~ says_closed x s -> closes x e s -> close_error_of e = Some err -> legal_error err ->
  step p e s = EOk (s', os') ->
  exists h cl, own_handle x s h /\ s_out s' = s_out s ++ [FDetach (mk_detach h cl (Some err))]
  /\ arrives_whole (FDetach (mk_detach h cl (Some err)))
  /\ forall id2 local2 rc2 mfs2 b2 evs1 evs2 frm y t1 t2 t3 t' os1 os2 os3 os4,
     run p evs1 (ses_new id2 local2 rc2 mfs2 b2) = EOk (t1, os1) ->
     step p (EvAttach frm) t1 = EOk (t2, os2) -> run p evs2 t2 = EOk (t3, os3) ->
     attach_handle frm = h -> begins_link y frm t1 t2 -> none_waits h t1 -> unused_handle h evs2 ->
     links_opened (evs1 ++ EvAttach frm :: evs2) <= 2 ^ 32 -> s_error t3 = None -> is_open y t3 ->
     step p (EvFrame (FDetach (mk_detach h cl (Some err)))) t3 = EOk (t', os4) ->
     shows_error y err t'.
Proof.
  intros p id local rc mfs b evs x e err s s' os os' H L Ho Hc Hcl He Le Hs.
  destruct (HandleTheorems.start_slots _ _ _ _ _ _ _ _ _ H L) as [I F].
  destruct (ErrorProofs.close_sends _ _ _ _ _ _ _ I F Ho Hc Hcl He Hs) as (h & cl & Hh & Out).
  exists h, cl. split; [exact Hh|]. split; [exact Out|]. split.
  - apply BuilderProofs.legal_arrives; [discriminate|]. cbn [legal_frame]. split; [|exact Le]. cbn [detach_handle].
    assert (G := HandleTheorems.open_slot _ _ _ I F Ho Hh). apply LinkProofs.slab_get_lt in G. unfold LinkProofs.slots_fit in F. unfold unsigned, two32 in *. lia.
  - intros id2 local2 rc2 mfs2 b2 evs1 evs2 frm y t1 t2 t3 t' os1 os2 os3 os4 R1 S2 R3 <- B N U L2 Er O S4.
    refine (ErrorProofs.told p id2 local2 rc2 mfs2 b2 evs1 evs2 frm y t1 t2 t3 os1 os2 os3 R1 S2 R3 B N U L2 (mk_detach (attach_handle frm) cl (Some err)) err t' os4 Er O _ _ S4); reflexivity.
Qed.
Print Assumptions C65_link.

(** An application closes the connection with an error: a close frame is sent, the
    peer reads it as it was written, and the connection of the peer, if it has not
    failed, has failed with this error. *)
Theorem C65_connection : forall p c c' os err, legal_error err ->
  cstep p (CvClose (Some err)) c = EOk (c', os) ->
  c_out c' = c_out c ++ [(0, FClose (mk_close (Some err)))] /\ arrives_whole (FClose (mk_close (Some err)))
  /\ forall d ch d' os', creachable p d -> c_error d = None ->
     cstep p (CvFrame ch (FClose (mk_close (Some err)))) d = EOk (d', os') ->
     c_error d' = Some (EClosed (Some err)).
Proof.
  intros p c c' os err Le H. cbn [cstep] in H. apply (f_equal (fun r => match r with EOk (s, _) => Some s | _ => None end)) in H. injection H as <-.
  split; [unfold conn_close, io_close, cpost; cbn; destruct (c_io c); reflexivity|]. split.
  - apply BuilderProofs.legal_arrives; [discriminate|exact Le].
  - intros d ch d' os' R E S. destruct (ConnMoves.close_answered p d ch (mk_close (Some err)) R) as (d2 & S2 & _ & _ & E2 & _).
    rewrite S in S2. assert (d' = d2) by congruence. subst d2. rewrite E2, E. reflexivity.
Qed.
Print Assumptions C65_connection.

(** An application rejects a delivery with an error: one disposition is sent, the
    peer reads it as it was written, and the peer's application that waits for the
    outcome of the delivery gets this error. *)
Theorem C65_rejected : forall p s s' os i x err, let st := DSRejected (mk_rejected (Some err)) in
  held i x s -> dl_sender x = false -> dl_id x < 2 ^ 32 -> legal_error err ->
  step p (EvSettle i st) s = EOk (s', os) ->
  exists f, s_out s' = s_out s ++ [f] /\ arrives_whole f
  /\ forall t t' os' w j y, reachable p t -> s_error t = None -> awaits_outcome w j t ->
     nth_error (s_dlvs t) j = Some y -> dl_sender y = true -> dl_id y = dl_id x ->
     step p (EvFrame f) t = EOk (t', os') -> wait_gives p w (inl (Some st)) t'.
Proof.
  intros p s s' os i x err st Hh Sx Lx Le H. exists (says x true st). split; [exact (DispTheorems.settle_says _ _ _ _ _ _ _ Hh H)|].
  unfold says. rewrite Sx. split.
  - apply BuilderProofs.legal_arrives; [discriminate|]. cbn [legal_frame]. split; [exact Lx|]. split; [exact I|]. exact Le.
  - intros t t' os' w j y R E A D Sy Ey S.
    refine (proj1 (proj1 (proj2 (SettleTheorems.dispositions p _ t t' os' R E _ S)) w j y A D _) _).
    + split; [exact Lx | exact I].
    + rewrite Ey. exact Lx.
    + rewrite Sy, Ey. split; [reflexivity|]. cbn. reflexivity.
Qed.
Print Assumptions C65_rejected.

(** The constants of [error_code] are the names AMQP gives the conditions, in its
    order, except one: [ERRANT_LINK] is none of them. *)
Theorem C65_codes_partial : forall c n, In (c, n) error_codes -> c <> CondSession SessErrantLink -> In (c, n) condition_names.
Proof.
  intros c n H N. cbn [error_codes In] in H.
  repeat (destruct H as [H|H];
    [injection H as <- <-; try (exfalso; apply N; reflexivity); cbn [condition_names In]; repeat first [left; reflexivity | right] |]).
  destruct H.
Qed.
Print Assumptions C65_codes_partial.
Theorem C65_codes_refuted : exists n, In (CondSession SessErrantLink, n) error_codes /\ ~ In n (map snd condition_names).
Proof.
  exists (str "amqp:session-errant-link"). split; [vm_compute; tauto|]. vm_compute. intuition discriminate.
Qed.
Print Assumptions C65_codes_refuted.

(** A sender link is closed with an error of five calls; the other side is a
    receiver link that has asked for it. *)
Definition sample_error : error_t :=
  build_error (CondCustom (str "com.example:full")) [ECallText (str "first"); ECallFields [(str "k", VUint 3)]; ECallText (str "last")].
Definition C65_ours : list ev := [EvAttach (attach_of (str "b") 7 RoleReceiver None); EvCtlOk 0 same_frame].
Definition C65_theirs : list ev := [EvAttachReceiver (attach_of (str "b") 7 RoleReceiver None)].
Definition C65_attach : attach_t := attach_of (str "b") 0 RoleSender (Some 0).
Example C65_case : let s := result Debug C65_ours (start 512 10) in
  let t1 := result Debug C65_theirs (start 512 10) in let t2 := result Debug [EvAttach C65_attach] t1 in
  runs Debug (C65_ours ++ [EvCloseSender 0 (Some sample_error)]) (start 512 10) = true
  /\ runs Debug (C65_theirs ++ [EvAttach C65_attach; EvFrame (FDetach (mk_detach 0 true (Some sample_error)))]) (start 512 10) = true
  /\ is_open (LSender 0) s /\ ~ says_closed (LSender 0) s /\ own_handle (LSender 0) s 0 /\ legal_error sample_error
  /\ begins_link (LReceiver 0) C65_attach t1 t2 /\ none_waits 0 t1 /\ s_error t2 = None /\ is_open (LReceiver 0) t2
  /\ sample_error = mk_err (CondCustom (str "com.example:full")) (Some (str "last")) (Some [(str "k", VUint 3)]).
Proof.
  cbv zeta. split; [lit|]. split; [lit|]. split; [exists 0; lit|]. split.
  { intros (l & E & C). vm_compute in E. injection E as <-. discriminate C. }
  split; [eexists; split; vm_compute; reflexivity|]. split.
  { apply C65_legal.
    - split; [reflexivity|]. vm_compute. intuition discriminate.
    - repeat constructor; vm_compute; reflexivity. }
  split.
  { right. split; [|exists 0; lit]. intros (k & G). assert (X := LinkProofs.slab_get_lt _ _ _ _ G).
    change (length (sl_items (s_links (result Debug C65_theirs (start 512 10))))) with 1%nat in X.
    assert (E : k = 0) by lia. subst k. vm_compute in G. discriminate G. }
  split. { intros frm r a H. vm_compute in H. intuition discriminate. }
  split; [lit|]. split; [exists 0; lit|]. lit.
Qed.
