(** * Theorems about reading messages and values: C60

    Vocabulary: [SpecMessageRead.v]. *)

From Coq Require Import Strings.String.
From Verif Require Import Base SpecProtocol SpecMessageRead MessageReadProofs.
Import ListNotations.

(** ** C60 *)
(** Whatever else is done to a message: a property reads as the value it was
    given last, if it was given only one; likewise annotations.  The full claim,
    without that condition, is refuted below. *)
Theorem C60_reads_back_partial : forall ops m k,
  (forallb keeps_app_table ops = true -> (given (app_property k m) + length (flat_map (app_writes k) ops) <= 1)%nat ->
   app_property k (apply_ops ops m) = latest (app_property k m) (flat_map (app_writes k) ops))
  /\ (forallb keeps_annotation_table ops = true ->
      (given (message_annotation k m) + length (flat_map (annotation_writes k) ops) <= 1)%nat ->
      message_annotation k (apply_ops ops m) = latest (message_annotation k m) (flat_map (annotation_writes k) ops)).
Proof.
  intros ops m k. split; intros K L.
  - rewrite app_ops by exact K. apply first_latest, L.
  - rewrite annotation_ops by exact K. apply first_latest, L.
Qed.
Print Assumptions C60_reads_back_partial.
(** A property given a second value keeps the first; likewise annotations. *)
Theorem C60_set_twice_refuted : forall k v w, v <> w ->
  exists m ops, forallb keeps_app_table ops = true /\ forallb keeps_annotation_table ops = true
  /\ latest (app_property k m) (flat_map (app_writes k) ops) = Some w /\ app_property k (apply_ops ops m) = Some v
  /\ latest (message_annotation k m) (flat_map (annotation_writes k) ops) = Some w
  /\ message_annotation k (apply_ops ops m) = Some v.
Proof.
  intros k v w N. exists (Msg parts0 [] 0),
    [OpSetAppProperty k v; OpSetAppProperty k w; OpAddMessageAnnotation k v; OpAddMessageAnnotation k w].
  assert (B : beqb k k = true).
  { clear. induction k as [|x k IH]; [reflexivity|]. cbn [beqb]. rewrite IH. destruct x; reflexivity. }
  split; [reflexivity|]. split; [reflexivity|].
  cbn [flat_map app_writes annotation_writes List.app]. rewrite B.
  repeat split; cbn; rewrite ?B; reflexivity.
Qed.
Print Assumptions C60_set_twice_refuted.
(** The receiver of a message reads the same properties, annotations and value. *)
Theorem C60_received : forall p m, sound_message m -> blen (msg_enc m) < 2 ^ 32 ->
  exists m', dec_message p (msg_enc m) = Ok m'
  /\ (forall k, app_property k m' = app_property k m) /\ (forall k, message_annotation k m' = message_annotation k m)
  /\ ms_properties (msg_parts m') = ms_properties (msg_parts m) /\ ms_value (msg_parts m') = ms_value (msg_parts m).
Proof.
  intros p m Sm B. assert (D := message_round_trip p m Sm B). exists (received_message m). split; [exact D|].
  split; [intros k; apply (received_reads p m _ k Sm B D)|]. split; [intros k; apply (received_reads p m _ k Sm B D)|].
  destruct (received_reads p m _ [] Sm B D) as (_ & _ & X). exact X.
Qed.
Print Assumptions C60_received.
(** A reply says which message it answers: asked by [m], received by the peer,
    who answers with a reply with any other operations on it that leave its
    properties alone, received here. *)
Theorem C60_reply : forall p q m r ops, sound_message m -> blen (msg_enc m) < 2 ^ 32 ->
  dec_message p (msg_enc m) = Ok r ->
  let answer := apply_ops ops (reply_message r) in
  ms_properties (msg_parts answer) = ms_properties (msg_parts (reply_message r)) ->
  sound_message answer -> blen (msg_enc answer) < 2 ^ 32 ->
  exists a, dec_message q (msg_enc answer) = Ok a
  /\ match ms_properties (msg_parts m) with
     | Some asked => exists p', ms_properties (msg_parts a) = Some p' /\ properties_correlation_id p' = properties_message_id asked
         /\ properties_message_id p' = None
     | None => ms_properties (msg_parts a) = None
     end.
Proof.
  intros p q m r ops Sm B D answer EP Sa Ba. destruct (C60_received q answer Sa Ba) as (a & Da & _ & _ & Pa & _).
  exists a. split; [exact Da|]. rewrite Pa, EP. destruct (received_reads p m r [] Sm B D) as (_ & _ & Pm & _).
  unfold reply_message. rewrite Pm. destruct (ms_properties (msg_parts m)) as [asked|]; [|reflexivity].
  eexists. split; [reflexivity|]. split; reflexivity.
Qed.
Print Assumptions C60_reply.
(** [as_long] and [as_ulong] give the number that the value is, and nothing for a
    value that is no number or does not fit. *)
Theorem C60_numbers : forall v,
  (forall z, as_long v = Some z <-> (exists sign, integer v = Some (sign, z)) /\ is_ulong v = false)
  /\ (forall n, as_ulong v = Some n <-> integer v = Some (false, Z.of_N n)).
Proof.
  intros v. split; intros x.
  - split.
    + destruct v; cbn; intros H; inversion H; subst; split; eauto.
    + intros [[sign H] U]. destruct v; cbn in *; try discriminate; congruence.
  - split.
    + destruct v; cbn; intros H; inversion H; subst; reflexivity.
    + intros H. destruct v; cbn in *; try discriminate; injection H as H; apply N2Z.inj in H; congruence.
Qed.
Print Assumptions C60_numbers.
(** [as_str] gives the text of strings and symbols, and of nothing else. *)
Theorem C60_text : forall v s, as_str v = Some s <-> v = VString s \/ v = VSymbol s.
Proof.
  intros v s. split.
  - destruct v; cbn; intros H; try discriminate H; injection H as ->; auto.
  - intros [-> | ->]; reflexivity.
Qed.
Print Assumptions C60_text.
(** [set_data] replaces the data of a message by one section; the receiver gets this
    and the rest of the body.  (Messages within the message are sent as data, too.) *)
Theorem C60_body : forall p m x, let sent := apply_op (OpSetBody (body_set_data x)) m in
  msg_nested m = [] -> sound_message sent -> blen (msg_enc sent) < 2 ^ 32 ->
  body_data (get_body sent) = Some x
  /\ exists r, dec_message p (msg_enc sent) = Ok r /\ ms_data (msg_parts r) = [x] /\ body_data (get_body r) = Some x
     /\ ms_sequence (msg_parts r) = ms_sequence (msg_parts m) /\ ms_value (msg_parts r) = ms_value (msg_parts m).
Proof.
  intros p m x sent N Sm B. assert (D := message_round_trip p sent Sm B).
  destruct m as [s n sz]. destruct s. cbn [msg_nested] in N. subst n. split; [reflexivity|].
  exists (received_message sent). split; [exact D|]. repeat match goal with |- _ /\ _ => split end; reflexivity.
Qed.
Print Assumptions C60_body.

Example C60_case :
  let k := str "subject" in
  let ops := [OpSetAppProperty (str "a") (VUint 1); OpUpdate [OpSetAppProperty k (VString (str "x")); OpEncodedSize]; OpSetFormat 7] in
  let m := Msg (mk_parts None None None None (Some (mk_properties (Some (MidUlong 9)) None None None None None None None None None None None None))
                 None None [] [] None) [] 0 in
  forallb keeps_app_table ops = true /\ (given (app_property k m) + length (flat_map (app_writes k) ops) <= 1)%nat
  /\ app_property k (apply_ops ops m) = Some (VString (str "x"))
  /\ sound_message m /\ blen (msg_enc m) < 2 ^ 32 /\ dec_message Debug (msg_enc m) = Ok m
  /\ option_map properties_correlation_id (ms_properties (msg_parts (reply_message m))) = Some (Some (MidUlong 9))
  /\ sound_message (reply_message m) /\ as_long (VShort (-3)) = Some (-3)%Z /\ as_ulong (VShort 3) = None
  /\ msg_nested m = [] /\ sound_message (apply_op (OpSetBody (body_set_data [x01])) m).
Proof.
  cbn zeta. repeat match goal with |- _ /\ _ => split end; try (vm_compute; reflexivity).
  - constructor; [|constructor|left; reflexivity]. unfold legal_parts, optional; cbn. unfold legal_properties, optional; cbn.
    repeat match goal with |- _ /\ _ => split end; auto; vm_compute; reflexivity.
  - constructor; [|constructor|left; reflexivity]. unfold legal_parts, optional; cbn. unfold legal_properties, optional; cbn.
    repeat match goal with |- _ /\ _ => split end; auto; vm_compute; reflexivity.
  - constructor; [|constructor|left; reflexivity]. unfold legal_parts, optional; cbn. unfold legal_properties, optional; cbn.
    repeat match goal with |- _ /\ _ => split end; auto; try (repeat constructor; fail); vm_compute; reflexivity.
Qed.
