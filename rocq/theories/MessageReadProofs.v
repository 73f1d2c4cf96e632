(** * Reading a message back *)

From Coq Require Import ZifyBool ZifyNat ZifyN.
From Verif Require Import Base SpecMessageRead.
From Verif Require Export ProtocolTheorems MessageOps MessageProofs.
Import ListNotations.

Lemma find_key_snoc k k' v l : find_key k (l ++ [(k', v)])
  = match find_key k l with Some x => Some x | None => if beqb k' k then Some v else None end.
Proof.
  induction l as [|[k0 v0] l IH]; [reflexivity|]. cbn [List.app find_key]. destruct (beqb k0 k); [reflexivity | exact IH].
Qed.
Definition first_of (old : option variant) (w : list variant) : option variant :=
  match old with Some x => Some x | None => hd_error w end.
Lemma first_of_app o w w' : first_of (first_of o w) w' = first_of o (w ++ w').
Proof. destruct o; [reflexivity|]. destruct w; reflexivity. Qed.
Lemma first_of_nil o : first_of o [] = o. Proof. destruct o; reflexivity. Qed.

Lemma op_ind2 (P : msg_op -> Prop) : (forall l, Forall P l -> P (OpUpdate l)) -> (forall o, (forall l, o <> OpUpdate l) -> P o) ->
  forall o, P o.
Proof.
  intros H1 H2. fix IH 1. intros o. destruct o; try (apply H2; discriminate).
  apply H1. induction ops as [|x ops IHl]; constructor; [apply IH | exact IHl].
Qed.
Lemma touch_parts m : msg_parts (msg_touch m) = msg_parts m.
Proof. destruct m as [s n c]. cbn. destruct (c =? 0); reflexivity. Qed.
(** One table or the other: what the accessor reads and what writes it. *)
Section read.
Context (table : parts -> option (list (bytes * variant))) (writes : msg_op -> list variant) (keeps : msg_op -> bool) (k : bytes).
Definition read (m : message) : option variant := match table (msg_parts m) with Some l => find_key k l | None => None end.
Hypothesis Hu : forall l, writes (OpUpdate l) = flat_map writes l.
Hypothesis Hk : forall l, keeps (OpUpdate l) = forallb keeps l.
Hypothesis Ho : forall o m, (forall l, o <> OpUpdate l) -> keeps o = true -> read (apply_op o m) = first_of (read m) (writes o).
Lemma read_reset m : read (reset m) = read m. Proof. destruct m. reflexivity. Qed.
Lemma read_op : forall o m, keeps o = true -> read (apply_op o m) = first_of (read m) (writes o).
Proof.
  induction o as [l IH|o H] using op_ind2; intros m K; [|apply Ho; assumption].
  rewrite Hu. rewrite Hk in K. cbn [apply_op]. rewrite <- (read_reset m). generalize (reset m). clear m. revert K.
  induction IH as [|o l Hh _ IHl]; intros K m; cbn [fold_left flat_map forallb] in *; [symmetry; apply first_of_nil|].
  apply andb_prop in K as [K1 K2]. rewrite (IHl K2), (Hh m K1), first_of_app. reflexivity.
Qed.
Lemma read_ops : forall ops m, forallb keeps ops = true -> read (apply_ops ops m) = first_of (read m) (flat_map writes ops).
Proof.
  unfold apply_ops. induction ops as [|o ops IH]; intros m K; cbn [fold_left flat_map forallb] in *; [symmetry; apply first_of_nil|].
  apply andb_prop in K as [K1 K2]. rewrite (IH _ K2), read_op by exact K1. apply first_of_app.
Qed.
End read.

Lemma app_ops k ops m : forallb keeps_app_table ops = true ->
  app_property k (apply_ops ops m) = first_of (app_property k m) (flat_map (app_writes k) ops).
Proof.
  apply (read_ops ms_application_properties (app_writes k) keeps_app_table k); try reflexivity.
  intros o [s n c] NU K. destruct s as [fmt hdr da ma pr ap ft data seq val].
  destruct o; try discriminate K; try (cbn; symmetry; apply first_of_nil).
  - cbn [apply_op app_writes annotation_writes]. rewrite first_of_nil. unfold read. rewrite touch_parts. reflexivity.
  - cbn [apply_op app_writes]. unfold read. cbn [upd reset msg_parts set_app_ ms_application_properties]. rewrite find_key_snoc.
    destruct ap as [l|]; cbn [or_default find_key]; [destruct (find_key k l); [reflexivity|]|]; destruct (beqb k0 k); reflexivity.
  - destruct (NU _ eq_refl).
  - cbn [apply_op get_body put_body ms_data ms_sequence ms_value]. destruct (f _) as [[[d q] n'] v]. cbn. symmetry. apply first_of_nil.
  - cbn [apply_op get_body put_body ms_data ms_sequence ms_value]. destruct (f _) as [[[d q] n'] v]. cbn. symmetry. apply first_of_nil.
Qed.
Lemma annotation_ops k ops m : forallb keeps_annotation_table ops = true ->
  message_annotation k (apply_ops ops m) = first_of (message_annotation k m) (flat_map (annotation_writes k) ops).
Proof.
  apply (read_ops ms_message_annotations (annotation_writes k) keeps_annotation_table k); try reflexivity.
  intros o [s n c] NU K. destruct s as [fmt hdr da ma pr ap ft data seq val].
  destruct o; try discriminate K; try (cbn; symmetry; apply first_of_nil).
  - cbn [apply_op app_writes annotation_writes]. rewrite first_of_nil. unfold read. rewrite touch_parts. reflexivity.
  - cbn [apply_op annotation_writes]. unfold read. cbn [upd reset msg_parts set_annotations_ ms_message_annotations]. rewrite find_key_snoc.
    destruct ma as [l|]; cbn [or_default find_key]; [destruct (find_key k l); [reflexivity|]|]; destruct (beqb k0 k); reflexivity.
  - destruct (NU _ eq_refl).
  - cbn [apply_op get_body put_body ms_data ms_sequence ms_value]. destruct (f _) as [[[d q] n'] v]. cbn. symmetry. apply first_of_nil.
  - cbn [apply_op get_body put_body ms_data ms_sequence ms_value]. destruct (f _) as [[[d q] n'] v]. cbn. symmetry. apply first_of_nil.
Qed.
Lemma first_latest o w : (given o + length w <= 1)%nat -> first_of o w = latest o w.
Proof. destruct o, w as [|x [|y w]]; cbn; intros; try reflexivity; lia. Qed.

Lemma received_reads p m m' k : sound_message m -> blen (msg_enc m) < 2 ^ 32 -> dec_message p (msg_enc m) = Ok m' ->
  app_property k m' = app_property k m /\ message_annotation k m' = message_annotation k m
  /\ ms_properties (msg_parts m') = ms_properties (msg_parts m) /\ ms_value (msg_parts m') = ms_value (msg_parts m).
Proof.
  intros Sm B D. rewrite (message_round_trip p m Sm B) in D. assert (m' = received_message m) as -> by congruence.
  destruct m as [[fmt hdr da ma pr ap ft data seq val] n c]. repeat split.
Qed.
