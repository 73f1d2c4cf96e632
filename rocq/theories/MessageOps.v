(** * The remembered size of a message under the public methods *)

From Verif Require Import Framing MessageProofs Spec SpecProtocol SpecFraming BaseProofs CodecProofs.
From Coq Require Import ZifyBool ZifyNat ZifyN.

Lemma touch_sound m : sound_message m -> sound_message (msg_touch m) /\ msg_enc (msg_touch m) = msg_enc m.
Proof.
  revert m.
  apply (message_ind' (fun m => sound_message m -> sound_message (msg_touch m) /\ msg_enc (msg_touch m) = msg_enc m)
    (fun b => sound_body b -> sound_body (tb_touch b) /\ tb_enc (tb_touch b) = tb_enc b
                              /\ tb_size (tb_touch b) = tb_size b)).
  - intros s nested cache IH H. cbn [msg_touch]. destruct (cache =? 0) eqn:Hc; [|auto].
    assert (S : forall c, Forall sound_body (map tb_touch nested)
                /\ msg_enc (Msg s (map tb_touch nested) c) = msg_enc (Msg s nested cache)).
    { intros c. inversion H as [s' n' c' _ Hn _]; subst. rewrite Forall_forall in IH, Hn. split.
      - apply Forall_map, Forall_forall. intros b Hb. apply IH; auto.
      - cbn [msg_enc]. rewrite flat_map_map.
        rewrite (flat_map_ext' (fun a => enc_nested (tb_size (tb_touch a)) (tb_enc (tb_touch a)))
                   (fun b => enc_nested (tb_size b) (tb_enc b))); [reflexivity|].
        apply Forall_forall. intros b Hb. destruct (IH b Hb (Hn b Hb)) as [_ [E1 E2]].
        rewrite E1, E2. reflexivity. }
    split; [|apply S]. constructor.
    + inversion H; assumption.
    + apply (S 0).
    + right. rewrite (proj2 (S _)). destruct (message_facts _ H) as [E _]. symmetry. exact E.
  - intros d H. auto.
  - intros m IH H. inversion H as [|m' Hm]; subst. destruct (IH Hm) as [H1 H2].
    cbn [tb_touch tb_enc tb_size]. split; [constructor; exact H1|]. split; [exact H2|].
    destruct (message_facts _ Hm) as [E _], (message_facts _ H1) as [E' _]. congruence.
Qed.

(** The state kept along a tame sequence. *)
Definition fine (asked : bool) (m : message) : Prop :=
  sound_message m /\ (asked = false -> msg_cache m = 0).

Lemma upd_fine a f m : (forall s, legal_parts s -> legal_parts (f s)) ->
  a = false -> fine a m -> fine a (upd f m).
Proof.
  intros Hf -> [H Hc]. destruct m as [s n c]. inversion H; subst. specialize (Hc eq_refl). cbn in Hc. subst.
  split; [|reflexivity]. constructor; auto.
Qed.
Lemma reset_upd_fine a b f m : (forall s, legal_parts s -> legal_parts (f s)) ->
  fine a m -> fine b (reset (upd f m)).
Proof.
  intros Hf [H _]. destruct m as [s n c]. inversion H; subst.
  split; [|reflexivity]. constructor; auto.
Qed.
Lemma put_body_fine f c m : (forall b, legal_body b -> legal_body (f b)) -> sound_message m ->
  c = 0 -> fine false (match put_body (f (get_body m)) m with Msg s n _ => Msg s n c end).
Proof.
  intros Hf H ->. destruct m as [s n c0]. inversion H as [s' n' c' Hl Hn _]; subst.
  assert (B : legal_body (get_body (Msg s n c0))).
  { cbn. destruct Hl as [_ [_ [_ [_ [_ [_ [H7 H8]]]]]]]. auto. }
  apply Hf in B. cbn [put_body]. destruct (f (get_body (Msg s n c0))) as [[[d q] n'] v].
  split; [|reflexivity]. destruct B as [B1 [B2 B3]]. constructor; [|assumption|auto].
  destruct s as [fmt hdr da ma pr ap ft data seq val].
  destruct Hl as [H1 [H2 [H3 [H4 [H5 [H6 _]]]]]]. cbn [set_body_]. repeat split; assumption.
Qed.

Lemma legal_properties0 : legal_properties properties0.
Proof. cbv. repeat split. Qed.

Lemma option_map_legal {A} (P : A -> Prop) f (o : option A) :
  (forall x, P x -> P (f x)) -> optional P o -> optional P (option_map f o).
Proof. intros Hf. destruct o; cbn; auto. Qed.

Ltac parts_tac :=
  intros [fmt hdr da ma pr ap ft data seq val] Hl;
  destruct Hl as [? [? [? [? [? [? [? ?]]]]]]];
  unfold legal_parts;
  cbn [set_header_ set_format_ set_properties_ set_delivery_ set_annotations_ set_app_ set_value_
       ms_header ms_delivery_annotations ms_message_annotations ms_properties
       ms_application_properties ms_footer ms_sequence ms_value optional] in *;
  refine (conj _ (conj _ (conj _ (conj _ (conj _ (conj _ (conj _ _)))))));
  try assumption; try (apply option_map_legal; assumption).

Lemma tame_fine ops : forall a z m, tame a ops z -> Forall legal_op ops -> fine a m ->
  fine z (apply_ops ops m).
Proof.
  assert (forall a ops z, tame a ops z -> Forall legal_op ops -> forall m, fine a m -> fine z (apply_ops ops m)).
  2:{ intros a z m Ht Hl Hm. eapply H; eassumption. }
  induction 1 as [a|a l z _ IH|a f l z _ IH|o l z Hq _ IH|a ops' l y z _ IH1 _ IH2|a o l z Hr _ IH];
    intros L m Hm; [exact Hm|..]; inversion L as [|o' l' Ho Ll]; subst;
    unfold apply_ops; cbn [fold_left]; fold (apply_ops l).
  - apply (IH Ll). cbn [apply_op]. split; [|discriminate]. apply touch_sound, Hm.
  - apply (IH Ll). cbn [apply_op]. destruct m as [s n c]. destruct Hm as [Hm Hc]. split; [|exact Hc].
    inversion Hm as [s' n' c' Hp Hn Hs]; subst. cbn [upd]. constructor; [|exact Hn|].
    + revert s Hp Hs Hm Hc. intros s Hp _ _ _. revert s Hp. parts_tac.
    + destruct s. exact Hs.
  - apply (IH Ll). destruct Hm as [Hm Hc]. specialize (Hc eq_refl).
    assert (F : fine false m) by (split; auto).
    destruct o; try contradiction; cbn [apply_op]; inversion Ho; subst.
    + apply upd_fine; [parts_tac|reflexivity|exact F].
    + apply upd_fine; [parts_tac|reflexivity|exact F].
    + apply upd_fine; [parts_tac|reflexivity|exact F].
    + pose proof (put_body_fine f 0 m ltac:(assumption) Hm eq_refl) as P.
      destruct m as [s n c]. cbn in Hc. subst c. cbn [put_body] in *.
      destruct (f (get_body (Msg s n 0))) as [[[d q] n'] v']. exact P.
    + apply upd_fine; [parts_tac|reflexivity|exact F].
  - inversion Ho; subst. apply (IH2 Ll). cbn [apply_op]. apply IH1; [assumption|].
    destruct Hm as [Hm _]. destruct m as [s n c]. inversion Hm; subst. split; [|reflexivity].
    constructor; auto.
  - apply (IH Ll). destruct o; try contradiction; cbn [apply_op]; inversion Ho; subst.
    + eapply reset_upd_fine; [parts_tac|exact Hm].
    + eapply reset_upd_fine; [|exact Hm]. parts_tac.
      destruct pr; cbn [or_default]; auto using legal_properties0.
    + eapply reset_upd_fine; [|exact Hm]. parts_tac.
      destruct pr; cbn [or_default]; auto using legal_properties0.
    + eapply reset_upd_fine; [|exact Hm]. parts_tac.
      apply Forall_app. split; [destruct ap; cbn [or_default]; auto|]. constructor; auto.
    + eapply reset_upd_fine; [|exact Hm]. parts_tac.
      apply Forall_app. split; [destruct ma; cbn [or_default]; auto|]. constructor; auto.
    + destruct Hm as [Hm _].
      pose proof (put_body_fine f 0 m ltac:(assumption) Hm eq_refl) as P.
      destruct (put_body (f (get_body m)) m) as [s n c]. exact P.
Qed.

Lemma size_after_ops ops m z : sound_message m -> msg_cache m = 0 -> tame false ops z ->
  Forall legal_op ops -> msg_size (apply_ops ops m) = blen (msg_enc (apply_ops ops m)).
Proof.
  intros H Hc T L.
  assert (F : fine z (apply_ops ops m)) by (eapply tame_fine; eauto; split; auto).
  symmetry. apply message_facts, F.
Qed.
