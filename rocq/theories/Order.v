(** * The queue of a sender link: a relation

    Only a send that is polled joins the queue; everything else leaves it as it
    is, or empties it, and credit appears only on a link whose queue is emptied. *)

From Coq Require Import ZifyBool ZifyNat ZifyN.
From Verif Require Export Rel.
Import ListNotations.

Definition pnd_rel (s s' : ses) : Prop :=
  forall a l', nth_error (s_snds s') a = Some l' -> sn_pending l' <> [] ->
  exists l, nth_error (s_snds s) a = Some l /\ sn_pending l' = sn_pending l /\ (sn_credit l = 0 -> sn_credit l' = 0).
#[export] Instance pnd_pre : preorder pnd_rel.
Proof.
  split; [red; eauto|]. intros s s1 s2 A B a l' E I. destruct (B _ _ E I) as (l1 & E1 & I1 & Z1).
  rewrite I1 in I. destruct (A _ _ E1 I) as (l & E0 & I0 & Z0). exists l. split; [exact E0|]. split; [congruence|auto].
Qed.
#[export] Instance pnd_sees : sees pnd_rel [Fsnds].
Proof. intros s s' H. specialize (H Fsnds eq_refl). cbn [same] in H. unfold pnd_rel. rewrite H. eauto. Qed.
Lemma pnd_upd : forall a f s,
  (forall l, nth_error (s_snds s) a = Some l -> sn_pending (f l) <> [] ->
     sn_pending (f l) = sn_pending l /\ (sn_credit l = 0 -> sn_credit (f l) = 0)) ->
  stable pnd_rel s (upd_snd a f s).
Proof.
  intros a f s H b l' E I. rewrite nth_upd_snd in E. destruct (Nat.eqb_spec a b) as [->|]; [|eauto].
  destruct (nth_error (s_snds s) b) as [l|] eqn:El; [|discriminate]. cbn [option_map] in E. apply Some_inj in E. subst l'.
  exists l. destruct (H _ eq_refl I). auto.
Qed.
Ltac pnd_snd := apply pnd_upd; intros ? _; st_cbn; intuition (lia || congruence).
#[export] Hint Extern 1 (stable pnd_rel ?s (upd_snd ?a ?f ?s)) => solve [pnd_snd] : typeclass_instances.
Lemma pnd_add : forall l s, sn_pending l = [] -> stable pnd_rel s (set_s_snds (s_snds s ++ [l]) s).
Proof.
  intros l s H a l' E I. st_cbn_in E. apply nth_snoc in E as [E|[-> ->]]; [eauto|]. congruence.
Qed.
#[export] Instance pnd_add_new id n h dc m s : stable pnd_rel s (set_s_snds (s_snds s ++ [snd_new id n h dc m]) s).
Proof. apply pnd_add; reflexivity. Qed.
#[export] Instance pnd_add_with id frm s : stable pnd_rel s (set_s_snds (s_snds s ++ [snd_with id frm]) s).
Proof. apply pnd_add; reflexivity. Qed.
