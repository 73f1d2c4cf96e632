(** * The size limit of a sender link: the relation *)

From Coq Require Import ZifyBool ZifyNat ZifyN.
From Verif Require Export PollProofs.
Import ListNotations.

Definition mx_rel (s s' : ses) : Prop :=
  forall a l, nth_error (s_snds s) a = Some l -> exists l', nth_error (s_snds s') a = Some l' /\ sn_max l' = sn_max l.
#[export] Instance mx_pre : preorder mx_rel.
Proof.
  split; [intros s a l E; eauto|]. intros s s1 s2 H1 H2 a l E. destruct (H1 _ _ E) as (l1 & E1 & I1). destruct (H2 _ _ E1) as (l2 & E2 & I2).
  exists l2. split; congruence.
Qed.
#[export] Instance mx_sees : sees mx_rel [Fsnds].
Proof. intros s s' H. assert (E := H Fsnds eq_refl). cbn [same] in E. unfold mx_rel. rewrite E. eauto. Qed.
Lemma mx_upd : forall a f s, (forall l, sn_max (f l) = sn_max l) -> stable mx_rel s (upd_snd a f s).
Proof.
  intros a f s H b l E. rewrite nth_upd_snd. destruct (Nat.eqb_spec a b) as [->|]; [|eauto]. rewrite E. cbn [option_map]. eauto.
Qed.
#[export] Hint Extern 1 (stable mx_rel ?s (upd_snd ?a ?f ?s)) => solve [apply mx_upd; intros; reflexivity] : typeclass_instances.
#[export] Instance mx_add l s : stable mx_rel s (set_s_snds (s_snds s ++ [l]) s).
Proof. intros b x E. exists x. split; [st_cbn; rewrite nth_error_app1; [exact E | apply nth_error_Some; congruence] | reflexivity]. Qed.
