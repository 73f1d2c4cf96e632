(** * The waiters of a sender link: relations

    Nothing but [on_close] and [on_credit_update] adds a waiter; credit that
    appears wakes the waiters for credit; a link that is closed has woken all its
    waiters and lets new ones through, an open link has not. *)

From Coq Require Import ZifyBool ZifyNat ZifyN.
From Verif Require Export Rel.
Import ListNotations.

(** ** Waiters for credit *)
Definition crd_rel (s s' : ses) : Prop :=
  forall a l' c, nth_error (s_snds s') a = Some l' -> In c (cd_wait (sn_on_credit l')) ->
  exists l, nth_error (s_snds s) a = Some l /\ In c (cd_wait (sn_on_credit l)) /\ (sn_credit l = 0 -> sn_credit l' = 0).
#[export] Instance crd_pre : preorder crd_rel.
Proof.
  split; [red; eauto|]. intros s s1 s2 A B a l' c E I. apply (B _ _ _ E) in I as (l1 & E1 & I1 & Z1).
  apply (A _ _ _ E1) in I1 as (l & E0 & I0 & Z0). exists l. auto.
Qed.
#[export] Instance crd_sees : sees crd_rel [Fsnds].
Proof. intros s s' H. specialize (H Fsnds eq_refl). cbn [same] in H. unfold crd_rel. rewrite H. eauto. Qed.
Lemma crd_upd : forall a f s,
  (forall l c, nth_error (s_snds s) a = Some l -> In c (cd_wait (sn_on_credit (f l))) ->
     In c (cd_wait (sn_on_credit l)) /\ (sn_credit l = 0 -> sn_credit (f l) = 0)) ->
  stable crd_rel s (upd_snd a f s).
Proof.
  intros a f s H b l' c E I. rewrite nth_upd_snd in E. destruct (Nat.eqb_spec a b) as [->|]; [|eauto].
  destruct (nth_error (s_snds s) b) as [l|] eqn:El; [|discriminate]. cbn [option_map] in E. apply Some_inj in E. subst l'.
  exists l. destruct (H _ _ eq_refl I). auto.
Qed.
Ltac crd_snd := apply crd_upd; intros ? ? _; st_cbn; cbn [cd_wait In]; intuition lia.
#[export] Hint Extern 1 (stable crd_rel ?s (upd_snd ?a ?f ?s)) => solve [crd_snd] : typeclass_instances.
Lemma crd_add : forall l s, sn_on_credit l = cond0 -> stable crd_rel s (set_s_snds (s_snds s ++ [l]) s).
Proof.
  intros l s H a l' c E I. st_cbn_in E. apply nth_snoc in E as [E|[-> ->]]; [eauto|]. rewrite H in I. destruct I.
Qed.
#[export] Instance crd_add_new id n h dc m s : stable crd_rel s (set_s_snds (s_snds s ++ [snd_new id n h dc m]) s).
Proof. apply crd_add; reflexivity. Qed.
#[export] Instance crd_add_with id frm s : stable crd_rel s (set_s_snds (s_snds s ++ [snd_with id frm]) s).
Proof. apply crd_add; reflexivity. Qed.
#[export] Instance crd_apply_flow f a s : stable crd_rel s (apply_flow f a s).
Proof.
  unfold apply_flow. destruct (flow_link_credit f) as [cr|]; [|apply stable_refl; exact _].
  destruct (nth_error (s_snds s) a) as [l|] eqn:El; [|apply stable_refl; exact _]. cbn zeta.
  set (new := wsub _ _). destruct (N.ltb_spec 0 new) as [P|Z].
  - intros b l' c E I. rewrite nth_upd_snd in E. destruct (Nat.eqb_spec a b) as [->|NE].
    + match type of E with option_map _ ?x = _ => destruct x as [l1|] end; [|discriminate]. cbn [option_map] in E. apply Some_inj in E. subst l'. destruct I.
    + frw_in E. rewrite nth_upd_snd in E. destruct (Nat.eqb_spec a b) as [->|]; [congruence|]. frw_in E. eauto.
  - assert (new = 0) as -> by lia. st_chain.
Qed.

(** ** Closed links *)
Definition settled_link (l : slink) : Prop :=
  cd_lock (sn_on_close l) = sn_closed l /\ cd_lock (sn_on_credit l) = sn_closed l
  /\ (sn_closed l = true -> cd_wait (sn_on_close l) = [] /\ cd_wait (sn_on_credit l) = []).
Definition all_settled (s : ses) : Prop := forall a l, nth_error (s_snds s) a = Some l -> settled_link l.
Definition stl_rel (s s' : ses) : Prop := all_settled s -> all_settled s'.
#[export] Instance stl_pre : preorder stl_rel.
Proof. split; [red; auto|]. unfold stl_rel. auto. Qed.
#[export] Instance stl_sees : sees stl_rel [Fsnds].
Proof. intros s s' H. specialize (H Fsnds eq_refl). cbn [same] in H. unfold stl_rel, all_settled. rewrite H. auto. Qed.
Lemma stl_upd : forall a f s, (forall l, nth_error (s_snds s) a = Some l -> settled_link l -> settled_link (f l)) ->
  stable stl_rel s (upd_snd a f s).
Proof.
  intros a f s H A b l' E. rewrite nth_upd_snd in E. destruct (Nat.eqb_spec a b) as [->|]; [|apply (A _ _ E)].
  destruct (nth_error (s_snds s) b) as [l|] eqn:El; [|discriminate]. cbn [option_map] in E. apply Some_inj in E. subst l'.
  apply H; [reflexivity | apply (A _ _ El)].
Qed.
Ltac stl_snd := apply stl_upd; intros ? _; unfold settled_link; st_cbn; cbn [cd_wait cd_lock]; intuition auto.
#[export] Hint Extern 1 (stable stl_rel ?s (upd_snd ?a ?f ?s)) => solve [stl_snd] : typeclass_instances.
Lemma stl_add : forall l s, settled_link l -> stable stl_rel s (set_s_snds (s_snds s ++ [l]) s).
Proof. intros l s H A a l' E. st_cbn_in E. apply nth_snoc in E as [E|[-> ->]]; [apply (A _ _ E) | exact H]. Qed.
Lemma new_settled : forall id n h dc m, settled_link (snd_new id n h dc m).
Proof. repeat split; discriminate. Qed.
#[export] Instance stl_add_new id n h dc m s : stable stl_rel s (set_s_snds (s_snds s ++ [snd_new id n h dc m]) s).
Proof. apply stl_add, new_settled. Qed.
#[export] Instance stl_add_with id frm s : stable stl_rel s (set_s_snds (s_snds s ++ [snd_with id frm]) s).
Proof. apply stl_add, new_settled. Qed.
(** Closing: the flag and the conditions change together. *)
Lemma stl_lock : forall a f s, (forall l, sn_closed (f l) = true) -> stable stl_rel s (notify_lock_snd a (upd_snd a f s)).
Proof.
  intros a f s H A b l' E. unfold notify_lock_snd in E. rewrite nth_upd_snd, Nat.eqb_refl in E.
  destruct (nth_error (s_snds s) a) as [l|] eqn:El; cbn [option_map] in E.
  - rewrite nth_upd_snd in E. frw_in E. rewrite nth_upd_snd in E.
    destruct (Nat.eqb_spec a b) as [->|NE]; [rewrite Nat.eqb_refl in E|rewrite nth_upd_snd, (proj2 (Nat.eqb_neq a b) NE) in E; apply (A _ _ E)].
    rewrite El in E. cbn [option_map] in E. apply Some_inj in E. subst l'. unfold settled_link. st_cbn. rewrite H. auto.
  - unfold upd_snd in E. rewrite El in E. apply (A _ _ E).
Qed.
#[export] Instance stl_drop_established_snd a s : stable stl_rel s (drop_established_snd a s).
Proof.
  unfold drop_established_snd. destruct (nth_error (s_snds s) a); [|apply stable_refl; exact _].
  destruct (sn_closed _); [apply stable_refl; exact _|]. apply stl_lock. reflexivity.
Qed.
#[export] Instance stl_snd_remote_detached a e s : stable stl_rel s (snd_remote_detached a e s).
Proof.
  unfold snd_remote_detached. destruct (nth_error (s_snds s) a); [|apply stable_refl; exact _]. cbn zeta.
  eapply stable_trans; [exact _| |apply stl_lock; reflexivity]. st_chain.
Qed.
