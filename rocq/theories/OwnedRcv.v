(** * A receiver link that leaves its slot is closed: the relation *)

From Coq Require Import ZifyBool ZifyNat ZifyN.
From Verif Require Export LinkRel.
Import ListNotations.

Definition rin_slot (a : nat) (s : ses) : Prop :=
  (a < length (s_rcvs s))%nat /\ exists k, slab_get (s_links s) k = Some (REstablished a).
Definition rshut (a : nat) (s : ses) : Prop := exists l, nth_error (s_rcvs s) a = Some l /\ rc_closed l = true.
Definition rown0 (s s' : ses) : Prop :=
  (forall a, rin_slot a s -> rin_slot a s' \/ rshut a s') /\ (forall a, rshut a s -> rshut a s').
Definition rown_rel (s s' : ses) : Prop := slab_wf (s_links s) -> slab_wf (s_links s') /\ rown0 s s'.
#[export] Instance rown0_pre : preorder rown0.
Proof.
  split; [split; auto|]. intros s s1 s2 [A1 B1] [A2 B2]. split; [|auto].
  intros a H. destruct (A1 a H) as [H1|H1]; [apply A2, H1 | right; apply B2, H1].
Qed.
#[export] Instance rown_pre : preorder rown_rel.
Proof.
  split.
  - intros s W. split; [exact W | apply pre_refl].
  - intros s s1 s2 H1 H2 W. destruct (H1 W) as [W1 K1]. destruct (H2 W1) as [W2 K2].
    split; [exact W2|]. eapply pre_trans; eauto.
Qed.
#[export] Instance rown_sees : sees rown_rel [Flinks; Frcvs].
Proof.
  intros s s' H W. assert (L := H Flinks eq_refl). assert (S := H Frcvs eq_refl). cbn [same] in L, S.
  split; [rewrite L; exact W|]. unfold rown0, rin_slot, rshut. rewrite L, S. auto.
Qed.

(** ** Links *)
Lemma wake_closed : forall l, rc_closed (rcv_wake l) = rc_closed l.
Proof. intros l. unfold rcv_wake. repeat match goal with |- context [match ?x with _ => _ end] => destruct x end; reflexivity. Qed.
Lemma rown_upd : forall a f s, (forall l, rc_closed l = true -> rc_closed (f l) = true) -> stable rown_rel s (upd_rcv a f s).
Proof.
  intros a f s H W. split; [frw; exact W|]. split.
  - intros b [L K]. left. split; [|frw; exact K]. unfold upd_rcv. destruct (nth_error (s_rcvs s) a); [|exact L].
    st_cbn. rewrite set_nth_length. exact L.
  - intros b (l & E & C). unfold rshut. rewrite nth_upd_rcv. destruct (Nat.eqb_spec a b) as [->|]; [|eauto].
    rewrite E. cbn [option_map]. eauto.
Qed.
#[export] Hint Extern 1 (stable rown_rel ?s (upd_rcv ?a ?f ?s)) => solve [apply rown_upd; intros; rewrite ?wake_closed; st_cbn; auto] : typeclass_instances.
#[export] Instance rown_add l s : stable rown_rel s (set_s_rcvs (s_rcvs s ++ [l]) s).
Proof.
  intros W. split; [exact W|]. split.
  - intros b [L K]. left. split; [st_cbn; rewrite app_length; lia | exact K].
  - intros b (x & E & C). exists x. split; [st_cbn; apply nth_app_old; exact E | exact C].
Qed.
#[export] Instance rown_drop_established_rcv a s : stable rown_rel s (drop_established_rcv a s).
Proof. unfold drop_established_rcv. exact _. Qed.
#[export] Instance rown_drop_established_snd a s : stable rown_rel s (drop_established_snd a s).
Proof. unfold drop_established_snd, notify_lock_snd. st_solve. Qed.
#[export] Instance rown_drop_link l s : stable rown_rel s (drop_link l s).
Proof. unfold drop_link. st_solve. Qed.
#[export] Instance rown_rcv_remote_detached a e s : stable rown_rel s (rcv_remote_detached a e s).
Proof. unfold rcv_remote_detached. apply rown_upd. intros. rewrite wake_closed. reflexivity. Qed.
Lemma rdrop_shuts : forall a s, (a < length (s_rcvs s))%nat -> rshut a (drop_link (REstablished a) s).
Proof.
  intros a s L. cbn [drop_link]. unfold drop_established_rcv, rshut.
  destruct (nth_error (s_rcvs s) a) as [l|] eqn:E; [|apply nth_error_None in E; lia].
  rewrite nth_upd_rcv, Nat.eqb_refl, E. cbn [option_map]. eexists. split; reflexivity.
Qed.
Lemma rdetach_shuts : forall a e s, (a < length (s_rcvs s))%nat -> rshut a (rcv_remote_detached a e s).
Proof.
  intros a e s L. unfold rcv_remote_detached, rshut.
  destruct (nth_error (s_rcvs s) a) as [l|] eqn:E; [|apply nth_error_None in E; lia].
  rewrite nth_upd_rcv, Nat.eqb_refl, E. cbn [option_map]. eexists. split; [reflexivity|]. rewrite wake_closed. reflexivity.
Qed.

(** ** Slots *)
Lemma rown_slots : forall s v,
  (slab_wf (s_links s) -> slab_wf v) ->
  (forall k a, slab_wf (s_links s) -> slab_get (s_links s) k = Some (REstablished a) -> slab_get v k = Some (REstablished a)) ->
  stable rown_rel s (set_s_links v s).
Proof.
  intros s v Wf H W. split; [exact (Wf W)|]. split; [|auto]. intros a [L (k & E)]. left. split; [exact L|]. exists k. st_cbn. eauto.
Qed.
Lemma rown_replace : forall s v k old,
  (slab_wf (s_links s) -> slab_wf v) -> slab_get (s_links s) k = Some old ->
  (forall k', k' <> k -> slab_get v k' = slab_get (s_links s) k') ->
  stable rown_rel s (drop_link old (set_s_links v s)).
Proof.
  intros s v k old Wf Ho Hv W. set (s1 := set_s_links v s).
  assert (D : stable rown_rel s1 (drop_link old s1)) by exact _. destruct (D (Wf W)) as [W1 [D1 D2]].
  split; [exact W1|]. split; [|intros a H; apply D2, H].
  intros a [L (k' & E)]. destruct (N.eq_dec k' k) as [->|N].
  - rewrite Ho in E. apply Some_inj in E. subst old. right. apply rdrop_shuts. exact L.
  - apply D1. split; [exact L|]. exists k'. change (slab_get v k' = Some (REstablished a)). rewrite Hv by exact N. exact E.
Qed.
#[export] Instance rown_put_link k l s : stable rown_rel s (put_link k l s).
Proof.
  unfold put_link. destruct (slab_get (s_links s) k) as [old|] eqn:Ho; [|apply stable_refl; exact _].
  apply rown_replace with (k := k); [apply slab_set_wf | exact Ho |].
  intros k' N. rewrite slab_get_set by congruence. destruct (N.eqb_spec k k'); [congruence | reflexivity].
Qed.
#[export] Instance rown_remove_link k s : stable rown_rel s (remove_link k s).
Proof.
  unfold remove_link. destruct (slab_get (s_links s) k) as [old|] eqn:Ho; [|apply stable_refl; exact _].
  apply rown_replace with (k := k); [apply slab_remove_wf | exact Ho |].
  intros k' N. rewrite slab_get_remove. destruct (N.eqb_spec k k'); [congruence | reflexivity].
Qed.
#[export] Instance rown_insert l s : stable rown_rel s (set_s_links (slab_insert l (s_links s)) s).
Proof.
  apply rown_slots; [apply slab_insert_wf|]. intros k a W Hk. rewrite slab_get_insert by exact W.
  destruct (N.eqb_spec (slab_key (s_links s)) k) as [<-|]; [|exact Hk]. rewrite (slab_key_free _ _ W) in Hk. discriminate.
Qed.
#[export] Instance rown_handle_attach frm s : stable_opt rown_rel s (handle_attach frm s).
Proof.
  intros x H. change (stable rown_rel s x). unfold handle_attach in H. destruct (name_get _ _) as [i|]; [|discriminate].
  apply Some_inj in H. destruct (slab_get (s_links s) i) as [lk|] eqn:G; [|subst x; apply stable_refl; exact _].
  assert (X : forall s1 new, s_links s1 = s_links s -> (forall a, lk <> REstablished a) ->
     stable rown_rel s1 (set_s_links (slab_set i new (s_links s1)) s1)).
  { intros s1 new E NE. apply rown_slots; [apply slab_set_wf|]. rewrite E. intros k a _ Hk. rewrite slab_get_set by congruence.
    destruct (N.eqb_spec i k) as [->|]; [|exact Hk]. rewrite G in Hk. apply Some_inj in Hk. destruct (NE a Hk). }
  destruct lk as [a| |tx|tx|o|[[a tx]|]|a|tx]; try (subst x; apply stable_refl; exact _); subst x; cbn zeta.
  - eapply stable_trans; [exact _| |st_chain]. eapply stable_trans; [exact _| |apply X; [reflexivity|discriminate]]. st_chain.
  - eapply stable_trans; [exact _| |st_chain]. eapply stable_trans; [exact _| |apply X; [reflexivity|discriminate]]. st_chain.
Qed.

(** ** Failure *)
#[export] Instance rown_fail_link e s l : stable rown_rel s (fail_link e s l).
Proof. unfold fail_link. st_solve. Qed.
#[export] Instance rown_fail_links e l s : stable rown_rel s (fail_links e l s).
Proof.
  unfold fail_links. revert s. induction l as [|x l IH]; intros s; cbn [fold_left]; [apply stable_refl; exact _|].
  eapply stable_trans; [exact _| |apply IH]. st_solve.
Qed.
#[export] Instance rown_drop_links l s : stable rown_rel s (drop_links l s).
Proof.
  unfold drop_links. revert s. induction l as [|x l IH]; intros s; cbn [fold_left]; [apply stable_refl; exact _|].
  eapply stable_trans; [exact _| |apply IH]. st_solve.
Qed.
Lemma fail_link_rcvs : forall e l s, length (s_rcvs (fail_link e s l)) = length (s_rcvs s).
Proof.
  intros e l s. destruct l; cbn [fail_link]; try reflexivity; try (frw; reflexivity).
  unfold rcv_remote_detached, upd_rcv. destruct (nth_error (s_rcvs s) a); [|reflexivity]. st_cbn. apply set_nth_length.
Qed.
Lemma rfail_links_shut : forall e a ls s, slab_wf (s_links s) -> In (REstablished a) ls -> (a < length (s_rcvs s))%nat ->
  rshut a (fail_links e ls s).
Proof.
  intros e a. unfold fail_links. induction ls as [|x ls IH]; intros s W I L; [destruct I|]. cbn [fold_left].
  destruct (rown_fail_link e s x W) as [W1 _]. destruct I as [->|I].
  - assert (K : stable rown_rel (fail_link e s (REstablished a)) (fail_links e ls (fail_link e s (REstablished a)))) by exact _.
    destruct (K W1) as [_ [_ K2]]. apply K2. apply rdetach_shuts. exact L.
  - apply IH; [exact W1 | exact I | rewrite fail_link_rcvs; exact L].
Qed.
#[export] Instance rown_ses_set_error e s : stable rown_rel s (ses_set_error e s).
Proof.
  unfold ses_set_error. cbn zeta.
  match goal with |- context [fail_links e _ ?x] => set (s1 := x) end.
  assert (E1 : stable rown_rel s s1) by (subst s1; st_chain).
  set (ls := slab_values (s_links s1)). set (s2 := fail_links e ls s1).
  assert (Hls : ls = slab_values (s_links s)) by (subst ls s1; frw; reflexivity).
  assert (F : forall t, stable rown_rel (drop_links ls (set_s_links slab0 s2)) t ->
     stable rown_rel s t).
  2: { apply F. st_chain. }
  intros t Ht W. destruct (E1 W) as [W1 [A1 B1]]. assert (K2 : stable rown_rel s1 s2) by (subst s2; exact _). destruct (K2 W1) as [W2 [A2 B2]].
  assert (W3 : slab_wf (s_links (set_s_links slab0 s2))) by apply slab0_wf.
  assert (K3 : stable rown_rel (set_s_links slab0 s2) (drop_links ls (set_s_links slab0 s2))) by exact _.
  destruct (K3 W3) as [W4 [A4 B4]]. destruct (Ht W4) as [W5 [A5 B5]].
  split; [exact W5|]. split.
  - intros a H. right. apply B5, B4. change (rshut a s2). destruct (A1 a H) as [[L (k & G)]|H1]; [|apply B2, H1].
    subst s2. apply rfail_links_shut; [exact W1 | subst ls; apply slab_values_get; eauto | exact L].
  - intros a H. apply B5, B4. change (rshut a s2). apply B2, B1, H.
Qed.

(** ** Handles and names do not change *)
Definition rcv_ids (l : rlink) : N * N * bytes := (rc_handle l, rc_rhandle l, rc_name l).
Definition rch_rel (s s' : ses) : Prop :=
  forall a l, nth_error (s_rcvs s) a = Some l -> exists l', nth_error (s_rcvs s') a = Some l' /\ rcv_ids l' = rcv_ids l.
#[export] Instance rch_pre : preorder rch_rel.
Proof.
  split; [intros s a l E; eauto|]. intros s s1 s2 H1 H2 a l E. destruct (H1 _ _ E) as (l1 & E1 & I1). destruct (H2 _ _ E1) as (l2 & E2 & I2).
  exists l2. split; congruence.
Qed.
#[export] Instance rch_sees : sees rch_rel [Frcvs].
Proof. intros s s' H. assert (E := H Frcvs eq_refl). cbn [same] in E. unfold rch_rel. rewrite E. eauto. Qed.
Lemma wake_handle : forall l, rcv_ids (rcv_wake l) = rcv_ids l.
Proof. intros l. unfold rcv_wake. repeat match goal with |- context [match ?x with _ => _ end] => destruct x end; reflexivity. Qed.
Lemma rch_upd : forall a f s, (forall l, rcv_ids (f l) = rcv_ids l) -> stable rch_rel s (upd_rcv a f s).
Proof.
  intros a f s H b l E. rewrite nth_upd_rcv. destruct (Nat.eqb_spec a b) as [->|]; [|eauto]. rewrite E. cbn [option_map]. eauto.
Qed.
#[export] Hint Extern 1 (stable rch_rel ?s (upd_rcv ?a ?f ?s)) => solve [apply rch_upd; intros; rewrite ?wake_handle; reflexivity] : typeclass_instances.
#[export] Instance rch_add l s : stable rch_rel s (set_s_rcvs (s_rcvs s ++ [l]) s).
Proof. intros b x E. exists x. split; [st_cbn; apply nth_app_old; exact E | reflexivity]. Qed.
