(** * What happens to the entries of unsettled deliveries

    Apart from incoming dispositions, which set the state of an entry
    (SettleProofs.v). *)

From Coq Require Import ZifyBool ZifyNat ZifyN.
From Verif Require Export KeysRel.
Import ListNotations.

(** Only an entry without an outcome is waited for. *)
Definition clean (d : dinner) : Prop := di_tx d <> None -> di_state d = None /\ di_error d = None.
Definition evolves (d d' : dinner) : Prop :=
  di_handle d' = di_handle d /\ di_settled d' = di_settled d
  /\ (di_state d' = di_state d \/ di_state d' = None) /\ (clean d -> clean d').
Lemma evolves_refl : forall d, evolves d d.
Proof. intros d. repeat split; auto. apply H, H0. apply H, H0. Qed.
Lemma evolves_trans : forall d d1 d2, evolves d d1 -> evolves d1 d2 -> evolves d d2.
Proof.
  intros d d1 d2 (A1 & B1 & C1 & D1) (A2 & B2 & C2 & D2). refine (conj _ (conj _ (conj _ _))); [congruence | congruence | | auto].
  destruct C2 as [->| ->]; auto.
Qed.
Lemma evolves_fail : forall e d, evolves d (di_fail e d).
Proof. intros e d. refine (conj eq_refl (conj eq_refl (conj (or_introl eq_refl) _))). intros _ H. destruct (H eq_refl). Qed.
Lemma evolves_check : forall d r d', check_inner d = (r, d') -> evolves d d'.
Proof.
  intros d r d' H. unfold check_inner in H. destruct (di_state d) as [[]|] eqn:E; injection H as _ <-; try apply evolves_refl.
  refine (conj eq_refl (conj eq_refl (conj (or_intror eq_refl) _))). intros C T. st_cbn_in T. destruct (C T). split; [reflexivity | assumption].
Qed.
Lemma evolves_tx : forall d c d', check_inner d = (None, d') -> evolves d (set_di_tx (Some c) d).
Proof.
  intros d c d' H. unfold check_inner in H. destruct (di_state d) as [[]|] eqn:E; try discriminate H.
  refine (conj eq_refl (conj eq_refl (conj (or_introl eq_refl) _))). intros _ _. st_cbn. split; [exact E|]. destruct (di_error d); [discriminate H | reflexivity].
Qed.

Definition ent_rel (s s' : ses) : Prop :=
  forall b id d', map_get id (unsettled b s') = Some d' ->
    (exists d, map_get id (unsettled b s) = Some d /\ evolves d d') \/ (exists h, evolves (di_new h) d').
#[export] Instance ent_pre : preorder ent_rel.
Proof.
  split; [intros s b id d H; left; eauto using evolves_refl|]. intros s s1 s2 H1 H2 b id d G.
  destruct (H2 _ _ _ G) as [(d1 & G1 & E1)|E]; [|auto]. 
  destruct (H1 _ _ _ G1) as [(d0 & G0 & E0)|(h & E0)]; [left | right]; eauto using evolves_trans.
Qed.
#[export] Instance ent_sees : sees ent_rel [Fsnd; Frcv].
Proof.
  intros s s' H b. assert (X4 := H Fsnd eq_refl). assert (X5 := H Frcv eq_refl). cbn [same] in *.
  assert (E : unsettled b s' = unsettled b s) by (unfold unsettled; destruct b; congruence). intros id d G. left.
  rewrite E in G. eauto using evolves_refl.
Qed.
Lemma ent_map : forall b m s, (forall id d', map_get id m = Some d' ->
    (exists d, map_get id (unsettled b s) = Some d /\ evolves d d') \/ (exists h, evolves (di_new h) d')) ->
  stable ent_rel s (set_unsettled b m s).
Proof.
  intros b m s H b' id d' G. rewrite unsettled_set in G. destruct (Bool.eqb_spec b' b) as [->|]; [auto|]. left. eauto using evolves_refl.
Qed.
#[export] Instance ent_del b id s : stable ent_rel s (set_unsettled b (map_del id (unsettled b s)) s).
Proof.
  apply ent_map. intros id' d' G. rewrite map_get_del in G. destruct (N.eqb_spec id' id) as [->|]; [discriminate|]. left. eauto using evolves_refl.
Qed.
#[export] Instance ent_put b id h s : stable ent_rel s (set_unsettled b (map_put id (di_new h) (unsettled b s)) s).
Proof.
  apply ent_map. intros id' d' G. rewrite map_get_put in G. destruct (N.eqb_spec id' id) as [->|].
  - right. apply Some_inj in G. subst d'. exists h. apply evolves_refl.
  - left. eauto using evolves_refl.
Qed.
Lemma ent_upd : forall b id d d' s, map_get id (unsettled b s) = Some d -> evolves d d' ->
  stable ent_rel s (set_unsettled b (map_upd id d' (unsettled b s)) s).
Proof.
  intros b id d d' s G E. apply ent_map. intros id' x G'. rewrite map_get_upd in G'. destruct (N.eqb_spec id' id) as [->|].
  - rewrite G in G'. cbn [option_map] in G'. apply Some_inj in G'. subst x. eauto.
  - eauto using evolves_refl.
Qed.
#[export] Instance ent_none b s : stable ent_rel s (set_unsettled b [] s).
Proof. apply ent_map. intros id d G. discriminate G. Qed.
#[export] Instance ent_no_snd s : stable ent_rel s (set_s_snd [] s).
Proof. exact (ent_none true s). Qed.
#[export] Instance ent_no_rcv s : stable ent_rel s (set_s_rcv [] s).
Proof. exact (ent_none false s). Qed.
Lemma unsettled_fail_all : forall b m s, unsettled b (fail_all m s) = unsettled b s.
Proof. intros. destruct b; unfold unsettled; frw; reflexivity. Qed.
#[export] Instance ent_rel_fail_unsettled b h e s : stable ent_rel s (fail_unsettled b h e s).
Proof.
  unfold fail_unsettled. cbv zeta. eapply stable_trans; [exact _ | |apply ent_map]; [st_chain|]. 
  rewrite unsettled_fail_all. intros id d' G. rewrite map_get_vals in G. destruct (map_get id (unsettled b s)) as [d|]; [|discriminate G].
  cbn [option_map] in G. apply Some_inj in G. subst d'. left. exists d. split; [reflexivity|].
  destruct (di_handle d =? h); [apply evolves_fail | apply evolves_refl].
Qed.
#[export] Instance ent_rel_put_unsettled b id h s : stable ent_rel s (put_unsettled b id (di_new h) s).
Proof.
  unfold put_unsettled. cbv zeta. destruct (map_get id (unsettled b s)); [|exact _].
  eapply stable_trans; [exact _ | |exact _]. st_chain.
Qed.
#[export] Instance ent_rel_del_unsettled b id s : stable ent_rel s (del_unsettled b id s).
Proof.
  unfold del_unsettled. cbv zeta. destruct (map_get id (unsettled b s)); [|exact _].
  eapply stable_trans; [exact _ | |exact _]. st_chain.
Qed.
Lemma unsettled_same : forall b s s', s_snd s' = s_snd s -> s_rcv s' = s_rcv s -> unsettled b s' = unsettled b s.
Proof. intros b s s' E1 E2. destruct b; unfold unsettled; assumption. Qed.
Lemma ent_upd_same : forall b id d d' s s1, s_snd s1 = s_snd s -> s_rcv s1 = s_rcv s -> map_get id (unsettled b s) = Some d -> evolves d d' ->
  stable ent_rel s (set_unsettled b (map_upd id d' (unsettled b s)) s1).
Proof.
  intros b id d d' s s1 E1 E2 G E. intros b' id' x G'. rewrite unsettled_set in G'. destruct (Bool.eqb_spec b' b) as [->|].
  - rewrite map_get_upd in G'. destruct (N.eqb_spec id' id) as [->|].
    + rewrite G in G'. cbn [option_map] in G'. apply Some_inj in G'. subst x. eauto.
    + eauto using evolves_refl.
  - rewrite (unsettled_same b' s s1 E1 E2) in G'. eauto using evolves_refl.
Qed.
#[export] Instance ent_rel_poll_wait w s : stable ent_rel s (poll_wait w s).
Proof.
  unfold poll_wait. cbv zeta. destruct (nth_error (s_waits s) w) as [k|]; [|apply stable_refl; exact _].
  destruct (nth_error (s_dlvs s) (wk_dlv k)) as [d|]; [|apply stable_refl; exact _].
  assert (K : forall r s1, stable ent_rel s s1 -> stable ent_rel s (upd_wait w (set_wk_st r) s1)).
  { intros r s1 H. eapply stable_trans; [exact _ | exact H | st_one]. }
  destruct (wk_st k) as [|c|r|]; try (apply stable_refl; exact _).
  - destruct (dl_local d); [apply K, stable_refl; exact _|].
    destruct (map_get (dl_id d) (unsettled (dl_sender d) s)) as [di|] eqn:G; [|apply K, stable_refl; exact _].
    destruct (check_inner di) as [[r|] di'] eqn:Ec.
    + apply K. eapply ent_upd_same; eauto using evolves_check.
    + unfold new_chan. apply K. 
      rewrite (unsettled_same (dl_sender d) s (drop_opt (di_tx di) (set_s_chans (s_chans s ++ [CWait]) s))) by (frw; reflexivity).
      eapply ent_upd_same; eauto using evolves_tx; frw; reflexivity.
  - destruct (nth_error (s_chans s) c) as [[]|]; try (apply stable_refl; exact _); [|apply K, stable_refl; exact _].
    destruct (map_get (dl_id d) (unsettled (dl_sender d) s)) as [di|] eqn:G; [|apply K, stable_refl; exact _].
    set (s1 := if di_settled di then _ else s). assert (E1 : s_snd s1 = s_snd s /\ s_rcv s1 = s_rcv s) by (unfold s1; destruct (di_settled di); frw; auto).
    destruct E1 as [E1 E2]. destruct (check_inner di) as [[r|] di'] eqn:Ec.
    + apply K. rewrite (unsettled_same (dl_sender d) s s1 E1 E2). eapply ent_upd_same; eauto using evolves_check.
    + apply K. unfold s1. destruct (di_settled di); st_chain.
Qed.
