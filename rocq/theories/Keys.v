(** * No two unsettled deliveries of a direction have the same id *)

From Coq Require Import ZifyBool ZifyNat ZifyN.
From Verif Require Export FutureProofs.
Import ListNotations.

Definition keys {A} (m : list (N * A)) : list N := map fst m.
Lemma nodup_del : forall A k (m : list (N * A)), NoDup (keys m) -> NoDup (keys (map_del k m)) /\ ~ In k (keys (map_del k m)).
Proof.
  intros A k m. unfold keys, map_del. induction m as [|[j b] m IH]; cbn [map filter]; intros H; [split; [constructor | auto]|].
  inversion H as [|x l Nj Nd]; subst. cbn [map fst] in *. destruct (IH Nd) as [I1 I2]. destruct (N.eqb_spec k j) as [->|Nk]; cbn [negb]; [auto|].
  cbn [map fst]. split.
  - constructor; [|exact I1]. intros Hin. apply Nj. apply in_map_iff in Hin as ([j' b'] & E & Hin). cbn in E. subst j'.
    apply filter_In in Hin as [Hin _]. apply (in_map fst) in Hin. exact Hin.
  - intros [->|Hin]; [congruence | auto].
Qed.
Lemma keys_upd : forall A k (a : A) m, keys (map_upd k a m) = keys m.
Proof.
  intros. unfold keys, map_upd. rewrite map_map. apply map_ext. intros [j b]. destruct (k =? j); reflexivity.
Qed.
Lemma keys_vals : forall A (f : A -> A) m, keys (map_vals f m) = keys m.
Proof. intros. unfold keys, map_vals. rewrite map_map. apply map_ext. intros [j b]. reflexivity. Qed.
Lemma map_in_get : forall A k (a : A) m, NoDup (keys m) -> In (k, a) m -> map_get k m = Some a.
Proof.
  intros A k a m. unfold keys. induction m as [|[j b] m IH]; intros N Hin; [destruct Hin|]. inversion N; subst. cbn [map_get].
  destruct Hin as [[= -> ->]|Hin]; [rewrite N.eqb_refl; reflexivity|]. destruct (N.eqb_spec k j) as [->|]; [|auto].
  exfalso. apply H1. apply (in_map fst) in Hin. exact Hin.
Qed.

Definition keys_rel (s s' : ses) : Prop :=
  forall b, NoDup (keys (unsettled b s)) -> NoDup (keys (unsettled b s')).
#[export] Instance keys_pre : preorder keys_rel.
Proof. split; [intros s b H; exact H|]. intros s s1 s2 H1 H2 b H. auto. Qed.
#[export] Instance keys_sees : sees keys_rel [Fsnd; Frcv].
Proof.
  intros s s' H b. assert (X4 := H Fsnd eq_refl). assert (X5 := H Frcv eq_refl). cbn [same] in *. unfold unsettled.
  destruct b; congruence.
Qed.
Lemma keys_map : forall b m s, (NoDup (keys (unsettled b s)) -> NoDup (keys m)) -> stable keys_rel s (set_unsettled b m s).
Proof. intros b m s H b' N. rewrite unsettled_set. destruct (Bool.eqb_spec b' b) as [->|]; auto. Qed.
#[export] Instance keys_del b id s : stable keys_rel s (set_unsettled b (map_del id (unsettled b s)) s).
Proof. apply keys_map. intros N. apply nodup_del, N. Qed.
#[export] Instance keys_put b id d s : stable keys_rel s (set_unsettled b (map_put id d (unsettled b s)) s).
Proof. apply keys_map. intros N. destruct (nodup_del _ id _ N). constructor; assumption. Qed.
#[export] Instance keys_update b id d s : stable keys_rel s (set_unsettled b (map_upd id d (unsettled b s)) s).
Proof. apply keys_map. rewrite keys_upd. auto. Qed.
#[export] Instance keys_none b s : stable keys_rel s (set_unsettled b [] s).
Proof. apply keys_map. constructor. Qed.
#[export] Instance keys_no_snd s : stable keys_rel s (set_s_snd [] s).
Proof. exact (keys_none true s). Qed.
#[export] Instance keys_no_rcv s : stable keys_rel s (set_s_rcv [] s).
Proof. exact (keys_none false s). Qed.
#[export] Instance keys_rel_fail_unsettled b h e s : stable keys_rel s (fail_unsettled b h e s).
Proof.
  unfold fail_unsettled. cbv zeta. eapply stable_trans; [exact _ | |apply keys_map]; [st_chain|]. rewrite keys_vals.
  assert (X : forall m s1, unsettled b (fail_all m s1) = unsettled b s1) by (intros; destruct b; unfold unsettled; frw; reflexivity).
  rewrite X. auto.
Qed.
#[export] Instance keys_rel_put_unsettled b id d s : stable keys_rel s (put_unsettled b id d s).
Proof.
  unfold put_unsettled. cbv zeta. destruct (map_get id (unsettled b s)); [|exact _].
  eapply stable_trans; [exact _ | |exact _]. st_chain.
Qed.
#[export] Instance keys_rel_del_unsettled b id s : stable keys_rel s (del_unsettled b id s).
Proof.
  unfold del_unsettled. cbv zeta. destruct (map_get id (unsettled b s)); [|exact _].
  eapply stable_trans; [exact _ | |exact _]. st_chain.
Qed.
#[export] Instance keys_rel_settle_one disp b s no : stable keys_rel s (settle_one disp b s no).
Proof.
  unfold settle_one. destruct (map_get no (unsettled b s)) as [d|]; [|apply stable_refl; exact _]. cbv zeta.
  eapply stable_trans; [exact _ | |exact _]. st_chain.
Qed.
