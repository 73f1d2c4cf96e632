(** * Who waits for credit is woken through the queue of its link only

    A channel whose sending half is in the queue of sender link [a], and nowhere
    else, keeps waiting through everything that does not empty that queue. *)

From Coq Require Import Lia ZifyBool ZifyNat ZifyN.
From Verif Require Export ReleaseProofs ApartProofs.
Import ListNotations.

Section Q.
Context (a c : nat).
Definition only_there (s : ses) : Prop := forall pl, at_place pl c s -> pl = PLink a.
Definition qt_rel (s s' : ses) : Prop := only_there s -> waits_on c s -> only_there s' /\ waits_on c s'.
#[export] Instance qt_pre : preorder qt_rel.
Proof. split; [intros s O W; auto|]. intros s s1 s2 H1 H2 O W. destruct (H1 O W) as [O1 W1]. exact (H2 O1 W1). Qed.
#[export] Instance qt_sees : sees qt_rel [Flinks; Fchans; Fsnds; Fpending; Fsnd; Frcv; Fclosed].
Proof.
  intros s s' H O W. split; [intros pl P; apply O; exact (proj2 (shr_sees s s' H) _ _ P)|].
  assert (X := H Fchans eq_refl). cbn [same] in X. unfold waits_on in *. rewrite X. exact W.
Qed.
Lemma qt_shr s s' : stable shr_rel s s' -> (only_there s -> waits_on c s -> waits_on c s') -> stable qt_rel s s'.
Proof. intros K H O W. split; [intros pl P; apply O; exact (shr_at _ _ _ _ K P)|auto]. Qed.
Lemma qt_add pl c0 s s' : stable (add_rel pl c0) s s' -> c0 <> c -> (only_there s -> waits_on c s -> waits_on c s') -> stable qt_rel s s'.
Proof. intros [_ K] N H O W. split; [|auto]. intros q P. destruct (K _ _ P) as [P0|[E _]]; [exact (O _ P0)|congruence]. Qed.
Lemma qt_eq s s' : s_chans s' = s_chans s -> stable shr_rel s s' -> stable qt_rel s s'.
Proof. intros E K. apply qt_shr; [exact K|]. intros _ W. unfold waits_on in *. rewrite E. exact W. Qed.
(** The new channel is another one. *)
Lemma qt_new s s' : (length (s_chans s) <> c -> stable qt_rel (set_s_chans (s_chans s ++ [CWait]) s) s') -> stable qt_rel s s'.
Proof.
  intros H O W. assert (L : (c < length (s_chans s))%nat) by (apply nth_lt in W; exact W). apply H; [lia| |].
  - intros pl P. apply O. revert P. apply at_place_same; reflexivity.
  - unfold waits_on in *. st_cbn. apply nth_app_old. exact W.
Qed.

(** ** Sending on other channels *)
Lemma qt_fire d v s : d <> c -> stable qt_rel s (fire d v s).
Proof. intros N. apply qt_shr; [exact _|]. intros _ W. unfold waits_on in *. rewrite fire_other by congruence. exact W. Qed.
Lemma qt_fire_opt o v s : o <> Some c -> stable qt_rel s (fire_opt o v s).
Proof. intros N. apply qt_shr; [exact _|]. intros _ W. unfold waits_on in *. rewrite fire_opt_other by exact N. exact W. Qed.
Lemma qt_drop_opt o s : o <> Some c -> stable qt_rel s (drop_opt o s).
Proof. intros N. apply qt_shr; [exact _|]. intros _ W. unfold waits_on in *. rewrite drop_opt_other by exact N. exact W. Qed.
Lemma qt_fire_all l v s : ~ In c l -> stable qt_rel s (fire_all l v s).
Proof. intros N. apply qt_shr; [exact _|]. intros _ W. unfold waits_on in *. rewrite fire_all_other by exact N. exact W. Qed.

(** ** Entries *)
Lemma entry_else b id di s : only_there s -> map_get id (unsettled b s) = Some di -> di_tx di <> Some c.
Proof. intros O E T. discriminate (O (PEntry b id)). exists di. auto. Qed.
#[export] Instance qt_put_unsettled b id h s : stable qt_rel s (put_unsettled b id (di_new h) s).
Proof.
  apply qt_shr; [exact _|]. intros O W. unfold put_unsettled. cbv zeta. unfold waits_on. frw.
  destruct (map_get id (unsettled b s)) as [old|] eqn:E; [|exact W]. rewrite fire_opt_other by exact (entry_else _ _ _ _ O E). exact W.
Qed.
#[export] Instance qt_del_unsettled b id s : stable qt_rel s (del_unsettled b id s).
Proof.
  apply qt_shr; [exact _|]. intros O W. unfold del_unsettled. cbv zeta. unfold waits_on. frw.
  destruct (map_get id (unsettled b s)) as [old|] eqn:E; [|exact W]. rewrite fire_opt_other by exact (entry_else _ _ _ _ O E). exact W.
Qed.
#[export] Instance qt_settle_one disp b s no : stable qt_rel s (settle_one disp b s no).
Proof.
  apply qt_shr; [exact _|]. intros O W. unfold settle_one. cbv zeta. unfold waits_on.
  destruct (map_get no (unsettled b s)) as [old|] eqn:E; [|exact W]. frw. rewrite fire_opt_other by exact (entry_else _ _ _ _ O E). exact W.
Qed.
#[export] Instance qt_settle_all disp b l s : stable qt_rel s (settle_all disp b l s).
Proof.
  unfold settle_all. revert s. induction l as [|x l IH]; intros s; cbn [fold_left]; [apply stable_refl; exact _|].
  eapply stable_trans; [exact _| |apply IH]. exact _.
Qed.
#[export] Instance qt_settle_deliveries disp s : stable qt_rel s (settle_deliveries disp s).
Proof. unfold settle_deliveries. st_solve. Qed.
#[export] Instance qt_new_rcv id h tag b s : stable qt_rel s (snd (new_rcv id h tag b s)).
Proof. unfold new_rcv. st_solve. Qed.
#[export] Instance qt_dlv_drop i s : stable qt_rel s (dlv_drop i s).
Proof. unfold dlv_drop. st_solve. Qed.
#[export] Instance qt_drop_dlvs l s : stable qt_rel s (drop_dlvs l s).
Proof.
  unfold drop_dlvs. revert s. induction l as [|x l IH]; intros s; cbn [fold_left]; [apply stable_refl; exact _|].
  eapply stable_trans; [exact _| |apply IH]. exact _.
Qed.
#[export] Instance qt_rcv_detached i s : stable qt_rel s (rcv_detached i s).
Proof. unfold rcv_detached. st_solve. Qed.
#[export] Instance qt_drain_pending h e s : stable qt_rel s (drain_pending h e s).
Proof.
  apply qt_shr; [exact _|]. intros O W. unfold drain_pending, waits_on. st_cbn. rewrite fire_all_other; [exact W|].
  intros I. apply in_map_iff in I as ([c' h'] & E & I). cbn in E. subst c'. apply filter_In in I as [I _]. discriminate (O (PSes h') I).
Qed.

(** ** Links *)
#[export] Instance qt_notify_lock_snd b s : stable qt_rel s (notify_lock_snd b s).
Proof.
  apply qt_shr; [exact _|]. intros O W. unfold waits_on in *. rewrite notify_other; [exact W| |]; intros P; discriminate (O _ P).
Qed.
#[export] Instance qt_closed b v s : stable qt_rel s (upd_snd b (set_sn_closed v) s).
Proof. apply qt_eq; [frw; reflexivity|]. apply shr_upd_snd. intros. st_cbn. auto. Qed.
#[export] Instance qt_drop_established_snd b s : stable qt_rel s (drop_established_snd b s).
Proof. unfold drop_established_snd. st_solve. Qed.
Lemma qt_drop_link l s : tx_of l <> Some c -> stable qt_rel s (drop_link l s).
Proof.
  intros N. destruct l as [| | | |[[? ?]|]|[[? ?]|]| |]; cbn [drop_link tx_of] in *; try st_chain; try (apply qt_drop_opt; exact N).
  exact (qt_drop_opt (Some _) s N).
Qed.
Lemma slot_else k l s : only_there s -> slab_get (s_links s) k = Some l -> tx_of l <> Some c.
Proof. intros O E T. discriminate (O (PSlot k)). exists l. auto. Qed.
Lemma qt_put_tx k l tx s : tx_of l = Some tx -> tx <> c -> stable qt_rel s (put_link k l s).
Proof.
  intros T N. apply (qt_add (PSlot k) tx); [apply add_put_link; exact T|exact N|]. intros O W.
  unfold put_link. destruct (slab_get (s_links s) k) as [old|] eqn:E; [|exact W].
  set (s1 := set_s_links (slab_set k l (s_links s)) s).
  assert (O1 : stable qt_rel s s1).
  { apply (qt_add (PSlot k) tx); [|exact N|auto]. apply add_links. intros k' lk x G Tx. rewrite slab_get_set in G by congruence.
    destruct (N.eqb_spec k k') as [<-|]; [|left; eauto]. right. split; [congruence|reflexivity]. }
  destruct (O1 O W) as [O2 W2]. exact (proj2 (qt_drop_link old s1 (slot_else _ _ _ O E) O2 W2)).
Qed.
#[export] Instance qt_put_link k l s : no_tx l -> stable qt_rel s (put_link k l s).
Proof.
  intros N. apply qt_shr; [exact _|]. intros O W. unfold put_link. destruct (slab_get (s_links s) k) as [old|] eqn:E; [|exact W].
  set (s1 := set_s_links (slab_set k l (s_links s)) s).
  assert (O1 : only_there s1) by (intros pl P; apply O; exact (shr_at _ _ _ _ (shr_set k l s N) P)).
  exact (proj2 (qt_drop_link old s1 (slot_else _ _ _ O E) O1 W)).
Qed.
#[export] Instance qt_remove_link k s : stable qt_rel s (remove_link k s).
Proof.
  apply qt_shr; [exact _|]. intros O W. unfold remove_link. destruct (slab_get (s_links s) k) as [old|] eqn:E; [|exact W].
  set (s1 := set_s_links (slab_remove k (s_links s)) s).
  assert (O1 : only_there s1) by (intros pl P; apply O; exact (shr_at _ _ _ _ (shr_remove k s) P)).
  exact (proj2 (qt_drop_link old s1 (slot_else _ _ _ O E) O1 W)).
Qed.
Lemma qt_snd_remote_detached b e s : b <> a -> stable qt_rel s (snd_remote_detached b e s).
Proof.
  intros N. apply qt_shr; [exact _|]. intros O W. unfold waits_on in *. rewrite detached_other; [exact W| | |]; intros P; specialize (O _ P); congruence.
Qed.
Lemma qt_apply_flow f b s : b <> a -> stable qt_rel s (apply_flow f b s).
Proof.
  intros N. apply qt_shr; [exact _|]. intros O W. unfold apply_flow. destruct (flow_link_credit f); [|exact W].
  destruct (nth_error (s_snds s) b) as [l|] eqn:E; [|exact W]. cbv zeta. unfold waits_on in *.
  assert (N1 : ~ In c (sn_pending l)) by (intros I; assert (X : PLink b = PLink a) by (apply O; exists l; auto); congruence).
  assert (N2 : ~ In c (cd_wait (sn_on_credit l))) by (intros I; discriminate (O (PCredit b)); exists l; auto).
  destruct (0 <? _); frw; rewrite ?fire_all_other by assumption; frw; rewrite ?fire_all_other by assumption; exact W.
Qed.
End Q.
