(** * A channel is kept at one place only *)

From Coq Require Import ZifyBool ZifyNat ZifyN.
From Verif Require Export HoldProofs.
Import ListNotations.

(** No channel gets to a place. *)
Definition shr_rel (s s' : ses) : Prop :=
  (length (s_chans s) <= length (s_chans s'))%nat /\ forall pl c, at_place pl c s' -> at_place pl c s.
#[export] Instance shr_pre : preorder shr_rel.
Proof.
  split; [intros s; split; auto|]. intros s s1 s2 [L1 H1] [L2 H2]. split; [lia | auto].
Qed.
Lemma at_place_same : forall s s' pl c,
  s_links s' = s_links s -> s_snds s' = s_snds s -> s_pending s' = s_pending s -> s_snd s' = s_snd s -> s_rcv s' = s_rcv s ->
  s_closed s' = s_closed s -> at_place pl c s' -> at_place pl c s.
Proof.
  intros s s' pl c E1 E2 E3 E4 E5 E6 P. destruct pl as [| | | |b id| |]; cbn [at_place] in *; unfold unsettled in *; try congruence.
  - rewrite E2 in P. exact P.
  - rewrite E2 in P. exact P.
  - rewrite E2 in P. exact P.
  - destruct b; [rewrite E4 in P | rewrite E5 in P]; exact P.
  - rewrite E1 in P. exact P.
Qed.
#[export] Instance shr_sees : sees shr_rel [Flinks; Fchans; Fsnds; Fpending; Fsnd; Frcv; Fclosed].
Proof.
  intros s s' H. assert (X := H Flinks eq_refl). assert (X1 := H Fchans eq_refl). assert (X2 := H Fsnds eq_refl).
  assert (X3 := H Fpending eq_refl). assert (X4 := H Fsnd eq_refl). assert (X5 := H Frcv eq_refl). assert (X6 := H Fclosed eq_refl).
  cbn [same] in *. split; [rewrite X1; auto|]. intros pl c. apply at_place_same; assumption.
Qed.
Lemma shr_chans : forall v s, (length (s_chans s) <= length v)%nat -> stable shr_rel s (set_s_chans v s).
Proof. intros v s L. split; [exact L|]. intros pl c. apply at_place_same; reflexivity. Qed.
#[export] Instance shr_rel_fire c v s : stable shr_rel s (fire c v s).
Proof. apply shr_chans. rewrite put_chan_len. auto. Qed.
#[export] Instance shr_rel_drop_tx c s : stable shr_rel s (drop_tx c s).
Proof. apply shr_chans. rewrite put_chan_len. auto. Qed.
#[export] Instance shr_new_chan v s : stable shr_rel s (set_s_chans (s_chans s ++ v) s).
Proof. apply shr_chans. rewrite app_length. lia. Qed.
#[export] Instance shr_rel_fire_opt c v s : stable shr_rel s (fire_opt c v s).
Proof. unfold fire_opt. st_solve. Qed.
#[export] Instance shr_rel_drop_opt c s : stable shr_rel s (drop_opt c s).
Proof. unfold drop_opt. st_solve. Qed.
#[export] Instance shr_rel_fire_all l v s : stable shr_rel s (fire_all l v s).
Proof.
  unfold fire_all. revert s. induction l as [|x l IH]; intros s; cbn [fold_left]; [apply stable_refl; exact _|].
  eapply stable_trans; [exact _| |apply IH]. st_solve.
Qed.
#[export] Instance shr_rel_fail_all m s : stable shr_rel s (fail_all m s).
Proof.
  unfold fail_all. revert s. induction m as [|[k d] m IH]; intros s; cbn [fold_left]; [apply stable_refl; exact _|].
  eapply stable_trans; [exact _| |apply IH]. st_solve.
Qed.

(** ** Sender links *)
Lemma shr_upd_snd : forall a f s,
  (forall l c, nth_error (s_snds s) a = Some l ->
     (In c (sn_pending (f l)) -> In c (sn_pending l))
     /\ (In c (cd_wait (sn_on_close (f l))) -> In c (cd_wait (sn_on_close l)))
     /\ (In c (cd_wait (sn_on_credit (f l))) -> In c (cd_wait (sn_on_credit l)))) ->
  stable shr_rel s (upd_snd a f s).
Proof.
  intros a f s H. split; [frw; auto|]. intros pl c P.
  assert (X : forall b (g : slink -> list nat),
    (forall l, nth_error (s_snds s) a = Some l -> In c (g (f l)) -> In c (g l)) ->
    (exists l, nth_error (s_snds (upd_snd a f s)) b = Some l /\ In c (g l)) ->
    exists l, nth_error (s_snds s) b = Some l /\ In c (g l)).
  { intros b g Hg (l & E & I). rewrite nth_upd_snd in E. destruct (Nat.eqb_spec a b) as [->|]; [|eauto].
    destruct (nth_error (s_snds s) b) as [l0|] eqn:E0; [|discriminate]. cbn [option_map] in E. injection E as <-. eauto. }
  destruct pl as [| | | |[] id| |]; cbn [at_place] in *; unfold unsettled in *; frw_in P; try exact P.
  - apply X; [|exact P]. intros l E. apply (H l c E).
  - apply (X a0 (fun l => cd_wait (sn_on_close l))); [|exact P]. intros l E. apply (H l c E).
  - apply (X a0 (fun l => cd_wait (sn_on_credit l))); [|exact P]. intros l E. apply (H l c E).
Qed.
(** The functions on links that appear in the model. *)
Ltac shr_snd := apply shr_upd_snd; intros; st_cbn; cbn [cd_wait In]; intuition auto.
#[export] Hint Extern 1 (stable shr_rel ?s (upd_snd ?a ?f ?s)) => solve [shr_snd] : typeclass_instances.
Lemma shr_add_snd : forall l s, sn_pending l = [] -> sn_on_close l = cond0 -> sn_on_credit l = cond0 ->
  stable shr_rel s (set_s_snds (s_snds s ++ [l]) s).
Proof.
  intros l s E1 E2 E3. split; [auto|]. intros pl c P.
  assert (X : forall a (g : slink -> list nat), g l = [] ->
     (exists x, nth_error (s_snds s ++ [l]) a = Some x /\ In c (g x)) -> exists x, nth_error (s_snds s) a = Some x /\ In c (g x)).
  { intros a g Hg (x & Hx & Hc). apply nth_snoc in Hx as [Hx|[-> ->]]; [eauto|]. rewrite Hg in Hc. destruct Hc. }
  destruct pl; cbn [at_place] in *; unfold unsettled in *; try exact P.
  - apply X; [exact E1 | exact P].
  - apply (X a (fun l => cd_wait (sn_on_close l))); [rewrite E2; reflexivity | exact P].
  - apply (X a (fun l => cd_wait (sn_on_credit l))); [rewrite E3; reflexivity | exact P].
Qed.
#[export] Instance shr_add_new id nm h dc m s : stable shr_rel s (set_s_snds (s_snds s ++ [snd_new id nm h dc m]) s).
Proof. apply shr_add_snd; reflexivity. Qed.
#[export] Instance shr_add_with id frm s : stable shr_rel s (set_s_snds (s_snds s ++ [snd_with id frm]) s).
Proof. apply shr_add_snd; reflexivity. Qed.

(** ** Slots *)
Lemma shr_links : forall v s,
  (forall k lk c, slab_get v k = Some lk -> tx_of lk = Some c -> exists lk', slab_get (s_links s) k = Some lk' /\ tx_of lk' = Some c) ->
  stable shr_rel s (set_s_links v s).
Proof.
  intros v s H. split; [auto|]. intros pl c P. destruct pl; cbn [at_place] in *; unfold unsettled in *; try exact P.
  destruct P as (lk & G & T). eauto.
Qed.
Class no_tx (l : link) : Prop := get_no_tx : tx_of l = None.
#[export] Hint Extern 0 (no_tx _) => reflexivity : typeclass_instances.
#[export] Instance shr_set k l s : no_tx l -> stable shr_rel s (set_s_links (slab_set k l (s_links s)) s).
Proof.
  intros N. apply shr_links. intros k' lk c G T. destruct (slab_get (s_links s) k) as [old|] eqn:Eo.
  - rewrite slab_get_set in G by congruence. destruct (N.eqb_spec k k') as [<-|]; [|eauto]. red in N. congruence.
  - unfold slab_set in G. rewrite Eo in G. eauto.
Qed.
#[export] Instance shr_remove k s : stable shr_rel s (set_s_links (slab_remove k (s_links s)) s).
Proof. apply shr_links. intros k' lk c G T. rewrite slab_get_remove in G. destruct (k =? k'); [discriminate | eauto]. Qed.
#[export] Instance shr_insert l s : no_tx l -> stable shr_rel s (set_s_links (slab_insert l (s_links s)) s).
Proof.
  intros N. apply shr_links. intros k' lk c G T. apply slab_insert_inv in G as [->|G]; [|eauto]. red in N. congruence.
Qed.
#[export] Instance shr_slab0 s : stable shr_rel s (set_s_links slab0 s).
Proof. apply shr_links. intros k' lk c G T. rewrite slab0_get in G. discriminate. Qed.

(** ** Maps *)
Lemma shr_map : forall b m s,
  (forall id di c, map_get id m = Some di -> di_tx di = Some c ->
     exists di', map_get id (unsettled b s) = Some di' /\ di_tx di' = Some c) ->
  stable shr_rel s (set_unsettled b m s).
Proof.
  intros b m s H. split; [destruct b; auto|]. intros pl c P.
  destruct pl as [| | | |b' id| |]; cbn [at_place] in *; try (destruct b; exact P).
  rewrite unsettled_set in P. destruct (Bool.eqb_spec b' b) as [->|]; [|exact P].
  destruct P as (di & E & T). eauto.
Qed.
#[export] Instance shr_del b id s : stable shr_rel s (set_unsettled b (map_del id (unsettled b s)) s).
Proof. apply shr_map. intros id' di c G T. rewrite map_get_del in G. destruct (id' =? id); [discriminate | eauto]. Qed.
#[export] Instance shr_put b id h s : stable shr_rel s (set_unsettled b (map_put id (di_new h) (unsettled b s)) s).
Proof. apply shr_map. intros id' di c G T. rewrite map_get_put in G. destruct (id' =? id); [injection G as <-; discriminate | eauto]. Qed.
Lemma shr_upd : forall b id d s, di_tx d = None -> stable shr_rel s (set_unsettled b (map_upd id d (unsettled b s)) s).
Proof.
  intros b id d s N. apply shr_map. intros id' di c G T. rewrite map_get_upd in G. destruct (id' =? id); [|eauto].
  destruct (map_get id (unsettled b s)); [injection G as <-; congruence | discriminate].
Qed.
#[export] Instance shr_none b s : stable shr_rel s (set_unsettled b [] s).
Proof. apply shr_map. intros id' di c G T. discriminate. Qed.
#[export] Instance shr_rel_del_unsettled b id s : stable shr_rel s (del_unsettled b id s).
Proof.
  unfold del_unsettled. cbv zeta. destruct (map_get id (unsettled b s)); [|exact _].
  eapply stable_trans; [exact _ | apply shr_rel_fire_opt | exact _].
Qed.
#[export] Instance shr_put_unsettled b id h s : stable shr_rel s (put_unsettled b id (di_new h) s).
Proof.
  unfold put_unsettled. cbv zeta. destruct (map_get id (unsettled b s)); [|exact _].
  eapply stable_trans; [exact _ | apply shr_rel_fire_opt | exact _].
Qed.
#[export] Instance shr_rel_settle_one disp b s no : stable shr_rel s (settle_one disp b s no).
Proof.
  unfold settle_one. destruct (map_get no (unsettled b s)) as [d|]; [|apply stable_refl; exact _]. cbv zeta.
  eapply stable_trans; [exact _ | apply shr_rel_fire_opt | apply shr_upd; reflexivity].
Qed.
#[export] Instance shr_rel_fail_unsettled b h e s : stable shr_rel s (fail_unsettled b h e s).
Proof.
  unfold fail_unsettled. cbv zeta. eapply stable_trans; [exact _ | apply shr_rel_fail_all | apply shr_map].
  intros id di c G T. rewrite map_get_vals in G.
  assert (X : forall m s1, unsettled b (fail_all m s1) = unsettled b s1) by (intros; destruct b; unfold unsettled; frw; reflexivity).
  rewrite X. destruct (map_get id (unsettled b s)) as [d0|]; [|discriminate]. cbn [option_map] in G. injection G as <-.
  destruct (di_handle d0 =? h); [discriminate T | eauto].
Qed.

(** ** The session *)
Lemma shr_pending : forall v s, (forall x, In x v -> In x (s_pending s)) -> stable shr_rel s (set_s_pending v s).
Proof.
  intros v s H. split; [auto|]. intros pl c P. destruct pl; cbn [at_place] in *; unfold unsettled in *; try exact P. apply H, P.
Qed.
#[export] Instance shr_no_pending s : stable shr_rel s (set_s_pending [] s).
Proof. apply shr_pending. intros x []. Qed.
#[export] Instance shr_rel_drain_pending h e s : stable shr_rel s (drain_pending h e s).
Proof.
  unfold drain_pending. cbv zeta. eapply stable_trans; [exact _ | apply shr_rel_fire_all | apply shr_pending].
  intros x H. frw. apply filter_In in H. apply H.
Qed.
#[export] Instance shr_closed b s : stable shr_rel s (set_s_closed (mk_cond [] b) s).
Proof. split; [auto|]. intros pl c P. destruct pl; cbn [at_place] in *; unfold unsettled in *; try exact P. destruct P. Qed.
#[export] Instance shr_rel_put_link k l s : no_tx l -> stable shr_rel s (put_link k l s).
Proof.
  intros N. assert (D : forall old s1, stable shr_rel s1 (drop_link old s1)).
  { intros old s1. unfold drop_link, drop_established_snd, notify_lock_snd. st_solve. }
  unfold put_link. destruct (slab_get (s_links s) k); [|apply stable_refl; exact _].
  eapply stable_trans; [exact _ | apply shr_set; exact N | apply D].
Qed.
#[export] Instance shr_no_snd s : stable shr_rel s (set_s_snd [] s).
Proof. exact (shr_none true s). Qed.
#[export] Instance shr_no_rcv s : stable shr_rel s (set_s_rcv [] s).
Proof. exact (shr_none false s). Qed.
