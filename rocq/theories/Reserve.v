(** * The handles reserved for links the service decides about: the relation *)

From Coq Require Import ZifyBool ZifyNat ZifyN.
From Verif Require Export LinkRel Claim.
Import ListNotations.

Definition rsv0 (s s' : ses) : Prop :=
  forall k, slab_get (s_links s) k = Some SOpeningRemote -> slab_get (s_links s') k = Some SOpeningRemote.
Definition rsv_rel (s s' : ses) : Prop := slab_wf (s_links s) -> slab_wf (s_links s') /\ rsv0 s s'.
#[export] Instance rsv_pre : preorder rsv_rel.
Proof.
  split.
  - intros s W. split; [exact W | intros k H; exact H].
  - intros s s1 s2 H1 H2 W. destruct (H1 W) as [W1 K1]. destruct (H2 W1) as [W2 K2].
    split; [exact W2|]. intros k H. apply K2, K1, H.
Qed.
#[export] Instance rsv_sees : sees rsv_rel [Flinks].
Proof.
  intros s s' H W. assert (L := H Flinks eq_refl). cbn [same] in L. unfold rsv0. rewrite L. auto.
Qed.
Lemma rsv_put : forall k lk s, slab_get (s_links s) k <> Some SOpeningRemote -> stable rsv_rel s (put_link k lk s).
Proof.
  intros k lk s N W. unfold put_link. destruct (slab_get (s_links s) k) as [old|] eqn:E; [|split; [exact W | intros j H; exact H]].
  split; [frw; st_cbn; apply slab_set_wf; exact W|]. intros j H. frw. st_cbn. rewrite slab_get_set by congruence.
  destruct (N.eqb_spec k j) as [->|]; congruence.
Qed.
Lemma rsv_remove : forall k s, slab_get (s_links s) k <> Some SOpeningRemote -> stable rsv_rel s (remove_link k s).
Proof.
  intros k s N W. unfold remove_link. destruct (slab_get (s_links s) k) as [old|] eqn:E; [|split; [exact W | intros j H; exact H]].
  split; [frw; st_cbn; apply slab_remove_wf; exact W|]. intros j H. frw. st_cbn. rewrite slab_get_remove.
  destruct (N.eqb_spec k j) as [->|]; congruence.
Qed.
#[export] Instance rsv_insert lk s : stable rsv_rel s (set_s_links (slab_insert lk (s_links s)) s).
Proof.
  intros W. split; [st_cbn; apply slab_insert_wf; exact W|]. intros j H. st_cbn. rewrite slab_get_insert by exact W.
  destruct (N.eqb_spec (slab_key (s_links s)) j) as [<-|]; [|exact H]. rewrite slab_key_free in H by exact W. discriminate H.
Qed.
#[export] Instance rsv_detach_sender id c e tx s : stable rsv_rel s (detach_sender id c e tx s).
Proof.
  unfold detach_sender. destruct (slab_get (s_links s) id) as [lk|] eqn:E; [|st_chain].
  destruct lk; try st_chain; (eapply stable_trans; [exact _ | apply (rsv_put id (SClosing (Some tx)) s); congruence | st_chain]).
Qed.
#[export] Instance rsv_confirm_receiver a r s : stable rsv_rel s (confirm_receiver a r s).
Proof.
  unfold confirm_receiver. destruct (nth_error (s_rcvs s) a) as [l|]; [|st_chain]. cbv zeta.
  destruct (slab_get (s_links s) (rc_handle l)) as [lk|] eqn:E; [|st_chain].
  destruct lk as [| | | |[[a' src]|]| | |]; try st_chain.
  eapply stable_trans; [exact _ | apply (rsv_put (rc_handle l) (REstablished a') s); congruence | st_chain].
Qed.
#[export] Instance rsv_detach_receiver id c e tx s : stable_er rsv_rel (fun x => x) s (detach_receiver id c e tx s).
Proof.
  intros x H. change (stable rsv_rel s x). unfold detach_receiver in H.
  destruct (slab_get (s_links s) id) as [lk|] eqn:E; [destruct lk|]; try discriminate H; apply EOk_inj in H; subst x; try st_chain.
  - match goal with |- stable _ _ (remove_link id ?y) => assert (L : s_links y = s_links s) by (frw; repeat fr_break; frw; reflexivity);
      assert (Y : stable rsv_rel s y); [|eapply stable_trans; [exact _ | exact Y | apply rsv_remove; rewrite L; congruence]] end.
    repeat fr_break; st_chain.
  - eapply stable_trans; [exact _ | apply (rsv_put id (RClosing (Some tx)) s); congruence | st_chain].
  - match goal with |- stable _ _ (remove_link id ?y) => assert (L : s_links y = s_links s) by (frw; reflexivity);
      eapply stable_trans; [exact _ | | apply rsv_remove; rewrite L; congruence] end. st_chain.
Qed.
#[export] Instance rsv_handle_attach frm s : stable_opt rsv_rel s (handle_attach frm s).
Proof.
  intros x H. change (stable rsv_rel s x). unfold handle_attach in H.
  destruct (name_get (attach_name frm) (s_names s)) as [i|]; [|discriminate]. apply Some_inj in H. subst x.
  assert (P : forall lk y, s_links y = slab_set i lk (s_links s) -> slab_get (s_links s) i <> Some SOpeningRemote ->
             slab_get (s_links s) i <> None -> stable rsv_rel s y).
  { intros lk y Ey N1 N2 W. split; [rewrite Ey; apply slab_set_wf; exact W|]. intros j Hj. rewrite Ey, slab_get_set by exact N2.
    destruct (N.eqb_spec i j) as [->|]; [congruence | exact Hj]. }
  destruct (slab_get (s_links s) i) as [lk|] eqn:E; [|st_chain]. destruct lk as [| |tx| | |[[a tx]|]| |]; try st_chain.
  - eapply P; [frw; st_cbn; reflexivity | congruence | congruence].
  - eapply P; [frw; st_cbn; reflexivity | congruence | congruence].
Qed.

(** ** A call of the service that is not completed *)
Definition kp_rel (i : nat) (s s' : ses) : Prop :=
  forall k, nth_error (s_ctl s) i = Some (Some k) -> nth_error (s_ctl s') i = Some (Some k).
#[export] Instance kp_pre i : preorder (kp_rel i).
Proof. split; unfold kp_rel; auto. Qed.
#[export] Instance kp_sees i : sees (kp_rel i) [Fctl].
Proof. intros s s' H k. assert (L := H Fctl eq_refl). cbn [same] in L. rewrite L. auto. Qed.
#[export] Instance kp_control i k s : stable (kp_rel i) s (control k s).
Proof. intros x H. unfold control. st_cbn. rewrite nth_error_app1; [exact H|]. apply nth_error_Some. congruence. Qed.

(** ** The number of sender links *)
Definition nsn_rel (s s' : ses) : Prop := length (s_snds s') = length (s_snds s).
#[export] Instance nsn_pre : preorder nsn_rel.
Proof. split; unfold nsn_rel; [auto | congruence]. Qed.
#[export] Instance nsn_sees : sees nsn_rel [Fsnds].
Proof. intros s s' H. unfold nsn_rel. assert (L := H Fsnds eq_refl). cbn [same] in L. rewrite L. reflexivity. Qed.
#[export] Instance nsn_upd_snd a f s : stable nsn_rel s (upd_snd a f s).
Proof. exact (upd_snd_length a f s). Qed.

(** ** Links that this side attaches *)
Definition opens (c : nat) (lk : link) : Prop := lk = SOpening (Some c) \/ exists a, lk = ROpeningLocal (Some (a, c)).
Definition op_rel (s s' : ses) : Prop :=
  (length (s_chans s) <= length (s_chans s'))%nat
  /\ forall k lk c, opens c lk -> slab_get (s_links s') k = Some lk -> slab_get (s_links s) k = Some lk \/ (length (s_chans s) <= c)%nat.
#[export] Instance op_pre : preorder op_rel.
Proof.
  split; [intros s; split; auto|]. intros s s1 s2 [L1 C1] [L2 C2]. split; [lia|]. intros k lk c O G.
  destruct (C2 _ _ _ O G) as [G1|U]; [exact (C1 _ _ _ O G1) | right; lia].
Qed.
#[export] Instance op_sees : sees op_rel [Flinks; Fchans].
Proof.
  intros s s' H. assert (E1 := H Flinks eq_refl). assert (E2 := H Fchans eq_refl). cbn [same] in *. unfold op_rel. rewrite E1, E2. auto.
Qed.
Lemma op_len : forall s s', s_links s' = s_links s -> (length (s_chans s) <= length (s_chans s'))%nat -> stable op_rel s s'.
Proof. intros s s' E L. split; [exact L|]. rewrite E. auto. Qed.
#[export] Instance op_fire c v s : stable op_rel s (fire c v s).
Proof. apply op_len; [reflexivity|]. unfold fire. st_cbn. rewrite put_chan_len. lia. Qed.
#[export] Instance op_drop_tx c s : stable op_rel s (drop_tx c s).
Proof. apply op_len; [reflexivity|]. unfold drop_tx. st_cbn. rewrite put_chan_len. lia. Qed.
#[export] Instance op_new_chan s : stable op_rel s (set_s_chans (s_chans s ++ [CWait]) s).
Proof. apply op_len; [reflexivity|]. st_cbn. rewrite app_length. lia. Qed.
#[export] Instance op_fire_all l v s : stable op_rel s (fire_all l v s).
Proof.
  unfold fire_all. revert s. induction l as [|x l IH]; intros s; cbn [fold_left]; [apply stable_refl; exact _|].
  eapply stable_trans; [exact _| |apply IH]. st_solve.
Qed.
Class not_opening (lk : link) : Prop := not_opening_ok : match lk with SOpening (Some _) | ROpeningLocal (Some _) => False | _ => True end.
#[export] Hint Extern 0 (not_opening _) => exact I : typeclass_instances.
Lemma not_opens : forall lk c, not_opening lk -> ~ opens c lk.
Proof. intros lk c N [-> | (a & ->)]; exact N. Qed.
#[export] Instance op_set k lk s {N : not_opening lk} : stable op_rel s (set_s_links (slab_set k lk (s_links s)) s).
Proof.
  split; [st_cbn; lia|]. intros k' lk' c O G. st_cbn_in G.
  destruct (slab_get (s_links s) k) as [old|] eqn:E.
  - rewrite slab_get_set in G by congruence. destruct (k =? k'); [|auto]. apply Some_inj in G. subst lk'. elim (not_opens _ _ N O).
  - left. unfold slab_set in G. rewrite E in G. exact G.
Qed.
#[export] Instance op_insert lk s {N : not_opening lk} : stable op_rel s (set_s_links (slab_insert lk (s_links s)) s).
Proof.
  split; [st_cbn; lia|]. intros k' lk' c O G. st_cbn_in G. apply slab_insert_inv in G as [->|G]; [elim (not_opens _ _ N O) | auto].
Qed.
#[export] Instance op_no_links s : stable op_rel s (set_s_links slab0 s).
Proof. split; [st_cbn; lia|]. intros k lk c _ G. st_cbn_in G. rewrite slab0_get in G. discriminate G. Qed.
Lemma op_removed : forall k s, stable op_rel s (set_s_links (slab_remove k (s_links s)) s).
Proof. intros k s. split; [st_cbn; lia|]. intros k' lk c _ G. st_cbn_in G. rewrite slab_get_remove in G. destruct (k =? k'); [discriminate G | auto]. Qed.
#[export] Instance op_upd_snd a f s : stable op_rel s (upd_snd a f s).
Proof. apply op_len; frw; [reflexivity | lia]. Qed.
#[export] Instance op_rel_fire_opt c v s : stable op_rel s (fire_opt c v s).
Proof. unfold fire_opt. st_solve. Qed.
#[export] Instance op_rel_drop_opt c s : stable op_rel s (drop_opt c s).
Proof. unfold drop_opt. st_solve. Qed.
#[export] Instance op_rel_notify_lock_snd a s : stable op_rel s (notify_lock_snd a s).
Proof. unfold notify_lock_snd. st_solve. Qed.
#[export] Instance op_rel_drop_established_snd a s : stable op_rel s (drop_established_snd a s).
Proof. unfold drop_established_snd. st_solve. Qed.
#[export] Instance op_rel_drop_established_rcv a s : stable op_rel s (drop_established_rcv a s).
Proof. unfold drop_established_rcv. st_solve. Qed.
#[export] Instance op_rel_drop_link l s : stable op_rel s (drop_link l s).
Proof. unfold drop_link. st_solve. Qed.
#[export] Instance op_put k lk s {N : not_opening lk} : stable op_rel s (put_link k lk s).
Proof.
  unfold put_link. destruct (slab_get (s_links s) k); [|apply stable_refl; exact _]. eapply stable_trans; [exact _| |exact _]. exact _.
Qed.
#[export] Instance op_remove k s : stable op_rel s (remove_link k s).
Proof.
  unfold remove_link. destruct (slab_get (s_links s) k); [|apply stable_refl; exact _]. eapply stable_trans; [exact _| |exact _]. apply op_removed.
Qed.
Lemma op_fresh : forall s lk s0, stable op_rel s0 s -> (forall c, opens c lk -> (length (s_chans s0) <= c)%nat) ->
  stable op_rel s0 (set_s_links (slab_insert lk (s_links s)) s).
Proof.
  intros s lk s0 [L C] F. split; [exact L|]. intros k lk' c O G. st_cbn_in G. apply slab_insert_inv in G as [->|G]; [right; exact (F c O) | exact (C _ _ _ O G)].
Qed.
#[export] Instance op_attach_local_sender frm s : stable op_rel s (snd (attach_local_sender frm s)).
Proof.
  unfold attach_local_sender, new_chan, insert_link. cbn [snd]. do 2 (eapply stable_trans; [exact _ | | st_one]). apply op_fresh; [exact _|].
  intros c [E|(a & E)]; [|discriminate E]. injection E as <-. lia.
Qed.
#[export] Instance op_attach_local_receiver frm s : stable op_rel s (snd (attach_local_receiver frm s)).
Proof.
  unfold attach_local_receiver, new_chan, insert_link. cbn [snd]. do 2 (eapply stable_trans; [exact _ | | st_one]). apply op_fresh; [st_chain|].
  intros c [E|(a & E)]; [discriminate E|]. injection E as _ <-. lia.
Qed.
