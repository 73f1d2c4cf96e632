(** * Which slot a link, or a future that waits for an answer, is in *)

From Coq Require Import ZifyBool ZifyNat ZifyN.
From Verif Require Export FutureProofs.
Import ListNotations.

(** A sender link; a receiver link with a remote handle; a receiver link whose
    attach is not answered; the channel of a future that waits for a detach; of
    one that waits for an attach. *)
Inductive thing : Type := XSnd (a : nat) | XRcv (a : nat) | XLoc (a : nat) | XChan (c : nat) | XOpen (c : nat).
Definition is_in (x : thing) (lk : link) : Prop :=
  match x, lk with
  | XSnd a, SEstablished a' => a = a'
  | XRcv a, (ROpening (Some (a', _)) | REstablished a') => a = a'
  | XLoc a, ROpeningLocal (Some (a', _)) => a = a'
  | XChan c, (SClosing (Some c') | RClosing (Some c')) => c = c'
  | XOpen c, (SOpening (Some c') | ROpeningLocal (Some (_, c'))) => c = c'
  | _, _ => False
  end.
Definition claims (k : N) (x : thing) (s : ses) : Prop := exists lk, slab_get (s_links s) k = Some lk /\ is_in x lk.
Definition unborn (x : thing) (s : ses) : Prop :=
  match x with
  | XSnd a => length (s_snds s) <= a | XRcv a | XLoc a => length (s_rcvs s) <= a | XChan c | XOpen c => length (s_chans s) <= c
  end%nat.
Definition lens (s s' : ses) : Prop :=
  (length (s_snds s) <= length (s_snds s') /\ length (s_rcvs s) <= length (s_rcvs s') /\ length (s_chans s) <= length (s_chans s'))%nat.
Definition clm_rel (s s' : ses) : Prop :=
  lens s s' /\ s_rhandles s' = s_rhandles s /\ forall k x, claims k x s' -> claims k x s \/ unborn x s.
Lemma unborn_lens : forall x s s', lens s s' -> unborn x s' -> unborn x s.
Proof. intros [] s s' (A & B & C); cbn; lia. Qed.
Lemma lens_trans : forall s s1 s2, lens s s1 -> lens s1 s2 -> lens s s2.
Proof. unfold lens. intros. lia. Qed.
#[export] Instance clm_pre : preorder clm_rel.
Proof.
  split; [intros s; split; [unfold lens; lia | auto]|].
  intros s s1 s2 (L1 & R1 & C1) (L2 & R2 & C2). refine (conj (lens_trans _ _ _ L1 L2) (conj _ _)); [congruence|].
  intros k x C. destruct (C2 _ _ C) as [C'|U]; [auto | right; exact (unborn_lens _ _ _ L1 U)].
Qed.
#[export] Instance clm_sees : sees clm_rel [Flinks; Frhandles; Fsnds; Frcvs; Fchans].
Proof.
  intros s s' H. assert (E1 := H Flinks eq_refl). assert (E2 := H Frhandles eq_refl). assert (E3 := H Fsnds eq_refl). assert (E4 := H Frcvs eq_refl).
  assert (E5 := H Fchans eq_refl). cbn [same] in *. unfold clm_rel, lens, claims. rewrite E1, E2, E3, E4, E5. refine (conj _ (conj eq_refl _)); [lia | auto].
Qed.
(** The slots stay. *)
Lemma clm_len : forall s s', s_links s' = s_links s -> s_rhandles s' = s_rhandles s -> lens s s' -> stable clm_rel s s'.
Proof. intros s s' E1 E2 L. refine (conj L (conj E2 _)). unfold claims. rewrite E1. auto. Qed.
#[export] Instance clm_rel_fire c v s : stable clm_rel s (fire c v s).
Proof. apply clm_len; [reflexivity | reflexivity|]. unfold lens, fire. st_cbn. rewrite put_chan_len. lia. Qed.
#[export] Instance clm_rel_drop_tx c s : stable clm_rel s (drop_tx c s).
Proof. apply clm_len; [reflexivity | reflexivity|]. unfold lens, drop_tx. st_cbn. rewrite put_chan_len. lia. Qed.
#[export] Instance clm_new_chan s : stable clm_rel s (set_s_chans (s_chans s ++ [CWait]) s).
Proof. apply clm_len; [reflexivity | reflexivity|]. unfold lens. st_cbn. rewrite app_length. lia. Qed.
#[export] Instance clm_new_snd l s : stable clm_rel s (set_s_snds (s_snds s ++ [l]) s).
Proof. apply clm_len; [reflexivity | reflexivity|]. unfold lens. st_cbn. rewrite app_length. lia. Qed.
#[export] Instance clm_new_rcv l s : stable clm_rel s (set_s_rcvs (s_rcvs s ++ [l]) s).
Proof. apply clm_len; [reflexivity | reflexivity|]. unfold lens. st_cbn. rewrite app_length. lia. Qed.
Lemma upd_snd_length : forall a f s, length (s_snds (upd_snd a f s)) = length (s_snds s).
Proof. intros. unfold upd_snd. destruct (nth_error (s_snds s) a); [|reflexivity]. st_cbn. apply set_nth_length. Qed.
#[export] Instance clm_rel_upd_snd a f s : stable clm_rel s (upd_snd a f s).
Proof. apply clm_len; [frw; reflexivity | frw; reflexivity|]. unfold lens. rewrite upd_snd_length. frw. lia. Qed.
#[export] Instance clm_rel_upd_rcv a f s : stable clm_rel s (upd_rcv a f s).
Proof. apply clm_len; [frw; reflexivity | frw; reflexivity|]. unfold lens. rewrite upd_rcv_length. frw. lia. Qed.
#[export] Instance clm_rel_fire_opt c v s : stable clm_rel s (fire_opt c v s).
Proof. unfold fire_opt. st_solve. Qed.
#[export] Instance clm_rel_drop_opt c s : stable clm_rel s (drop_opt c s).
Proof. unfold drop_opt. st_solve. Qed.
#[export] Instance clm_rel_fire_all l v s : stable clm_rel s (fire_all l v s).
Proof.
  unfold fire_all. revert s. induction l as [|x l IH]; intros s; cbn [fold_left]; [apply stable_refl; exact _|].
  eapply stable_trans; [exact _| |apply IH]. st_solve.
Qed.
#[export] Instance clm_rel_notify_lock_snd a s : stable clm_rel s (notify_lock_snd a s).
Proof. unfold notify_lock_snd. st_solve. Qed.
#[export] Instance clm_rel_drop_established_snd a s : stable clm_rel s (drop_established_snd a s).
Proof. unfold drop_established_snd. st_solve. Qed.
#[export] Instance clm_rel_drop_established_rcv a s : stable clm_rel s (drop_established_rcv a s).
Proof. unfold drop_established_rcv. st_solve. Qed.
#[export] Instance clm_rel_drop_link l s : stable clm_rel s (drop_link l s).
Proof. unfold drop_link. st_solve. Qed.
(** ** Slots *)
Lemma clm_links : forall f s, (forall k lk x, slab_get f k = Some lk -> is_in x lk -> claims k x s \/ unborn x s) -> stable clm_rel s (set_s_links f s).
Proof. intros f s H. refine (conj _ (conj eq_refl _)); [unfold lens; st_cbn; lia|]. intros k x (lk & G & I). exact (H k lk x G I). Qed.
#[export] Instance clm_rel_remove_link k s : stable clm_rel s (remove_link k s).
Proof.
  unfold remove_link. destruct (slab_get (s_links s) k); [|apply stable_refl; exact _]. eapply stable_trans; [exact _| |exact _].
  apply clm_links. intros k' lk x G I. rewrite slab_get_remove in G. destruct (k =? k'); [discriminate|]. left. exists lk. auto.
Qed.
#[export] Instance clm_no_links s : stable clm_rel s (set_s_links slab0 s).
Proof. apply clm_links. intros k lk x G. rewrite slab0_get in G. discriminate G. Qed.
Lemma clm_put : forall s0 k lk s, stable clm_rel s0 s -> (forall old x, slab_get (s_links s) k = Some old -> is_in x lk -> claims k x s \/ unborn x s0) -> stable clm_rel s0 (put_link k lk s).
Proof.
  intros s0 k lk s R H. unfold put_link. destruct (slab_get (s_links s) k) as [old|] eqn:E; [|exact R]. eapply stable_trans; [exact _| |exact _].
  destruct R as (L & Rh & C). refine (conj L (conj Rh _)). intros k' x (lk' & G & I). st_cbn_in G. rewrite slab_get_set in G by (rewrite E; discriminate).
  destruct (N.eqb_spec k k') as [->|].
  - apply Some_inj in G. subst lk'. destruct (H old x eq_refl I) as [X|X]; auto.
  - apply C. exists lk'. auto.
Qed.
Lemma clm_insert : forall s0 lk s, stable clm_rel s0 s -> (forall x, is_in x lk -> unborn x s0) -> stable clm_rel s0 (set_s_links (slab_insert lk (s_links s)) s).
Proof.
  intros s0 lk s (L & Rh & C) H. refine (conj L (conj Rh _)). intros k x (lk' & G & I). st_cbn_in G. apply slab_insert_inv in G as [->|G]; [auto|].
  apply C. exists lk'. auto.
Qed.
#[export] Instance clm_rel_attach_local_sender frm s : stable clm_rel s (snd (attach_local_sender frm s)).
Proof.
  unfold attach_local_sender, new_chan, insert_link. cbn [snd]. do 2 (eapply stable_trans; [exact _ | | st_one]). apply clm_insert; [exact _|].
  intros [] I; cbn in I; try contradiction. subst c. cbn. lia.
Qed.
#[export] Instance clm_rel_attach_local_receiver frm s : stable clm_rel s (snd (attach_local_receiver frm s)).
Proof.
  unfold attach_local_receiver, new_chan, insert_link. cbn [snd]. do 2 (eapply stable_trans; [exact _ | | st_one]). apply clm_insert; [st_chain|].
  intros [] I; cbn in I; try contradiction; subst; cbn; lia.
Qed.
#[export] Instance clm_rel_confirm_receiver a r s : stable clm_rel s (confirm_receiver a r s).
Proof.
  unfold confirm_receiver. destruct (nth_error (s_rcvs s) a) as [l|]; [|apply stable_refl; exact _]. cbv zeta.
  destruct (slab_get (s_links s) (rc_handle l)) as [[| | | |[[a' src]|]| | |]|] eqn:E; try (apply stable_refl; exact _).
  eapply stable_trans; [exact _ | apply clm_put; [apply stable_refl; exact _|] | st_one].
  intros old x _ I. left. eexists. split; [exact E|]. destruct x; cbn in *; try contradiction; auto.
Qed.
Lemma clm_detach_sender : forall id cl e tx s0 s, stable clm_rel s0 s -> (length (s_chans s0) <= tx)%nat -> stable clm_rel s0 (detach_sender id cl e tx s).
Proof.
  intros id cl e tx s0 s R L. unfold detach_sender.
  assert (P : stable clm_rel s0 (put_link id (SClosing (Some tx)) s)).
  { apply clm_put; [exact R|]. intros old x _ I. right. destruct x; cbn in I; try contradiction. subst c. exact L. }
  destruct (slab_get (s_links s) id) as [[]|]; cbv zeta; first [eapply stable_trans; [exact _ | exact P | solve [st_chain]] | eapply stable_trans; [exact _ | exact R | solve [st_chain]]].
Qed.
Lemma clm_detach_receiver : forall id cl e tx s0 s s', stable clm_rel s0 s -> (length (s_chans s0) <= tx)%nat -> detach_receiver id cl e tx s = EOk s' -> stable clm_rel s0 s'.
Proof.
  intros id cl e tx s0 s s' R L H. unfold detach_receiver in H. 
  assert (P : stable clm_rel s0 (put_link id (RClosing (Some tx)) s)).
  { apply clm_put; [exact R|]. intros old x _ I. right. destruct x; cbn in I; try contradiction. subst c. exact L. }
  destruct (slab_get (s_links s) id) as [[]|]; cbv zeta in H; try discriminate H; apply EOk_inj in H; subst s';
    first [eapply stable_trans; [exact _ | exact P | solve [st_chain]] | eapply stable_trans; [exact _ | exact R | repeat fr_break; solve [st_chain]]].
Qed.
#[export] Instance clm_rel_snd_close a e s : stable clm_rel s (snd_close a e s).
Proof.
  unfold snd_close. destruct (nth_error (s_snds s) a) as [l|]; [|apply stable_refl; exact _]. destruct (sn_closed l); [apply stable_refl; exact _|].
  cbv zeta. unfold new_chan. apply clm_detach_sender.
  - st_chain.
  - unfold notify_lock_snd. rewrite nth_upd_snd, Nat.eqb_refl. destruct (nth_error (s_snds s) a); cbn [option_map]; [|frw; lia]. frw. rewrite !fire_all_len. frw. lia.
Qed.
#[export] Instance clm_rel_rcv_close a e s : stable_er clm_rel (fun x => x) s (rcv_close a e s).
Proof.
  intros s' H. change (stable clm_rel s s'). unfold rcv_close, new_chan in H. destruct (nth_error (s_rcvs s) a) as [l|]; [|apply EOk_inj in H; subst s'; apply stable_refl; exact _].
  destruct (rc_closed l).
  - cbn [ebind] in H. apply EOk_inj in H. subst s'. st_chain.
  - destruct (detach_receiver _ _ _ _ _) as [s1|] eqn:E; [|discriminate H]. cbn [ebind] in H. apply EOk_inj in H. subst s'.
    eapply stable_trans; [exact _ | eapply clm_detach_receiver; [|apply le_n|exact E]; exact _ | st_one].
Qed.
#[export] Instance clm_rel_ses_detach_sender h e s : stable clm_rel s (ses_detach_sender h e s).
Proof. unfold ses_detach_sender, new_chan. apply clm_detach_sender; [exact _ | apply le_n]. Qed.
#[export] Instance clm_rel_ses_detach_receiver h e s : stable_er clm_rel (fun x => x) s (ses_detach_receiver h e s).
Proof. intros s' H. change (stable clm_rel s s'). unfold ses_detach_receiver, new_chan in H. eapply clm_detach_receiver; [|apply le_n|exact H]; exact _. Qed.
(** ** Attaches that wait for the control service *)
Definition pending_at (i : nat) (frm r : attach_t) (a : nat) (s : ses) : Prop :=
  nth_error (s_ctl s) i = Some (Some (KAttachSender frm r a)).
Definition kas_rel (s s' : ses) : Prop := forall i frm r a, pending_at i frm r a s' -> pending_at i frm r a s.
#[export] Instance kas_pre : preorder kas_rel.
Proof. split; unfold kas_rel; auto. Qed.
#[export] Instance kas_sees : sees kas_rel [Fctl].
Proof. intros s s' H. assert (E := H Fctl eq_refl). cbn [same] in E. unfold kas_rel, pending_at. rewrite E. auto. Qed.
Class other_ctl (k : ctl) : Prop := other_ctl_ok : match k with KAttachSender _ _ _ => False | _ => True end.
#[export] Hint Extern 0 (other_ctl _) => exact I : typeclass_instances.
#[export] Instance kas_rel_control k s (N : other_ctl k) : stable kas_rel s (control k s).
Proof.
  intros i frm r a H. unfold pending_at, control in *. st_cbn_in H.
  destruct (Nat.lt_ge_cases i (length (s_ctl s))).
  - rewrite nth_error_app1 in H by assumption. exact H.
  - rewrite nth_error_app2 in H by assumption. destruct (i - length (s_ctl s))%nat as [|[]]; cbn in H; [|discriminate H..].
    injection H as ->. contradiction.
Qed.
#[export] Instance kas_erase i s : stable kas_rel s (set_s_ctl (set_nth i None (s_ctl s)) s).
Proof.
  intros j frm r a H. unfold pending_at in *. st_cbn_in H. rewrite nth_set_nth in H. destruct (Nat.eqb i j) eqn:E; [|exact H].
  destruct (nth_error (s_ctl s) i); discriminate H.
Qed.
