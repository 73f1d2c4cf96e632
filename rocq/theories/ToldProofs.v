(** * Which transfers the publish service is told of, and what its failure does *)

From Coq Require Import ZifyBool ZifyNat ZifyN.
From Verif Require Export SpecTold ToldRel RefuseProofs ErrorProofs HandleTheorems.
Import ListNotations.

(** ** What a transfer frame leads to *)
Lemma transfer_action : forall p t a s s' act l, nth_error (s_rcvs s) a = Some l -> lk_inv [] s -> rcv_transfer p t a s = EOk (s', act) ->
  (act = ATransfer a /\ says_more t = false /\ s_links s' = s_links s /\ s_ctl s' = s_ctl s)
  \/ (act = ANone /\ says_more t = true /\ s_links s' = s_links s /\ s_ctl s' = s_ctl s)
  \/ (act = ANone /\ exists e sx, lk_inv [] sx /\ s_links sx = s_links s /\ s_ctl sx = s_ctl s /\ rcv_close a (Some e) sx = EOk s').
Proof.
  intros p t a s s' act l El I H. unfold rcv_transfer in H. rewrite El in H. cbv zeta in H. unfold says_more.
  assert (Ref : forall e sx, lk_inv [] sx -> s_links sx = s_links s -> s_ctl sx = s_ctl s -> ebind (rcv_close a (Some e) sx) (fun s0 => EOk (s0, ANone)) = EOk (s', act) ->
     act = ANone /\ exists e sx, lk_inv [] sx /\ s_links sx = s_links s /\ s_ctl sx = s_ctl s /\ rcv_close a (Some e) sx = EOk s').
  { intros e sx Ix Lx Cx C. destruct (rcv_close a (Some e) sx) as [s2|] eqn:E; [|discriminate]. cbn [ebind] in C. apply EOk_inj, pair_equal_spec in C as [<- <-]. split; [reflexivity|]. eauto 8. }
  destruct (rc_credit l =? 0); [right; right; exact (Ref _ _ I eq_refl eq_refl H)|].
  match type of H with context [if transfer_more (tr_head t) then s else ?y] => set (s1 := if transfer_more (tr_head t) then s else y) in H end.
  assert (I1 : lk_inv [] s1) by (unfold s1; destruct (transfer_more _); [exact I|]; apply (lk_rel_upd_rcv a _ s); exact I).
  assert (L1 : s_links s1 = s_links s) by (unfold s1; destruct (transfer_more _); frw; reflexivity).
  assert (C1 : s_ctl s1 = s_ctl s) by (unfold s1; destruct (transfer_more _); frw; reflexivity).
  clearbody s1. destruct (rc_partial l) as [body|].
  - match type of H with (if ?w then _ else _) = _ => destruct w end; [right; right; exact (Ref _ _ I1 L1 C1 H)|].
    match type of H with match ?m with _ => _ end = _ => destruct m as [body'|] end; [|right; right; exact (Ref _ _ I1 L1 C1 H)].
    destruct (transfer_more (tr_head t)) eqn:M.
    + apply EOk_inj, pair_equal_spec in H as [<- <-]. right. left. repeat apply conj; try reflexivity; frw; assumption.
    + destruct (checked_add p (rc_dc l) 1) as [dc|]; [|discriminate]. cbn [ebind] in H.
      destruct (rev (rc_queue l)) as [|[d first] prev].
      * right. right. refine (Ref _ _ _ _ _ H); [apply (lk_rel_upd_rcv a _ s1); exact I1 | frw; exact L1 | frw; exact C1].
      * apply EOk_inj, pair_equal_spec in H as [<- <-]. left. split; [reflexivity|]. split; [reflexivity|]. destruct (Nat.eqb _ 1); split; frw; assumption.
  - destruct (transfer_delivery_id (tr_head t)) as [id|]; [|right; right; exact (Ref _ _ I1 L1 C1 H)].
    destruct (transfer_more (tr_head t)) eqn:M.
    + unfold new_rcv in H. cbv zeta in H. apply EOk_inj, pair_equal_spec in H as [<- <-]. right. left. split; [reflexivity|]. split; [reflexivity|].
      split; frw; st_cbn; destruct (or_default _ _); frw; assumption.
    + destruct (checked_add p (rc_dc l) 1) as [dc|]; [|discriminate]. cbn [ebind] in H.
      unfold new_rcv in H. cbv zeta in H. apply EOk_inj, pair_equal_spec in H as [<- <-]. left. split; [reflexivity|]. split; [reflexivity|].
      destruct (Nat.eqb _ 0); split; frw; st_cbn; destruct (or_default _ _); frw; assumption.
Qed.

(** The service is told exactly of the frames that end a delivery and are not refused. *)
Lemma told : forall p evs id local rch mfs b s os a t s' os', run p evs (ses_new id local rch mfs b) = EOk (s, os) -> links_opened evs <= 2 ^ 32 ->
  arrival a (EvFrame (FTransfer t)) s = [t] -> step p (EvFrame (FTransfer t)) s = EOk (s', os') ->
  (says_more t = false /\ attached a s' /\ s_ctl s' = s_ctl s ++ [Some (KTransfer a)])
  \/ ((says_more t = true \/ ~ attached a s') /\ forall i c, called i (KTransfer c) s' -> called i (KTransfer c) s).
Proof.
  intros p evs id local rch mfs b s os a t s' os' R B Ar St. destruct (start_slots _ _ _ _ _ _ _ _ _ R B) as [I F].
  destruct (arrival_slot _ _ _ _ Ar) as (Er & _ & i & Mi & Gi).
  assert (F2 : slots_fit s'). { assert (X := step_len _ _ _ _ _ St eq_refl). unfold stable, len_rel, nslots in X. unfold slots_fit in *. lia. }
  destruct I as (W & Rs & Rest). assert (I : lk_inv [] s) by exact (conj W (conj Rs Rest)).
  destruct (Rs F i _ a Gi) as (l & El & _); [apply holds_est|].
  cbn [step] in St. unfold ses_handle_frame in St. rewrite Er, Mi, Gi in St.
  destruct (rcv_transfer p t a s) as [[s1 act]|] eqn:Rt; [|discriminate]. cbn [emap ebind] in St. apply EOk_inj, pair_equal_spec in St as [St _].
  destruct (transfer_action _ _ _ _ _ _ _ El I Rt) as [(-> & M & L & C)|[(-> & M & L & C)|(-> & e & sx & Ix & Lx & Cx & C)]]; cbn [dispatch] in St; subst s'.
  - left. split; [exact M|]. unfold control. st_cbn. rewrite C. split; [|reflexivity]. exists i. st_cbn. rewrite L. exact Gi.
  - right. split; [left; exact M|]. intros j c. unfold called. rewrite C. auto.
  - right. split.
    + right. destruct (close_posts a i e sx s1 Ix) as (_ & Un); [unfold slots_fit; rewrite Lx; exact F | rewrite Lx; exact Gi | exact C|]. intros X. exact (attached_held _ _ X (Un F2)).
    + intros j c X. assert (K := ktr_rel_rcv_close a (Some e) sx _ C). assert (Y := K _ _ X). unfold called in *. rewrite <- Cx. exact Y.
Qed.

(** No other event tells it of a transfer. *)
Lemma ktr_dispatch : forall act s, (forall a, act <> ATransfer a) -> stable ktr_rel s (dispatch act s).
Proof. intros act s N. destruct act; cbn [dispatch]; try exact _; [apply stable_refl; exact _ | exfalso; exact (N _ eq_refl)]. Qed.
Lemma step_ktr : forall p e s s' os, step p e s = EOk (s', os) -> (forall a, arrival a e s = []) -> stable ktr_rel s s'.
Proof.
  intros p e s s' os H N. destruct e; [| |cbn [step] in H; step_er H ..].
  - cbn [step] in H. destruct (ses_handle_frame p f s) as [[s1 r]|] eqn:E; [|discriminate H]. cbn [ebind] in H. apply EOk_inj, pair_equal_spec in H as [<- _].
    assert (R := ktr_rel_ses_handle_frame p f s _ E). cbn [fst] in R. destruct r as [act|]; [|exact R].
    eapply stable_trans; [exact _ | exact R |]. apply ktr_dispatch. intros a ->. unfold ses_handle_frame in E. unfold arrival in N. destruct (s_error s); [discriminate E|].
    destruct f; try discriminate E.
    + repeat match type of E with context [match ?x with _ => _ end] => destruct x; try discriminate E end.
    + destruct (map_get _ _); [|discriminate E]. destruct (slab_get _ _) as [[]|]; try discriminate E. specialize (N a0). rewrite Nat.eqb_refl in N. discriminate N.
    + assert (X : snd (handle_detach x s) <> ATransfer a).
      { unfold handle_detach. cbv zeta. repeat match goal with |- context [match ?x with _ => _ end] => destruct x; cbn [snd]; try discriminate end. }
      destruct (handle_detach x s) as [s2 act]. cbn [snd] in X. congruence.
  - cbn [step] in H. apply EOk_inj, pair_equal_spec in H as [<- _]. unfold on_attach, dispatch. st_solve.
Qed.

(** ** What its failure does *)
Lemma notify_closed : forall a s l, nth_error (s_snds s) a = Some l ->
  exists l', nth_error (s_snds (notify_lock_snd a (upd_snd a (set_sn_closed true) s))) a = Some l' /\ sn_closed l' = true.
Proof.
  intros a s l El. unfold notify_lock_snd. rewrite nth_upd_snd, Nat.eqb_refl, El. cbn [option_map]. rewrite nth_upd_snd, Nat.eqb_refl. frw.
  rewrite nth_upd_snd, Nat.eqb_refl, El. cbn [option_map]. eexists. split; reflexivity.
Qed.
Lemma failed : forall p evs id local rch mfs b s os i k x e s' os', run p evs (ses_new id local rch mfs b) = EOk (s, os) -> links_opened evs <= 2 ^ 32 ->
  called i k s -> serves k x ->
  is_open x s -> ~ says_closed x s -> step p (EvCtlErr i e) s = EOk (s', os') ->
  exists h, own_handle x s h /\ s_out s' = s_out s ++ [FDetach (mk_detach h true (Some e))] /\ says_closed x s'.
Proof.
  intros p evs id local rch mfs b s os i k x e s' os' R B P K Ho Nc St. destruct (start_slots _ _ _ _ _ _ _ _ _ R B) as [I F]. unfold called in P. cbn [step] in St. rewrite P in St.
  match type of St with context [control_err e k ?y] => set (s1 := y) in St end.
  assert (I1 : lk_inv [] s1) by exact (I : lk_inv [] s1). assert (F1 : slots_fit s1) by exact F.
  assert (Ho1 : is_open x s1) by (destruct x; exact Ho). assert (Nc1 : ~ says_closed x s1) by (destruct x; exact Nc).
  destruct k, x as [c|c]; try contradiction; cbn [serves] in K; subst c; cbn [control_err] in St; unfold noobs in St.
  - cbn [emap] in St. apply EOk_inj, pair_equal_spec in St as [<- _]. unfold snd_close.
    assert (S : exists l, nth_error (s_snds s1) a = Some l).
    { destruct Ho1 as (k & G). destruct I1 as (_ & _ & Ss & _). destruct (Ss _ _ G) as (l & El & _). eauto. }
    destruct S as (l & El). rewrite El. destruct (sn_closed l) eqn:Cl; [destruct Nc1; exists l; auto|].
    assert (Hh : own_handle (LSender a) s1 (as_u32 (sn_id l))) by (exists l; auto).
    exists (as_u32 (sn_id l)). split; [exact Hh|]. unfold new_chan, detach_sender. st_cbn. frw.
    rewrite (open_slot _ _ _ I1 F1 Ho1 Hh). unfold control. st_cbn. rewrite post_out. frw. split; [reflexivity|].
    destruct (notify_closed a s1 l El) as (l' & El' & Cl'). exists l'. split; [|exact Cl']. st_cbn. frw. unfold put_link. st_cbn. frw.
    rewrite (open_slot _ _ _ I1 F1 Ho1 Hh). cbn [drop_link]. unfold drop_established_snd. st_cbn. rewrite El', Cl'. st_cbn. exact El'.
  - destruct (rcv_close a (Some e) s1) as [s2|] eqn:E; [|discriminate St]. cbn [emap] in St. apply EOk_inj, pair_equal_spec in St as [<- _].
    assert (S : exists l, nth_error (s_rcvs s1) a = Some l).
    { destruct Ho1 as (k & G). destruct I1 as (_ & Rs & _). destruct (Rs F1 _ _ _ G (holds_est a)) as (l & El & _). eauto. }
    destruct S as (l & El). unfold rcv_close in E. rewrite El in E. unfold new_chan in E.
    destruct (rc_closed l) eqn:Cl; [destruct Nc1; exists l; auto|].
    assert (Hh : own_handle (LReceiver a) s1 (rc_handle l)) by (exists l; auto).
    exists (rc_handle l). split; [exact Hh|]. unfold detach_receiver in E. st_cbn_in E. rewrite (open_slot _ _ _ I1 F1 Ho1 Hh) in E.
    cbn [ebind] in E. apply EOk_inj in E. subst s2. split; [unfold control; frw; st_cbn; rewrite post_out; frw; reflexivity|].
    unfold says_closed. rewrite nth_upd_rcv, Nat.eqb_refl. unfold control. st_cbn. frw. unfold put_link. st_cbn.
    rewrite (open_slot _ _ _ I1 F1 Ho1 Hh). cbn [drop_link]. unfold drop_established_rcv. rewrite nth_upd_rcv, Nat.eqb_refl. st_cbn. rewrite El. cbn [option_map].
    eexists. split; [reflexivity|]. unfold rcv_wake. cbn [rc_waker set_rc_closed]. destruct (rc_waker l); reflexivity.
Qed.
