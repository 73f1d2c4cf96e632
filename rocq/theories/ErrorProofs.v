(** * Errors on their way to the other application *)

From Verif Require Import SpecBuilders BuilderProofs ProtocolTheorems.
From Verif Require Import EngineProofs SessionFrame LinkProofs SettleTheorems HandleTheorems.
From Coq Require Import ZifyBool ZifyNat ZifyN.

Lemma post_out : forall f s, s_out (post f s) = s_out s ++ [f].
Proof. reflexivity. Qed.

(** ** The side that closes the link *)
Lemma close_sends : forall p x e s s' os err, lk_inv [] s -> slots_fit s -> is_open x s -> ~ says_closed x s -> closes x e s ->
  close_error_of e = Some err -> step p e s = EOk (s', os) ->
  exists h cl, own_handle x s h /\ s_out s' = s_out s ++ [FDetach (mk_detach h cl (Some err))].
Proof.
  intros p x e s s' os err I F Ho Nc C Ee H.
  destruct e, x as [a'|a']; try destruct C; cbn [step close_error_of] in H, Ee; subst e.
  - apply EOk_inj in H. apply (f_equal fst) in H. cbn [fst] in H. subst s'. unfold ses_detach_sender, new_chan.
    exists h, false. assert (Hh : own_handle (LSender a') s h) by (exists x; exact H0). split; [exact Hh|].
    unfold detach_sender. st_cbn. rewrite (open_slot _ _ _ I F Ho Hh). unfold control. st_cbn. rewrite post_out. frw. reflexivity.
  - unfold noobs in H. destruct (ses_detach_receiver h (Some err) s) as [s1|] eqn:E; [|discriminate H]. cbn in H. apply EOk_inj in H. apply (f_equal fst) in H. cbn [fst] in H. subst s'.
    unfold ses_detach_receiver, new_chan in E. exists h, false. assert (Hh : own_handle (LReceiver a') s h) by (exists x; exact H0). split; [exact Hh|].
    unfold detach_receiver in E. st_cbn_in E. rewrite (open_slot _ _ _ I F Ho Hh) in E. apply EOk_inj in E. subst s1. unfold control. st_cbn. rewrite post_out. frw. reflexivity.
  - apply EOk_inj in H. apply (f_equal fst) in H. cbn [fst] in H. subst s'. unfold snd_close.
    assert (S : exists l, nth_error (s_snds s) a = Some l).
    { destruct Ho as (k & G). destruct I as (_ & _ & Ss & _). destruct (Ss _ _ G) as (l & El & _). eauto. }
    destruct S as (l & El). rewrite El. destruct (sn_closed l) eqn:Cl; [destruct Nc; exists l; auto|].
    assert (Hh : own_handle (LSender a) s (as_u32 (sn_id l))) by (exists l; auto).
    exists (as_u32 (sn_id l)), true. split; [exact Hh|]. unfold new_chan. unfold detach_sender. st_cbn. frw.
    rewrite (open_slot _ _ _ I F Ho Hh). unfold control. st_cbn. rewrite post_out. frw. reflexivity.
  - unfold noobs in H. destruct (rcv_close a (Some err) s) as [s1|] eqn:E; [|discriminate H]. cbn in H. apply EOk_inj in H. apply (f_equal fst) in H. cbn [fst] in H. subst s'.
    assert (S : exists l, nth_error (s_rcvs s) a = Some l).
    { destruct Ho as (k & G). destruct I as (_ & Rs & _). destruct (Rs F _ _ _ G (holds_est a)) as (l & El & _). eauto. }
    destruct S as (l & El). unfold rcv_close in E. rewrite El in E. unfold new_chan in E.
    destruct (rc_closed l) eqn:Cl; [destruct Nc; exists l; auto|].
    assert (Hh : own_handle (LReceiver a) s (rc_handle l)) by (exists l; auto).
    exists (rc_handle l), true. split; [exact Hh|]. unfold detach_receiver in E. st_cbn_in E. rewrite (open_slot _ _ _ I F Ho Hh) in E.
    cbn [ebind] in E. apply EOk_inj in E. subst s1. unfold control. frw. st_cbn. rewrite post_out. frw. reflexivity.
Qed.

(** ** The side that is told *)
Lemma snd_detached_nth : forall a e s l, nth_error (s_snds s) a = Some l ->
  exists l', nth_error (s_snds (snd_remote_detached a e s)) a = Some l' /\ sn_closed l' = true /\ sn_error l' = Some e.
Proof.
  intros a e s l El. unfold snd_remote_detached. rewrite El. cbv zeta. set (s1 := fire_all _ _ s).
  assert (E1 : nth_error (s_snds s1) a = Some l) by (unfold s1; frw; exact El). clearbody s1.
  unfold notify_lock_snd. rewrite nth_upd_snd, Nat.eqb_refl, E1. cbn [option_map]. rewrite nth_upd_snd, Nat.eqb_refl. frw.
  rewrite nth_upd_snd, Nat.eqb_refl, E1. cbn [option_map]. eexists. split; [reflexivity|]. split; reflexivity.
Qed.
Lemma remove_shut_snd : forall i a s l, nth_error (s_snds s) a = Some l -> sn_closed l = true ->
  (slab_get (s_links s) i = Some (SEstablished a)) -> nth_error (s_snds (remove_link i s)) a = Some l.
Proof.
  intros i a s l El Cl G. unfold remove_link. rewrite G. cbn [drop_link]. unfold drop_established_snd. st_cbn. rewrite El, Cl. exact El.
Qed.
Lemma rcv_detached_nth : forall a e s l, nth_error (s_rcvs s) a = Some l ->
  exists l', nth_error (s_rcvs (rcv_remote_detached a (Some e) s)) a = Some l' /\ rc_closed l' = true /\ rc_error l' = Some e.
Proof.
  intros a e s l El. unfold rcv_remote_detached. rewrite nth_upd_rcv, Nat.eqb_refl, El. cbn [option_map]. eexists. split; [reflexivity|].
  unfold rcv_wake. cbn [rc_waker set_rc_error set_rc_closed]. destruct (rc_waker l); split; reflexivity.
Qed.
Lemma remove_shut_rcv : forall i a s l, nth_error (s_rcvs s) a = Some l -> rc_closed l = true ->
  (slab_get (s_links s) i = Some (REstablished a)) ->
  exists l', nth_error (s_rcvs (remove_link i s)) a = Some l' /\ rc_closed l' = true /\ rc_error l' = rc_error l.
Proof.
  intros i a s l El Cl G. unfold remove_link. rewrite G. cbn [drop_link]. unfold drop_established_rcv. rewrite nth_upd_rcv, Nat.eqb_refl. st_cbn. rewrite El. cbn [option_map].
  eexists. split; [reflexivity|]. split; reflexivity.
Qed.
Lemma told : forall p id local rc mfs b evs1 evs2 frm x s1 s2 s3 os1 os2 os3,
  run p evs1 (ses_new id local rc mfs b) = EOk (s1, os1) ->
  step p (EvAttach frm) s1 = EOk (s2, os2) -> run p evs2 s2 = EOk (s3, os3) ->
  begins_link x frm s1 s2 -> none_waits (attach_handle frm) s1 -> unused_handle (attach_handle frm) evs2 ->
  links_opened (evs1 ++ EvAttach frm :: evs2) <= 2 ^ 32 ->
  forall d e s' os, s_error s3 = None -> is_open x s3 -> detach_handle d = attach_handle frm -> detach_error d = Some e ->
  step p (EvFrame (FDetach d)) s3 = EOk (s', os) -> shows_error x e s'.
Proof.
  intros p id local rc mfs b evs1 evs2 frm x s1 s2 s3 os1 os2 os3 H1 H2 H3 Hb Hp Hu Hl d e s' os Er Ho Eh Ee H.
  destruct (hist_slots _ _ _ _ _ _ _ _ _ _ _ _ _ _ _ H1 H2 H3 Hl) as [I F].
  destruct (open_claims _ _ Ho) as (k & Hk & G).
  assert (A := hist_J _ _ _ _ _ _ _ _ _ _ _ _ _ _ _ _ H1 H2 H3 Hb Hp Hu Hl). destruct A as (A & _). assert (Em := A k Hk). rewrite <- Eh in Em.
  destruct x as [a|a]; cbn [shows_error].
  - destruct I as (_ & _ & Ss & _). destruct (Ss _ _ G) as (l & El & _). assert (Ns : names_sender d a s3) by (exists k; auto).
    destruct (step_detach _ _ _ _ _ _ _ Er Ns El H) as (i & Gi & ->). rewrite Ee.
    set (m := detach_mid a l _ s3). assert (Em1 : nth_error (s_snds m) a = Some l) by (unfold m, detach_mid; frw; st_cbn; exact El).
    assert (Lm : s_links m = s_links s3) by (unfold m, detach_mid; frw; st_cbn; reflexivity). clearbody m.
    destruct (snd_detached_nth a (ELinkDetached (Some e)) m l Em1) as (l' & El' & Cl & Er').
    exists l'. split; [|auto]. unfold control. st_cbn. apply remove_shut_snd; [frw; exact El' | exact Cl |]. frw. rewrite Lm. exact Gi.
  - destruct I as (_ & Rs & _). destruct (Rs F _ _ _ G (holds_est a)) as (l & El & _).
    rewrite (step_detach_rcv _ _ _ _ _ _ _ _ Er Em G El H). rewrite Ee. cbv zeta.
    set (m := post _ _). assert (Em1 : nth_error (s_rcvs m) a = Some l) by (unfold m; frw; exact El).
    assert (Lm : s_links m = s_links s3) by (unfold m; frw; reflexivity). clearbody m.
    destruct (rcv_detached_nth a e m l Em1) as (l1 & El1 & Cl1 & Er1).
    destruct (remove_shut_rcv k a (rcv_remote_detached a (Some e) m) l1 El1 Cl1) as (l2 & El2 & Cl2 & Er2); [frw; rewrite Lm; exact G|].
    exists l2. split; [unfold control; st_cbn; exact El2|]. split; [exact Cl2|]. intros t Q. unfold poll_recv. rewrite Q, Cl2, Er2, Er1.
    destruct (rc_partial l2); reflexivity.
Qed.
