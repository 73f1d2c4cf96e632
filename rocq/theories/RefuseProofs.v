(** * Proofs about refused transfers: C70 *)

From Coq Require Import ZifyBool ZifyNat ZifyN.
From Verif Require Import Base BaseProofs RecvRun.
From Verif Require Export SpecRefuse.
Import ListNotations.

Lemma underway_opened : forall ts g, underway g ts = snd (grp g ts).
Proof.
  induction ts as [|t ts IH]; intros g; [reflexivity|]. cbn [underway grp]. rewrite IH. destruct (says_more t); [reflexivity|].
  destruct (grp [] ts). reflexivity.
Qed.
Lemma refused_one : forall limit credit g t e1 e2, refused_for limit credit g t e1 -> refused_for limit credit g t e2 -> e1 = e2.
Proof.
  intros limit credit g t e1 e2 H1 H2. destruct H1; destruct H2; subst; try reflexivity; try lia; try discriminate.
  - match goal with H : _ :: _ = _ :: _ |- _ => injection H as <- <- end. match goal with H : _ \/ _ |- _ => destruct H; congruence end.
  - match goal with H : _ :: _ = _ :: _ |- _ => injection H as <- <- end. match goal with H : _ \/ _ |- _ => destruct H; congruence end.
Qed.

Lemma close_posts : forall a k e s s', lk_inv [] s -> slots_fit s -> slab_get (s_links s) k = Some (REstablished a) ->
  rcv_close a (Some e) s = EOk s' -> s_out s' = s_out s ++ [FDetach (mk_detach k true (Some e))] /\ (slots_fit s' -> unheld a s').
Proof.
  intros a k e s s' I B G H. destruct I as (W & R & Rest). assert (I : lk_inv [] s) by exact (conj W (conj R Rest)).
  destruct (R B k _ a G) as (l & El & Hh & Hc); [apply holds_est|].
  split; [|exact (proj2 (rcv_close_unheld _ _ _ _ _ I El H))].
  unfold rcv_close in H. rewrite El in H. cbv beta iota zeta delta [new_chan] in H.
  destruct (rc_closed l); [destruct (Hc eq_refl)|]. unfold detach_receiver in H. st_cbn_in H. rewrite Hh, G in H. cbn [ebind] in H.
  apply EOk_inj in H. subst s'. frw. unfold control, put_link, post, detach_frame. st_cbn. rewrite G. cbn [drop_link]. frw. reflexivity.
Qed.

Lemma transfer_outcome : forall p t a s s' act l items part g, nth_error (s_rcvs s) a = Some l -> lk_inv [] s ->
  rc_queue l = items ++ part -> open_ok s part (rc_partial l) g -> rcv_transfer p t a s = EOk (s', act) ->
  (exists e s0, refused_for (rc_max l) (rc_credit l) g t e /\ lk_inv [] s0 /\ s_out s0 = s_out s /\ s_links s0 = s_links s
      /\ rcv_close a (Some e) s0 = EOk s' /\ act = ANone)
  \/ (forall e, ~ refused_for (rc_max l) (rc_credit l) g t e) /\ s_links s' = s_links s /\ s_out s' = s_out s.
Proof.
  intros p t a s s' act l items part g El I Q Op H. unfold rcv_transfer in H. rewrite El in H. cbv zeta in H.
  assert (Ref : forall e s0, ebind (rcv_close a (Some e) s0) (fun s => EOk (s, ANone)) = EOk (s', act) -> rcv_close a (Some e) s0 = EOk s' /\ act = ANone).
  { intros e s0 H'. destruct (rcv_close a (Some e) s0) as [s1|]; [|discriminate]. cbn [ebind] in H'. apply EOk_inj in H'.
    injection H' as -> <-. auto. }
  destruct (N.eqb_spec (rc_credit l) 0) as [Hc|Hc].
  { left. eexists _, s. split; [exact (rf_credit _ _ _ _ Hc)|]. destruct (Ref _ _ H). auto. }
  set (s1 := if transfer_more (tr_head t) then s else _) in H.
  assert (I1 : lk_inv [] s1).
  { unfold s1. destruct (transfer_more _); [exact I|]. apply (lk_rel_upd_rcv a _ s). exact I. }
  assert (D1 : s_dlvs s1 = s_dlvs s) by (unfold s1; destruct (transfer_more _); frw; reflexivity).
  assert (O1 : s_out s1 = s_out s) by (unfold s1; destruct (transfer_more _); frw; reflexivity).
  assert (L1 : s_links s1 = s_links s) by (unfold s1; destruct (transfer_more _); frw; reflexivity).
  clearbody s1. unfold open_ok in Op. destruct g as [|first rest].
  - destruct Op as [-> Ep]. rewrite Ep in H.
    destruct (transfer_delivery_id (tr_head t)) as [id|] eqn:Eid.
    2: { left. eexists _, s1. split; [apply rf_no_id; [lia | reflexivity | exact Eid]|]. destruct (Ref _ _ H). auto 6. }
    right. assert (No : forall e, ~ refused_for (rc_max l) (rc_credit l) [] t e) by (intros e X; inversion X; subst; congruence).
    split; [exact No|]. destruct (transfer_more (tr_head t)).
    + unfold new_rcv in H. cbv zeta in H. apply EOk_inj in H. apply (f_equal fst) in H. cbn [fst] in H. subst s'.
      split; frw; st_cbn; destruct (or_default _ _); frw; assumption.
    + destruct (checked_add p (rc_dc l) 1) as [dc|]; [|discriminate]. cbn [ebind] in H.
      unfold new_rcv in H. cbv zeta in H. apply EOk_inj in H. apply (f_equal fst) in H. cbn [fst] in H. subst s'.
      destruct (Nat.eqb _ 0); split; frw; st_cbn; destruct (or_default _ _); frw; assumption.
  - destruct Op as (d & -> & Ep & (x & Ex & Ix & _)). rewrite Ep in H.
    assert (La : last (map Some (rc_queue l)) None = Some (d, mk_transfer_t (tr_head first) None)).
    { rewrite Q, map_app. cbn [map]. apply last_last. }
    rewrite La, D1, Ex in H.
    match type of H with (if ?w then _ else _) = _ => set (w1 := w) in H end.
    destruct w1 eqn:Ew.
    { left. destruct (Ref _ _ H) as (C & A). eexists _, s1. refine (conj _ (conj I1 (conj O1 (conj L1 (conj C A))))).
      unfold w1 in Ew. destruct (transfer_delivery_id (tr_head t)) as [i|] eqn:Eid; [|discriminate]. apply Bool.negb_true_iff, N.eqb_neq in Ew.
      eapply rf_other_id; [lia | reflexivity | exact Eid | congruence]. }
    assert (Idt : transfer_delivery_id (tr_head t) = None \/ transfer_delivery_id (tr_head t) = transfer_delivery_id (tr_head first)).
    { unfold w1 in Ew. destruct (transfer_delivery_id (tr_head t)) as [i|]; [|auto]. right. apply Bool.negb_false_iff, N.eqb_eq in Ew. congruence. }
    clear Ew w1.
    destruct (match tr_body t with None => _ | Some _ => _ end) as [body'|] eqn:Eb.
    2: { left. destruct (Ref _ _ H) as (C & A). eexists _, s1. refine (conj _ (conj I1 (conj O1 (conj L1 (conj C A))))).
         destruct (tr_body t) as [b|] eqn:Et; [|discriminate]. destruct (N.ltb_spec (rc_max l) (blen (concat (map body_of (first :: rest))) + tb_size b)) as [Lt|]; [|discriminate].
         eapply rf_size; [lia | reflexivity | exact Idt | exact Et | exact Lt]. }
    right. assert (No : forall e, ~ refused_for (rc_max l) (rc_credit l) (first :: rest) t e).
    { intros e X. inversion X; subst; try congruence.
      - match goal with H : _ :: _ = _ :: _ |- _ => injection H as <- <- end. destruct Idt; congruence.
      - match goal with H : tr_body t = Some _ |- _ => rewrite H in Eb end. unfold size_of in *.
        match type of Eb with (if ?c then _ else _) = _ => destruct c eqn:Ec; [discriminate|] end. apply N.ltb_ge in Ec. lia. }
    split; [exact No|].
    destruct (transfer_more (tr_head t)).
    + apply EOk_inj in H. apply (f_equal fst) in H. cbn [fst] in H. subst s'. split; frw; assumption.
    + destruct (checked_add p (rc_dc l) 1) as [dc|]; [|discriminate]. cbn [ebind] in H.
      destruct (rev (rc_queue l)) as [|[d' first'] prev] eqn:Er.
      * exfalso. rewrite Q, rev_app_distr in Er. discriminate Er.
      * apply EOk_inj in H. apply (f_equal fst) in H. cbn [fst] in H. subst s'. destruct (Nat.eqb _ 1); split; frw; assumption.
Qed.

Lemma arrival_slot : forall a t e s, arrival a e s = [t] -> s_error s = None /\ e = EvFrame (FTransfer t)
  /\ exists i, map_get (transfer_handle (tr_head t)) (s_rhandles s) = Some i /\ slab_get (s_links s) i = Some (REstablished a).
Proof.
  intros a t e s E. unfold arrival in E. destruct e; try discriminate. destruct f; try discriminate.
  destruct (s_error s); [discriminate|]. split; [reflexivity|]. destruct (map_get _ _) as [i|] eqn:Em; [|discriminate].
  destruct (slab_get (s_links s) i) as [lk|] eqn:Hk; [|discriminate].
  destruct lk as [| | | | | |b|]; try discriminate. destruct (Nat.eqb_spec a b) as [<-|]; [|discriminate].
  injection E as ->. split; [reflexivity|]. eauto.
Qed.

Lemma refusal : forall p a evs id local rch mfs b s1 o1 t s2 o2 limit h, let s0 := ses_new id local rch mfs b in
  run p evs s0 = EOk (s1, o1) -> grants_fit evs -> links_opened evs <= 2 ^ 32 -> p = Debug \/ granted p a evs s0 < 2 ^ 32 ->
  arrival a (EvFrame (FTransfer t)) s1 = [t] -> step p (EvFrame (FTransfer t)) s1 = EOk (s2, o2) ->
  takes_up_to a s1 limit -> own_handle (LReceiver a) s1 h ->
  let T := arrivals p a evs s0 in
  let credit := granted p a evs s0 - completed T in
  (forall e, refused_for limit credit (underway [] T) t e ->
     ~ attached a s2 /\ s_out s2 = s_out s1 ++ [FDetach (mk_detach h true (Some e))])
  /\ ((forall e, ~ refused_for limit credit (underway [] T) t e) -> attached a s2 /\ s_out s2 = s_out s1).
Proof.
  intros p a evs id local rch mfs b s1 o1 t s2 o2 limit h s0 R Gf B Pw Ar St (l & El & Em) (l2 & El2 & Eh) T credit.
  assert (l2 = l) by congruence. subst l2 limit h.
  destruct (rinv_reachable p a evs id local rch mfs b s1 o1 (fun _ => False)) as (Ri & I & Fit); auto using no_lim.
  { intros M []. }
  destruct (arrival_slot _ _ _ _ Ar) as (Er & _ & i & Mi & Gi).
  assert (At : attached a s1) by (exists i; exact Gi).
  assert (Cx := credit_exact p a evs id local rch mfs b s1 o1 l s0 eq_refl R Gf B At El Pw).
  assert (Ecr : credit = rc_credit l) by (unfold credit, T; lia).
  assert (Hld := attached_held _ _ At). unfold rinv in Ri. rewrite El in Ri.
  destruct Ri as (T0 & T1 & ET & [-> |U] & Hh & _); [|contradiction]. rewrite app_nil_r in ET.
  destruct Hh as [(items & part & X1 & X2 & X3)|(U & _)]; [|contradiction].
  assert (Eg : underway [] T = opened T0) by (unfold T; fold s0 in ET; rewrite ET; apply underway_opened). rewrite Eg, Ecr. clear Eg Ecr credit.
  assert (Fit2 : slots_fit s2).
  { assert (X := step_len _ _ _ _ _ St eq_refl). unfold stable, len_rel, nslots in X. unfold slots_fit in *. lia. }
  destruct I as (W & Rs & Rest). assert (I : lk_inv [] s1) by exact (conj W (conj Rs Rest)).
  destruct (Rs Fit i _ a Gi) as (l3 & E3 & Hi & _); [apply holds_est|]. assert (l3 = l) by congruence. subst l3.
  cbn [step] in St. unfold ses_handle_frame in St. rewrite Er, Mi, Gi in St.
  destruct (rcv_transfer p t a s1) as [[s' act]|] eqn:Rt; [|discriminate]. cbn [emap ebind] in St. apply EOk_inj in St. apply (f_equal fst) in St. cbn [fst] in St.
  destruct (transfer_outcome _ _ _ _ _ _ _ _ _ _ El I X1 X3 Rt) as [(e & sx & Rf & Ix & Ox & Lx & C & ->)|(No & Lk & Ou)].
  - cbn [dispatch] in St. subst s2. destruct (close_posts a i e sx s' Ix) as (Po & Un); [unfold slots_fit; rewrite Lx; exact Fit | rewrite Lx; exact Gi | exact C|].
    split; [|intros X; elim (X _ Rf)]. intros e' Rf'. rewrite (refused_one _ _ _ _ _ _ Rf' Rf), Po, Ox, Hi.
    split; [|reflexivity]. intros X. exact (attached_held _ _ X (Un Fit2)).
  - split; [intros e X; elim (No _ X)|]. intros _. subst s2. split.
    + exists i. destruct act; cbn [dispatch]; unfold control; st_cbn; rewrite Lk; exact Gi.
    + destruct act; cbn [dispatch]; unfold control; st_cbn; exact Ou.
Qed.

(** The frames that a session of this library sends are not refused. *)
Lemma size_app : forall g1 g2, size_of (g1 ++ g2) = size_of g1 + size_of g2.
Proof. intros. unfold size_of. rewrite map_app, concat_app. unfold blen. rewrite app_length. lia. Qed.
Lemma fitting : forall limit credit h id tag settled body g1 t g2 e, one_delivery h id tag settled body (g1 ++ t :: g2) ->
  blen body <= limit -> (forall b, tr_body t = Some b -> honest b) -> 0 < credit -> ~ refused_for limit credit g1 t e.
Proof.
  intros limit credit h id tag settled body g1 t g2 e (Bd & _ & _ & first & rest & Eg & Id & _ & _ & Fr) Sz Hn Cr X.
  assert (S : size_of g1 + size_of [t] <= limit).
  { change (concat (map body_of (g1 ++ t :: g2)) = body) in Bd. assert (size_of (g1 ++ t :: g2) = blen body) by (unfold size_of; rewrite Bd; reflexivity).
    change (t :: g2) with ([t] ++ g2) in H. rewrite !size_app in H. lia. }
  destruct g1 as [|f1 r1]; cbn [app] in Eg; injection Eg as -> Er.
  - inversion X; subst; try lia; try congruence; try discriminate.
  - assert (Nt : transfer_delivery_id (tr_head t) = None).
    { rewrite Forall_forall in Fr. apply (Fr t). rewrite <- Er. apply in_or_app. right. left. reflexivity. }
    inversion X; subst; try lia; try congruence; try discriminate.
    match goal with Hb : tr_body t = Some ?b |- _ => assert (Hz := Hn _ Hb); unfold honest in Hz;
      assert (size_of [t] = blen (tb_enc b)) by (unfold size_of, body_of; cbn [map concat]; rewrite Hb, app_nil_r; reflexivity) end. lia.
Qed.
