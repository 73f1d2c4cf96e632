(** * Receiver links: reassembly, credit, size *)

From Coq Require Import ZifyBool ZifyNat ZifyN.
From Verif Require Export SpecReceive LinkRel SendProofs.
Import ListNotations.

(** ** The slots along a run *)
Lemma poll_recv_core : forall t l r l', poll_recv t l = (r, l') ->
  rc_handle l' = rc_handle l /\ rc_closed l' = rc_closed l.
Proof.
  intros t l r l' H. unfold poll_recv in H. cbv zeta in H.
  repeat (fr_break_in H; try discriminate H); apply (f_equal snd) in H; cbn [snd] in H; subst l'; st_cbn; auto.
Qed.
Lemma get_delivery_core : forall l r l', get_delivery l = (r, l') ->
  rc_handle l' = rc_handle l /\ rc_closed l' = rc_closed l.
Proof.
  intros l r l' H. unfold get_delivery in H.
  repeat (fr_break_in H; try discriminate H); apply (f_equal snd) in H; cbn [snd] in H; subst l'; st_cbn; auto.
Qed.
Lemma lk_put_rcv : forall a l l' s, nth_error (s_rcvs s) a = Some l ->
  rc_handle l' = rc_handle l -> rc_closed l' = rc_closed l -> lk_rel s (upd_rcv a (fun _ => l') s).
Proof.
  intros a l l' s El Hh Hc (W & R & Sn & F). refine (conj _ (conj _ (conj _ _))).
  - frw. exact W.
  - intros B k lk b Hk Hb. unfold slots_fit in B. frw_in B. frw_in Hk.
    destruct (R B _ _ _ Hk Hb) as (m & H1 & H2 & H3). rewrite nth_upd_rcv.
    destruct (Nat.eqb_spec a b) as [->|].
    + rewrite El in H1. injection H1 as <-. rewrite El. cbn [option_map]. exists l'. rewrite Hh, Hc. auto.
    + exists m. auto.
  - intros k b Hk. frw_in Hk. frw. exact (Sn k b Hk).
  - intros He k lk Hk. frw_in He. frw_in Hk. exact (F He k lk Hk).
Qed.
Lemma step_lk : forall p e s s' os, step p e s = EOk (s', os) -> stable lk_rel s s'.
Proof.
  intros p e s s' os H. destruct e; cbn [step] in H; try solve [step_er H].
  - destruct (nth_error (s_rcvs s) a) as [l|] eqn:El;
      [|apply EOk_inj in H; apply (f_equal fst) in H; cbn [fst] in H; subst; apply stable_refl; exact _].
    destruct (poll_recv t l) as [r l'] eqn:Ep. apply EOk_inj in H; apply (f_equal fst) in H; cbn [fst] in H; subst.
    apply poll_recv_core in Ep as [E1 E2]. eapply lk_put_rcv; eauto.
  - destruct (nth_error (s_rcvs s) a) as [l|] eqn:El;
      [|apply EOk_inj in H; apply (f_equal fst) in H; cbn [fst] in H; subst; apply stable_refl; exact _].
    destruct (get_delivery l) as [r l'] eqn:Ep. apply EOk_inj in H; apply (f_equal fst) in H; cbn [fst] in H; subst.
    apply get_delivery_core in Ep as [E1 E2]. eapply lk_put_rcv; eauto.
Qed.
Lemma step_uh : forall p e s s' os, step p e s = EOk (s', os) -> stable uh_rel s s'.
Proof. intros p e s s' os H. destruct e; cbn [step] in H; try solve [step_er H]. Qed.
Lemma step_len : forall p e s s' os, step p e s = EOk (s', os) -> opens_link e = false -> stable len_rel s s'.
Proof. intros p e s s' os H Ho. destruct e; try discriminate Ho; cbn [step] in H; try solve [step_er H]. Qed.
Lemma nslots_insert : forall l s, (nslots (set_s_links (slab_insert l (s_links s)) s) <= nslots s + 1)%nat.
Proof.
  intros l s. unfold nslots. st_cbn. unfold slab_insert. destruct (sl_free (s_links s)); cbn [sl_items].
  - rewrite app_length. cbn. lia.
  - rewrite set_nth_length. lia.
Qed.
Lemma nslots_eq : forall s s', s_links s' = s_links s -> nslots s' = nslots s.
Proof. intros s s' H. unfold nslots. rewrite H. reflexivity. Qed.
Lemma nslots_open : forall l s s', s_links s' = slab_insert l (s_links s) -> (nslots s' <= nslots s + 1)%nat.
Proof. intros l s s' H. assert (X := nslots_insert l s). unfold nslots in *. rewrite H. exact X. Qed.
Lemma step_len_open : forall p e s s' os, step p e s = EOk (s', os) -> (nslots s' <= nslots s + 1)%nat.
Proof.
  intros p e s s' os H. destruct (opens_link e) eqn:Ho;
    [|assert (X := step_len _ _ _ _ _ H Ho); unfold stable, len_rel in X; lia].
  destruct e; try discriminate Ho; cbn [step] in H; apply EOk_inj in H; apply (f_equal fst) in H; cbn [fst] in H; subst s'.
  - unfold on_attach. destruct (s_error s); [lia|].
    destruct (handle_attach frm s) as [s1|] eqn:E.
    + assert (X := len_rel_handle_attach frm s s1 E). unfold stable, len_rel in X. lia.
    + destruct (attach_role frm).
      * unfold attach_remote_receiver. cbv beta iota zeta delta [insert_link]. cbn [snd].
        eapply nslots_open. frw. st_cbn. reflexivity.
      * unfold new_remote_sender. cbv beta iota zeta delta [insert_link]. eapply nslots_open. frw. st_cbn. reflexivity.
  - unfold attach_local_sender. cbv beta iota zeta delta [new_chan insert_link]. cbn [snd].
    eapply nslots_open. frw. st_cbn. reflexivity.
  - unfold attach_local_receiver. cbv beta iota zeta delta [new_chan insert_link]. cbn [snd].
    eapply nslots_open. frw. st_cbn. reflexivity.
Qed.

(** ** One transfer *)
Definition accepts (s' : ses) (t : transfer_t) (l l' : rlink) : Prop :=
  rc_credit l <> 0
  /\ rc_credit l' = (if says_more t then rc_credit l else rc_credit l - 1)
  /\ rc_max l' = rc_max l
  /\ (if negb (says_more t) && Nat.eqb (length (rc_queue l')) 1 then rc_waker l' = None /\ rc_parked l' = woken l
      else rc_waker l' = rc_waker l /\ rc_parked l' = rc_parked l)
  /\ match rc_partial l with
     | None =>
         exists d x, nth_error (s_dlvs s') d = Some x /\ transfer_delivery_id (tr_head t) = Some (dl_id x)
           /\ dl_tag x = or_default [] (transfer_delivery_tag (tr_head t)) /\ dl_sender x = false
           /\ if says_more t
              then rc_partial l' = Some (body_of t) /\ rc_queue l' = rc_queue l ++ [(d, mk_transfer_t (tr_head t) None)]
              else rc_partial l' = None /\ rc_queue l' = rc_queue l ++ [(d, t)]
     | Some body =>
         (forall b, tr_body t = Some b -> blen body + tb_size b <= rc_max l)
         /\ if says_more t
            then rc_partial l' = Some (body ++ body_of t) /\ rc_queue l' = rc_queue l
            else rc_partial l' = None
                 /\ exists q d first, rc_queue l = q ++ [(d, first)]
                    /\ rc_queue l' = q ++ [(d, mk_transfer_t (tr_head first) (Some (TBData (body ++ body_of t))))]
     end.
Definition refuses (a : nat) (s' : ses) (t : transfer_t) (l l' : rlink) : Prop :=
  (slots_fit s' -> unheld a s')
  /\ (rc_credit l' = rc_credit l \/ says_more t = false /\ rc_credit l <> 0 /\ rc_credit l' = rc_credit l - 1)
  /\ rc_max l' = rc_max l /\ rc_queue l' = rc_queue l
  /\ (rc_partial l' = rc_partial l \/ rc_queue l = []) /\ rcv_wk l l'.
Lemma rcv_close_core : forall a e s s' l, rcv_close a e s = EOk s' -> nth_error (s_rcvs s) a = Some l ->
  exists l', nth_error (s_rcvs s') a = Some l' /\ rcv_kept l l'.
Proof. intros a e s s' l H E. exact (proj1 (keeps_rcvs_rcv_close a e s s' H) a l E). Qed.
Lemma refuse : forall a e s l m s' t (act act' : action), lk_inv [] s -> nth_error (s_rcvs s) a = Some m ->
  ebind (rcv_close a e s) (fun s => EOk (s, act)) = EOk (s', act') ->
  (rc_credit m = rc_credit l \/ says_more t = false /\ rc_credit l <> 0 /\ rc_credit m = rc_credit l - 1) ->
  rc_max m = rc_max l -> rc_queue m = rc_queue l -> (rc_partial m = rc_partial l \/ rc_queue l = []) ->
  rc_waker m = rc_waker l -> rc_parked m = rc_parked l ->
  exists l', nth_error (s_rcvs s') a = Some l' /\ refuses a s' t l l'.
Proof.
  intros a e s l m s' t act act' I Em H Hc Hm Hq Hp Hw Hk.
  destruct (rcv_close a e s) as [s1|] eqn:E; [|discriminate]. cbn [ebind] in H. apply EOk_inj in H.
  apply (f_equal fst) in H. cbn [fst] in H. subst s1.
  destruct (rcv_close_core _ _ _ _ _ E Em) as (l' & El & K & _ & W). exists l'. split; [exact El|].
  assert (U := proj2 (rcv_close_unheld _ _ _ _ _ I Em E)). unfold rcv_core in K. unfold refuses.
  refine (conj U (conj _ (conj _ (conj _ (conj _ _))))); try congruence.
  eapply rcv_wk_trans; [|exact W]. left. auto.
Qed.
Lemma rcv_transfer_step : forall p t a s s' act l,
  rcv_transfer p t a s = EOk (s', act) -> nth_error (s_rcvs s) a = Some l -> lk_inv [] s ->
  exists l', nth_error (s_rcvs s') a = Some l' /\ (accepts s' t l l' \/ refuses a s' t l l').
Proof.
  intros p t a s s' act l H El I. unfold rcv_transfer in H. rewrite El in H. cbv zeta in H.
  destruct (N.eqb_spec (rc_credit l) 0) as [Hc|Hc].
  { destruct (refuse _ _ _ l _ _ t _ _ I El H) as (l' & E' & R); auto. eauto. }
  set (s1 := if transfer_more (tr_head t) then s else _) in H.
  set (l1 := if transfer_more (tr_head t) then l else set_rc_credit (rc_credit l - 1) l).
  assert (E1 : nth_error (s_rcvs s1) a = Some l1).
  { unfold s1, l1. destruct (transfer_more _); [exact El|]. rewrite nth_upd_rcv, Nat.eqb_refl, El. reflexivity. }
  assert (I1 : lk_inv [] s1).
  { unfold s1. destruct (transfer_more _); [exact I|]. apply (lk_rel_upd_rcv a _ s). exact I. }
  assert (D1 : s_dlvs s1 = s_dlvs s) by (unfold s1; destruct (transfer_more _); frw; reflexivity).
  assert (C1 : rc_credit l1 = rc_credit l \/ says_more t = false /\ rc_credit l <> 0 /\ rc_credit l1 = rc_credit l - 1).
  { unfold l1, says_more. destruct (transfer_more (tr_head t)); [auto|]. right. auto. }
  assert (M1 : rc_max l1 = rc_max l) by (unfold l1; destruct (transfer_more _); reflexivity).
  assert (Q1 : rc_queue l1 = rc_queue l) by (unfold l1; destruct (transfer_more _); reflexivity).
  assert (P1 : rc_partial l1 = rc_partial l) by (unfold l1; destruct (transfer_more _); reflexivity).
  assert (W1 : rc_waker l1 = rc_waker l) by (unfold l1; destruct (transfer_more _); reflexivity).
  assert (K1 : rc_parked l1 = rc_parked l) by (unfold l1; destruct (transfer_more _); reflexivity).
  assert (A1 : rc_credit l1 = (if says_more t then rc_credit l else rc_credit l - 1))
    by (unfold l1, says_more; destruct (transfer_more _); reflexivity).
  clearbody s1 l1.
  assert (Ref : forall e, ebind (rcv_close a e s1) (fun s => EOk (s, ANone)) = EOk (s', act) ->
    exists l', nth_error (s_rcvs s') a = Some l' /\ (accepts s' t l l' \/ refuses a s' t l l')).
  { intros e H'. destruct (refuse _ _ _ l _ _ t _ _ I1 E1 H') as (l' & E' & R); auto. eauto. }
  destruct (rc_partial l) as [body|] eqn:Ep.
  - match type of H with (if ?w then _ else _) = _ => destruct w end; [exact (Ref _ H)|].
    destruct (match tr_body t with None => _ | Some _ => _ end) as [body'|] eqn:Eb; [|exact (Ref _ H)].
    assert (B' : body' = body ++ body_of t /\ (forall b, tr_body t = Some b -> blen body + tb_size b <= rc_max l)).
    { unfold body_of. destruct (tr_body t) as [b|].
      - destruct (N.ltb_spec (rc_max l) (blen body + tb_size b)); [discriminate|]. injection Eb as <-.
        split; [reflexivity|]. intros b' [= <-]. lia.
      - injection Eb as <-. rewrite app_nil_r. split; [reflexivity | discriminate]. }
    destruct B' as [-> Bs]. clear Eb.
    destruct (transfer_more (tr_head t)) eqn:Em.
    + apply EOk_inj in H. apply (f_equal fst) in H. cbn [fst] in H. subst s'.
      rewrite nth_upd_rcv, Nat.eqb_refl, E1. cbn [option_map]. eexists. split; [reflexivity|]. left.
      unfold accepts. rewrite Ep. unfold says_more. rewrite Em. st_cbn. unfold says_more in A1. rewrite Em in A1.
      refine (conj Hc (conj A1 (conj M1 (conj (conj W1 K1) (conj Bs (conj eq_refl Q1)))))).
    + destruct (checked_add p (rc_dc l) 1) as [dc|]; [|discriminate]. cbn [ebind] in H.
      destruct (rev (rc_queue l)) as [|[d first] prev] eqn:Er.
      * assert (Qe : rc_queue l = []) by (rewrite <- (rev_involutive (rc_queue l)), Er; reflexivity).
        edestruct (refuse a) with (l := l) (t := t) as (l' & E' & R); [| |exact H| | | | | | |].
        -- apply (lk_rel_upd_rcv a _ s1). exact I1.
        -- rewrite nth_upd_rcv, Nat.eqb_refl, E1. reflexivity.
        -- st_cbn. exact C1.
        -- st_cbn. exact M1.
        -- st_cbn. exact Q1.
        -- right. exact Qe.
        -- st_cbn. exact W1.
        -- st_cbn. exact K1.
        -- eauto.
      * assert (Qe : rc_queue l = rev prev ++ [(d, first)])
          by (rewrite <- (rev_involutive (rc_queue l)), Er; reflexivity).
        apply EOk_inj in H. apply (f_equal fst) in H. cbn [fst] in H. subst s'.
        assert (X : forall s2, nth_error (s_rcvs s2) a =
           Some (set_rc_queue (rev prev ++ [(d, mk_transfer_t (tr_head first) (Some (TBData (body ++ body_of t))))])
                   (set_rc_dc dc (set_rc_partial None l1))) ->
           exists l', nth_error (s_rcvs (if Nat.eqb (length (rev prev ++ [(d, mk_transfer_t (tr_head first) (Some (TBData (body ++ body_of t))))])) 1
                          then upd_rcv a rcv_wake s2 else s2)) a = Some l'
             /\ rc_credit l' = rc_credit l1 /\ rc_max l' = rc_max l1 /\ rc_partial l' = None
             /\ rc_queue l' = rev prev ++ [(d, mk_transfer_t (tr_head first) (Some (TBData (body ++ body_of t))))]
             /\ if Nat.eqb (length (rc_queue l')) 1 then rc_waker l' = None /\ rc_parked l' = woken l
                else rc_waker l' = rc_waker l /\ rc_parked l' = rc_parked l).
        { intros s2 E2. destruct (Nat.eqb _ 1) eqn:E1q.
          - rewrite nth_upd_rcv, Nat.eqb_refl, E2. cbn [option_map]. eexists. split; [reflexivity|].
            unfold rcv_wake, woken. rewrite <- W1, <- K1. st_cbn.
            destruct (rc_waker l1) eqn:Ew; st_cbn; rewrite E1q; auto 10.
          - rewrite E2. eexists. split; [reflexivity|]. st_cbn. rewrite E1q. auto 10. }
        match goal with |- exists l', nth_error (s_rcvs (if _ then upd_rcv a rcv_wake ?s2 else _)) a = _ /\ _ =>
          destruct (X s2) as (l' & E' & Y1 & Y2 & Y3 & Y4 & Y5) end.
        { rewrite !nth_upd_rcv, !Nat.eqb_refl, E1. reflexivity. }
        exists l'. split; [exact E'|]. left. unfold accepts. rewrite Ep.
        refine (conj Hc (conj _ (conj _ (conj _ (conj Bs _))))); [congruence.. | |].
        { unfold says_more. rewrite Em. exact Y5. }
        unfold says_more. rewrite Em. split; [exact Y3|]. exists (rev prev), d, first. auto.
  - destruct (transfer_delivery_id (tr_head t)) as [id|] eqn:Eid; [|exact (Ref _ H)].
    destruct (transfer_more (tr_head t)) eqn:Em.
    + unfold new_rcv in H. cbv zeta in H. apply EOk_inj in H. apply (f_equal fst) in H. cbn [fst] in H. subst s'.
      eexists. split.
      { rewrite nth_upd_rcv, Nat.eqb_refl. st_cbn.
        match goal with |- context [if ?b then ?x else put_unsettled ?c ?i ?d ?x] =>
          replace (s_rcvs (if b then x else put_unsettled c i d x)) with (s_rcvs x) by (destruct b; frw; reflexivity) end.
        rewrite nth_upd_rcv, Nat.eqb_refl, E1. reflexivity. }
      left. unfold accepts. rewrite Ep. unfold says_more in *. rewrite Em in *. st_cbn.
      refine (conj Hc (conj A1 (conj M1 (conj (conj W1 K1) _)))).
      eexists _, _. split; [frw; st_cbn; apply nth_end|]. cbn [dl_id dl_tag dl_sender].
      refine (conj Eid (conj eq_refl (conj eq_refl (conj eq_refl _)))).
      rewrite Q1. reflexivity.
    + destruct (checked_add p (rc_dc l) 1) as [dc|]; [|discriminate]. cbn [ebind] in H.
      unfold new_rcv in H. cbv zeta in H. apply EOk_inj in H. apply (f_equal fst) in H. cbn [fst] in H. subst s'.
      match goal with |- context [upd_rcv a ?f (set_s_dlvs ?v ?x)] => set (s2 := upd_rcv a f (set_s_dlvs v x)) end.
      assert (E2 : exists l2, nth_error (s_rcvs s2) a = Some l2 /\ rc_credit l2 = rc_credit l1 /\ rc_max l2 = rc_max l1
                 /\ rc_partial l2 = rc_partial l1 /\ rc_waker l2 = rc_waker l1 /\ rc_parked l2 = rc_parked l1
                 /\ exists d x, nth_error (s_dlvs s2) d = Some x /\ Some id = Some (dl_id x)
                      /\ dl_tag x = or_default [] (transfer_delivery_tag (tr_head t)) /\ dl_sender x = false
                      /\ rc_queue l2 = rc_queue l ++ [(d, t)]).
      { eexists. split.
        { unfold s2. rewrite nth_upd_rcv, Nat.eqb_refl. st_cbn.
          match goal with |- context [if ?b then ?x else put_unsettled ?c ?i ?d ?x] =>
            replace (s_rcvs (if b then x else put_unsettled c i d x)) with (s_rcvs x) by (destruct b; frw; reflexivity) end.
          rewrite nth_upd_rcv, Nat.eqb_refl, E1. reflexivity. }
        st_cbn. refine (conj eq_refl (conj eq_refl (conj eq_refl (conj eq_refl (conj eq_refl _))))).
        eexists _, _. split; [unfold s2; frw; st_cbn; apply nth_end|]. cbn [dl_id dl_tag dl_sender].
        refine (conj eq_refl (conj eq_refl (conj eq_refl _))). rewrite Q1. reflexivity. }
      clearbody s2. destruct E2 as (l2 & E2 & Y1 & Y2 & Y3 & Y4 & Y5 & d & x & Z1 & Z2 & Z3 & Z4 & Z5).
      assert (X : exists l', nth_error (s_rcvs (if Nat.eqb (length (rc_queue l)) 0 then upd_rcv a rcv_wake s2 else s2)) a = Some l'
             /\ rc_credit l' = rc_credit l2 /\ rc_max l' = rc_max l2 /\ rc_partial l' = rc_partial l2 /\ rc_queue l' = rc_queue l2
             /\ if Nat.eqb (length (rc_queue l')) 1 then rc_waker l' = None /\ rc_parked l' = woken l
                else rc_waker l' = rc_waker l /\ rc_parked l' = rc_parked l).
      { assert (Lq : Nat.eqb (length (rc_queue l2)) 1 = Nat.eqb (length (rc_queue l)) 0).
        { rewrite Z5, app_length. cbn [length]. destruct (rc_queue l); cbn [length]; [reflexivity|].
          apply Nat.eqb_neq. lia. }
        destruct (Nat.eqb (length (rc_queue l)) 0).
        - rewrite nth_upd_rcv, Nat.eqb_refl, E2. cbn [option_map]. eexists. split; [reflexivity|].
          unfold rcv_wake, woken. rewrite <- W1, <- K1, <- Y4, <- Y5.
          destruct (rc_waker l2) eqn:Ew; st_cbn; rewrite Lq; auto 10.
        - rewrite E2. eexists. split; [reflexivity|]. rewrite Lq. repeat split; congruence. }
      destruct X as (l' & E' & X1 & X2 & X3 & X4 & X5). exists l'. split; [exact E'|]. left. unfold accepts. rewrite Ep.
      unfold says_more in *. rewrite Em in *.
      refine (conj Hc (conj _ (conj _ (conj _ _)))); [congruence | congruence | exact X5|].
      exists d, x. refine (conj _ (conj (eq_trans Eid Z2) (conj Z3 (conj Z4 (conj _ _))))); [|congruence..].
      destruct (Nat.eqb _ 0); frw; exact Z1.
Qed.
