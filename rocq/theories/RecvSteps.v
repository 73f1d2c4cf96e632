(** * What one event does to one receiver link *)

From Coq Require Import ZifyBool ZifyNat ZifyN.
From Verif Require Export RecvProofs.
Import ListNotations.

(** ** Links that an operation on link [b] leaves alone *)
Definition keeps_but (b : nat) (s s' : ses) : Prop :=
  (forall a l, a <> b -> nth_error (s_rcvs s) a = Some l ->
     exists l', nth_error (s_rcvs s') a = Some l' /\ rcv_kept l l')
  /\ length (s_rcvs s') = length (s_rcvs s).
#[export] Instance keeps_but_pre b : preorder (keeps_but b).
Proof.
  split.
  - intros s. split; [eauto using rcv_kept_refl | reflexivity].
  - intros s s1 s2 [A1 L1] [A2 L2]. split; [|congruence]. intros a l Hb H.
    destruct (A1 a l Hb H) as (l1 & H1 & E1). destruct (A2 a l1 Hb H1) as (l2 & H2 & E2).
    eauto using rcv_kept_trans.
Qed.
#[export] Instance keeps_but_sees b : sees (keeps_but b) [Frcvs].
Proof.
  intros s s' H. specialize (H Frcvs eq_refl). cbn [same] in H. unfold keeps_but. rewrite H.
  split; [eauto using rcv_kept_refl | reflexivity].
Qed.
#[export] Instance keeps_but_upd b f s : stable (keeps_but b) s (upd_rcv b f s).
Proof.
  split; [|apply upd_rcv_length]. intros a l Hb H. rewrite nth_upd_rcv.
  destruct (Nat.eqb_spec b a); [congruence|]. eauto using rcv_kept_refl.
Qed.
Lemma keeps_rcvs_same_length : forall b s s', keeps_rcvs s s' -> length (s_rcvs s') = length (s_rcvs s) -> keeps_but b s s'.
Proof. intros b s s' [H _] L. split; [|exact L]. intros a l _ E. exact (H a l E). Qed.

(** The number of receiver links. *)
Definition rlen_rel (s s' : ses) : Prop := length (s_rcvs s') = length (s_rcvs s).
#[export] Instance rlen_pre : preorder rlen_rel.
Proof. split; unfold rlen_rel; congruence. Qed.
#[export] Instance rlen_sees : sees rlen_rel [Frcvs].
Proof. intros s s' H. specialize (H Frcvs eq_refl). cbn [same] in H. unfold rlen_rel. congruence. Qed.
#[export] Instance rlen_upd_rcv a f s : stable rlen_rel s (upd_rcv a f s).
Proof. apply upd_rcv_length. Qed.
#[export] Instance rlen_drop_link l s : stable rlen_rel s (drop_link l s).
Proof. apply drop_link_rcvs. Qed.
#[export] Instance rlen_put_link k l s : stable rlen_rel s (put_link k l s).
Proof. unfold put_link. st_solve. Qed.
#[export] Instance rlen_remove_link k s : stable rlen_rel s (remove_link k s).
Proof. unfold remove_link. st_solve. Qed.
#[export] Instance rlen_detach_receiver id c e tx s : stable_er rlen_rel (fun x => x) s (detach_receiver id c e tx s).
Proof. intros x H. change (stable rlen_rel s x). unfold detach_receiver in H. st_er H. Qed.
#[export] Instance rlen_rcv_close a e s : stable_er rlen_rel (fun x => x) s (rcv_close a e s).
Proof. intros x H. change (stable rlen_rel s x). unfold rcv_close in H. st_er H. Qed.
#[export] Instance keeps_but_rcv_close b a e s : stable_er (keeps_but b) (fun x => x) s (rcv_close a e s).
Proof.
  intros x H. apply keeps_rcvs_same_length; [exact (keeps_rcvs_rcv_close a e s x H) | exact (rlen_rcv_close a e s x H)].
Qed.
#[export] Instance keeps_but_rcv_transfer p t b s : stable_er (keeps_but b) fst s (rcv_transfer p t b s).
Proof. intros [x r] H. change (stable (keeps_but b) s x). unfold rcv_transfer in H. st_er H. Qed.

(** ** A detach of the peer *)
Definition rview (l : rlink) : N * option bytes * N := (rc_credit l, rc_partial l, rc_max l).
Definition lost (a : nat) (s' : ses) (l l' : rlink) : Prop :=
  rview l' = rview l /\ rc_queue l' = [] /\ unheld a s' /\ rcv_wk l l'.
Lemma handle_detach_rcvs : forall d s, lk_inv [] s -> slots_fit s ->
  (forall a l, nth_error (s_rcvs s) a = Some l ->
     exists l', nth_error (s_rcvs (fst (handle_detach d s))) a = Some l'
       /\ (rcv_kept l l' \/ lost a (fst (handle_detach d s)) l l'))
  /\ length (s_rcvs (fst (handle_detach d s))) = length (s_rcvs s).
Proof.
  intros d s I B.
  assert (K : stable keeps_rcvs s (fst (handle_detach d s)) -> stable rlen_rel s (fst (handle_detach d s)) ->
    (forall a l, nth_error (s_rcvs s) a = Some l ->
     exists l', nth_error (s_rcvs (fst (handle_detach d s))) a = Some l'
       /\ (rcv_kept l l' \/ lost a (fst (handle_detach d s)) l l'))
    /\ length (s_rcvs (fst (handle_detach d s))) = length (s_rcvs s)).
  { intros [K _] L. split; [|exact L]. intros a l E. destruct (K a l E) as (l' & E' & X). eauto. }
  revert K. unfold handle_detach.
  destruct (match map_get (detach_handle d) (s_rhandles s) with Some i => Some i | None => _ end) as [idx|];
    [|intros K; apply K; cbn [fst]; st_chain].
  cbv zeta. destruct (slab_get (s_links s) idx) as [lk|] eqn:Hk; [|intros K; apply K; cbn [fst]; st_chain].
  destruct lk as [a| |tx|tx|o|[[a tx]|]|a|tx]; try solve [intros K; apply K; cbn [fst]; st_chain].
  - destruct (nth_error (s_snds s) a); intros K; apply K; cbn [fst]; st_chain.
  - intros _. cbn [fst].
    match goal with |- context [set_s_rhandles ?m ?x] => set (s' := set_s_rhandles m x) end.
    assert (U : unheld a s').
    { intros k lk' Hk'. unfold s' in Hk'. frw_in Hk'. rewrite remove_link_get in Hk'.
      destruct (N.eqb_spec idx k) as [|Nk]; [discriminate|]. frw_in Hk'.
      destruct (holds_rcv a lk') eqn:Ha; [|reflexivity]. elim Nk.
      eapply (handle_unique [] s); eauto. cbn [holds_rcv]. apply Nat.eqb_refl. }
    set (f := fun l => set_rc_closed true (set_rc_queue [] l)).
    assert (St : stable keeps_rcvs (upd_rcv a f s) s' \/ (nth_error (s_rcvs s) a = None /\ stable keeps_rcvs s s')).
    { unfold s', rcv_detached. destruct (nth_error (s_rcvs s) a) eqn:Ea.
      - left. fold f. st_chain.
      - right. split; [reflexivity|]. st_chain. }
    assert (Sl : stable rlen_rel s s').
    { unfold s', rcv_detached. destruct (nth_error (s_rcvs s) a) eqn:Ea; st_chain. }
    split; [|exact Sl]. clearbody s'. clear Sl.
    intros b l E. destruct St as [[St _]|[En [St _]]].
    + destruct (Nat.eq_dec b a) as [->|Nb].
      * destruct (St a (f l)) as (l' & E' & K & _ & W); [rewrite nth_upd_rcv, Nat.eqb_refl, E; reflexivity|].
        exists l'. split; [exact E'|]. right. unfold rcv_core, f in K. st_cbn_in K.
        split; [unfold rview; congruence|]. split; [congruence|]. split; [exact U | exact W].
      * destruct (St b l) as (l' & E' & K).
        { rewrite nth_upd_rcv. destruct (Nat.eqb_spec a b); [congruence | exact E]. }
        eauto.
    + destruct (St b l E) as (l' & E' & K). eauto.
  - destruct (nth_error (s_rcvs s) a); intros K; apply K; cbn [fst]; st_chain.
Qed.

(** ** One event *)
Definition not_ready (l : rlink) : Prop :=
  match rc_partial l with None => rc_queue l = [] | Some _ => (length (rc_queue l) <= 1)%nat end.
Definition parks (t : nat) (l l' : rlink) : Prop :=
  rc_waker l' = Some t /\ rc_parked l' = t :: filter (fun t' => negb (Nat.eqb t t')) (rc_parked l)
  /\ not_ready l /\ rc_closed l = false.
Definition wakes (a : nat) (e : ev) (l l' : rlink) : Prop :=
  rcv_wk l l' \/ exists t, e = EvRecv a t /\ parks t l l'.
Inductive rstep (p : profile) (a : nat) (e : ev) (s s' : ses) (os : list obs) (l l' : rlink) : Prop :=
| RsKept : rview l' = rview l -> rc_queue l' = rc_queue l -> wakes a e l l' ->
    arrival a e s = [] -> grant a e s = [] -> handed a os = [] -> rstep p a e s s' os l l'
| RsGrant n : checked_add p (rc_credit l) n = EOk (rc_credit l') -> (n = 50 \/ e = EvCredit a n) ->
    rc_partial l' = rc_partial l -> rc_max l' = rc_max l -> rc_queue l' = rc_queue l -> rcv_wk l l' ->
    arrival a e s = [] -> grant a e s = [n] -> handed a os = [] -> rstep p a e s s' os l l'
| RsMax n : e = EvReceiverMax a n -> rc_max l' = n ->
    rc_credit l' = rc_credit l -> rc_partial l' = rc_partial l -> rc_queue l' = rc_queue l -> rcv_wk l l' ->
    os = [] -> rstep p a e s s' os l l'
| RsItem x q : rview l' = rview l -> rc_queue l = x :: q -> rc_queue l' = q ->
    (rc_partial l = None \/ q <> []) -> rcv_wk l l' -> s' = upd_rcv a (fun _ => l') s ->
    arrival a e s = [] -> grant a e s = [] -> handed a os = [x] -> rstep p a e s s' os l l'
| RsLost : lost a s' l l' -> arrival a e s = [] -> grant a e s = [] -> handed a os = [] ->
    rstep p a e s s' os l l'
| RsAccept t : accepts s' t l l' -> arrival a e s = [t] -> grant a e s = [] -> handed a os = [] ->
    rstep p a e s s' os l l'
| RsRefuse t : refuses a s' t l l' -> arrival a e s = [t] -> grant a e s = [] -> handed a os = [] ->
    rstep p a e s s' os l l'.

Definition special (e : ev) : bool :=
  match e with
  | EvFrame (FTransfer _) | EvFrame (FDetach _) | EvRecv _ _ | EvGet _ | EvCredit _ _ | EvReceiverMax _ _
  | EvFreeReceiver _ | EvCtlOk _ _ => true
  | _ => false
  end.
Lemma step_keeps_rcvs : forall p e s s' os, special e = false -> step p e s = EOk (s', os) ->
  stable keeps_rcvs s s' /\ os = [].
Proof.
  intros p e s s' os Hs H. split.
  - destruct e; try discriminate Hs;
      [destruct f; try discriminate Hs; cbn [step] in H; cbv delta [ses_handle_frame] in H; step_er H|..];
      cbn [step] in H; step_er H.
  - destruct e; try discriminate Hs; cbn [step] in H; unfold noobs, emap in H;
      cbv beta iota zeta delta [cond_wait ebind] in H;
      repeat (fr_break_in H; try discriminate H); apply EOk_inj in H; congruence.
Qed.
Lemma plain_grant : forall a e s, special e = false -> arrival a e s = [] /\ grant a e s = [].
Proof. intros a e s H. destruct e; try discriminate H; split; try reflexivity. destruct f; reflexivity || discriminate H. Qed.
Lemma kept_rview : forall l l', rcv_kept l l' ->
  rview l' = rview l /\ rc_queue l' = rc_queue l /\ forall a e, wakes a e l l'.
Proof.
  intros l l' (K & _ & W). unfold rcv_core in K. unfold rview.
  split; [congruence|]. split; [congruence|]. intros a e. left. exact W.
Qed.
Lemma wakes_refl : forall a e l, wakes a e l l.
Proof. intros a e l. left. apply rcv_wk_refl. Qed.
#[export] Hint Resolve wakes_refl rcv_wk_refl : core.
Lemma handed_other : forall a b d tr, a <> b -> handed a [ObItem b d tr] = [].
Proof. intros a b d tr H. cbn. destruct (Nat.eqb_spec a b); [congruence | reflexivity]. Qed.
Lemma handed_self : forall a d tr, handed a [ObItem a d tr] = [(d, tr)].
Proof. intros a d tr. cbn. rewrite Nat.eqb_refl. reflexivity. Qed.
Lemma set_link_credit_step : forall p b n s s' a l, set_link_credit p b n s = EOk s' ->
  nth_error (s_rcvs s) a = Some l ->
  exists l', nth_error (s_rcvs s') a = Some l'
    /\ if Nat.eqb a b then checked_add p (rc_credit l) n = EOk (rc_credit l')
         /\ rc_partial l' = rc_partial l /\ rc_max l' = rc_max l /\ rc_queue l' = rc_queue l /\ rcv_wk l l'
       else l' = l.
Proof.
  intros p b n s s' a l H E. unfold set_link_credit in H. destruct (nth_error (s_rcvs s) b) as [m|] eqn:Eb.
  - destruct (checked_add p (rc_credit m) n) as [c|] eqn:Ec; [|discriminate]. cbn [ebind] in H. apply EOk_inj in H.
    subst s'. frw. rewrite nth_upd_rcv. destruct (Nat.eqb_spec b a) as [->|Nb].
    + rewrite Nat.eqb_refl, Eb. rewrite E in Eb. injection Eb as <-. cbn [option_map]. eexists. split; [reflexivity|].
      st_cbn. refine (conj Ec (conj eq_refl (conj eq_refl (conj eq_refl _)))). left. auto.
    + exists l. split; [exact E|]. destruct (Nat.eqb_spec a b); [congruence | reflexivity].
  - apply EOk_inj in H. subst s'. exists l. split; [exact E|].
    destruct (Nat.eqb_spec a b); [congruence | reflexivity].
Qed.
Lemma poll_recv_cases : forall t l r l', poll_recv t l = (r, l') ->
  rview l' = rview l
  /\ match r with
     | RItem d tr => rc_queue l = (d, tr) :: rc_queue l' /\ (rc_partial l = None \/ rc_queue l' <> []) /\ rcv_wk l l'
     | RPending => rc_queue l' = rc_queue l /\ not_ready l /\ parks t l l'
     | _ => rc_queue l' = rc_queue l /\ not_ready l /\ rcv_wk l l'
     end.
Proof.
  intros t l r l' H. unfold poll_recv in H. cbv zeta in H. unfold parks, not_ready.
  repeat (fr_break_in H; try discriminate H); assert (H1 := f_equal fst H); assert (H2 := f_equal snd H);
    cbn [fst snd] in H1, H2; subst r l'; unfold rview; st_cbn;
    repeat match goal with E : rc_queue l = _ |- _ => rewrite E | E : rc_partial l = _ |- _ => rewrite E end;
    cbn [length]; repeat split; auto; try lia; try (right; discriminate); left; auto.
Qed.
Lemma get_delivery_cases : forall l r l', get_delivery l = (r, l') ->
  rview l' = rview l
  /\ match r with
     | Some x => rc_queue l = x :: rc_queue l' /\ (rc_partial l = None \/ rc_queue l' <> []) /\ rcv_wk l l'
     | _ => rc_queue l' = rc_queue l /\ not_ready l /\ rcv_wk l l'
     end.
Proof.
  intros l r l' H. unfold get_delivery in H. unfold not_ready.
  destruct (rc_queue l) as [|x q] eqn:Eq.
  - assert (H1 := f_equal fst H); assert (H2 := f_equal snd H); cbn [fst snd] in H1, H2; subst r l'.
    split; [reflexivity|]. split; [congruence|]. split; [|left; auto]. destruct (rc_partial l); [cbn; lia | reflexivity].
  - destruct (rc_partial l) as [b|] eqn:Ep.
    + destruct (Nat.ltb_spec 1 (length (x :: q))) as [L|L];
        assert (H1 := f_equal fst H); assert (H2 := f_equal snd H); cbn [fst snd] in H1, H2; subst r l'.
      * unfold rview. st_cbn. split; [congruence|]. split; [reflexivity|]. split; [|left; auto]. right. destruct q; [cbn in L; lia | discriminate].
      * split; [reflexivity|]. split; [congruence|]. split; [exact L | left; auto].
    + assert (H1 := f_equal fst H); assert (H2 := f_equal snd H); cbn [fst snd] in H1, H2; subst r l'.
      unfold rview. st_cbn. split; [congruence|]. split; [reflexivity|]. split; left; auto.
Qed.
Lemma upd_rcv_other : forall a b f s l, a <> b -> nth_error (s_rcvs s) a = Some l ->
  nth_error (s_rcvs (upd_rcv b f s)) a = Some l.
Proof. intros a b f s l H E. rewrite nth_upd_rcv. destruct (Nat.eqb_spec b a); [congruence | exact E]. Qed.
Lemma upd_rcv_self : forall a f s l, nth_error (s_rcvs s) a = Some l ->
  nth_error (s_rcvs (upd_rcv a f s)) a = Some (f l).
Proof. intros a f s l E. rewrite nth_upd_rcv, Nat.eqb_refl, E. reflexivity. Qed.
Lemma step_rcv : forall p e s s' os a l,
  lk_inv [] s -> slots_fit s -> step p e s = EOk (s', os) -> nth_error (s_rcvs s) a = Some l ->
  exists l', nth_error (s_rcvs s') a = Some l' /\ rstep p a e s s' os l l'.
Proof.
  intros p e s s' os a l I B H El. destruct (special e) eqn:Hs.
  2: { destruct (step_keeps_rcvs _ _ _ _ _ Hs H) as [[K _] ->]. destruct (K a l El) as (l' & E' & K').
       destruct (plain_grant a e s Hs) as [P1 P2]. destruct (kept_rview _ _ K') as (? & ? & ?). eauto using RsKept. }
  destruct e; try discriminate Hs; cbn [step] in H.
  - (* frame *)
    destruct f as [| | | |tr| |d| | |]; try discriminate Hs.
    + (* transfer *)
      unfold ses_handle_frame in H.
      assert (G : grant a (EvFrame (FTransfer tr)) s = []) by reflexivity.
      destruct (s_error s) eqn:He.
      { cbn [ebind] in H. apply EOk_inj in H. injection H as <- <-. exists l. split; [exact El|].
        apply RsKept; auto. unfold arrival. rewrite He. reflexivity. }
      destruct (map_get (transfer_handle (tr_head tr)) (s_rhandles s)) as [i|] eqn:Em.
      2: { cbn [ebind] in H. apply EOk_inj in H. injection H as <- <-. exists l. split; [exact El|].
           apply RsKept; auto. unfold arrival. rewrite He, Em. reflexivity. }
      destruct (slab_get (s_links s) i) as [lk|] eqn:Hk.
      2: { cbn [ebind] in H. apply EOk_inj in H. injection H as <- <-. exists l. split; [exact El|].
           apply RsKept; auto. unfold arrival. rewrite He, Em, Hk. reflexivity. }
      assert (Hn : (forall b, lk <> REstablished b) -> arrival a (EvFrame (FTransfer tr)) s = []).
      { intros Hn. unfold arrival. rewrite He, Em, Hk. destruct lk; try reflexivity. elim (Hn a0). reflexivity. }
      destruct lk as [| | | | | |b|];
        try solve [cbn [ebind] in H; apply EOk_inj in H; injection H as <- <-; exists l; split; [exact El|];
                   apply RsKept; auto; apply Hn; discriminate].
      clear Hn. destruct (rcv_transfer p tr b s) as [[s1 act]|] eqn:Et; [|discriminate]. cbn [emap ebind] in H.
      apply EOk_inj in H. injection H as <- <-.
      assert (X : arrival a (EvFrame (FTransfer tr)) s = if Nat.eqb a b then [tr] else []).
      { unfold arrival. rewrite He, Em, Hk. reflexivity. }
      assert (Fd : framed s1 (dispatch act s1) [Fctl]) by exact _.
      destruct (Nat.eqb_spec a b) as [<-|Nb].
      * destruct (rcv_transfer_step _ _ _ _ _ _ _ Et El I) as (l' & E' & [A|R]); exists l';
          (split; [rewrite (Fd Frcvs eq_refl); exact E'|]).
        -- apply RsAccept with tr; auto. unfold accepts in *. rewrite (Fd Fdlvs eq_refl). exact A.
        -- apply RsRefuse with tr; auto. destruct R as (R & R'). split; [|exact R'].
           intros B' k lk Hk'. unfold slots_fit in B'. rewrite (Fd Flinks eq_refl) in B', Hk'. exact (R B' k lk Hk').
      * destruct (proj1 (keeps_but_rcv_transfer p tr b s _ Et) a l Nb El) as (l' & E' & K).
        exists l'. split; [rewrite (Fd Frcvs eq_refl); exact E'|]. destruct (kept_rview _ _ K) as (? & ? & ?). apply RsKept; auto.
    + (* detach *)
      unfold ses_handle_frame in H. destruct (s_error s) eqn:He.
      { cbn [ebind] in H. apply EOk_inj in H. injection H as <- <-. exists l. split; [exact El|].
        apply RsKept; auto. }
      assert (X := proj1 (handle_detach_rcvs d s I B) a l El).
      destruct (handle_detach d s) as [s1 act]. cbn [ebind fst] in H, X. apply EOk_inj in H. injection H as <- <-.
      assert (Fd : framed s1 (dispatch act s1) [Fctl]) by exact _.
      destruct X as (l' & E' & K). exists l'. split; [rewrite (Fd Frcvs eq_refl); exact E'|].
      destruct K as [K|(K1 & K2 & K3 & K4)].
      * destruct (kept_rview _ _ K) as (? & ? & ?). apply RsKept; auto.
      * apply RsLost; auto. split; [exact K1|]. split; [exact K2|].
        split; [|exact K4].
        intros k lk Hk'. rewrite (Fd Flinks eq_refl) in Hk'. exact (K3 k lk Hk').
  - (* recv *)
    destruct (nth_error (s_rcvs s) a0) as [m|] eqn:Ea;
      [|apply EOk_inj in H; injection H as <- <-; exists l; split; [exact El|]; apply RsKept; auto].
    destruct (poll_recv t m) as [r m'] eqn:Ep. apply EOk_inj in H. injection H as <- <-.
    destruct (Nat.eq_dec a a0) as [->|Na].
    + rewrite El in Ea. injection Ea as <-. exists m'. split; [exact (upd_rcv_self a0 (fun _ => m') s l El)|].
      destruct (poll_recv_cases _ _ _ _ Ep) as [V C]. destruct r.
      * destruct C as (C & C1 & C2). apply RsKept; auto. right. eauto.
      * destruct C as (C1 & C2 & C3). eapply RsItem; eauto. apply handed_self.
      * destruct C as (C & _ & W). apply RsKept; auto. left. exact W.
      * destruct C as (C & _ & W). apply RsKept; auto. left. exact W.
    + exists l. split; [apply upd_rcv_other; auto|]. apply RsKept; auto. destruct r; auto using handed_other.
  - (* get *)
    destruct (nth_error (s_rcvs s) a0) as [m|] eqn:Ea;
      [|apply EOk_inj in H; injection H as <- <-; exists l; split; [exact El|]; apply RsKept; auto].
    destruct (get_delivery m) as [r m'] eqn:Ep. apply EOk_inj in H. injection H as <- <-.
    destruct (Nat.eq_dec a a0) as [->|Na].
    + rewrite El in Ea. injection Ea as <-. exists m'. split; [exact (upd_rcv_self a0 (fun _ => m') s l El)|].
      destruct (get_delivery_cases _ _ _ Ep) as [V C]. destruct r as [[d tr]|].
      * destruct C as (C1 & C2 & C3). eapply RsItem; eauto. apply handed_self.
      * destruct C as (C & _ & W). apply RsKept; auto. left. exact W.
    + exists l. split; [apply upd_rcv_other; auto|]. apply RsKept; auto. destruct r as [[d tr]|]; auto using handed_other.
  - (* credit *)
    unfold noobs in H. destruct (set_link_credit p a0 n s) as [s1|] eqn:E1; [|discriminate]. cbn [emap ebind] in H.
    apply EOk_inj in H. injection H as <- <-.
    destruct (set_link_credit_step _ _ _ _ _ a l E1 El) as (l' & E' & C). exists l'. split; [exact E'|].
    destruct (Nat.eqb_spec a a0) as [->|Na].
    + destruct C as (C1 & C2 & C3 & C4 & C5). eapply RsGrant; eauto. cbn [grant]. rewrite Nat.eqb_refl, El. reflexivity.
    + subst l'. apply RsKept; auto. cbn [grant]. destruct (Nat.eqb_spec a a0); [congruence | reflexivity].
  - (* max *)
    apply EOk_inj in H. injection H as <- <-. destruct (Nat.eq_dec a a0) as [->|Na].
    + eexists. split; [apply upd_rcv_self; exact El|]. eapply RsMax; try reflexivity. left; auto.
    + exists l. split; [apply upd_rcv_other; auto|]. apply RsKept; auto.
  - (* free *)
    destruct (nth_error (s_rcvs s) a0) as [m|] eqn:Ea;
      [|apply EOk_inj in H; injection H as <- <-; exists l; split; [exact El|]; apply RsKept; auto].
    destruct (existsb (holds_rcv a0) (slab_values (s_links s))) eqn:Ex;
      apply EOk_inj in H; injection H as <- <-; [exists l; split; [exact El|]; apply RsKept; auto|].
    destruct (Nat.eq_dec a a0) as [->|Na].
    + eexists. split; [frw; apply upd_rcv_self; exact El|]. apply RsLost; auto.
      split; [reflexivity|]. split; [reflexivity|]. split; [|left; auto]. intros k lk Hk. frw_in Hk.
      destruct (holds_rcv a0 lk) eqn:Eh; [|reflexivity].
      rewrite <- Ex. symmetry. apply existsb_exists. exists lk. split; [|exact Eh]. apply slab_values_get. eauto.
    + exists l. split; [frw; apply upd_rcv_other; auto|]. apply RsKept; auto.
  - (* control *)
    destruct (nth_error (s_ctl s) i) as [[k|]|] eqn:Ei;
      try (apply EOk_inj in H; injection H as <- <-; exists l; split; [exact El|]; apply RsKept; auto;
           cbn [grant]; rewrite Ei; reflexivity).
    unfold noobs in H. destruct (control_ok p edit k _) as [s1|] eqn:E1; [|discriminate]. cbn [emap ebind] in H.
    apply EOk_inj in H. injection H as <- <-.
    assert (Other : (forall r b, k <> KAttached r b) -> exists l', nth_error (s_rcvs s1) a = Some l' /\ rcv_kept l l').
    { intros Hk. assert (K : stable keeps_rcvs s s1).
      { unfold control_ok in E1. destruct k; try (elim (Hk response a0); reflexivity); st_er E1. }
      exact (proj1 K a l El). }
    assert (Gr : (forall r b, k <> KAttached r b) -> grant a (EvCtlOk i edit) s = []).
    { intros Hk. cbn [grant]. rewrite Ei. destruct k; try reflexivity. elim (Hk response a0). reflexivity. }
    destruct k;
      try (destruct Other as (l' & E' & K); [discriminate|]; destruct (kept_rview _ _ K) as (? & ? & ?); exists l'; split; [exact E'|];
           apply RsKept; auto; apply Gr; discriminate).
    clear Other Gr. cbn [control_ok] in E1. 
    assert (K1 : stable keeps_rcvs s (confirm_receiver a0 response (set_s_ctl (set_nth i None (s_ctl s)) s))) by st_chain.
    destruct (proj1 K1 a l El) as (l1 & El1 & K). destruct (kept_rview _ _ K) as (V1 & V2 & V3).
    destruct (set_link_credit_step _ _ _ _ _ a l1 E1 El1) as (l' & E' & C). exists l'. split; [exact E'|].
    unfold rview in V1. destruct (Nat.eqb_spec a a0) as [->|Na].
    + destruct C as (C1 & C2 & C3 & C4 & C5). apply RsGrant with 50; auto; try congruence.
      { destruct (V3 a0 (EvCtlOk i edit)) as [W|(t & Et & _)]; [|discriminate]. eapply rcv_wk_trans; eauto. }
      cbn [grant]. rewrite Ei, Nat.eqb_refl, El. reflexivity.
    + subst l'. apply RsKept; auto. cbn [grant]. rewrite Ei. destruct (Nat.eqb_spec a a0); [congruence | reflexivity].
Qed.
