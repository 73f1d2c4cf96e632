(** * What holds in every reachable connection *)

From Coq Require Import ZifyBool ZifyNat ZifyN.
From Verif Require Export ConnProofs.
Import ListNotations.

Definition ses_at (c : conn) (k : N) (a : nat) : Prop :=
  slab_get (c_slots c) k = Some (CoEstablished a) \/ slab_get (c_slots c) k = Some (CoClosing a).
(** Session [a] is the newest one the peer began on channel [ch]. *)
Definition newest (ch : N) (a : nat) (ss : list ses) : Prop :=
  (exists s, nth_error ss a = Some s /\ s_rchan s = ch) /\
  forall b s, nth_error ss b = Some s -> s_rchan s = ch -> (b <= a)%nat.

Record CI (c : conn) : Prop := mk_CI {
  ci_wf : slab_wf (c_slots c);
  ci_full : slab_full (c_slots c);
  ci_slot : forall k a, ses_at c k a ->
    exists s, nth_error (c_sess c) a = Some s /\ s_id s = k /\ s_ended s = false /\ s_error s = None;
  ci_open : forall k i, slab_get (c_slots c) k = Some (CoOpening i) ->
    k < c_chmax c /\ (nth_error (c_opens c) i = Some OWait \/ nth_error (c_opens c) i = Some OGone);
  ci_inj : forall k k' i, slab_get (c_slots c) k = Some (CoOpening i) -> slab_get (c_slots c) k' = Some (CoOpening i) -> k = k';
  ci_wait : forall i, nth_error (c_opens c) i = Some OWait -> exists k, slab_get (c_slots c) k = Some (CoOpening i);
  ci_map : forall ch k, map_get ch (c_map c) = Some k -> exists a, ses_at c k a /\ newest ch a (c_sess c);
  ci_last : forall k a ch, ses_at c k a -> newest ch a (c_sess c) -> map_get ch (c_map c) = Some k;
  ci_ended : forall a s, nth_error (c_sess c) a = Some s ->
    (exists k, ses_at c k a) \/ s_ended s = true \/ c_error c <> None;
  ci_local : forall a s, nth_error (c_sess c) a = Some s -> s_local s = true -> s_id s < c_chmax c;
  ci_dead : c_error c <> None -> forall k i, slab_get (c_slots c) k <> Some (CoOpening i);
  ci_note : c_notified c = true <-> c_error c <> None;
  ci_norm : c_state c <> CsClosing
}.

(** [CI] does not look at the frames, the control frames and the io layer. *)
Ltac ci_same H := destruct H; constructor; assumption.

Definition same_id (s s' : ses) : Prop := s_id s' = s_id s /\ s_rchan s' = s_rchan s /\ s_local s' = s_local s.
Definition same_ids (ss ss' : list ses) : Prop :=
  length ss' = length ss /\ forall a s, nth_error ss a = Some s -> exists s', nth_error ss' a = Some s' /\ same_id s s'.
Lemma same_ids_refl : forall ss, same_ids ss ss.
Proof. intros ss. split; [reflexivity|]. intros a s H. exists s. repeat apply conj; auto. Qed.
Lemma same_ids_trans : forall x y z, same_ids x y -> same_ids y z -> same_ids x z.
Proof.
  intros x y z [L1 H1] [L2 H2]. split; [congruence|]. intros a s H. destruct (H1 _ _ H) as (s1 & E1 & A1 & A2 & A3).
  destruct (H2 _ _ E1) as (s2 & E2 & B1 & B2 & B3). exists s2. repeat apply conj; congruence.
Qed.
Lemma same_ids_set : forall ss a s s', nth_error ss a = Some s -> same_id s s' -> same_ids ss (set_nth a s' ss).
Proof.
  intros ss a s s' E I. split; [apply set_nth_length|]. intros b x H. rewrite nth_set_nth. destruct (Nat.eqb_spec a b) as [<-|].
  - rewrite E. exists s'. replace x with s by congruence. auto.
  - exists x. repeat apply conj; auto.
Qed.
Lemma same_ids_back : forall ss ss' a s', same_ids ss ss' -> nth_error ss' a = Some s' -> exists s, nth_error ss a = Some s /\ same_id s s'.
Proof.
  intros ss ss' a s' [L H] E. destruct (nth_error ss a) as [s|] eqn:Es.
  - destruct (H _ _ Es) as (x & Ex & I). exists s. replace s' with x by congruence. auto.
  - apply nth_error_None in Es. apply nth_lt in E. lia.
Qed.
Lemma newest_same : forall ss ss' ch a, same_ids ss ss' -> newest ch a ss <-> newest ch a ss'.
Proof.
  assert (X : forall ss ss' ch a, same_ids ss ss' -> newest ch a ss -> newest ch a ss').
  { intros ss ss' ch a I [(s & E & R) N]. split.
    - destruct (proj2 I _ _ E) as (s' & E' & _ & R' & _). exists s'. split; congruence.
    - intros b x Hb Hr. destruct (same_ids_back _ _ _ _ I Hb) as (y & Ey & _ & R' & _). apply (N b y Ey). congruence. }
  intros ss ss' ch a I. split; [apply X; exact I|]. apply X. destruct I as [L H]. split; [auto|].
  intros b x Hb. destruct (nth_error ss b) as [y|] eqn:Ey.
  - destruct (H _ _ Ey) as (z & Ez & A1 & A2 & A3). exists y. replace x with z by congruence. repeat apply conj; auto.
  - apply nth_error_None in Ey. apply nth_lt in Hb. lia.
Qed.
Lemma newest_snoc : forall ss s ch a, newest ch a (ss ++ [s]) -> (a = length ss /\ s_rchan s = ch) \/ (newest ch a ss /\ s_rchan s <> ch).
Proof.
  intros ss s ch a [(x & E & R) N]. assert (L := nth_lt _ _ _ _ E). rewrite app_length in L. cbn [length] in L.
  destruct (Nat.eq_dec a (length ss)) as [->|Na].
  - left. split; [reflexivity|]. rewrite nth_error_app2, Nat.sub_diag in E by lia. cbn in E. congruence.
  - right. rewrite nth_error_app1 in E by lia. split.
    + split; [eauto|]. intros b y Hb Hr. apply (N b y); [|exact Hr]. rewrite nth_error_app1; [exact Hb | eapply nth_lt; eauto].
    + intros Hs. assert (X := N (length ss) s). rewrite nth_error_app2, Nat.sub_diag in X by lia. specialize (X eq_refl Hs). lia.
Qed.
Lemma newest_end : forall ss s, newest (s_rchan s) (length ss) (ss ++ [s]).
Proof.
  intros ss s. split.
  - exists s. split; [|reflexivity]. rewrite nth_error_app2, Nat.sub_diag by lia. reflexivity.
  - intros b x H _. apply nth_lt in H. rewrite app_length in H. cbn [length] in H. lia.
Qed.
Lemma newest_old : forall ss s ch a, newest ch a ss -> s_rchan s <> ch -> newest ch a (ss ++ [s]).
Proof.
  intros ss s ch a [(x & E & R) N] Ns. split.
  - exists x. split; [|exact R]. rewrite nth_error_app1; [exact E | eapply nth_lt; eauto].
  - intros b y Hb Hr. destruct (Nat.lt_ge_cases b (length ss)) as [L|L].
    + rewrite nth_error_app1 in Hb by exact L. exact (N b y Hb Hr).
    + rewrite nth_error_app2 in Hb by exact L. destruct (b - length ss)%nat as [|[|m]]; try discriminate Hb. cbn in Hb. congruence.
Qed.
Lemma newest_fun : forall ss ch a b, newest ch a ss -> newest ch b ss -> a = b.
Proof.
  intros ss ch a b [(x & E & R) N] [(y & E' & R') N']. assert (X := N _ _ E' R'). assert (Y := N' _ _ E R). lia.
Qed.
(** A session is in one slot only. *)
Lemma ses_at_fun : forall c k k' a, CI c -> ses_at c k a -> ses_at c k' a -> k = k'.
Proof.
  intros c k k' a C H H'. destruct (ci_slot c C _ _ H) as (s & E & I & _). destruct (ci_slot c C _ _ H') as (s' & E' & I' & _). congruence.
Qed.
Lemma ses_at_key : forall c k a b, ses_at c k a -> ses_at c k b -> a = b.
Proof. intros c k a b [H|H] [H'|H']; congruence. Qed.

(** ** Steps *)
Lemma CI_new : forall chmax mfs, CI (conn_new chmax mfs).
Proof.
  intros chmax mfs. assert (Z : forall k (x : cslot), slab_get (@slab0 cslot) k <> Some x) by (intros k x; rewrite slab0_get; discriminate).
  constructor; cbn [conn_new c_slots c_sess c_opens c_map c_error c_chmax c_notified c_state].
  - apply slab0_wf.
  - intros k H. destruct k; discriminate H.
  - intros k a [H|H]; elim (Z _ _ H).
  - intros k i H. elim (Z _ _ H).
  - intros k k' i H. elim (Z _ _ H).
  - intros [|i] H; discriminate H.
  - discriminate.
  - intros k a ch [H|H]; elim (Z _ _ H).
  - intros [|a] s H; discriminate H.
  - intros [|a] s H; discriminate H.
  - intros H. elim H. reflexivity.
  - split; [discriminate | intros H; elim H; reflexivity].
  - discriminate.
Qed.

Lemma CI_put : forall a s s' c, CI c -> nth_error (c_sess c) a = Some s -> same_id s s' -> s_ended s' = s_ended s -> s_error s' = s_error s ->
  CI (put_ses a s s' c).
Proof.
  intros a s s' c C E I En Er. assert (SI := same_ids_set _ _ _ _ E I). destruct C. constructor; try assumption; cbn [put_ses c_sess c_slots c_map set_c_out set_c_sess c_error c_chmax].
  - intros k b H. destruct (ci_slot0 k b H) as (x & Ex & A1 & A2 & A3). rewrite nth_set_nth. destruct (Nat.eqb_spec a b) as [<-|].
    + rewrite Ex. replace x with s in * by congruence. exists s'. destruct I as (I1 & _). repeat apply conj; congruence.
    + exists x. auto.
  - intros ch k H. destruct (ci_map0 ch k H) as (b & Hb & Nb). exists b. split; [exact Hb|]. apply (newest_same _ _ _ _ SI). exact Nb.
  - intros k b ch Hb Nb. apply (ci_last0 k b ch Hb). apply (newest_same _ _ _ _ SI). exact Nb.
  - intros b x Hx. destruct (same_ids_back _ _ _ _ SI Hx) as (y & Ey & _). destruct (ci_ended0 b y Ey) as [K|[K|K]]; [left; exact K| |right; right; exact K].
    right. left. rewrite nth_set_nth in Hx. destruct (Nat.eqb_spec a b) as [<-|]; [rewrite E in Hx|]; congruence.
  - intros b x Hx Hl. destruct (same_ids_back _ _ _ _ SI Hx) as (y & Ey & I1 & I2 & I3). rewrite I1. apply (ci_local0 b y Ey). congruence.
Qed.
Lemma fail_slot_same : forall e ss sl, same_ids ss (fail_slot e ss sl).
Proof.
  intros e ss [i|a|a]; cbn [fail_slot]; try apply same_ids_refl. destruct (nth_error ss a) as [s|] eqn:E; [|apply same_ids_refl].
  apply (same_ids_set _ _ _ _ E). destruct (fail_fields e s) as (A1 & A2 & A3 & _). repeat apply conj; assumption.
Qed.
Lemma fail_slots_same : forall e sls ss, same_ids ss (fold_left (fail_slot e) sls ss).
Proof.
  induction sls as [|sl sls IH]; intros ss; cbn [fold_left]; [apply same_ids_refl|].
  eapply same_ids_trans; [apply fail_slot_same | apply IH].
Qed.
Lemma drop_slot_wait : forall os sl i, nth_error (drop_slot os sl) i = Some OWait -> nth_error os i = Some OWait /\ sl <> CoOpening i.
Proof.
  intros os [j|a|a] i; cbn [drop_slot]; intros H; [|split; [exact H|discriminate]..].
  destruct (nth_error os j) as [o|] eqn:E; [destruct o|]; try (split; [exact H|intros [= ->]; congruence]).
  rewrite nth_set_nth in H. destruct (Nat.eqb_spec j i) as [->|N]; [rewrite E in H; discriminate H|]. split; [exact H | intros [= ->]; elim N; reflexivity].
Qed.
Lemma drop_slots_wait : forall sls os i, nth_error (fold_left drop_slot sls os) i = Some OWait -> nth_error os i = Some OWait /\ ~ In (CoOpening i) sls.
Proof.
  induction sls as [|sl sls IH]; intros os i H; cbn [fold_left] in H; [split; [exact H | intros []]|].
  destruct (IH _ _ H) as [H1 N1]. destruct (drop_slot_wait _ _ _ H1) as [H2 N2]. split; [exact H2|]. intros [->|I]; [elim N2; reflexivity | exact (N1 I)].
Qed.
Lemma CI_set_error : forall e c, CI c -> CI (conn_set_error e c).
Proof.
  intros e c C. assert (Z : forall k (x : cslot), slab_get (@slab0 cslot) k <> Some x) by (intros k x; rewrite slab0_get; discriminate).
  assert (SI := fail_slots_same e (slab_values (c_slots c)) (c_sess c)).
  assert (Er : c_error (conn_set_error e c) <> None) by (unfold conn_set_error; cbn; destruct (c_error c); discriminate).
  constructor; unfold ses_at; change (c_slots (conn_set_error e c)) with (@slab0 cslot); change (c_map (conn_set_error e c)) with (@nil (N * N)).
  - apply slab0_wf.
  - intros k H. destruct k; discriminate H.
  - intros k a [H|H]; elim (Z _ _ H).
  - intros k i H. elim (Z _ _ H).
  - intros k k' i H. elim (Z _ _ H).
  - intros i H. change (nth_error (fold_left drop_slot (slab_values (c_slots c)) (c_opens c)) i = Some OWait) in H.
    apply drop_slots_wait in H as [H N]. destruct (ci_wait c C i H) as [k Hk]. elim N. apply slab_values_get. eauto.
  - discriminate.
  - intros k a ch [H|H]; elim (Z _ _ H).
  - intros a s H. right. right. exact Er.
  - intros a s H L. change (nth_error (fold_left (fail_slot e) (slab_values (c_slots c)) (c_sess c)) a = Some s) in H.
    change (c_chmax (conn_set_error e c)) with (c_chmax c).
    destruct (same_ids_back _ _ _ _ SI H) as (y & Ey & I1 & I2 & I3). rewrite I1. apply (ci_local c C a y Ey). congruence.
  - intros _ k i H. elim (Z _ _ H).
  - split; [intros _; exact Er | reflexivity].
  - exact (ci_norm c C).
Qed.
Lemma CI_open : forall oc dc props c, CI c -> CI (open_session oc dc props c).
Proof.
  intros oc dc props c C. unfold open_session.
  assert (Done : forall r, CI (set_c_opens (c_opens c ++ [ODone r]) c)).
  { intros r. destruct C. constructor; try assumption; cbn [set_c_opens c_opens c_slots c_chmax].
    - intros k i H. destruct (ci_open0 k i H) as [A B]. split; [exact A|]. rewrite nth_error_app1; [exact B|].
      destruct B as [B|B]; apply nth_lt in B; exact B.
    - intros i H. destruct (Nat.lt_ge_cases i (length (c_opens c))) as [L|L].
      + rewrite nth_error_app1 in H by exact L. exact (ci_wait0 i H).
      + rewrite nth_error_app2 in H by exact L. destruct (i - length (c_opens c))%nat as [|[|m]]; discriminate H. }
  destruct (c_error c) as [e|] eqn:Ee; [apply Done|]. destruct (N.leb_spec (c_chmax c) (slab_key (c_slots c))) as [L|L]; [apply Done|].
  cbv zeta. destruct C. assert (G := fun x k => slab_get_insert _ (c_slots c) x k ci_wf0). assert (Kf := slab_key_free _ _ ci_wf0).
  constructor; try assumption; cbn [cpost set_c_out set_c_opens set_c_slots c_opens c_slots c_chmax c_sess c_map c_error]; unfold ses_at; cbn [cpost set_c_out set_c_opens set_c_slots c_opens c_slots c_chmax c_sess c_map c_error].
  - apply slab_insert_wf. exact ci_wf0.
  - apply full_insert; assumption.
  - intros k a H. rewrite !G in H. destruct (slab_key (c_slots c) =? k); [destruct H as [H|H]; discriminate H|]. exact (ci_slot0 k a H).
  - intros k i H. rewrite G in H. destruct (N.eqb_spec (slab_key (c_slots c)) k) as [<-|].
    + injection H as <-. split; [exact L|]. left. rewrite nth_error_app2, Nat.sub_diag by lia. reflexivity.
    + destruct (ci_open0 k i H) as [A B]. split; [exact A|]. rewrite nth_error_app1; [exact B|]. destruct B as [B|B]; apply nth_lt in B; exact B.
  - intros k k' i H H'. rewrite G in H, H'.
    assert (Old : forall k, slab_get (c_slots c) k = Some (CoOpening (length (c_opens c))) -> False).
    { intros j Hj. destruct (ci_open0 j _ Hj) as [_ [B|B]]; apply nth_lt in B; lia. }
    destruct (N.eqb_spec (slab_key (c_slots c)) k), (N.eqb_spec (slab_key (c_slots c)) k').
    + congruence.
    + injection H as <-. elim (Old _ H').
    + injection H' as <-. elim (Old _ H).
    + exact (ci_inj0 k k' i H H').
  - intros i H. destruct (Nat.lt_ge_cases i (length (c_opens c))) as [Li|Li].
    + rewrite nth_error_app1 in H by exact Li. destruct (ci_wait0 i H) as [k Hk]. exists k. rewrite G.
      destruct (N.eqb_spec (slab_key (c_slots c)) k) as [<-|]; [congruence | exact Hk].
    + assert (i = length (c_opens c)) as ->. { rewrite nth_error_app2 in H by exact Li. destruct (i - length (c_opens c))%nat as [|[|m]] eqn:Em; try discriminate H. lia. }
      exists (slab_key (c_slots c)). rewrite G, N.eqb_refl. reflexivity.
  - intros ch k H. destruct (ci_map0 ch k H) as (a & Ha & Na). exists a. split; [|exact Na]. rewrite !G.
    destruct (N.eqb_spec (slab_key (c_slots c)) k) as [<-|]; [destruct Ha; congruence | exact Ha].
  - intros k a ch H Na. rewrite !G in H. destruct (slab_key (c_slots c) =? k); [destruct H as [H|H]; discriminate H|]. exact (ci_last0 k a ch H Na).
  - intros a s Hs. destruct (ci_ended0 a s Hs) as [[k Hk]|K]; [|right; exact K]. left. exists k. rewrite !G.
    destruct (N.eqb_spec (slab_key (c_slots c)) k) as [<-|]; [destruct Hk; congruence | exact Hk].
  - intros H. elim H. exact Ee.
Qed.
Lemma CI_close_session : forall k c, CI c -> CI (close_session k c).
Proof.
  intros k c C. unfold close_session. destruct (slab_get (c_slots c) k) as [[i|a|a]|] eqn:E; try exact C.
  assert (G := fun x k' => slab_get_set _ (c_slots c) x k k' ltac:(congruence)).
  assert (SA : forall j b, ses_at (set_c_slots (slab_set k (CoClosing a) (c_slots c)) c) j b <-> ses_at c j b).
  { intros j b. unfold ses_at. cbn [set_c_slots c_slots]. rewrite !G. destruct (N.eqb_spec k j) as [<-|]; [|reflexivity]. rewrite E. split; intros [H|H]; try discriminate H; injection H as <-; auto. }
  assert (OP : forall j i, slab_get (slab_set k (CoClosing a) (c_slots c)) j = Some (CoOpening i) <-> slab_get (c_slots c) j = Some (CoOpening i)).
  { intros j i. rewrite G. destruct (N.eqb_spec k j) as [<-|]; [rewrite E; split; discriminate | reflexivity]. }
  destruct C. constructor; try assumption.
  - apply slab_set_wf. exact ci_wf0.
  - apply full_set. exact ci_full0.
  - intros j b H. apply SA in H. exact (ci_slot0 j b H).
  - intros j i H. apply OP in H. exact (ci_open0 j i H).
  - intros j j' i H H'. apply OP in H. apply OP in H'. exact (ci_inj0 _ _ _ H H').
  - intros i H. destruct (ci_wait0 i H) as [j Hj]. exists j. apply OP. exact Hj.
  - intros ch j H. destruct (ci_map0 ch j H) as (b & Hb & Nb). exists b. split; [apply SA; exact Hb | exact Nb].
  - intros j b ch H Nb. apply SA in H. exact (ci_last0 _ _ _ H Nb).
  - intros b s H. destruct (ci_ended0 b s H) as [[j Hj]|K]; [left; exists j; apply SA; exact Hj | right; exact K].
  - intros H j i Hj. apply OP in Hj. exact (ci_dead0 H j i Hj).
Qed.
Lemma CI_register : forall ch b c, CI c -> CI (register_remote ch b c).
Proof.
  intros ch b c C. unfold register_remote. cbv zeta. destruct C. set (s := ses_new _ _ _ _ _).
  assert (G := fun x k => slab_get_insert _ (c_slots c) x k ci_wf0). assert (Kf := slab_key_free _ _ ci_wf0).
  set (key := slab_key (c_slots c)) in *. assert (Rs : s_rchan s = ch) by reflexivity. assert (Is : s_id s = key) by reflexivity.
  assert (Es : s_ended s = false /\ s_error s = None /\ s_local s = false) by (repeat apply conj; reflexivity). clearbody s.
  assert (Ln : nth_error (c_sess c ++ [s]) (length (c_sess c)) = Some s) by (rewrite nth_error_app2, Nat.sub_diag by lia; reflexivity).
  assert (Lt : forall k a, ses_at c k a -> (a < length (c_sess c))%nat).
  { intros k a H. destruct (ci_slot0 k a H) as (x & Ex & _). eapply nth_lt; eauto. }
  constructor; try assumption; cbn [cpost set_c_out set_c_map set_c_slots set_c_sess c_opens c_slots c_chmax c_sess c_map c_error]; unfold ses_at; cbn [cpost set_c_out set_c_map set_c_slots set_c_sess c_opens c_slots c_chmax c_sess c_map c_error].
  - apply slab_insert_wf. exact ci_wf0.
  - apply full_insert; assumption.
  - intros k a H. rewrite !G in H. destruct (N.eqb_spec key k) as [<-|].
    + destruct H as [H|H]; [|discriminate H]. injection H as <-. exists s. destruct Es as (E1 & E2 & _). auto.
    + destruct (ci_slot0 k a H) as (x & Ex & A). exists x. split; [rewrite nth_error_app1; [exact Ex | eapply nth_lt; eauto] | exact A].
  - intros k i H. rewrite G in H. destruct (key =? k); [discriminate H|]. exact (ci_open0 k i H).
  - intros k k' i H H'. rewrite G in H, H'. destruct (key =? k); [discriminate H|]. destruct (key =? k'); [discriminate H'|]. exact (ci_inj0 k k' i H H').
  - intros i H. destruct (ci_wait0 i H) as [k Hk]. exists k. rewrite G. destruct (N.eqb_spec key k) as [<-|]; [congruence | exact Hk].
  - intros ch' k H. rewrite map_get_put in H. destruct (N.eqb_spec ch' ch) as [->|Nc].
    + injection H as <-. exists (length (c_sess c)). split; [left; rewrite G, N.eqb_refl; reflexivity|]. rewrite <- Rs at 1. apply newest_end.
    + destruct (ci_map0 ch' k H) as (a & Ha & Na). exists a. split; [|apply newest_old; [exact Na | congruence]].
      rewrite !G. destruct (N.eqb_spec key k) as [<-|]; [destruct Ha; congruence | exact Ha].
  - intros k a ch' H Na. rewrite map_get_put. apply newest_snoc in Na as [[-> R]|[Na R]].
    + rewrite !G in H. destruct (N.eqb_spec key k) as [<-|]; [|elim (Nat.lt_irrefl _ (Lt _ _ H))].
      replace (ch' =? ch) with true by (symmetry; apply N.eqb_eq; congruence). reflexivity.
    + rewrite !G in H. destruct (N.eqb_spec key k) as [<-|].
      * destruct H as [H|H]; [|discriminate H]. injection H as <-. destruct Na as [(x & Ex & _) _]. apply nth_lt in Ex. lia.
      * destruct (N.eqb_spec ch' ch) as [->|]; [congruence|]. exact (ci_last0 k a ch' H Na).
  - intros a x Hx. destruct (Nat.lt_ge_cases a (length (c_sess c))) as [L|L].
    + rewrite nth_error_app1 in Hx by exact L. destruct (ci_ended0 a x Hx) as [[k Hk]|K]; [|right; exact K]. left. exists k. rewrite !G.
      destruct (N.eqb_spec key k) as [<-|]; [destruct Hk; congruence | exact Hk].
    + left. exists key. left. rewrite G, N.eqb_refl. assert (Lx := nth_lt _ _ _ _ Hx). rewrite app_length in Lx. cbn [length] in Lx. do 2 f_equal. lia.
  - intros a x Hx Hl. destruct (Nat.lt_ge_cases a (length (c_sess c))) as [L|L].
    + rewrite nth_error_app1 in Hx by exact L. exact (ci_local0 a x Hx Hl).
    + assert (Lx := nth_lt _ _ _ _ Hx). rewrite app_length in Lx. cbn [length] in Lx. replace a with (length (c_sess c)) in Hx by lia.
      destruct Es as (_ & _ & El). congruence.
  - intros H k i Hk. rewrite G in Hk. destruct (key =? k); [discriminate Hk|]. exact (ci_dead0 H k i Hk).
Qed.
Lemma CI_complete : forall local ch b c, CI c -> CI (complete_session local ch b c).
Proof.
  intros local ch b c C. unfold complete_session. destruct (slab_get (c_slots c) local) as [[i|a|a]|] eqn:E; try exact C. cbv zeta.
  assert (G := fun x k' => slab_get_set _ (c_slots c) x local k' ltac:(congruence)).
  destruct C. set (s := ses_new _ _ _ _ _). assert (Rs : s_rchan s = ch) by reflexivity. assert (Is : s_id s = local) by reflexivity.
  assert (Es : s_ended s = false /\ s_error s = None) by (split; reflexivity). clearbody s.
  assert (Ln : nth_error (c_sess c ++ [s]) (length (c_sess c)) = Some s) by (rewrite nth_error_app2, Nat.sub_diag by lia; reflexivity).
  assert (Lt : forall k a, ses_at c k a -> (a < length (c_sess c))%nat).
  { intros k a H. destruct (ci_slot0 k a H) as (x & Ex & _). eapply nth_lt; eauto. }
  destruct (ci_open0 _ _ E) as [Lc Oi].
  pose (os := match nth_error (c_opens c) i with Some OWait => set_nth i (ODone (inl (length (c_sess c)))) (c_opens c) | _ => c_opens c end).
  assert (Os : forall j, nth_error os j = if Nat.eqb i j then match nth_error (c_opens c) i with Some OWait => Some (ODone (inl (length (c_sess c)))) | x => x end else nth_error (c_opens c) j).
  { intros j. unfold os. destruct (nth_error (c_opens c) i) as [[]|] eqn:Ei; rewrite ?nth_set_nth; destruct (Nat.eqb_spec i j) as [<-|]; rewrite ?Ei; reflexivity. }
  assert (Nw : nth_error os i <> Some OWait). { rewrite Os, Nat.eqb_refl. destruct Oi as [O|O]; rewrite O; discriminate. }
  constructor; try assumption; cbn [set_c_opens set_c_map set_c_slots set_c_sess c_opens c_slots c_chmax c_sess c_map c_error]; fold os; unfold ses_at; cbn [set_c_opens set_c_map set_c_slots set_c_sess c_opens c_slots c_chmax c_sess c_map c_error].
  - apply slab_set_wf. exact ci_wf0.
  - apply full_set. exact ci_full0.
  - intros k a H. rewrite !G in H. destruct (N.eqb_spec local k) as [<-|].
    + destruct H as [H|H]; [|discriminate H]. injection H as <-. exists s. destruct Es as (E1 & E2). auto.
    + destruct (ci_slot0 k a H) as (x & Ex & A). exists x. split; [rewrite nth_error_app1; [exact Ex | eapply nth_lt; eauto] | exact A].
  - intros k j H. rewrite G in H. destruct (N.eqb_spec local k) as [<-|Nk]; [discriminate H|]. destruct (ci_open0 k j H) as [A B]. split; [exact A|].
    rewrite Os. destruct (Nat.eqb_spec i j) as [<-|]; [|exact B]. elim Nk. exact (ci_inj0 _ _ _ E H).
  - intros k k' j H H'. rewrite G in H, H'. destruct (local =? k); [discriminate H|]. destruct (local =? k'); [discriminate H'|]. exact (ci_inj0 k k' j H H').
  - intros j H. assert (Nj : i <> j) by (intros ->; exact (Nw H)). rewrite Os in H. destruct (Nat.eqb_spec i j) as [|_]; [contradiction|].
    destruct (ci_wait0 j H) as [k Hk]. exists k. rewrite G. destruct (N.eqb_spec local k) as [<-|]; [congruence | exact Hk].
  - intros ch' k H. rewrite map_get_put in H. destruct (N.eqb_spec ch' ch) as [->|Nc].
    + injection H as <-. exists (length (c_sess c)). split; [left; rewrite G, N.eqb_refl; reflexivity|]. rewrite <- Rs at 1. apply newest_end.
    + destruct (ci_map0 ch' k H) as (a & Ha & Na). exists a. split; [|apply newest_old; [exact Na | congruence]].
      rewrite !G. destruct (N.eqb_spec local k) as [<-|]; [destruct Ha; congruence | exact Ha].
  - intros k a ch' H Na. rewrite map_get_put. apply newest_snoc in Na as [[-> R]|[Na R]].
    + rewrite !G in H. destruct (N.eqb_spec local k) as [<-|]; [|elim (Nat.lt_irrefl _ (Lt _ _ H))].
      replace (ch' =? ch) with true by (symmetry; apply N.eqb_eq; congruence). reflexivity.
    + rewrite !G in H. destruct (N.eqb_spec local k) as [<-|].
      * destruct H as [H|H]; [|discriminate H]. injection H as <-. destruct Na as [(x & Ex & _) _]. apply nth_lt in Ex. lia.
      * destruct (N.eqb_spec ch' ch) as [->|]; [congruence|]. exact (ci_last0 k a ch' H Na).
  - intros a x Hx. destruct (Nat.lt_ge_cases a (length (c_sess c))) as [L|L].
    + rewrite nth_error_app1 in Hx by exact L. destruct (ci_ended0 a x Hx) as [[k Hk]|K]; [|right; exact K]. left. exists k. rewrite !G.
      destruct (N.eqb_spec local k) as [<-|]; [destruct Hk; congruence | exact Hk].
    + left. exists local. left. rewrite G, N.eqb_refl. assert (Lx := nth_lt _ _ _ _ Hx). rewrite app_length in Lx. cbn [length] in Lx. do 2 f_equal. lia.
  - intros a x Hx Hl. destruct (Nat.lt_ge_cases a (length (c_sess c))) as [L|L].
    + rewrite nth_error_app1 in Hx by exact L. exact (ci_local0 a x Hx Hl).
    + assert (Lx := nth_lt _ _ _ _ Hx). rewrite app_length in Lx. cbn [length] in Lx. replace a with (length (c_sess c)) in Hx by lia. congruence.
  - intros H k j Hk. rewrite G in Hk. destruct (local =? k); [discriminate Hk|]. exact (ci_dead0 H k j Hk).
Qed.
Lemma CI_ended : forall e ch k a s c, CI c -> map_get ch (c_map c) = Some k -> ses_at c k a -> nth_error (c_sess c) a = Some s ->
  CI (forget ch (put_ses a s (ses_set_error e s) c)).
Proof.
  intros e ch k a s c C Em Ha E. unfold forget. cbn [put_ses set_c_out set_c_sess c_map]. rewrite Em.
  assert (UF := fun j j' b => ses_at_fun c j j' b C). destruct C. destruct (fail_fields e s) as (A1 & A2 & A3 & A4 & A5 & A6 & A7). set (s' := ses_set_error e s) in *. clearbody s'.
  assert (SI : same_ids (c_sess c) (set_nth a s' (c_sess c))) by (apply (same_ids_set _ _ _ _ E); repeat apply conj; assumption).
  destruct (ci_map0 _ _ Em) as (a0 & Ha0 & Na0). assert (a0 = a) as -> by exact (ses_at_key _ _ _ _ Ha0 Ha).
  assert (G := fun k' => slab_get_remove _ (c_slots c) k k').
  constructor; try assumption; cbn [put_ses set_c_map set_c_out set_c_slots set_c_sess c_opens c_slots c_chmax c_sess c_map c_error]; unfold ses_at; cbn [put_ses set_c_out set_c_map set_c_slots set_c_sess c_opens c_slots c_chmax c_sess c_map c_error].
  - apply slab_remove_wf. exact ci_wf0.
  - apply full_remove. exact ci_full0.
  - intros j b H. rewrite G in H. destruct (N.eqb_spec k j) as [<-|Nj]; [destruct H as [H|H]; discriminate H|].
    destruct (ci_slot0 j b H) as (x & Ex & B). rewrite nth_set_nth. destruct (Nat.eqb_spec a b) as [<-|]; [|eauto].
    elim Nj. exact (UF _ _ _ Ha H).
  - intros j i H. rewrite G in H. destruct (k =? j); [discriminate H|]. exact (ci_open0 j i H).
  - intros j j' i H H'. rewrite G in H, H'. destruct (k =? j); [discriminate H|]. destruct (k =? j'); [discriminate H'|]. exact (ci_inj0 _ _ _ H H').
  - intros i H. destruct (ci_wait0 i H) as [j Hj]. exists j. rewrite G. destruct (N.eqb_spec k j) as [<-|]; [destruct Ha; congruence | exact Hj].
  - intros ch' j H. rewrite map_get_del in H. destruct (N.eqb_spec ch' ch) as [->|Nc]; [discriminate H|].
    destruct (ci_map0 ch' j H) as (b & Hb & Nb). exists b. split; [|apply (newest_same _ _ _ _ SI); exact Nb]. rewrite G.
    destruct (N.eqb_spec k j) as [<-|]; [|exact Hb]. assert (b = a) as -> by exact (ses_at_key _ _ _ _ Hb Ha).
    destruct Nb as [(x & Ex & Rx) _], Na0 as [(y & Ey & Ry) _]. congruence.
  - intros j b ch' H Nb. rewrite G in H. destruct (N.eqb_spec k j) as [<-|Nj]; [destruct H as [H|H]; discriminate H|]. apply (newest_same _ _ _ _ SI) in Nb.
    rewrite map_get_del. assert (Hm := ci_last0 j b ch' H Nb). destruct (N.eqb_spec ch' ch) as [->|]; [congruence | exact Hm].
  - intros b x Hx. rewrite nth_set_nth in Hx. destruct (Nat.eqb_spec a b) as [<-|Nb].
    + rewrite E in Hx. right. left. congruence.
    + destruct (ci_ended0 b x Hx) as [[j Hj]|K]; [|right; exact K]. left. exists j. rewrite G. destruct (N.eqb_spec k j) as [<-|]; [|exact Hj].
      elim Nb. exact (ses_at_key _ _ _ _ Ha Hj).
  - intros b x Hx Hl. destruct (same_ids_back _ _ _ _ SI Hx) as (y & Ey & I1 & I2 & I3). rewrite I1. apply (ci_local0 b y Ey). congruence.
  - intros H j i Hj. rewrite G in Hj. destruct (k =? j); [discriminate Hj|]. exact (ci_dead0 H j i Hj).
Qed.
Lemma CI_end : forall a c, CI c -> CI (conn_end a c).
Proof.
  intros a c C. unfold conn_end. destruct (nth_error (c_sess c) a) as [s|] eqn:E; [|exact C]. cbv zeta.
  destruct (end_fields s) as (A1 & A2 & A3 & A4 & A5 & _). apply CI_put; [| |repeat apply conj; assumption|assumption|assumption].
  - destruct (s_ended s || s_ending s); [exact C | apply CI_close_session; exact C].
  - destruct (s_ended s || s_ending s); [exact E|]. unfold close_session. destruct (slab_get (c_slots c) (s_rchan s)) as [[]|]; exact E.
Qed.
Lemma wire_same : forall s s', wire_rel s s' -> same_id s s' /\ s_ended s' = s_ended s /\ s_error s' = s_error s.
Proof. intros s s' (A1 & A2 & A3 & A4 & A5 & A6 & _). repeat apply conj; assumption. Qed.
Lemma ses_event_inv : forall p a s e c c' os, ses_event p a s e c = EOk (c', os) -> exists s' o, step p e s = EOk (s', o) /\ c' = put_ses a s s' c /\ os = map (ObSes a) o.
Proof.
  intros p a s e c c' os H. unfold ses_event in H. destruct (step p e s) as [[s' o]|]; [|discriminate]. cbn [ebind] in H.
  apply EOk_inj in H. exists s', o. split; [reflexivity|]. split; congruence.
Qed.
(** The cases of a frame. *)
Definition plain (f : frame) : bool := match f with FEmpty | FClose _ | FBegin _ => false | _ => true end.
Lemma frame_cases : forall p ch f c c' os, conn_frame p ch f c = EOk (c', os) -> plain f = true -> c_error c = None ->
  (c' = c /\ (map_get ch (c_map c) = None \/ exists k, map_get ch (c_map c) = Some k /\ slab_get (c_slots c) k = None) /\ os = [ObErr (EUnknownSession f)]) \/
  (exists k i, map_get ch (c_map c) = Some k /\ slab_get (c_slots c) k = Some (CoOpening i) /\ c' = c /\ os = [ObErr (EUnexpectedOpeningState f)]) \/
  (exists k a, map_get ch (c_map c) = Some k /\ ses_at c k a /\ nth_error (c_sess c) a = None) \/
  (exists k a s, map_get ch (c_map c) = Some k /\ slab_get (c_slots c) k = Some (CoEstablished a) /\ nth_error (c_sess c) a = Some s /\
     match f with
     | FAttach frm => c' = put_ses a s (on_attach frm s) c /\ os = []
     | FEnd en => c' = cpost (as_u16 (s_id s)) (FEnd (mk_end None)) (forget ch (put_ses a s (ses_set_error (ESessionEnded (end_error en)) s) c)) /\ os = []
     | _ => exists s' r, step p (EvFrame f) s = EOk (s', []) /\ (exists s1, ses_handle_frame p f s = EOk (s1, r)) /\ c' = put_ses a s s' c /\
              os = match r with inl _ => [] | inr e => [ObErr e] end
     end) \/
  (exists k a s, map_get ch (c_map c) = Some k /\ slab_get (c_slots c) k = Some (CoClosing a) /\ nth_error (c_sess c) a = Some s /\
     match f with
     | FEnd en => c' = forget ch (put_ses a s (ses_set_error (ESessionEnded (end_error en)) s) c) /\ os = []
     | _ => c' = c /\ os = []
     end).
Proof.
  intros p ch f c c' os H P Er.
  assert (H' : match match map_get ch (c_map c) with Some k => slab_get (c_slots c) k | None => None end with
          | None => EOk (c, [ObErr (EUnknownSession f)])
          | Some (CoOpening _) => EOk (c, [ObErr (EUnexpectedOpeningState f)])
          | Some (CoEstablished a) =>
              match nth_error (c_sess c) a with
              | None => EOk (c, [])
              | Some s =>
                  match f with
                  | FAttach frm => ses_event p a s (EvAttach frm) c
                  | FEnd en =>
                      ebind (ses_event p a s (EvFail (ESessionEnded (end_error en))) c) (fun '(c, os) =>
                      EOk (cpost (as_u16 (s_id s)) (FEnd (mk_end None)) (forget ch c), os))
                  | _ =>
                      ebind (ses_event p a s (EvFrame f) c) (fun '(c, os) =>
                      ebind (ses_handle_frame p f s) (fun '(_, r) =>
                      EOk (c, os ++ match r with inl _ => [] | inr e => [ObErr e] end)))
                  end
              end
          | Some (CoClosing a) =>
              match nth_error (c_sess c) a with
              | None => EOk (c, [])
              | Some s =>
                  match f with
                  | FEnd en =>
                      ebind (ses_event p a s (EvFail (ESessionEnded (end_error en))) c) (fun '(c, os) =>
                      EOk (forget ch c, os))
                  | _ => EOk (c, [])
                  end
              end
          end = EOk (c', os)).
  { unfold conn_frame in H. rewrite Er in H. destruct f; try discriminate P; exact H. }
  clear H. rename H' into H.
  destruct (map_get ch (c_map c)) as [k|] eqn:Em; [|left; apply EOk_inj in H; split; [congruence|split; [left; reflexivity|congruence]]].
  destruct (slab_get (c_slots c) k) as [[i|a|a]|] eqn:Es.
  - right. left. exists k, i. apply EOk_inj in H. repeat apply conj; congruence.
  - destruct (nth_error (c_sess c) a) as [s|] eqn:Ea; [|right; right; left; exists k, a; unfold ses_at; auto].
    right. right. right. left. exists k, a, s. refine (conj eq_refl (conj Es (conj Ea _))).
    destruct f; try discriminate P.
    all: try (cbn [ses_event step ebind map] in H; apply EOk_inj in H; split; congruence).
    all: match type of H with context [EvFrame ?f] => destruct (ses_event p a s (EvFrame f) c) as [[c1 o1]|] eqn:E1; [|discriminate H]; cbn [ebind] in H;
      destruct (ses_handle_frame p f s) as [[s1 r]|] eqn:E2; [|discriminate H]; cbn [ebind] in H; apply EOk_inj in H;
      apply ses_event_inv in E1 as (s' & o & Es' & -> & ->); assert (o = []) as -> by (cbn [step] in Es'; rewrite E2 in Es'; cbn [ebind] in Es'; apply EOk_inj in Es'; congruence) end.
    all: exists s', r; refine (conj Es' (conj (ex_intro _ s1 eq_refl) _)); split; [congruence|]; cbn [map app] in H; congruence.
  - destruct (nth_error (c_sess c) a) as [s|] eqn:Ea; [|right; right; left; exists k, a; unfold ses_at; auto].
    right. right. right. right. exists k, a, s. refine (conj eq_refl (conj Es (conj Ea _))).
    destruct f; try discriminate P; cbn [ses_event step ebind map] in H; apply EOk_inj in H; split; congruence.
  - left. apply EOk_inj in H. split; [congruence|]. split; [right; eauto | congruence].
Qed.
Lemma CI_remote_close : forall k f c, CI c -> CI (ccontrol k (set_c_state CsRemoteClose (cpost 0 f c))).
Proof. intros k f c C. destruct C; constructor; try assumption; discriminate. Qed.
Lemma CI_failed : forall b c, CI c -> CI (set_c_failed b c).
Proof. intros b c C. ci_same C. Qed.
Lemma CI_cpost : forall ch f c, CI c -> CI (cpost ch f c).
Proof. intros ch f c C. ci_same C. Qed.
Lemma CI_frame : forall p ch f c c' os, CI c -> conn_frame p ch f c = EOk (c', os) -> CI c'.
Proof.
  intros p ch f c c' os C H. destruct (plain f) eqn:P.
  - destruct (c_error c) as [e|] eqn:Er.
    { assert (c' = c) as ->; [|exact C]. unfold conn_frame in H. rewrite Er in H. destruct f; try discriminate P; apply EOk_inj in H; congruence. }
    destruct (frame_cases _ _ _ _ _ _ H P Er) as [(-> & _)|[(k & i & _ & _ & -> & _)|[(k & a & Em & Ha & Na)|[(k & a & s & Em & Es & Ea & X)|(k & a & s & Em & Es & Ea & X)]]]].
    + exact C.
    + exact C.
    + destruct (ci_slot c C _ _ Ha) as (s & Es & _). congruence.
    + destruct f; try discriminate P.
      all: try (destruct X as (s' & r & X & _ & -> & _); apply frame_wire in X; destruct (wire_same _ _ X) as (I & En & Ee); apply CI_put; assumption).
      * destruct X as [-> _]. destruct (wire_same _ _ (attach_wire x s)) as (I & En & Ee). apply CI_put; assumption.
      * destruct X as [-> _]. apply CI_cpost. exact (CI_ended _ ch k a s c C Em (or_introl Es) Ea).
    + assert (X' : (exists en, f = FEnd en /\ c' = forget ch (put_ses a s (ses_set_error (ESessionEnded (end_error en)) s) c)) \/ c' = c) by (destruct f; try discriminate P; destruct X as [X _]; eauto).
      destruct X' as [(en & -> & ->)| ->]; [|exact C]. exact (CI_ended _ ch k a s c C Em (or_intror Es) Ea).
  - destruct f; try discriminate P; cbn [conn_frame] in H.
    + destruct (begin_remote_channel x); apply EOk_inj in H; apply (f_equal fst) in H; cbn [fst] in H; subst c'; [apply CI_complete | apply CI_register]; exact C.
    + assert (N := ci_norm c C). destruct (c_state c) eqn:Ec in H; [|elim N; exact Ec| |]; apply EOk_inj in H; apply (f_equal fst) in H; cbn [fst] in H; subst c';
        apply CI_remote_close, CI_set_error, C.
    + apply EOk_inj in H. assert (c' = c) as -> by congruence. exact C.
Qed.
Lemma CI_step : forall p e c c' os, CI c -> cstep p e c = EOk (c', os) -> CI c'.
Proof.
  intros p e c c' os C H. destruct e; cbn [cstep] in H;
    try (apply EOk_inj in H; apply (f_equal fst) in H; cbn [fst] in H; subst c').
  - exact (CI_frame _ _ _ _ _ _ C H).
  - destruct (nth_error (c_sess c) a) as [s|] eqn:Ea; [|apply EOk_inj in H; assert (c' = c) as -> by congruence; exact C].
    destruct (own_event e) eqn:O; [|apply EOk_inj in H; assert (c' = c) as -> by congruence; exact C].
    apply ses_event_inv in H as (s' & o & Es & -> & _). destruct (wire_same _ _ (own_wire _ _ _ _ _ O Es)) as (I & En & Ee). apply CI_put; assumption.
  - apply CI_end. exact C.
  - apply CI_open. exact C.
  - destruct (nth_error (c_opens c) i) as [[]|] eqn:E; try exact C. destruct C. constructor; try assumption; cbn [set_c_opens c_opens c_slots c_chmax].
    + intros k j H. destruct (ci_open0 k j H) as [A B]. split; [exact A|]. rewrite nth_set_nth. destruct (Nat.eqb_spec i j) as [<-|]; [rewrite E; auto | exact B].
    + intros m H. rewrite nth_set_nth in H. destruct (Nat.eqb_spec i m) as [Em|Em]; [rewrite E in H; discriminate H | exact (ci_wait0 m H)].
  - unfold conn_close, io_close. cbn. destruct (c_io c); ci_same C.
  - unfold conn_force_close. apply CI_set_error. unfold io_close. destruct (c_io (set_c_state CsDrop c)); destruct C; constructor; try assumption; discriminate.
  - ci_same C.
  - ci_same C.
  - destruct (nth_error (c_ctl c) i) as [[[e|]|]|]; try exact C.
    + apply CI_failed, CI_set_error. ci_same C.
    + apply CI_set_error. ci_same C.
  - destruct (c_failed c); [|exact C]. unfold conn_close, io_close. cbn. destruct (c_io c); ci_same C.
  - unfold conn_close, io_close. cbn. destruct (c_io c); ci_same C.
  - ci_same C.
  - apply CI_set_error. exact C.
Qed.
Lemma crun_ind : forall (P : conn -> Prop) p, (forall e c c' os, P c -> cstep p e c = EOk (c', os) -> P c') ->
  forall evs c c' os, P c -> crun p evs c = EOk (c', os) -> P c'.
Proof.
  intros P p Hs. induction evs as [|e evs IH]; intros c c' os Hp H; cbn [crun] in H.
  - apply EOk_inj in H. congruence.
  - destruct (cstep p e c) as [[c1 o1]|] eqn:E1; [|discriminate]. cbn [ebind] in H.
    destruct (crun p evs c1) as [[c2 o2]|] eqn:E2; [|discriminate]. cbn [ebind] in H. apply EOk_inj in H. assert (c' = c2) by congruence. subst c'. eauto.
Qed.
Lemma CI_reachable : forall p c, creachable p c -> CI c.
Proof. intros p c (chmax & mfs & evs & os & _ & H). exact (crun_ind CI p (CI_step p) _ _ _ _ (CI_new _ _) H). Qed.
