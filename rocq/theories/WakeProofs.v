(** * Tasks that wait for a delivery are woken *)

From Coq Require Import ZifyBool ZifyNat ZifyN.
From Verif Require Export RecvRun.
Import ListNotations.

Lemma slots_fits : forall s evs, N.of_nat (nslots s) + links_opened evs <= 2 ^ 32 -> slots_fit s.
Proof. intros s evs H. unfold slots_fit, nslots in *. change two32 with (2 ^ 32). lia. Qed.
Lemma run_fit : forall p (P : ses -> Prop) (Q : ev -> Prop),
  (forall e s s' os, Q e -> P s -> lk_inv [] s -> slots_fit s -> slots_fit s' -> step p e s = EOk (s', os) -> P s') ->
  forall evs s s' os, P s -> lk_inv [] s -> N.of_nat (nslots s) + links_opened evs <= 2 ^ 32 ->
  Forall Q evs -> run p evs s = EOk (s', os) -> P s' /\ lk_inv [] s' /\ slots_fit s'.
Proof.
  intros p P Q Hs. induction evs as [|e evs IH]; intros s s' os Hp I B Ok H; cbn [run] in H.
  - apply EOk_inj in H. injection H as <- <-. split; [exact Hp|]. split; [exact I|]. eapply slots_fits; exact B.
  - destruct (step p e s) as [[s1 o1]|] eqn:E1; [|discriminate]. cbn [ebind] in H.
    destruct (run p evs s1) as [[s2 o2]|] eqn:E2; [|discriminate]. cbn [ebind] in H.
    apply EOk_inj in H. injection H as <- <-. inversion Ok as [|? ? Oe Ok']; subst.
    assert (B1 : N.of_nat (nslots s1) + links_opened evs <= 2 ^ 32).
    { unfold links_opened in *. cbn [filter] in B. destruct (opens_link e) eqn:Eo.
      - assert (X := step_len_open _ _ _ _ _ E1). cbn [length] in B. lia.
      - assert (X := step_len _ _ _ _ _ E1 Eo). unfold stable, len_rel in X. lia. }
    eapply (IH s1); eauto; [|exact (step_lk _ _ _ _ _ E1 I)]. eapply Hs; eauto using slots_fits.
Qed.

(** The waiting task is registered, and nothing is ready. *)
Definition wk (t0 : nat) (l : rlink) : Prop :=
  rc_parked l = [] \/ (rc_parked l = [t0] /\ rc_waker l = Some t0 /\ not_ready l).
Lemma wk_woken : forall t0 l, wk t0 l -> woken l = [].
Proof.
  intros t0 l [H|(H1 & H2 & _)]; unfold woken.
  - rewrite H. destruct (rc_waker l); reflexivity.
  - rewrite H1, H2. cbn. rewrite Nat.eqb_refl. reflexivity.
Qed.
Lemma wk_kept : forall t0 l l', wk t0 l -> rcv_wk l l' -> (not_ready l -> not_ready l') -> wk t0 l'.
Proof.
  intros t0 l l' W [[K1 K2]|[K1 K2]] R.
  - destruct W as [H|(H1 & H2 & H3)]; [left; congruence|]. right. repeat split; [congruence..|auto].
  - left. rewrite K2. eapply wk_woken; exact W.
Qed.
Lemma not_ready_same : forall l l', rc_partial l' = rc_partial l -> rc_queue l' = rc_queue l -> not_ready l -> not_ready l'.
Proof. intros l l' H1 H2. unfold not_ready. rewrite H1, H2. auto. Qed.
Definition wk_inv (a t0 : nat) (s : ses) : Prop := forall l, nth_error (s_rcvs s) a = Some l -> wk t0 l.
Lemma wk_step : forall p a t0 e s s' os,
  (forall t, e = EvRecv a t -> t = t0) -> wk_inv a t0 s -> lk_inv [] s -> slots_fit s -> slots_fit s' ->
  step p e s = EOk (s', os) -> wk_inv a t0 s'.
Proof.
  intros p a t0 e s s' os Ht W I B B' H l' El'. destruct (nth_error (s_rcvs s) a) as [l|] eqn:El.
  2: { destruct (step_rcv_new _ _ _ _ _ _ I B H El) as (_ & _ & _ & F). left. apply (F l' El'). }
  specialize (W l El). destruct (step_rcv _ _ _ _ _ _ _ I B H El) as (l1 & E1 & St).
  rewrite E1 in El'. injection El' as ->.
  destruct St as [V Q Wk _ _ _|n C Hn V1 V2 Q Wk _ _ _|n E V1 V2 V3 Q Wk _|x q V Q Q' Hq Wk Es _ _ _|L _ _ _|t A A0 _ _|t R A0 _ _].
  - unfold rview in V. destruct Wk as [Wk|(t & -> & P1 & P2 & P3 & P4)].
    + eapply wk_kept; eauto. apply not_ready_same; congruence.
    + specialize (Ht t eq_refl). subst t. right. split; [|split; [exact P1|]].
      * rewrite P2. f_equal. destruct W as [->|(-> & _)]; cbn; [reflexivity|]. rewrite Nat.eqb_refl. reflexivity.
      * revert P3. apply not_ready_same; congruence.
  - eapply wk_kept; eauto. apply not_ready_same; congruence.
  - eapply wk_kept; eauto. apply not_ready_same; congruence.
  - eapply wk_kept; eauto. unfold rview in V. unfold not_ready. replace (rc_partial l') with (rc_partial l) by congruence.
    rewrite Q, Q'. destruct Hq as [->|Hq]; [discriminate|]. destruct (rc_partial l); [cbn [length]; lia | discriminate].
  - destruct L as (V & Q & _ & Wk). eapply wk_kept; eauto. unfold rview in V. unfold not_ready.
    rewrite Q. replace (rc_partial l') with (rc_partial l) by congruence. destruct (rc_partial l); cbn; auto.
  - destruct A as (_ & _ & _ & Wk & A).
    destruct (negb (says_more t) && Nat.eqb (length (rc_queue l')) 1) eqn:Ew.
    + left. destruct Wk as [_ ->]. eapply wk_woken; exact W.
    + destruct Wk as [W1 W2]. destruct W as [W|(X1 & X2 & X3)]; [left; congruence|].
      unfold not_ready in X3. destruct (rc_partial l) as [body|] eqn:Ep.
      * destruct A as [_ A]. destruct (says_more t) eqn:Em.
        -- destruct A as [A1 A2]. right. split; [congruence|]. split; [congruence|]. unfold not_ready. rewrite A1, A2. exact X3.
        -- destruct A as (A1 & q & d & first & A2 & A3). exfalso. rewrite A2, app_length in X3. rewrite A3, app_length in Ew.
           cbn [length] in *. destruct q; [discriminate Ew | cbn [length] in X3; lia].
      * destruct A as (d & x & _ & _ & _ & _ & A). destruct (says_more t) eqn:Em.
        -- destruct A as [A1 A2]. right. split; [congruence|]. split; [congruence|]. unfold not_ready.
           rewrite A1, A2, X3. cbn. lia.
        -- destruct A as [A1 A2]. exfalso. rewrite A2, X3 in Ew. discriminate Ew.
  - destruct R as (_ & _ & _ & Rq & Rp & Wk). eapply wk_kept; eauto. unfold not_ready. rewrite Rq.
    destruct Rp as [Rp|Rp]; rewrite Rp; [auto|]. intros _. destruct (rc_partial l'); cbn; [lia | reflexivity].
Qed.
Lemma wk_reachable : forall p a t0 evs id local rch mfs b s os,
  run p evs (ses_new id local rch mfs b) = EOk (s, os) -> links_opened evs <= 2 ^ 32 ->
  (forall t, In (EvRecv a t) evs -> t = t0) -> wk_inv a t0 s /\ lk_inv [] s /\ slots_fit s.
Proof.
  intros p a t0 evs id local rch mfs b s os H B Ht.
  apply (run_fit p (wk_inv a t0) (fun e => forall t, e = EvRecv a t -> t = t0)) with (evs := evs) (s := ses_new id local rch mfs b) (os := os).
  - intros e s1 s2 o Q W I B1 B2 Hs. eapply wk_step; eauto.
  - intros l El. cbn [ses_new s_rcvs] in El. destruct a; discriminate.
  - apply lk_new.
  - exact B.
  - rewrite Forall_forall. intros e He t ->. eauto.
  - exact H.
Qed.
Lemma not_ready_poll : forall p a t s s' os l, nth_error (s_rcvs s) a = Some l -> not_ready l ->
  step p (EvRecv a t) s = EOk (s', os) -> handed a os = [].
Proof.
  intros p a t s s' os l El N H. cbn [step] in H. rewrite El in H. destruct (poll_recv t l) as [r m] eqn:Ep.
  apply EOk_inj in H. injection H as _ <-. destruct (poll_recv_cases _ _ _ _ Ep) as [_ C].
  destruct r; try reflexivity. exfalso. destruct C as (C1 & C2 & _). unfold not_ready in N. rewrite C1 in N.
  destruct (rc_partial l); [|discriminate]. destruct C2 as [C2|C2]; [discriminate|].
  destruct (rc_queue m); [congruence | cbn in N; lia].
Qed.
Lemma delivery_wakes : forall p a t evs id local rch mfs b s os,
  run p evs (ses_new id local rch mfs b) = EOk (s, os) -> links_opened evs <= 2 ^ 32 ->
  (forall t', In (EvRecv a t') evs -> t' = t) -> waiting a t s ->
  forall t' s' os', step p (EvRecv a t') s = EOk (s', os') -> handed a os' = [].
Proof.
  intros p a t evs id local rch mfs b s os H B Ht (l & El & Hw) t' s' os' Hs.
  destruct (wk_reachable _ _ _ _ _ _ _ _ _ _ _ H B Ht) as [W _]. specialize (W l El).
  eapply not_ready_poll; eauto. destruct W as [W|(_ & _ & W)]; [rewrite W in Hw; destruct Hw | exact W].
Qed.

(** ** Ends of links *)
(** The only task that waits is the registered one. *)
Definition calm (a : nat) (s : ses) : Prop := forall l, nth_error (s_rcvs s) a = Some l -> woken l = [].
Definition none (a : nat) (s : ses) : Prop := forall l, nth_error (s_rcvs s) a = Some l -> rc_parked l = [].
Lemma wk_calm : forall a t0 s, wk_inv a t0 s -> calm a s.
Proof. intros a t0 s W l El. eapply wk_woken. apply W. exact El. Qed.
Lemma calm_kept : forall l l', woken l = [] -> rcv_wk l l' -> woken l' = [].
Proof.
  intros l l' W [[K1 K2]|[K1 K2]]; unfold woken in *; rewrite K1, K2; [exact W|]. exact W.
Qed.
Lemma none_parked : forall l l', rc_parked l = [] -> rcv_wk l l' -> rc_parked l' = [].
Proof.
  intros l l' W [[_ K]|[_ K]]; rewrite K; [exact W|]. unfold woken. rewrite W. destruct (rc_waker l); reflexivity.
Qed.
Lemma wake_parked : forall l, woken l = [] -> rc_parked (rcv_wake l) = [].
Proof. intros l X. unfold woken in X. unfold rcv_wake. destruct (rc_waker l); st_cbn; exact X. Qed.
Lemma close_wakes : forall a e s s', calm a s -> rcv_close a e s = EOk s' -> none a s'.
Proof.
  intros a e s s' W H l El. unfold rcv_close in H. destruct (nth_error (s_rcvs s) a) as [l0|] eqn:El0.
  2: { apply EOk_inj in H. subst. congruence. }
  cbv beta iota zeta delta [new_chan] in H. set (s1 := set_s_chans _ s) in H.
  destruct (if rc_closed l0 then EOk (fire (length (s_chans s)) VOk s1) else _) as [s2|] eqn:E2; [|discriminate].
  cbn [ebind] in H. apply EOk_inj in H. subst s'.
  assert (K : stable keeps_rcvs s s2).
  { unfold s1 in E2. destruct (rc_closed l0); [apply EOk_inj in E2; subst s2; st_chain|].
    eapply stable_trans; [exact _ | |exact (keeps_rcvs_detach_receiver _ _ _ _ _ _ E2)]. st_chain. }
  destruct (proj1 K _ _ El0) as (l2 & E2' & _ & _ & K2). rewrite (upd_rcv_self _ _ _ _ E2') in El. injection El as <-.
  apply wake_parked. exact (calm_kept _ _ (W _ El0) K2).
Qed.
Lemma detached_wakes : forall a e s, calm a s -> none a (rcv_remote_detached a e s).
Proof.
  intros a e s W l El. unfold rcv_remote_detached in El. rewrite nth_upd_rcv, Nat.eqb_refl in El.
  destruct (nth_error (s_rcvs s) a) as [l0|] eqn:E0; [|discriminate]. injection El as <-.
  apply wake_parked. exact (W l0 E0).
Qed.
Lemma none_keeps : forall a s s', stable keeps_rcvs s s' -> stable rlen_rel s s' -> none a s -> none a s'.
Proof.
  intros a s s' [K _] L N l' El'. destruct (nth_error (s_rcvs s) a) as [l|] eqn:El.
  - destruct (K a l El) as (l1 & E1 & _ & _ & K1). rewrite E1 in El'. injection El' as <-. eapply none_parked; eauto.
  - apply nth_lt in El'. apply nth_error_None in El. unfold stable, rlen_rel in L. lia.
Qed.
Lemma calm_keeps : forall a s s', stable keeps_rcvs s s' -> stable rlen_rel s s' -> calm a s -> calm a s'.
Proof.
  intros a s s' [K _] L N l' El'. destruct (nth_error (s_rcvs s) a) as [l|] eqn:El.
  - destruct (K a l El) as (l1 & E1 & _ & _ & K1). rewrite E1 in El'. injection El' as <-. eapply calm_kept; eauto.
  - apply nth_lt in El'. apply nth_error_None in El. unfold stable, rlen_rel in L. lia.
Qed.
#[export] Instance rlen_fail_link e s x : stable rlen_rel s (fail_link e s x).
Proof. unfold fail_link. st_solve. Qed.
#[export] Instance rlen_fail_links e l s : stable rlen_rel s (fail_links e l s).
Proof.
  unfold fail_links. revert s. induction l as [|x l IH]; intros s; cbn [fold_left]; [apply stable_refl; exact _|].
  eapply stable_trans; [exact _| |apply IH]. st_solve.
Qed.
#[export] Instance rlen_drop_links l s : stable rlen_rel s (drop_links l s).
Proof.
  unfold drop_links. revert s. induction l as [|x l IH]; intros s; cbn [fold_left]; [apply stable_refl; exact _|].
  eapply stable_trans; [exact _| |apply IH]. st_solve.
Qed.
Lemma fail_links_wake : forall a e ls s, In (REstablished a) ls -> calm a s -> none a (fail_links e ls s).
Proof.
  intros a e ls. unfold fail_links. induction ls as [|x ls IH]; intros s Hin W; [destruct Hin|].
  cbn [fold_left]. destruct Hin as [->|Hin].
  - change (none a (fail_links e ls (fail_link e s (REstablished a)))).
    apply none_keeps with (s := fail_link e s (REstablished a)); [st_chain | st_chain|].
    cbn [fail_link]. exact (detached_wakes a None s W).
  - apply IH; [exact Hin|]. apply calm_keeps with (s := s); [st_chain | st_chain | exact W].
Qed.
Lemma fail_wakes : forall a e s, calm a s -> attached a s -> none a (ses_set_error e s).
Proof.
  intros a e s W A. unfold ses_set_error.
  match goal with |- context [fail_links e ?ls ?x] => set (s0 := x); set (ls0 := ls) end.
  assert (Hin : In (REstablished a) ls0).
  { destruct A as (i & A). unfold ls0. frw. apply slab_values_get. eauto. }
  assert (W0 : calm a s0).
  { apply calm_keeps with (s := s); [unfold s0; st_chain | unfold s0; st_chain | exact W]. }
  assert (X := fail_links_wake a e ls0 s0 Hin W0).
  eapply none_keeps; [| |exact X]; cbv zeta; st_chain.
Qed.
Lemma detach_wakes : forall a d s i, calm a s -> map_get (detach_handle d) (s_rhandles s) = Some i ->
  slab_get (s_links s) i = Some (REstablished a) -> none a (fst (handle_detach d s)).
Proof.
  intros a d s i W Hi Hk. unfold handle_detach. rewrite Hi. cbv zeta. rewrite Hk.
  destruct (nth_error (s_rcvs s) a) as [l|] eqn:El; [|cbn [fst]; intros l' E'; congruence]. cbn [fst].
  match goal with |- context [rcv_remote_detached a ?e ?x] => set (s0 := x) end.
  assert (W0 : calm a s0) by (apply calm_keeps with (s := s); [unfold s0; st_chain | unfold s0; st_chain | exact W]).
  match goal with |- context [rcv_remote_detached a ?e s0] => assert (X := detached_wakes a e s0 W0) end.
  eapply none_keeps; [| |exact X]; st_chain.
Qed.
Lemma transfer_links : forall p t a s s' act l,
  rcv_transfer p t a s = EOk (s', act) -> nth_error (s_rcvs s) a = Some l ->
  s_links s' = s_links s
  \/ exists s1 m e, nth_error (s_rcvs s1) a = Some m /\ rc_waker m = rc_waker l /\ rc_parked m = rc_parked l
       /\ rcv_close a e s1 = EOk s'.
Proof.
  intros p t a s s' act l H El. unfold rcv_transfer in H. rewrite El in H. cbv zeta in H.
  assert (Cl : forall s1 m e, nth_error (s_rcvs s1) a = Some m -> rc_waker m = rc_waker l -> rc_parked m = rc_parked l ->
    ebind (rcv_close a e s1) (fun s => EOk (s, ANone)) = EOk (s', act) ->
    s_links s' = s_links s
    \/ exists s1 m e, nth_error (s_rcvs s1) a = Some m /\ rc_waker m = rc_waker l /\ rc_parked m = rc_parked l
       /\ rcv_close a e s1 = EOk s').
  { intros s1 m e Em Wm Pm Hc. destruct (rcv_close a e s1) eqn:Ec; [|discriminate]. cbn [ebind] in Hc.
    apply EOk_inj in Hc. apply (f_equal fst) in Hc. cbn [fst] in Hc. subst. right. exists s1, m, e. auto. }
  destruct (rc_credit l =? 0); [eapply Cl; eauto|].
  set (s1 := if transfer_more (tr_head t) then s else _) in H.
  set (l1 := if transfer_more (tr_head t) then l else set_rc_credit (rc_credit l - 1) l).
  assert (E1 : nth_error (s_rcvs s1) a = Some l1).
  { unfold s1, l1. destruct (transfer_more _); [exact El|]. rewrite nth_upd_rcv, Nat.eqb_refl, El. reflexivity. }
  assert (W1 : rc_waker l1 = rc_waker l) by (unfold l1; destruct (transfer_more _); reflexivity).
  assert (K1 : rc_parked l1 = rc_parked l) by (unfold l1; destruct (transfer_more _); reflexivity).
  assert (L1 : s_links s1 = s_links s) by (unfold s1; destruct (transfer_more _); frw; reflexivity).
  clearbody s1 l1. rewrite <- L1 in *.
  destruct (rc_partial l) as [body|].
  - match type of H with (if ?w then _ else _) = _ => destruct w end; [eapply Cl; eauto|].
    destruct (match tr_body t with None => _ | Some _ => _ end) as [body'|]; [|eapply Cl; eauto].
    destruct (transfer_more (tr_head t)).
    + apply EOk_inj in H. apply (f_equal fst) in H. cbn [fst] in H. subst s'. left. frw. reflexivity.
    + destruct (checked_add p (rc_dc l) 1) as [dc|]; [|discriminate]. cbn [ebind] in H.
      destruct (rev (rc_queue l)) as [|[d first] prev].
      * eapply Cl; [| | |exact H]; [rewrite nth_upd_rcv, Nat.eqb_refl, E1; reflexivity | st_cbn; assumption..].
      * apply EOk_inj in H. apply (f_equal fst) in H. cbn [fst] in H. subst s'. left.
        destruct (Nat.eqb _ 1); frw; reflexivity.
  - destruct (transfer_delivery_id (tr_head t)) as [id|]; [|eapply Cl; eauto].
    destruct (transfer_more (tr_head t)).
    + unfold new_rcv in H. cbv zeta in H. apply EOk_inj in H. apply (f_equal fst) in H. cbn [fst] in H. subst s'.
      left. destruct (or_default false _); frw; reflexivity.
    + destruct (checked_add p (rc_dc l) 1) as [dc|]; [|discriminate]. cbn [ebind] in H.
      unfold new_rcv in H. cbv zeta in H. apply EOk_inj in H. apply (f_equal fst) in H. cbn [fst] in H. subst s'.
      left. destruct (or_default false _), (Nat.eqb _ 0); frw; reflexivity.
Qed.
Lemma end_wakes : forall p a e s s' os, calm a s -> ends_link a e s s' -> step p e s = EOk (s', os) -> none a s'.
Proof.
  intros p a e s s' os W En H. destruct e; try contradiction En.
  - destruct f as [ | | | |t| |d| | | ]; try contradiction En.
    + destruct En as [Ar Na]. cbn [arrival] in Ar. cbn [step] in H. unfold ses_handle_frame in H.
      destruct (s_error s); [discriminate|].
      destruct (map_get (transfer_handle (tr_head t)) (s_rhandles s)) as [i|]; [|discriminate].
      destruct (slab_get (s_links s) i) as [lk|] eqn:Hk; [|discriminate].
      destruct lk as [b| |tx|tx|o|[[b tx]|]|b|tx]; try discriminate Ar.
      destruct (Nat.eqb_spec a b) as [<-|]; [|discriminate Ar].
      destruct (rcv_transfer p t a s) as [[s1 act]|] eqn:Et; [|discriminate]. unfold emap, noobs in H. cbn [ebind] in H.
      unfold emap in H. cbn [ebind] in H.
      destruct (nth_error (s_rcvs s) a) as [l|] eqn:El.
      2: { unfold rcv_transfer in Et. rewrite El in Et. apply EOk_inj in Et. injection Et as <- <-.
           apply EOk_inj in H. injection H as <- <-. intros l' E'. frw_in E'. congruence. }
      assert (X := transfer_links _ _ _ _ _ _ _ Et El).
      assert (Y : stable keeps_rcvs s1 s' /\ stable rlen_rel s1 s' /\ s_links s' = s_links s1).
      { apply EOk_inj in H. injection H as <- <-. split; [st_chain|]. split; [st_chain|]. frw. reflexivity. }
      destruct Y as (Y1 & Y2 & Y3). destruct X as [X|(s2 & m & e & X1 & X2 & X3 & X4)].
      * elim Na. exists i. congruence.
      * eapply none_keeps; eauto. eapply close_wakes; [|exact X4]. intros m' Em. rewrite X1 in Em. injection Em as <-.
        unfold woken. rewrite X2, X3. exact (W l El).
    + destruct En as (Er & i & Hi & Hk). cbn [step] in H. unfold ses_handle_frame in H. rewrite Er in H.
      assert (X := detach_wakes a d s i W Hi Hk). destruct (handle_detach d s) as [s1 act] eqn:Ed. cbn [fst] in X.
      unfold emap, noobs in H. cbn [ebind] in H.
      apply EOk_inj in H. injection H as <- <-. eapply none_keeps; [| |exact X]; st_chain.
  - cbn [step] in H. apply EOk_inj in H. injection H as <- <-. exact (fail_wakes a e s W En).
  - cbn [ends_link] in En. subst a0. cbn [step] in H. unfold noobs in H. destruct (rcv_close a e s) as [s1|] eqn:Ec; [|discriminate].
    unfold emap in H. cbn [ebind] in H. apply EOk_inj in H. injection H as <- <-. exact (close_wakes a e s s1 W Ec).
Qed.
Lemma ends_wake : forall p a t evs id local rch mfs b s os,
  run p evs (ses_new id local rch mfs b) = EOk (s, os) -> links_opened evs <= 2 ^ 32 ->
  (forall t', In (EvRecv a t') evs -> t' = t) ->
  forall e s' os', step p e s = EOk (s', os') -> ends_link a e s s' -> forall t', ~ waiting a t' s'.
Proof.
  intros p a t evs id local rch mfs b s os H B Ht e s' os' Hs En t' (l & El & Hw).
  destruct (wk_reachable _ _ _ _ _ _ _ _ _ _ _ H B Ht) as [W _].
  rewrite (end_wakes _ _ _ _ _ _ (wk_calm _ _ _ W) En Hs l El) in Hw. destruct Hw.
Qed.
Lemma not_attached : forall a s, existsb (holds_rcv a) (slab_values (s_links s)) = false -> ~ attached a s.
Proof.
  intros a s H [k Hk]. assert (X : existsb (holds_rcv a) (slab_values (s_links s)) = true); [|congruence].
  apply existsb_exists. exists (REstablished a). split; [apply slab_values_get; eauto | apply holds_est].
Qed.
