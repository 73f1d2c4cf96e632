(** * Theorems about frames that break the protocol: C81

    Vocabulary: [SpecViolation.v], [SpecConnection.v]. *)

From Coq Require Import Strings.String ZifyBool ZifyNat ZifyN.
From Verif Require Import SpecViolation SpecRelease Scenario ConnInv ConnTheorems PropertiesConnection.
Import ListNotations.

Lemma handled_errors : forall p f s s1 r, s_error s = None -> ses_handle_frame p f s = EOk (s1, r) ->
  (forall e, r = inr e <-> violates s f e) /\ ((exists e, r = inr e) -> s1 = s).
Proof.
  intros p f s s1 r Er H. unfold ses_handle_frame in H. rewrite Er in H.
  assert (Nil : forall act, r = inl act -> (forall e, ~ violates s f e) -> (forall e, r = inr e <-> violates s f e) /\ ((exists e, r = inr e) -> s1 = s)).
  { intros act -> N. split; [intros e; split; [discriminate|intros V; destruct (N _ V)]|]. intros (e & X). discriminate X. }
  assert (One : forall e0, s1 = s -> r = inr e0 -> violates s f e0 -> (forall e, violates s f e -> e = e0) -> (forall e, r = inr e <-> violates s f e) /\ ((exists e, r = inr e) -> s1 = s)).
  { intros e0 -> -> V U. split; [|reflexivity]. intros e. split; [intros X; injection X as <-; exact V|]. intros W. rewrite (U _ W). reflexivity. }
  destruct f; try (apply EOk_inj, pair_equal_spec in H as [_ <-]; eapply Nil; [reflexivity|]; intros e V; inversion V; fail).
  - match type of H with match ?m with _ => _ end = _ => destruct m as [[]|] end; apply EOk_inj, pair_equal_spec in H as [_ <-]; (eapply Nil; [reflexivity|]; intros e V; inversion V).
  - match type of H with context [FTransfer ?x] => rename x into t end. destruct (map_get _ _) as [i|] eqn:Em.
    2:{ apply EOk_inj, pair_equal_spec in H as [<- <-]. eapply One; [reflexivity|reflexivity|constructor; intros lk (i & X & _); congruence|].
        intros e V. inversion V; subst; try reflexivity; match goal with X : stands_for _ _ _ |- _ => destruct X as (j & X & _); congruence end. }
    assert (F : forall lk lk', slab_get (s_links s) i = Some lk -> stands_for (transfer_handle (tr_head t)) lk' s -> lk' = lk).
    { intros lk lk' G (j & Ej & G'). congruence. }
    assert (St : forall lk, slab_get (s_links s) i = Some lk -> stands_for (transfer_handle (tr_head t)) lk s).
    { intros lk G. exists i. auto. }
    destruct (slab_get (s_links s) i) as [lk|] eqn:G.
    2:{ apply EOk_inj, pair_equal_spec in H as [<- <-]. eapply One; [reflexivity|reflexivity|constructor; intros lk (j & X & Y); congruence|].
        intros e V. inversion V; subst; try reflexivity; match goal with X : stands_for _ _ _ |- _ => destruct X as (j & X & Y); congruence end. }
    assert (F' := fun lk' => F lk lk' eq_refl). assert (St' := St lk eq_refl). clear F St.
    assert (U : forall e, violates s (FTransfer t) e -> match lk with ROpening _ | ROpeningLocal _ => e = EUnexpectedOpeningState (FTransfer t)
       | REstablished _ | RClosing _ => False | _ => e = EUnexpected (FTransfer t) end).
    { intros e V. inversion V; subst; try (match goal with X : stands_for _ _ _ |- _ => apply F' in X; subst lk; reflexivity end).
      match goal with X : forall lk, ~ _ |- _ => destruct (X _ St') end. }
    destruct lk; try (apply EOk_inj, pair_equal_spec in H as [<- <-]; eapply One; [reflexivity|reflexivity|econstructor; exact St'|exact U]).
    + destruct (rcv_transfer p t a s) as [[s2 act]|] eqn:E; [|discriminate H]. cbn [emap ebind] in H. apply EOk_inj, pair_equal_spec in H as [_ <-]. eapply Nil; [reflexivity|exact U].
    + apply EOk_inj, pair_equal_spec in H as [_ <-]. eapply Nil; [reflexivity|exact U].
  - destruct (handle_detach _ s) as [s2 act]. apply EOk_inj, pair_equal_spec in H as [_ <-]. eapply Nil; [reflexivity|]. intros e V. inversion V.
Qed.

(** ** C81 *)
(** A frame arrives for a session that has not ended, after any history of the
    connection.  Exactly if it breaks the protocol, and this side is not already
    ending the session, an error is reported, the one that says how.  The session and the
    connection then stay as they were. *)
Theorem C81_errors : forall p ch f c c' os a s, creachable p c -> c_error c = None -> for_session f = true -> ch < 65536 ->
  cstep p (CvFrame ch f) c = EOk (c', os) -> last_begun ch a c -> nth_error (c_sess c) a = Some s -> s_ended s = false ->
  (forall e, In (ObErr e) os <-> ~ is_ending a c /\ violates s f e) /\ ((exists e, In (ObErr e) os) -> c' = c /\ exists e, os = [ObErr e]).
Proof.
  intros p ch f c c' os a s R Er P L H Nw Es D. assert (C := CI_reachable _ _ R).
  assert (Se : s_error s = None). { destruct (ci_ended c C _ _ Es) as [(k & Hk)|[X|X]]; [|congruence|congruence]. destruct (ci_slot c C _ _ Hk) as (s0 & E0 & _ & _ & Y). congruence. }
  cbn [cstep] in H. unfold as_u16, two16 in H. rewrite N.mod_small in H by exact L.
  assert (Find : forall k a' s', map_get ch (c_map c) = Some k -> ses_at c k a' -> nth_error (c_sess c) a' = Some s' -> a' = a /\ s' = s).
  { intros k a' s' Em Ha Es'. destruct (ci_map c C _ _ Em) as (a2 & Ha2 & N2). rewrite <- (ses_at_key _ _ _ _ Ha Ha2) in N2. assert (a' = a) by exact (newest_fun _ _ _ _ N2 Nw). subst a'. split; congruence. }
  assert (Quiet : os = [] -> (forall e, ~ (~ is_ending a c /\ violates s f e)) -> (forall e, In (ObErr e) os <-> ~ is_ending a c /\ violates s f e) /\ ((exists e, In (ObErr e) os) -> c' = c /\ exists e, os = [ObErr e])).
  { intros -> X. split; [intros e; split; [intros []|intros Y; destruct (X _ Y)]|]. intros (e & []). }
  destruct (frame_cases _ _ _ _ _ _ H P Er) as [(-> & X & ->)|[(k & i & Em & Sl & -> & ->)|[(k & a' & Em & Ha & Na)|[(k & a' & s' & Em & Sl & Ea & X)|(k & a' & s' & Em & Sl & Ea & X)]]]].
  - exfalso. destruct (ci_ended c C _ _ Es) as [(k & Hk)|[D'|D']]; [|congruence|congruence].
    assert (Em := ci_last c C _ _ _ Hk Nw). destruct X as [X|(k' & X & Y)]; [congruence|]. assert (k' = k) by congruence. subst k'. destruct Hk; congruence.
  - exfalso. destruct (ci_map c C _ _ Em) as (b & [Hb|Hb] & _); congruence.
  - exfalso. destruct (ci_slot c C _ _ Ha) as (s0 & Es0 & _). congruence.
  - destruct (Find _ _ _ Em (or_introl Sl) Ea) as [-> ->].
    assert (Ne : ~ is_ending a c). { intros (k' & Hk). destruct (ci_slot c C _ _ (or_intror Hk)) as (s1 & E1 & I1 & _). destruct (ci_slot c C _ _ (or_introl Sl)) as (s2 & E2 & I2 & _). assert (k' = k) by congruence. subst k'. congruence. }
    destruct f; try discriminate P;
    try (destruct X as [_ ->]; apply Quiet; [reflexivity|]; intros e (_ & V); inversion V; fail);
    (destruct X as (s' & r & Hs & (s1 & Hh) & -> & ->); destruct (handled_errors _ _ _ _ _ Se Hh) as [V1 V2]; destruct r as [act|e0];
     [apply Quiet; [reflexivity|]; intros e (_ & V); apply V1 in V; discriminate V|];
     split; [intros e; split; [intros [Q|[]]; injection Q as ->; split; [exact Ne|apply V1; reflexivity]|intros (_ & V); apply V1 in V; injection V as ->; left; reflexivity]|];
     intros _; split; [|exists e0; reflexivity]; assert (s1 = s) by (apply V2; exists e0; reflexivity); subst s1;
     cbn [step] in Hs; rewrite Hh in Hs; cbn [ebind] in Hs; apply EOk_inj, pair_equal_spec in Hs as [<- _];
     unfold put_ses; rewrite skipn_all; cbn [map]; rewrite app_nil_r, set_nth_nth by exact Ea; destruct c; reflexivity).
  - destruct (Find _ _ _ Em (or_intror Sl) Ea) as [-> ->]. apply Quiet; [destruct f; try discriminate P; apply X|]. intros e (N & _). apply N. exists k. exact Sl.
Qed.
Print Assumptions C81_errors.
(** A transfer that was on its way when this side closed its link is not an error:
    it is ignored. *)
Theorem C81_late : forall p ch t x c c' os a s, creachable p c -> c_error c = None -> ch < 65536 ->
  cstep p (CvFrame ch (FTransfer t)) c = EOk (c', os) -> last_begun ch a c -> nth_error (c_sess c) a = Some s -> s_ended s = false ->
  stands_for (transfer_handle (tr_head t)) (RClosing x) s -> c' = c /\ os = [].
Proof.
  intros p ch t x c c' os a s R Er L H Nw Es D (i & Mi & Gi). assert (C := CI_reachable _ _ R). cbn [cstep] in H. unfold as_u16, two16 in H. rewrite N.mod_small in H by exact L.
  destruct (ci_ended c C _ _ Es) as [(k & Hk)|[X|X]]; [|congruence|congruence]. destruct (ci_slot c C _ _ Hk) as (s0 & E0 & _ & _ & Se). assert (s0 = s) by congruence. subst s0.
  unfold conn_frame in H. rewrite Er, (ci_last c C _ _ _ Hk Nw) in H. destruct Hk as [Hk|Hk]; rewrite Hk, Es in H.
  - assert (Hh : ses_handle_frame p (FTransfer t) s = EOk (s, inl ANone)) by (unfold ses_handle_frame; rewrite Se, Mi, Gi; reflexivity).
    unfold ses_event in H. cbn [step] in H. rewrite Hh in H. cbn [ebind dispatch map] in H. apply EOk_inj, pair_equal_spec in H as [<- <-]. split; [|reflexivity].
    unfold put_ses. rewrite skipn_all. cbn [map]. rewrite app_nil_r, set_nth_nth by exact Es. destruct c; reflexivity.
  - apply EOk_inj, pair_equal_spec in H as [<- <-]. split; reflexivity.
Qed.
Print Assumptions C81_late.

(** A session on which the peer attaches a link to send to this side; this side
    accepts it, and closes it later.  Transfers before the decision, under
    another handle, and after the close. *)
Definition C81_session : list cev := [begins_on 7].
Definition C81_frame : cev := CvFrame 7 (FTransfer (transfer_of (Some 0) false false (Some (bytes_of 3)))).
Definition C81_attaches : cev := CvFrame 7 (FAttach (attach_of (str "out") 0 RoleSender (Some 0))).
Definition C81_accepts : list cev := [CvSes 0 (EvCtlOk 0 same_frame); CvSes 0 (EvCtlOk 1 same_frame)].
Definition C81_tr : frame := FTransfer (transfer_of (Some 0) false false (Some (bytes_of 3))).
Example C81_case : let none := cresult Debug C81_session cstart in let asked := cresult Debug [C81_attaches] none in
  let up := cresult Debug C81_accepts asked in let closing := cresult Debug [CvSes 0 (EvCloseReceiver 0 None)] up in
  creachable Debug none /\ creachable Debug closing /\ last_begun 7 0 closing
  /\ cobserved Debug [C81_frame] none = [ObErr (EUnknownLink C81_tr)]
  /\ cobserved Debug [C81_frame] asked = [ObErr (EUnexpectedOpeningState C81_tr)]
  /\ cobserved Debug [C81_frame] up = [] /\ cobserved Debug [C81_frame] closing = []
  /\ cresult Debug [C81_frame] up <> up
  /\ (exists s x, nth_error (c_sess closing) 0 = Some s /\ s_ended s = false /\ stands_for 0 (RClosing x) s).
Proof.
  cbv zeta. split; [apply reached; vm_compute; reflexivity|]. split; [exists 1024, 512, (C81_session ++ [C81_attaches] ++ C81_accepts ++ [CvSes 0 (EvCloseReceiver 0 None)]); eexists; split; [reflexivity|vm_compute; reflexivity]|].
  split; [split; [eexists; split; vm_compute; reflexivity|]; intros [|[|b]] s H _; [lia|discriminate H|discriminate H]|].
  split; [vm_compute; reflexivity|]. split; [vm_compute; reflexivity|]. split; [vm_compute; reflexivity|]. split; [vm_compute; reflexivity|].
  split; [vm_compute; discriminate|]. eexists. eexists. split; [vm_compute; reflexivity|]. split; [vm_compute; reflexivity|]. eexists. split; vm_compute; reflexivity.
Qed.
