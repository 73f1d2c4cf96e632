(** * What the application makes of a transfer it is handed: proofs *)

From Coq Require Import ZifyBool ZifyNat ZifyN.
From Verif Require Import Base Framing SpecFraming SpecEndToEnd RecvTheorems RecvRun EndToEndProofs Load.
Import ListNotations.

Definition plain (t : transfer_t) : Prop := match tr_body t with Some (TBMessage _) => False | _ => True end.
Definition pinv (a : nat) (O : list (nat * transfer_t)) (s : ses) : Prop :=
  Forall (fun x => plain (snd x)) O /\ forall l, nth_error (s_rcvs s) a = Some l -> Forall (fun x => plain (snd x)) (rc_queue l).

Lemma pinv_step : forall p a e s s' os O, lk_inv [] s -> slots_fit s -> step p e s = EOk (s', os) -> Forall plain (arrival a e s) ->
  pinv a O s -> pinv a (O ++ handed a os) s'.
Proof.
  intros p a e s s' os O I F H A (P & Q). destruct (nth_error (s_rcvs s) a) as [l|] eqn:E.
  - specialize (Q _ eq_refl). destruct (step_rcv _ _ _ _ _ _ _ I F H E) as (l' & E' & R).
    assert (X : Forall (fun x => plain (snd x)) (O ++ handed a os) /\ Forall (fun x => plain (snd x)) (rc_queue l')).
    { destruct R as [Rv Eq _ _ _ Eo|n _ _ _ _ Eq _ _ _ Eo|n _ _ _ _ Eq _ Eo|x q _ Eq Eq' _ _ _ _ _ Eo|Lo _ _ Eo|t Ac Ar _ Eo|t Re Ar _ Eo].
      - rewrite Eo, app_nil_r, Eq. auto.
      - rewrite Eo, app_nil_r, Eq. auto.
      - rewrite Eo, Eq. cbn [handed flat_map]. rewrite app_nil_r. auto.
      - rewrite Eo, Eq'. rewrite Eq in Q. inversion Q; subst. split; [|assumption]. apply Forall_app. auto.
      - rewrite Eo, app_nil_r. destruct Lo as (_ & -> & _). auto.
      - rewrite Eo, app_nil_r. split; [exact P|]. rewrite Ar in A. inversion A as [|? ? At _]; subst.
        destruct Ac as (_ & _ & _ & _ & Ac). destruct (rc_partial l) as [body|].
        + destruct Ac as (_ & Ac). destruct (says_more t); [destruct Ac as (_ & ->); exact Q|].
          destruct Ac as (_ & q & d & first & Eq & ->). rewrite Eq in Q. apply Forall_app in Q as [Q _]. apply Forall_app. split; [exact Q|].
          repeat constructor.
        + destruct Ac as (d & x & _ & _ & _ & _ & Ac). destruct (says_more t); destruct Ac as (_ & ->); apply Forall_app; split; auto; repeat constructor.
      - rewrite Eo, app_nil_r. destruct Re as (_ & _ & _ & -> & _). auto. }
    split; [apply X|]. intros l2 E2. assert (l2 = l') by congruence. subst l2. apply X.
  - destruct (step_rcv_new _ _ _ _ _ _ I F H E) as (_ & _ & Eo & Fr). rewrite Eo, app_nil_r. split; [exact P|].
    intros l E'. destruct (Fr _ E') as (_ & _ & -> & _). constructor.
Qed.
Lemma pinv_run : forall p a evs s s' os O, pinv a O s -> lk_inv [] s -> N.of_nat (nslots s) + links_opened evs <= 2 ^ 32 ->
  run p evs s = EOk (s', os) -> Forall plain (arrivals p a evs s) -> pinv a (O ++ handed a os) s'.
Proof.
  induction evs as [|e evs IH]; intros s s' os O Inv I B H A; cbn [run] in H.
  - apply EOk_inj in H. injection H as <- <-. cbn. rewrite app_nil_r. exact Inv.
  - unfold arrivals in A. cbn [collect] in A.
    destruct (step p e s) as [[s1 o1]|] eqn:E1; [|discriminate]. cbn [ebind] in H.
    destruct (run p evs s1) as [[s2 o2]|] eqn:E2; [|discriminate]. cbn [ebind] in H.
    apply EOk_inj in H. injection H as <- <-. apply Forall_app in A as [A1 A2].
    assert (B1 : N.of_nat (nslots s1) + links_opened evs <= 2 ^ 32).
    { unfold links_opened in *. cbn [filter] in B. destruct (opens_link e) eqn:Eo.
      - assert (X := step_len_open _ _ _ _ _ E1). cbn [length] in B. lia.
      - assert (X := step_len _ _ _ _ _ E1 Eo). unfold stable, len_rel in X. lia. }
    assert (Inv1 : pinv a (O ++ handed a o1) s1) by (eapply pinv_step; eauto using fits).
    assert (I1 : lk_inv [] s1) by exact (step_lk _ _ _ _ _ E1 I).
    unfold handed in *. rewrite flat_map_app, app_assoc. exact (IH _ _ _ _ Inv1 I1 B1 E2 A2).
Qed.
Lemma handed_plain : forall p a evs id local rch mfs b r os, run p evs (ses_new id local rch mfs b) = EOk (r, os) -> links_opened evs <= 2 ^ 32 ->
  Forall plain (arrivals p a evs (ses_new id local rch mfs b)) -> Forall (fun x => plain (snd x)) (handed a os).
Proof.
  intros p a evs id local rch mfs b r os H B A. refine (proj1 (pinv_run p a evs _ r os [] _ (lk_new _ _ _ _ _) _ H A)).
  - split; [constructor|]. intros l E. destruct a; discriminate E.
  - cbn. exact B.
Qed.
Lemma rcvd_plain : forall t, plain (rcvd t).
Proof. intros t. unfold plain, rcvd. cbn. destruct (tr_body t) as [b|]; [|exact I]. cbn. destruct (tb_enc b); exact I. Qed.
Lemma plain_body : forall t, plain t -> get_body t = Some (body_of t) \/ get_body t = None /\ body_of t = [].
Proof. intros t H. unfold plain, get_body, body_of in *. destruct (tr_body t) as [[b|m]|]; [left; reflexivity|contradiction|right; auto]. Qed.
Lemma plain_load : forall p t, plain t -> body_of t <> [] -> load_message p t = dec_message p (body_of t).
Proof. intros p t H N. unfold plain, load_message, body_of in *. destruct (tr_body t) as [[b|m]|]; [reflexivity|contradiction|congruence]. Qed.
