(** * Proofs: beginning sessions *)

From Coq Require Import ZifyBool ZifyNat ZifyN.
From Verif Require Export OneProofs ConnMoves.
Import ListNotations.
Import ConnTheorems.

(** No session that was not being opened is being opened, except by new futures. *)
Definition op_keep (c c' : conn) : Prop :=
  (length (c_opens c) <= length (c_opens c'))%nat
  /\ forall k i, slab_get (c_slots c') k = Some (CoOpening i) -> slab_get (c_slots c) k = Some (CoOpening i) \/ (length (c_opens c) <= i)%nat.
Lemma ok_refl c : op_keep c c.
Proof. split; auto. Qed.
Lemma ok_trans c c1 c2 : op_keep c c1 -> op_keep c1 c2 -> op_keep c c2.
Proof. intros (L & A) (L' & B). split; [lia|]. intros k i H. destruct (B _ _ H) as [X|X]; [exact (A _ _ X) | right; lia]. Qed.
Lemma ok_same c c' : c_opens c' = c_opens c -> c_slots c' = c_slots c -> op_keep c c'.
Proof. intros A B. unfold op_keep. rewrite A, B. split; auto. Qed.
Lemma ok_fail e c : op_keep c (conn_set_error e c).
Proof.
  split; [cbn; rewrite drop_slots_len; lia|]. intros k i H. cbn in H. rewrite slab0_get in H. discriminate H.
Qed.
Lemma ok_put a s s' c : op_keep c (put_ses a s s' c).
Proof. apply ok_same; reflexivity. Qed.
Lemma ok_register ch b c : op_keep c (register_remote ch b c).
Proof.
  split; [cbn; lia|]. intros k i H. cbn in H. apply slab_insert_at in H. destruct H as [[_ H]|H]; [discriminate H | auto].
Qed.
Lemma ok_complete l ch b c : op_keep c (complete_session l ch b c).
Proof.
  unfold complete_session. destruct (slab_get (c_slots c) l) as [[i| |]|] eqn:E; try apply ok_refl.
  split; [cbn; destruct (nth_error (c_opens c) i) as [[]|]; rewrite ?set_nth_length; lia|].
  intros k j H. cbn in H. rewrite slab_get_set in H by congruence. destruct (l =? k); [discriminate H | auto].
Qed.
Lemma ok_close_session k c : op_keep c (close_session k c).
Proof.
  unfold close_session. destruct (slab_get (c_slots c) k) as [[]|] eqn:E; try apply ok_refl. split; [cbn; lia|].
  intros k' j H. cbn in H. rewrite slab_get_set in H by congruence. destruct (k =? k'); [discriminate H | auto].
Qed.
Lemma ok_forget ch c : op_keep c (forget ch c).
Proof.
  unfold forget. destruct (map_get ch (c_map c)); [|apply ok_refl]. split; [cbn; lia|].
  intros k' j H. cbn in H. rewrite slab_get_remove in H. destruct (_ =? k'); [discriminate H | auto].
Qed.
Lemma ok_open oc dc props c : op_keep c (open_session oc dc props c).
Proof.
  unfold open_session. cbv zeta. destruct (c_error c); [split; [cbn; rewrite app_length; lia | auto]|].
  destruct (c_chmax c <=? _); [split; [cbn; rewrite app_length; lia | auto]|].
  split; [cbn; rewrite app_length; lia|]. intros k i H. cbn in H. apply slab_insert_at in H. destruct H as [[_ H]|H]; [|auto].
  injection H as ->. right. lia.
Qed.
Lemma ok_event p a s e c c' os : ses_event p a s e c = EOk (c', os) -> op_keep c c'.
Proof. intros H. apply ses_event_inv in H as (s' & o & _ & -> & _). apply ok_put. Qed.
Lemma ok_frame p ch f c c' os : CI c -> conn_frame p ch f c = EOk (c', os) -> op_keep c c'.
Proof.
  intros C H. destruct (plain f) eqn:P.
  - destruct (c_error c) as [e|] eqn:Er.
    { assert (c' = c) as ->; [|apply ok_refl]. unfold conn_frame in H. rewrite Er in H. destruct f; try discriminate P; apply EOk_inj in H; congruence. }
    destruct (frame_cases _ _ _ _ _ _ H P Er) as [(-> & _)|[(k & i & _ & _ & -> & _)|[(k & a & _ & S & N)|[(k & a & s & _ & _ & _ & X)|(k & a & s & _ & _ & _ & X)]]]].
    + apply ok_refl.
    + apply ok_refl.
    + destruct (ci_slot c C k a S) as (s & Es & _). congruence.
    + destruct f; try discriminate P; try (destruct X as (s' & r & _ & _ & -> & _); apply ok_put).
      * destruct X as (-> & _). apply ok_put.
      * destruct X as (-> & _). match goal with |- op_keep c (cpost _ _ ?d) => apply (ok_trans c d); [|apply ok_same; reflexivity] end. eapply ok_trans; [|apply ok_forget]. apply ok_put.
    + destruct f; try discriminate P; try (destruct X as (-> & _); apply ok_refl).
      destruct X as (-> & _). eapply ok_trans; [|apply ok_forget]. apply ok_put.
  - destruct f; try discriminate P; cbn [conn_frame] in H.
    + destruct (begin_remote_channel x) as [n|]; apply EOk_inj in H; apply (f_equal fst) in H; cbn [fst] in H; subst c'; [apply ok_complete | apply ok_register].
    + destruct (close_frame _ _ _ _ (ci_norm c C) H) as (y & -> & _). apply (ok_trans c (conn_set_error (EClosed (close_error x)) c)); [apply ok_fail|apply ok_same; reflexivity].
    + apply EOk_inj in H. apply (f_equal fst) in H; cbn [fst] in H; subst c'. apply ok_refl.
Qed.
Lemma ok_close e c : op_keep c (conn_close e c).
Proof. unfold conn_close, io_close. cbn. destruct (c_io c); apply ok_same; reflexivity. Qed.
Lemma ok_step : forall p e c c' os, CI c -> cstep p e c = EOk (c', os) -> op_keep c c'.
Proof.
  intros p e c c' os C H. destruct e; cbn [cstep] in H;
    try (apply EOk_inj in H; apply (f_equal fst) in H; cbn [fst] in H; subst c').
  - exact (ok_frame _ _ _ _ _ _ C H).
  - destruct (nth_error (c_sess c) a) as [s|] eqn:Ea; [|apply EOk_inj in H; apply (f_equal fst) in H; cbn [fst] in H; subst c'; apply ok_refl].
    destruct (own_event e); [|apply EOk_inj in H; apply (f_equal fst) in H; cbn [fst] in H; subst c'; apply ok_refl]. exact (ok_event _ _ _ _ _ _ _ H).
  - unfold conn_end. destruct (nth_error (c_sess c) a) as [s|]; [|apply ok_refl]. cbv zeta. destruct (s_ended s || s_ending s); [apply ok_put|].
    eapply ok_trans; [|apply ok_put]. apply ok_close_session.
  - apply ok_open.
  - destruct (nth_error (c_opens c) i) as [[]|]; try apply ok_refl. split; [cbn; rewrite set_nth_length; lia | auto].
  - apply ok_close.
  - unfold conn_force_close. eapply ok_trans; [|apply ok_fail]. unfold io_close. cbn. destruct (c_io c); apply ok_same; reflexivity.
  - apply ok_same; reflexivity.
  - apply ok_same; reflexivity.
  - destruct (nth_error (c_ctl c) i) as [[[e'|]|]|]; try apply ok_refl.
    + cbv zeta. eapply ok_trans; [apply ok_same with (c' := set_c_ctl (set_nth i None (c_ctl c)) c); reflexivity|].
      match goal with |- op_keep ?x (set_c_failed _ ?d) => apply (ok_trans x d); [apply ok_fail|apply ok_same; reflexivity] end.
    + cbv zeta. eapply ok_trans; [apply ok_same with (c' := set_c_ctl (set_nth i None (c_ctl c)) c); reflexivity|]. apply ok_fail.
  - destruct (c_failed c); [|apply ok_refl]. eapply ok_trans; [apply ok_same with (c' := set_c_failed false c); reflexivity|]. apply ok_close.
  - apply ok_close.
  - apply ok_same; reflexivity.
  - apply ok_fail.
Qed.
(** The future that waits is the one the slot is for. *)
Lemma opening_kept : forall p i k evs c c' os, CI c -> (i < length (c_opens c))%nat ->
  (forall k', slab_get (c_slots c) k' = Some (CoOpening i) -> k' = k) ->
  crun p evs c = EOk (c', os) -> nth_error (c_opens c') i = Some OWait -> slab_get (c_slots c') k = Some (CoOpening i).
Proof.
  intros p i k evs c c' os C L U H W.
  assert (X : CI c' /\ (i < length (c_opens c'))%nat /\ forall k', slab_get (c_slots c') k' = Some (CoOpening i) -> k' = k).
  { refine (crun_ind (fun c => CI c /\ (i < length (c_opens c))%nat /\ forall k', slab_get (c_slots c) k' = Some (CoOpening i) -> k' = k) p _ _ _ _ _ _ H); [|auto].
    intros e x x' o (Cx & Lx & Ux) E. destruct (ok_step _ _ _ _ _ Cx E) as (L' & K). split; [exact (CI_step _ _ _ _ _ Cx E)|]. split; [lia|].
    intros k' G. destruct (K _ _ G) as [G'|G']; [exact (Ux _ G') | lia]. }
  destruct X as (C' & _ & U'). destruct (ci_wait c' C' i W) as (k' & G). rewrite <- (U' _ G). exact G.
Qed.
Lemma reachable_chmax : forall p c, creachable p c -> c_chmax c < two16.
Proof.
  intros p c (m & f & evs & o & Lm & R).
  enough (X : CI c /\ c_chmax c = m) by (rewrite (proj2 X); exact Lm).
  refine (crun_ind (fun c => CI c /\ c_chmax c = m) p _ _ _ _ _ _ R); [|split; [apply CI_new|reflexivity]].
  intros e x x' os (C & E) H. split; [exact (CI_step _ _ _ _ _ C H)|]. rewrite (step_chmax _ _ _ _ _ C H). exact E.
Qed.
