(** * The counters of the session model move as those of the pair *)

From Verif Require Import Base Engine State Session CreditProofs RecvSteps TwoPeers SpecTwoPeers.


(** A flow that reaches the sender. *)
Lemma flow_moves f a s l c x flows : flow_link_credit f = Some c -> nth_error (s_snds s) a = Some l -> sender_like l x ->
  pr_flows x = (or_default 0 (flow_delivery_count f), c) :: flows ->
  exists l', nth_error (s_snds (apply_flow f a s)) a = Some l' /\ sender_like l' (pair_step PFlow x).
Proof.
  intros F N [D C] E. destruct (apply_flow_self f a s l c F N) as [l' [N' [D' C']]]. exists l'. split; [exact N'|].
  cbn [pair_step]. rewrite E. split; cbn; congruence.
Qed.
(** A send that takes credit. *)
Lemma send_moves t tk l tag s x : nth_error (s_snds s) (tk_link tk) = Some l -> sender_like l x ->
  sn_credit l <> 0 -> sn_pending l = [] ->
  exists l', nth_error (s_snds (link_loop t tk l tag s)) (tk_link tk) = Some l' /\ sender_like l' (pair_step PSend x).
Proof.
  intros N [D C] Z P. unfold link_loop. rewrite P. apply N.eqb_neq in Z. rewrite Z. cbn [orb].
  set (s1 := upd_task t _ _).
  assert (E1 : nth_error (s_snds s1) (tk_link tk) = Some (set_sn_credit (sn_credit l - 1) (set_sn_dc (wadd (sn_dc l) 1) l))).
  { unfold s1. frw. rewrite nth_upd_snd, Nat.eqb_refl, N. reflexivity. }
  clearbody s1.
  assert (E2 : s_snds (session_loop t tk l tag s1) = s_snds s1).
  { unfold session_loop. destruct (s_iwin s1 =? 0).
    - destruct (new_chan s1) as [c s2] eqn:NC. assert (s_snds s2 = s_snds s1) by (unfold new_chan in NC; injection NC as _ <-; reflexivity).
      frw. assumption.
    - frw. reflexivity. }
  rewrite E2, E1. eexists. split; [reflexivity|]. cbn [pair_step]. rewrite <- C. rewrite Z.
  split; cbn; congruence.
Qed.
(** A grant. *)
Lemma release_add a b : a < two32 -> checked_add Release a b = EOk (wadd a b).
Proof.
  intros L. unfold checked_add, wadd. destruct (a + b <? two32) eqn:E; [|reflexivity].
  rewrite N.mod_small; [reflexivity|]. apply N.ltb_lt. exact E.
Qed.
Lemma grant_moves a n s s' l x : nth_error (s_rcvs s) a = Some l -> receiver_like l x -> rc_credit l < two32 ->
  set_link_credit Release a n s = EOk s' ->
  exists l', nth_error (s_rcvs s') a = Some l' /\ receiver_like l' (pair_step (PGrant n) x).
Proof.
  intros N [D C] L H. unfold set_link_credit in H. rewrite N, release_add in H by exact L. cbn [ebind] in H.
  apply EOk_inj in H. subst s'. eexists. split.
  - frw. rewrite nth_upd_rcv, Nat.eqb_refl, N. reflexivity.
  - split; cbn; [exact D|]. rewrite C. reflexivity.
Qed.
(** A transfer that completes a delivery. *)
Lemma new_rcv_rcvs id h tag settled s : s_rcvs (snd (new_rcv id h tag settled s)) = s_rcvs s.
Proof.
  unfold new_rcv. destruct settled; [reflexivity|]. cbn [snd]. unfold put_unsettled. frw.
  destruct (map_get _ _); [|reflexivity]. unfold fire_opt. destruct (di_tx _); frw; reflexivity.
Qed.
Lemma receive_moves tr a s s' l x frames : nth_error (s_rcvs s) a = Some l -> receiver_like l x -> rc_dc l < two32 ->
  pr_frames x = transfer_more (tr_head tr) :: frames ->
  rcv_transfer Release tr a s = EOk (s', ATransfer a) ->
  exists l', nth_error (s_rcvs s') a = Some l' /\ receiver_like l' (pair_step PReceive x).
Proof.
  intros N [D C] L F H. unfold rcv_transfer in H. rewrite N, release_add in H by exact L.
  cbn [pair_step]. rewrite F, <- C. destruct (rc_credit l =? 0); [destruct (rcv_close _ _ _); discriminate H|].
  destruct (transfer_more (tr_head tr)) eqn:M.
  { exfalso. unfold ebind in H. destruct (rc_partial l).
    - repeat (match goal with H : context [if ?c then _ else _] |- _ => destruct c
                            | H : context [match ?c with _ => _ end] |- _ => destruct c end; try discriminate H).
    - repeat (match goal with H : context [if ?c then _ else _] |- _ => destruct c
                            | H : context [match ?c with _ => _ end] |- _ => destruct c end; try discriminate H). }
  set (s1 := upd_rcv a (set_rc_credit (rc_credit l - 1)) s) in H.
  assert (N1 : nth_error (s_rcvs s1) a = Some (set_rc_credit (rc_credit l - 1) l))
    by (unfold s1; rewrite nth_upd_rcv, Nat.eqb_refl, N; reflexivity).
  clearbody s1. unfold receiver_like. cbn [pr_rdc pr_rcredit]. rewrite <- D. cbn [ebind] in H.
  destruct (rc_partial l).
  - match type of H with (if ?c then _ else _) = _ => destruct c end; [destruct (rcv_close _ _ _); discriminate H|].
    match type of H with match ?c with Some _ => _ | None => _ end = _ => destruct c end;
      [|destruct (rcv_close _ _ _); discriminate H].
    destruct (rev (rc_queue l)) as [|[d first] prev]; [destruct (rcv_close _ _ _); discriminate H|].
    injection H as <-. destruct (Nat.eqb _ 1); repeat (rewrite nth_upd_rcv, Nat.eqb_refl); rewrite N1; cbn [option_map];
      (eexists; split; [reflexivity|unfold rcv_wake; destruct (rc_waker l) eqn:W; cbn; rewrite ?W; split; reflexivity]).
  - destruct (transfer_delivery_id (tr_head tr)); [|destruct (rcv_close _ _ _); discriminate H].
    match type of H with context [new_rcv ?a1 ?a2 ?a3 ?a4 ?a5] => destruct (new_rcv a1 a2 a3 a4 a5) as [d s2] eqn:NR;
      assert (R2 : s_rcvs s2 = s_rcvs a5) by (rewrite <- (new_rcv_rcvs a1 a2 a3 a4 a5), NR; reflexivity); clear NR end.
    injection H as <-. destruct (Nat.eqb _ 0); repeat (rewrite nth_upd_rcv, Nat.eqb_refl); rewrite R2, nth_upd_rcv, Nat.eqb_refl, N1;
      cbn [option_map]; (eexists; split; [reflexivity|unfold rcv_wake; destruct (rc_waker l) eqn:W; cbn; rewrite ?W; split; reflexivity]).
Qed.
