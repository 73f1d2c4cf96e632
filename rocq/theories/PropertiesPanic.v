(** * Theorems about panics of a session: C61

    Vocabulary: [SpecPanic.v]. *)

From Coq Require Import Strings.String.
From Coq Require Import List NArith Lia.
From Verif Require Import Base SpecPanic Scenario SessionPanicProofs Connection ConnTheorems.
Import ListNotations.
Local Open Scope N_scope.

(** ** C61 *)
(** A session panics only in the ways that are listed in [panics]. *)
Theorem C61_only : forall p e s q, reachable p s -> few_links s ->
  step p e s = EPanic q -> panics p s e q.
Proof. exact only. Qed.
Print Assumptions C61_only.
(** And it does in each of them; for the transfer, see [C61_count_refuted]. *)
Theorem C61_exactly : forall p e s q, reachable p s -> few_links s ->
  (forall tr, e <> EvFrame (FTransfer tr)) ->
  (step p e s = EPanic q <-> panics p s e q).
Proof. intros p e s q R F N. split; [apply only; assumption | intros H; apply panics_do; assumption]. Qed.
Print Assumptions C61_exactly.

Lemma peer_panics : forall p e s q, reachable p s -> few_links s -> from_peer e -> step p e s = EPanic q ->
  p = Debug /\ q = EPOverflow /\ exists a l, nth_error (s_rcvs s) a = Some l /\ rc_dc l + 1 >= 2 ^ 32.
Proof. intros p e s q R F P H. apply only in H; [|assumption..]. destruct H; try contradiction P. eauto 8. Qed.

(** Without overflow checks nothing that the peer or the network does panics. *)
Theorem C61_peer_partial : forall e s, reachable Release s -> few_links s -> from_peer e ->
  exists r, step Release e s = EOk r.
Proof.
  intros e s R F P. destruct (step Release e s) as [r|q] eqn:E; [eauto|].
  destruct (peer_panics _ _ _ _ R F P E) as [H _]. discriminate H.
Qed.
Print Assumptions C61_peer_partial.
(** With them, neither, as long as no delivery count is at its maximum. *)
Theorem C61_peer_checked_partial : forall e s, reachable Debug s -> few_links s -> from_peer e ->
  (forall a l, nth_error (s_rcvs s) a = Some l -> rc_dc l + 1 < 2 ^ 32) ->
  exists r, step Debug e s = EOk r.
Proof.
  intros e s R F P C. destruct (step Debug e s) as [r|q] eqn:E; [eauto|].
  destruct (peer_panics _ _ _ _ R F P E) as (_ & _ & a & l & El & H). apply C in El. lia.
Qed.
Print Assumptions C61_peer_checked_partial.

(** The same of a connection: no frame, on whatever channel, panics. *)
Theorem C61_connection_partial : forall ch f c, creachable Release c ->
  (forall a s, nth_error (c_sess c) a = Some s -> few_links s) ->
  exists r, cstep Release (CvFrame ch f) c = EOk r.
Proof.
  intros ch f c R F.
  assert (Q : forall a s e c1, nth_error (c_sess c) a = Some s -> from_peer e -> exists r, ses_event Release a s e c1 = EOk r).
  { intros a s e c1 Hs P. destruct (C61_peer_partial e s (sessions_reachable _ _ _ _ R Hs) (F _ _ Hs) P) as [[s1 os] E].
    unfold ses_event. rewrite E. cbn [ebind]. eauto. }
  assert (Q2 : forall a s g, nth_error (c_sess c) a = Some s -> exists r, ses_handle_frame Release g s = EOk r).
  { intros a s g Hs. destruct (C61_peer_partial (EvFrame g) s (sessions_reachable _ _ _ _ R Hs) (F _ _ Hs) I) as [r E].
    cbn [step] in E. destruct (ses_handle_frame Release g s); [eauto|discriminate E]. }
  cbn [cstep]. generalize (as_u16 ch). clear ch. intros ch.
  assert (Gen : forall (X : Type) (m : er X), (forall q, m <> EPanic q) -> exists r, m = EOk r).
  { intros X [r|q] H; [eauto | elim (H q eq_refl)]. }
  apply Gen. intros q H. unfold conn_frame in H.
  destruct f; try discriminate H;
    repeat match type of H with
           | context [match ?m with _ => _ end] =>
               match m with
               | context [ses_event] => fail 1
               | context [ses_handle_frame] => fail 1
               | _ => destruct m eqn:?; try discriminate H
               end
           | context [ses_event Release ?a ?s ?e ?x] =>
               let r := fresh "r" in let E := fresh "E" in
               destruct (Q a s e x ltac:(eassumption) I) as [[r ?] E]; rewrite E in H; cbn [ebind] in H; try discriminate H
           | context [ses_handle_frame Release ?g ?s] =>
               let E := fresh "E" in
               destruct (Q2 _ s g ltac:(eassumption)) as [[? ?] E]; rewrite E in H; cbn [ebind] in H; try discriminate H
           end.
Qed.
Print Assumptions C61_connection_partial.

(** ** What is missing *)
(** With overflow checks one transfer of the peer panics the session: it attaches
    with the largest initial delivery count. *)
Definition high_count : list ev :=
  [EvAttach (attach_of (str "out") 0 RoleSender (Some 4294967295)); EvCtlOk 0 same_frame; EvCtlOk 1 same_frame].
Theorem C61_count_refuted :
  run Debug (high_count ++ [arrives (Some 0) false 3]) (start 1000 10) = EPanic EPOverflow
  /\ runs Release (high_count ++ [arrives (Some 0) false 3]) (start 1000 10) = true.
Proof. split; vm_compute; reflexivity. Qed.
Print Assumptions C61_count_refuted.

(** In every build: the peer attaches a link and detaches it, or the session
    ends, before the control service has decided.  That it accepts panics. *)
Definition undecided : list ev := [EvAttach (attach_of (str "in") 0 RoleReceiver None)].
Theorem C61_accept_refuted : forall p,
  run p (undecided ++ [EvFrame (FDetach (mk_detach 0 true None)); EvCtlOk 0 same_frame]) (start 1000 10) = EPanic EPMissingLink
  /\ run p (undecided ++ [EvFail EDisconnected; EvCtlOk 0 same_frame]) (start 1000 10) = EPanic EPMissingLink
  /\ runs p (undecided ++ [EvCtlOk 0 same_frame]) (start 1000 10) = true.
Proof. intros []; repeat match goal with |- _ /\ _ => split end; vm_compute; reflexivity. Qed.
Print Assumptions C61_accept_refuted.

(** In every build: the application detaches a receiver link, by its handle,
    before the peer has answered its attach. *)
Definition attaching : list ev := [EvAttachReceiver (attach_of (str "in") 0 RoleReceiver None)].
Theorem C61_detach_refuted : forall p e,
  run p (attaching ++ [EvDetachReceiver 0 e]) (start 1000 10) = EPanic EPUnimplemented
  /\ runs p (attaching ++ [EvAttach (attach_of (str "in") 0 RoleSender (Some 0)); EvDetachReceiver 0 e]) (start 1000 10) = true.
Proof. intros [] e; repeat match goal with |- _ /\ _ => split end; vm_compute; reflexivity. Qed.
Print Assumptions C61_detach_refuted.

(** A session with a link in use, in which the theorems above apply. *)
Example C61_case :
  let s := result Debug (receiver_link ++ [arrives (Some 0) false 3]) (start 1000 10) in
  reachable Debug s /\ few_links s
  /\ (forall a l, nth_error (s_rcvs s) a = Some l -> rc_dc l + 1 < 2 ^ 32)
  /\ (exists l, nth_error (s_rcvs s) 0 = Some l /\ rc_dc l = 1)
  /\ from_peer (arrives (Some 1) false 3).
Proof.
  cbv zeta. assert (R : runs Debug (receiver_link ++ [arrives (Some 0) false 3]) (start 1000 10) = true) by (vm_compute; reflexivity).
  refine (conj (runs_reachable _ _ _ _ R) (conj _ (conj _ (conj _ I)))).
  - unfold few_links. vm_compute. discriminate.
  - assert (E : map rc_dc (s_rcvs (result Debug (receiver_link ++ [arrives (Some 0) false 3]) (start 1000 10))) = [1]) by (vm_compute; reflexivity).
    intros a l H. apply (map_nth_error rc_dc) in H. rewrite E in H. destruct a as [|[|a]]; cbn [nth_error] in H; [|discriminate..].
    apply Some_inj in H. rewrite <- H. reflexivity.
  - assert (E : map rc_dc (s_rcvs (result Debug (receiver_link ++ [arrives (Some 0) false 3]) (start 1000 10))) = [1]) by (vm_compute; reflexivity).
    destruct (s_rcvs _) as [|l ls]; [discriminate E|]. injection E as E _. exists l. split; [reflexivity | exact E].
Qed.
