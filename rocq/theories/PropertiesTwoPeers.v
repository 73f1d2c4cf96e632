(** * Theorems about the two ends of a link: C41

    Vocabulary: [SpecTwoPeers.v].  Model: [TwoPeers.v], the counters of which
    move as those of the session model do ([TwoPeersLink.v], repeated at the
    end).  A history is any interleaving of grants, sends, frames and frames
    arriving. *)

From Verif Require Import Base Protocol Engine State Session TwoPeers SpecTwoPeers TwoPeersProofs TwoPeersLink.
From Coq Require Import List Lia ZifyBool ZifyNat ZifyN.
Import ListNotations.

(** ** C41 *)
(** The receiver grants two deliveries, the sender sends them, and while they
    are on the way the receiver grants one more: the sender takes what it has
    for far more credit, and a transfer exceeds the receiver's. *)
Definition second_grant : list pair_event :=
  [PGrant 2; PFlow; PSend; PFrame false; PSend; PFrame false; PGrant 1; PFlow; PSend; PFrame false; PSend; PFrame false;
   PReceive; PReceive; PReceive; PReceive].
Theorem C41_refuted : exists h, (forall n, In (PGrant n) h -> n <= 2) /\ exceeded (pair_run h (pair_init 0)).
Proof.
  exists second_grant. split; [|vm_compute; reflexivity].
  intros n H. cbn in H. decompose [or] H; try discriminate; try contradiction;
    match goal with H : PGrant _ = PGrant _ |- _ => injection H as <- end; discriminate.
Qed.
Print Assumptions C41_refuted.
(** In such a history the sender believes it has almost 2^32 credit. *)
Theorem C41_refuted_amount : pr_credit (pair_run (firstn 8 second_grant) (pair_init 0)) = 2 ^ 32 - 1.
Proof. vm_compute. reflexivity. Qed.
Print Assumptions C41_refuted_amount.
(** No transfer exceeds the credit if no grant is smaller than the credit that
    is left, whatever is sent, dropped and delayed.
    Missing: smaller grants, for which it fails. *)
Theorem C41_partial : forall dc h, dc < 2 ^ 32 ->
  grants (fun credit n => credit <= n) h (pair_init dc) -> ~ exceeded (pair_run h (pair_init dc)).
Proof. exact never_exceeded. Qed.
Print Assumptions C41_partial.
(** So none does if credit is granted only when none is left, as the router
    does (router.rs:212-213). *)
Theorem C41_router_partial : forall dc h, dc < 2 ^ 32 ->
  grants (fun credit _ => credit = 0) h (pair_init dc) -> ~ exceeded (pair_run h (pair_init dc)).
Proof.
  intros dc h D G. apply never_exceeded; [exact D|]. revert G. apply grants_weaken. intros c n ->. apply N.le_0_l.
Qed.
Print Assumptions C41_router_partial.
(** The two agree about the credit, under the same condition, when nothing is on
    the way and no send was dropped while it waited. *)
Theorem C41_agree_partial : forall dc h, dc < 2 ^ 32 -> grants (fun credit _ => credit = 0) h (pair_init dc) -> no_abandon h ->
  let x := pair_run h (pair_init dc) in quiet x -> pr_credit x = pr_rcredit x.
Proof. exact agree. Qed.
Print Assumptions C41_agree_partial.
(** In general they do not: of two grants in a row the sender keeps the last,
    the receiver the sum. *)
Theorem C41_agree_refuted : exists h, let x := pair_run h (pair_init 0) in
  quiet x /\ no_abandon h /\ pr_rcredit x = 60 /\ pr_credit x = 50.
Proof.
  exists [PGrant 10; PGrant 50; PFlow; PFlow].
  split; [repeat split; reflexivity|]. split; [repeat constructor; discriminate|split; reflexivity].
Qed.
Print Assumptions C41_agree_refuted.
(** A send that is dropped while it waits for the session takes its credit with
    it: after it the sender has none although the receiver would take one. *)
Theorem C41_abandon_refuted : exists h, let x := pair_run h (pair_init 0) in
  grants (fun credit _ => credit = 0) h (pair_init 0) /\ quiet x /\ pr_rcredit x = 1 /\ pr_credit x = 0.
Proof.
  exists [PGrant 1; PFlow; PSend; PAbandon]. cbn zeta.
  split; [cbn; repeat split; reflexivity|]. split; [repeat split; reflexivity|split; reflexivity].
Qed.
Print Assumptions C41_abandon_refuted.

(** The counters of the pair are those of the session model: a flow, a send that
    takes credit, a grant and a transfer that completes a delivery change the
    session's links as they change the pair. *)
Theorem C41_flow : forall f a s l c x flows, flow_link_credit f = Some c -> nth_error (s_snds s) a = Some l -> sender_like l x ->
  pr_flows x = (or_default 0 (flow_delivery_count f), c) :: flows ->
  exists l', nth_error (s_snds (apply_flow f a s)) a = Some l' /\ sender_like l' (pair_step PFlow x).
Proof. exact flow_moves. Qed.
Print Assumptions C41_flow.
Theorem C41_send : forall t tk l tag s x, nth_error (s_snds s) (tk_link tk) = Some l -> sender_like l x ->
  sn_credit l <> 0 -> sn_pending l = [] ->
  exists l', nth_error (s_snds (link_loop t tk l tag s)) (tk_link tk) = Some l' /\ sender_like l' (pair_step PSend x).
Proof. exact send_moves. Qed.
Print Assumptions C41_send.
Theorem C41_grant : forall a n s s' l x, nth_error (s_rcvs s) a = Some l -> receiver_like l x -> rc_credit l < two32 ->
  set_link_credit Release a n s = EOk s' ->
  exists l', nth_error (s_rcvs s') a = Some l' /\ receiver_like l' (pair_step (PGrant n) x).
Proof. exact grant_moves. Qed.
Print Assumptions C41_grant.
Theorem C41_receive : forall tr a s s' l x frames, nth_error (s_rcvs s) a = Some l -> receiver_like l x -> rc_dc l < two32 ->
  pr_frames x = transfer_more (tr_head tr) :: frames ->
  rcv_transfer Release tr a s = EOk (s', ATransfer a) ->
  exists l', nth_error (s_rcvs s') a = Some l' /\ receiver_like l' (pair_step PReceive x).
Proof. exact receive_moves. Qed.
Print Assumptions C41_receive.

(** A history with a delivery in two frames, credit granted when it has run out,
    and the sender's counter wrapping around; at its end nothing is on the way. *)
Definition two_rounds : list pair_event :=
  [PGrant 2; PFlow; PSend; PFrame true; PSend; PFrame false; PFrame false; PReceive; PReceive; PReceive;
   PGrant 3; PFlow; PSend; PFrame false; PReceive].
Example C41_case : let x := pair_run two_rounds (pair_init (2 ^ 32 - 1)) in
  grants (fun credit _ => credit = 0) two_rounds (pair_init (2 ^ 32 - 1)) /\ no_abandon two_rounds /\ quiet x
  /\ pr_credit x = 2 /\ pr_rcredit x = 2 /\ pr_rdc x = 2.
Proof.
  cbn zeta. split; [vm_compute; repeat split|]. split; [repeat constructor; discriminate|].
  split; [repeat split; vm_compute; reflexivity|]. split; [|split]; vm_compute; reflexivity.
Qed.
