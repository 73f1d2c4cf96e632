(** * What the frames of a delivery carry besides its body: proofs *)

From Verif Require Export SpecMark SendTheorems.
From Coq Require Import Lia ZifyBool ZifyNat ZifyN.
Import ListNotations.

Lemma more_marked : forall fuel max h fmt b, Forall (fun t => (transfer_message_format (tr_head t) = fmt /\ transfer_aborted (tr_head t) = false /\ transfer_resume (tr_head t) = false)
  /\ transfer_state (tr_head t) = None /\ transfer_settled (tr_head t) = None) (transfers (more_frames fuel max h fmt b)).
Proof.
  induction fuel as [|fuel IH]; intros max h fmt b; [constructor|]. destruct b as [|x b]; [constructor|].
  cbn [more_frames]. cbn [transfers flat_map app].
  change (flat_map (fun f => match f with FTransfer t => [t] | _ => [] end)) with transfers.
  constructor; [cbn; auto 6|apply IH].
Qed.
Lemma delivery_marked : forall mfs h id tag tk, marked tk (delivery_ts mfs h id tag (tk_body tk) (tk_settled tk) (tk_format tk)).
Proof.
  intros mfs h id tag tk. unfold delivery_ts, transfer_frames. cbv zeta.
  replace (match tk_format tk with Some _ => tk_format tk | None => match tk_body tk with TBData _ => None | TBMessage m => ms_format (msg_parts m) end end)
    with (format_of tk) by (unfold format_of; destruct (tk_format tk), (tk_body tk); reflexivity).
  destruct (chunk_size mfs <? tb_size (tk_body tk)).
  - cbn [transfers flat_map app]. change (flat_map (fun f => match f with FTransfer t => [t] | _ => [] end)) with transfers.
    match goal with |- context [more_frames ?f ?m ?h ?fm ?b] => assert (F := more_marked f m h fm b) end.
    split; [constructor; [cbn; auto|]|split; [reflexivity|]]; (eapply Forall_impl; [|exact F]); cbn beta; intros t Ht; apply Ht.
  - cbn [transfers flat_map app]. split; [repeat constructor|split; [reflexivity|constructor]].
Qed.
Lemma split_marked : forall p s, reachable p s ->
  (forall t tk, nth_error (s_tasks s) t = Some tk -> honest (tk_body tk)) ->
  exists order gs,
    transfers (s_out s) = concat gs /\ length gs = length order
    /\ NoDup order /\ (forall t tk d, send_done s t tk d -> In t order)
    /\ forall k t g, nth_error order k = Some t -> nth_error gs k = Some g ->
         wire_of s k t g /\ forall tk, nth_error (s_tasks s) t = Some tk -> marked tk g.
Proof.
  intros p s H Hh. apply wire_reachable in H as (order & ND & Nn & Ti & gs & C & L & G).
  exists order, gs. refine (conj C (conj L (conj ND (conj _ _)))).
  - intros t tk d (Et & i & Es & _). destruct (Ti _ _ Et) as (_ & _ & Hi). eauto.
  - intros k t g Ek Eg.
    destruct (G _ _ _ Ek Eg) as (tk & l & i & d & E1 & E2 & E3 & E4 & Hi & Hsd & Hx & ->). split.
    + exists tk, l, d. refine (conj _ (conj E3 (conj Hi (conj Hx _)))).
      * split; eauto.
      * apply delivery_ts_one. eauto.
    + intros tk' E'. assert (tk' = tk) by congruence. subst tk'. apply delivery_marked.
Qed.
