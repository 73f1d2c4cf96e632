(** * Specification vocabulary: when a transfer is refused *)

From Verif Require Export SpecEnds SpecReceive.
From Coq Require Import Strings.String.
From Verif Require Import Base.

(** The frames of the delivery that has begun and not ended, after the frames [ts]: the
    last frames that all say that more follows. *)
Fixpoint underway (begun ts : list transfer_t) : list transfer_t :=
  match ts with
  | [] => begun
  | t :: ts => underway (if says_more t then begun ++ [t] else []) ts
  end.
Definition size_of (g : list transfer_t) : N := blen (concat (map body_of g)).
Definition with_condition (c : link_error) (d : option bytes) : error_t := mk_err (CondLink c) d None.

(** Why a link with [credit] left and the limit [limit], on which [g] is under way, refuses
    the frame [t]. *)
Inductive refused_for (limit credit : N) (g : list transfer_t) (t : transfer_t) : error_t -> Prop :=
(** AMQP 2.6.7: the link has no credit. *)
| rf_credit : credit = 0 -> refused_for limit credit g t (with_condition LinkTransferLimitExceeded None)
(** AMQP 2.7.5: the first frame of a delivery must have an id. *)
| rf_no_id : 0 < credit -> g = [] -> transfer_delivery_id (tr_head t) = None ->
    refused_for limit credit g t (with_condition LinkDetachForced (Some (str "delivery_id is required")))
(** AMQP 2.7.5: a further frame has the id of the first, or none. *)
| rf_other_id first rest i : 0 < credit -> g = first :: rest -> transfer_delivery_id (tr_head t) = Some i ->
    transfer_delivery_id (tr_head first) <> Some i ->
    refused_for limit credit g t (with_condition LinkDetachForced (Some (str "delivery_id is wrong")))
(** With the body of a further frame the message is larger than the limit. *)
| rf_size first rest b : 0 < credit -> g = first :: rest ->
    (transfer_delivery_id (tr_head t) = None \/ transfer_delivery_id (tr_head t) = transfer_delivery_id (tr_head first)) ->
    tr_body t = Some b -> limit < size_of g + tb_size b ->
    refused_for limit credit g t (with_condition LinkMessageSizeExceeded None).
