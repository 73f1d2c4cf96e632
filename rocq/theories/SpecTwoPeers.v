(** * Vocabulary of the theorems about two peers *)

From Verif Require Import Base State TwoPeers.

(** Each grant is allowed by [ok], a condition on the receiver's credit before
    it and on the amount, and none makes that credit overflow. *)
Fixpoint grants (ok : N -> N -> Prop) (h : list pair_event) (x : pair) : Prop :=
  match h with
  | [] => True
  | e :: h =>
      match e with
      | PGrant n => ok (pr_rcredit x) n /\ pr_rcredit x + n < 2 ^ 32
      | _ => True
      end /\ grants ok h (pair_step e x)
  end.

(** The receiver saw a transfer beyond its credit. *)
Definition exceeded (x : pair) : Prop := pr_exceeded x = true.
(** Nothing is on the way. *)
Definition quiet (x : pair) : Prop := pr_frames x = [] /\ pr_flows x = [] /\ pr_open x = 0.
(** No send is dropped while it waits. *)
Definition no_abandon (h : list pair_event) : Prop := Forall (fun e => e <> PAbandon) h.

(** A link of the session model has the counters of the sending, of the receiving
    end. *)
Definition sender_like (l : slink) (x : pair) : Prop := sn_dc l = pr_dc x /\ sn_credit l = pr_credit x.
Definition receiver_like (l : rlink) (x : pair) : Prop := rc_dc l = pr_rdc x /\ rc_credit l = pr_rcredit x.
