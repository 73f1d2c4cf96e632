(** * Channels keep their places until they are completed *)

From Coq Require Import ZifyBool ZifyNat ZifyN.
From Verif Require Export HoldRel RecvRun.
Import ListNotations.

Lemma step_hold : forall p e s s' os, step p e s = EOk (s', os) -> stable hold_rel s s'.
Proof.
  intros p e s s' os H. destruct e; cbn [step] in H; try solve [step_er H].
  - destruct (nth_error (s_snds s) a) as [l|] eqn:El; [|step_er H].
    destruct (cond_wait (sn_on_close l) s) as [c s1] eqn:Ec. apply EOk_inj in H. apply (f_equal fst) in H. cbn [fst] in H. subst s'.
    apply hold_lift_eq.
    + frw. cbv beta iota delta [cond_wait new_chan] in Ec. destruct (cd_lock (sn_on_close l)); injection Ec as _ <-; frw; reflexivity.
    + assert (X := hold_cond a sn_on_close set_sn_on_close s l). rewrite Ec in X. cbn [fst snd] in X. apply X; auto.
  - destruct (nth_error (s_snds s) a) as [l|] eqn:El; [|step_er H].
    destruct (cond_wait (sn_on_credit l) s) as [c s1] eqn:Ec. apply EOk_inj in H. apply (f_equal fst) in H. cbn [fst] in H. subst s'.
    apply hold_lift_eq.
    + frw. cbv beta iota delta [cond_wait new_chan] in Ec. destruct (cd_lock (sn_on_credit l)); injection Ec as _ <-; frw; reflexivity.
    + assert (X := hold_cond a sn_on_credit set_sn_on_credit s l). rewrite Ec in X. cbn [fst snd] in X. apply X; auto.
Qed.
