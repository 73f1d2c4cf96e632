(** * The queue of the session: a relation

    Only a send that is polled joins it; the window opens only when it is emptied. *)

From Coq Require Import ZifyBool ZifyNat ZifyN.
From Verif Require Export Rel.
Import ListNotations.

Definition win_rel (s s' : ses) : Prop :=
  s_pending s' <> [] -> s_pending s <> [] /\ (s_iwin s = 0 -> s_iwin s' = 0).
#[export] Instance win_pre : preorder win_rel.
Proof. split; [red; auto|]. unfold win_rel. intros s s1 s2 A B N. destruct (B N) as [C D]. destruct (A C). auto. Qed.
#[export] Instance win_sees : sees win_rel [Fpending; Fiwin].
Proof.
  intros s s' H. assert (H1 := H Fpending eq_refl). assert (H2 := H Fiwin eq_refl). cbn [same] in H1, H2.
  unfold win_rel. rewrite H1, H2. auto.
Qed.
Lemma win_empty : forall s v, v = [] -> stable win_rel s (set_s_pending v s).
Proof. intros s v -> N. elim N. reflexivity. Qed.
#[export] Instance win_clear s : stable win_rel s (set_s_pending [] s).
Proof. apply win_empty. reflexivity. Qed.
#[export] Instance win_less s : stable win_rel s (set_s_iwin (s_iwin s - 1) s).
Proof. intros N. st_cbn_in N. split; [exact N|]. st_cbn. lia. Qed.
#[export] Instance win_drain h e s : stable win_rel s (drain_pending h e s).
Proof.
  unfold drain_pending. cbv zeta. intros N. st_cbn_in N. frw_in N. st_cbn. frw.
  split; [|auto]. intros E. rewrite E in N. elim N. reflexivity.
Qed.
#[export] Instance win_flow f o s : stable win_rel s (handle_flow f o s).
Proof.
  unfold handle_flow. cbv zeta. intros N. exfalso. apply N. clear N. destruct o, (flow_echo f); frw; reflexivity.
Qed.
