(** * Deliveries that this side has settled stay settled: the relation *)

From Coq Require Import ZifyBool ZifyNat ZifyN.
From Verif Require Export Disp.
Import ListNotations.

Definition hr_rel (s s' : ses) : Prop :=
  forall i x, nth_error (s_dlvs s) i = Some x -> exists x', nth_error (s_dlvs s') i = Some x' /\ dlv_ids x' = dlv_ids x
    /\ (dl_local x = true -> dl_local x' = true).
#[export] Instance hr_pre : preorder hr_rel.
Proof.
  split.
  - intros s i x E. exists x. auto.
  - intros s s1 s2 K1 K2 i x E. destruct (K1 _ _ E) as (x1 & X1 & I1 & A1). destruct (K2 _ _ X1) as (x2 & X2 & I2 & A2).
    exists x2. split; [exact X2|]. split; [congruence|auto].
Qed.
#[export] Instance hr_sees : sees hr_rel [Fdlvs].
Proof. intros s s' H. assert (E1 := H Fdlvs eq_refl). cbn [same] in *. intros i x E. rewrite E1. exists x. auto. Qed.
Lemma hr_upd : forall a f s, (forall x, dlv_ids (f x) = dlv_ids x /\ (dl_local x = true -> dl_local (f x) = true)) -> stable hr_rel s (upd_dlv a f s).
Proof.
  intros a f s H i x E. rewrite nth_upd_dlv, E. destruct (Nat.eqb a i); cbn [option_map]; [exists (f x)|exists x]; auto.
Qed.
#[export] Hint Extern 1 (stable hr_rel ?s (upd_dlv ?a ?f ?s)) => solve [apply hr_upd; intros; split; [reflexivity|intros; solve [assumption|reflexivity]]] : typeclass_instances.
#[export] Instance hr_new x s : stable hr_rel s (set_s_dlvs (s_dlvs s ++ [x]) s).
Proof. intros i y E. exists y. st_cbn. rewrite nth_error_app1 by (apply nth_lt in E; exact E). auto. Qed.
