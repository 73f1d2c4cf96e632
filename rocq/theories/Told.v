(** * Which transfers the publish service has been told of: the relation *)

From Verif Require Export SpecPanic SpecReceive FutureProofs.
Import ListNotations.

Definition ktr_rel (s s' : ses) : Prop := forall i a, called i (KTransfer a) s' -> called i (KTransfer a) s.
#[export] Instance ktr_pre : preorder ktr_rel.
Proof. split; unfold ktr_rel; auto. Qed.
#[export] Instance ktr_sees : sees ktr_rel [Fctl].
Proof. intros s s' H. assert (E := H Fctl eq_refl). cbn [same] in E. unfold ktr_rel, called. rewrite E. auto. Qed.
Class quiet_ctl (k : ctl) : Prop := quiet_ctl_ok : match k with KTransfer _ => False | _ => True end.
#[export] Hint Extern 0 (quiet_ctl _) => exact I : typeclass_instances.
#[export] Instance ktr_rel_control k s (N : quiet_ctl k) : stable ktr_rel s (control k s).
Proof.
  intros i a H. unfold called, control in *. st_cbn_in H.
  destruct (Nat.lt_ge_cases i (length (s_ctl s))).
  - rewrite nth_error_app1 in H by assumption. exact H.
  - rewrite nth_error_app2 in H by assumption. destruct (i - length (s_ctl s))%nat as [|[]]; cbn in H; [|discriminate H..].
    injection H as ->. contradiction.
Qed.
#[export] Instance ktr_erase i s : stable ktr_rel s (set_s_ctl (set_nth i None (s_ctl s)) s).
Proof.
  intros j a H. unfold called in *. st_cbn_in H. rewrite nth_set_nth in H. destruct (Nat.eqb i j) eqn:E; [|exact H].
  destruct (nth_error (s_ctl s) i); discriminate H.
Qed.
