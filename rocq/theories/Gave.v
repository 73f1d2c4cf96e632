(** * Where the dispositions of a session come from: the relation *)

From Coq Require Import ZifyBool ZifyNat ZifyN.
From Verif Require Export Disp.
Import ListNotations.

Definition of_drop (s : ses) (f : frame) : Prop :=
  kind_of f = KindDisposition -> exists i x, nth_error (s_dlvs s) i = Some x /\ dl_alive x = false /\ f = disp_of x true (DSRejected (mk_rejected (Some internal_error))).
Definition same_dlvs (s s' : ses) : Prop :=
  forall i x, nth_error (s_dlvs s) i = Some x -> exists x', nth_error (s_dlvs s') i = Some x' /\ dlv_ids x' = dlv_ids x /\ (dl_alive x = false -> dl_alive x' = false).
Definition gv_rel (s s' : ses) : Prop :=
  same_dlvs s s' /\ exists fs, s_out s' = s_out s ++ fs /\ Forall (of_drop s') fs.
Lemma disp_same : forall x x' b st, dlv_ids x' = dlv_ids x -> disp_of x' b st = disp_of x b st.
Proof. intros x x' b st E. unfold disp_of, dlv_ids in *. replace (dl_sender x') with (dl_sender x) by congruence. replace (dl_id x') with (dl_id x) by congruence. reflexivity. Qed.
Lemma of_drop_more : forall s s' f, same_dlvs s s' -> of_drop s f -> of_drop s' f.
Proof.
  intros s s' f K H D. destruct (H D) as (i & x & E & A & ->). destruct (K _ _ E) as (x' & E' & I & A'). exists i, x'. split; [exact E'|]. split; [auto|]. symmetry. apply disp_same, I.
Qed.
#[export] Instance gv_pre : preorder gv_rel.
Proof.
  split.
  - intros s. split; [intros i x E; exists x; auto|]. exists []. rewrite app_nil_r. auto.
  - intros s s1 s2 (K1 & f1 & E1 & F1) (K2 & f2 & E2 & F2). split.
    + intros i x E. destruct (K1 _ _ E) as (x1 & X1 & I1 & A1). destruct (K2 _ _ X1) as (x2 & X2 & I2 & A2). exists x2. split; [exact X2|]. split; [congruence|auto].
    + exists (f1 ++ f2). split; [rewrite E2, E1, app_assoc; reflexivity|]. apply Forall_app. split; [|exact F2].
      eapply Forall_impl; [|exact F1]. intros f. apply of_drop_more, K2.
Qed.
#[export] Instance gv_sees : sees gv_rel [Fdlvs; Fout].
Proof.
  intros s s' H. assert (E1 := H Fdlvs eq_refl). assert (E2 := H Fout eq_refl). cbn [same] in *.
  split; [intros i x E; rewrite E1; exists x; auto|]. exists []. rewrite app_nil_r. auto.
Qed.
#[export] Instance gv_post f s : no_disp f -> stable gv_rel s (post f s).
Proof.
  intros N. split; [intros i x E; exists x; auto|]. exists [f]. split; [reflexivity|]. constructor; [|constructor]. intros D. destruct (N D).
Qed.
#[export] Instance gv_transfer mfs h id tag body st fmt s : stable gv_rel s (post_all (transfer_frames mfs h id tag body st fmt) s).
Proof.
  destruct (po_transfers mfs h id tag body st fmt s) as (fs & E & F). split; [intros i x Ex; exists x; frw; auto|].
  exists fs. split; [exact E|]. eapply Forall_impl; [|exact F]. intros f M D. cbn beta in M. rewrite D in M. discriminate M.
Qed.
Lemma gv_upd : forall a f s, (forall x, dlv_ids (f x) = dlv_ids x /\ (dl_alive x = false -> dl_alive (f x) = false)) -> stable gv_rel s (upd_dlv a f s).
Proof.
  intros a f s H. split.
  - intros i x E. rewrite nth_upd_dlv, E. destruct (Nat.eqb a i); cbn [option_map]; [exists (f x)|exists x]; auto.
  - exists []. rewrite app_nil_r. frw. auto.
Qed.
#[export] Hint Extern 1 (stable gv_rel ?s (upd_dlv ?a ?f ?s)) => solve [apply gv_upd; intros; split; [reflexivity|intros; solve [assumption|reflexivity]]] : typeclass_instances.
#[export] Instance gv_new x s : stable gv_rel s (set_s_dlvs (s_dlvs s ++ [x]) s).
Proof.
  split.
  - intros i y E. exists y. st_cbn. rewrite nth_error_app1 by (apply nth_lt in E; exact E). auto.
  - exists []. rewrite app_nil_r. auto.
Qed.
#[export] Instance gv_rel_dlv_drop i s : stable gv_rel s (dlv_drop i s).
Proof.
  unfold dlv_drop. destruct (nth_error (s_dlvs s) i) as [x|] eqn:E; [|apply stable_refl; exact _].
  destruct (dl_alive x) eqn:Al; cbn [negb]; [|apply stable_refl; exact _]. cbv zeta.
  set (s1 := upd_dlv i (set_dl_alive false) s).
  destruct (map_get (dl_id x) (unsettled (dl_sender x) s1)); [|unfold s1; exact _].
  destruct (dl_remote x || dl_local x)%bool; [unfold s1; st_chain|].
  assert (Ed : s_dlvs (del_unsettled (dl_sender x) (dl_id x) s1) = s_dlvs s1) by (frw; reflexivity).
  assert (Eo : s_out (del_unsettled (dl_sender x) (dl_id x) s1) = s_out s) by (unfold s1; frw; reflexivity).
  set (s2 := del_unsettled (dl_sender x) (dl_id x) s1) in *.
  assert (E1 : nth_error (s_dlvs s1) i = Some (set_dl_alive false x)) by (unfold s1; rewrite nth_upd_dlv, Nat.eqb_refl, E; reflexivity).
  split.
  - intros j y Ey. st_cbn. unfold post. st_cbn. rewrite Ed. unfold s1. rewrite nth_upd_dlv, Ey. destruct (Nat.eqb i j); cbn [option_map]; [exists (set_dl_alive false y)|exists y]; auto.
  - eexists. split; [unfold post; st_cbn; rewrite Eo; reflexivity|]. constructor; [|constructor]. intros _. exists i, (set_dl_alive false x).
    split; [unfold post; st_cbn; rewrite Ed; exact E1|]. split; [reflexivity|]. apply disp_same. reflexivity.
Qed.
