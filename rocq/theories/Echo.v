(** * No flow frame of this side asks for an answer *)

From Coq Require Import ZifyBool ZifyNat ZifyN.
From Verif Require Export SettleTheorems.
Import ListNotations.

Definition asks_echo (f : frame) : bool := match f with FFlow g => flow_echo g | _ => false end.
Definition echo_rel (s s' : ses) : Prop := exists l, s_out s' = s_out s ++ l /\ forallb (fun f => negb (asks_echo f)) l = true.
#[export] Instance echo_pre : preorder echo_rel.
Proof.
  split; [intros s; exists []; rewrite app_nil_r; auto|]. intros s s1 s2 (l1 & E1 & F1) (l2 & E2 & F2). exists (l1 ++ l2).
  rewrite E2, E1, app_assoc, forallb_app, F1, F2. auto.
Qed.
#[export] Instance echo_sees : sees echo_rel [Fout].
Proof. intros s s' H. assert (E := H Fout eq_refl). cbn [same] in E. exists []. rewrite app_nil_r. auto. Qed.
Class no_echo (f : frame) : Prop := get_no_echo : asks_echo f = false.
#[export] Hint Extern 1 (no_echo _) => reflexivity : typeclass_instances.
#[export] Instance echo_rel_post f s (N : no_echo f) : stable echo_rel s (post f s).
Proof. exists [f]. split; [reflexivity|]. cbn. rewrite N. reflexivity. Qed.
Lemma echo_post_all : forall fs s, (forall f, In f fs -> asks_echo f = false) -> stable echo_rel s (post_all fs s).
Proof.
  induction fs as [|f fs IH]; intros s H; cbn [post_all fold_left]; [apply stable_refl; exact _|].
  eapply stable_trans; [exact _ | apply (echo_rel_post f), H; left; reflexivity | apply IH; intros g Hg; apply H; right; exact Hg].
Qed.
Lemma transfer_frames_kind : forall mfs h id tag body st fm f, In f (transfer_frames mfs h id tag body st fm) -> exists t, f = FTransfer t.
Proof.
  assert (M : forall fuel max h fm body f, In f (more_frames fuel max h fm body) -> exists t, f = FTransfer t).
  { induction fuel as [|fuel IH]; intros max h fm body f H; [destruct H|]. cbn [more_frames] in H. destruct body; [destruct H|]. destruct H as [<-|H]; [eauto | exact (IH _ _ _ _ _ H)]. }
  intros mfs h id tag body st fm f H. unfold transfer_frames in H. cbv zeta in H.
  repeat match type of H with context [match ?x with _ => _ end] => destruct x end; cbn [In] in H; repeat (destruct H as [<-|H]; [eauto|]); try (destruct H; fail); eauto.
Qed.
#[export] Instance echo_rel_transmit t tk l tag s : stable echo_rel s (transmit t tk l tag s).
Proof.
  unfold transmit. cbv zeta. match goal with |- context [post_all ?fs ?x] => set (fr := fs); set (y := x) end.
  assert (P : stable echo_rel y (post_all fr y)). { apply echo_post_all. intros f Hf. apply transfer_frames_kind in Hf as (t0 & ->). reflexivity. }
  assert (Q : stable echo_rel s y) by (unfold y; destruct (tk_settled tk); st_chain).
  clearbody fr y. eapply stable_trans; [exact _ | exact Q|]. eapply stable_trans; [exact _ | exact P|]. st_chain.
Qed.
