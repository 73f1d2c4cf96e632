(** * What flow frames tell about the session: the relation *)

From Coq Require Import ZifyBool ZifyNat ZifyN.
From Verif Require Export EchoTheorems WindowProofs.
Import ListNotations.

(** The frame tells the numbers of this session. *)
Definition tells (s : ses) (f : flow_t) : Prop :=
  flow_next_outgoing_id f = s_nout s /\ flow_incoming_window f = two32 - 1 /\ flow_outgoing_window f = s_iwin s
  /\ (flow_next_incoming_id f = Some (s_nin s)
      \/ flow_next_incoming_id f = None /\ flow_handle f = None /\ s_local s = false).
Definition told_frame (s : ses) (f : frame) : Prop :=
  match f with FFlow f => tells s f | FTransfer _ => False | _ => True end.
Definition fst_rel (s s' : ses) : Prop :=
  (s_nout s' = s_nout s /\ s_nin s' = s_nin s /\ s_iwin s' = s_iwin s /\ s_local s' = s_local s)
  /\ exists l, s_out s' = s_out s ++ l /\ Forall (told_frame s) l.
Lemma tells_same s s' f : s_nout s' = s_nout s -> s_nin s' = s_nin s -> s_iwin s' = s_iwin s -> s_local s' = s_local s -> told_frame s' f -> told_frame s f.
Proof. intros A B C D. destruct f; cbn [told_frame]; auto. unfold tells. rewrite A, B, C, D. auto. Qed.
#[export] Instance fst_pre : preorder fst_rel.
Proof.
  split; [intros s; split; [auto|exists []; rewrite app_nil_r; auto]|].
  intros s s1 s2 ((A & B & C & D) & l1 & E1 & F1) ((A' & B' & C' & D') & l2 & E2 & F2).
  split; [repeat apply conj; congruence|]. exists (l1 ++ l2). split; [rewrite E2, E1, app_assoc; reflexivity|].
  apply Forall_app. split; [exact F1|]. eapply Forall_impl; [|exact F2]. intros f. apply tells_same; assumption.
Qed.
#[export] Instance fst_sees : sees fst_rel [Fout; Fnout; Fnin; Fiwin; Flocal].
Proof.
  intros s s' H. assert (E := H Fout eq_refl). assert (A := H Fnout eq_refl). assert (B := H Fnin eq_refl). assert (C := H Fiwin eq_refl). assert (D := H Flocal eq_refl).
  cbn [same] in *. split; [auto|]. exists []. rewrite app_nil_r. auto.
Qed.
Class plain_frame (f : frame) : Prop := get_plain_frame : forall s, told_frame s f.
#[export] Hint Extern 1 (plain_frame _) => (intros ?; exact I) : typeclass_instances.
#[export] Instance fst_rel_post f s (N : plain_frame f) : stable fst_rel s (post f s).
Proof. split; [auto|]. exists [f]. split; [reflexivity|]. constructor; [apply N|constructor]. Qed.
#[export] Instance fst_rel_rcv_link_flow h dc c s : stable fst_rel s (rcv_link_flow h dc c s).
Proof.
  split; [auto|]. eexists. split; [reflexivity|]. constructor; [|constructor]. unfold told_frame, tells. cbn. auto.
Qed.
