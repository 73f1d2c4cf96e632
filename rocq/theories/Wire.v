(** * What only the connection does to a session

    Apart from [Session::end] and the failure of the session, nothing that
    happens to a session sends a frame that begins or ends a session or closes
    the connection, and nothing changes its channels or its end. *)

From Coq Require Import ZifyBool ZifyNat ZifyN.
From Verif Require Export Connection Rel.
Import ListNotations.

Definition inner_frame (f : frame) : bool :=
  match f with FOpen _ | FBegin _ | FEnd _ | FClose _ | FEmpty => false | _ => true end.
Definition wire_rel (s s' : ses) : Prop :=
  s_id s' = s_id s /\ s_rchan s' = s_rchan s /\ s_local s' = s_local s /\ s_ended s' = s_ended s /\ s_ending s' = s_ending s /\
  s_error s' = s_error s /\ s_closed s' = s_closed s /\
  exists l, s_out s' = s_out s ++ l /\ forallb inner_frame l = true.
#[export] Instance wire_pre : preorder wire_rel.
Proof.
  split; [intros s; repeat apply conj; try reflexivity; exists []; rewrite app_nil_r; auto|].
  intros s s1 s2 (A1 & A2 & A3 & A4 & A5 & A6 & A7 & l1 & E1 & F1) (B1 & B2 & B3 & B4 & B5 & B6 & B7 & l2 & E2 & F2).
  repeat apply conj; try congruence. exists (l1 ++ l2).
  rewrite E2, E1, app_assoc, forallb_app, F1, F2. auto.
Qed.
#[export] Instance wire_sees : sees wire_rel [Fid; Frchan; Flocal; Fended; Fending; Ferror; Fclosed; Fout].
Proof.
  intros s s' H.
  assert (E1 := H Fid eq_refl). assert (E2 := H Frchan eq_refl). assert (E3 := H Flocal eq_refl). assert (E4 := H Fended eq_refl).
  assert (E5 := H Fending eq_refl). assert (E6 := H Ferror eq_refl). assert (E7 := H Fclosed eq_refl). assert (E8 := H Fout eq_refl). cbn [same] in *.
  repeat apply conj; try assumption. exists []. rewrite app_nil_r. auto.
Qed.
Class inner_f (f : frame) : Prop := get_inner_f : inner_frame f = true.
#[export] Hint Extern 1 (inner_f _) => reflexivity : typeclass_instances.
#[export] Instance wire_rel_post f s (N : inner_f f) : stable wire_rel s (post f s).
Proof. repeat apply conj; try reflexivity. exists [f]. split; [reflexivity|]. cbn. rewrite N. reflexivity. Qed.
Lemma wire_post_all : forall fs s, (forall f, In f fs -> inner_frame f = true) -> stable wire_rel s (post_all fs s).
Proof.
  induction fs as [|f fs IH]; intros s H; cbn [post_all fold_left]; [apply stable_refl; exact _|].
  eapply stable_trans; [exact _ | apply (wire_rel_post f), H; left; reflexivity | apply IH; intros g Hg; apply H; right; exact Hg].
Qed.
Lemma transfer_frames_are : forall mfs h id tag body st fm f, In f (transfer_frames mfs h id tag body st fm) -> exists t, f = FTransfer t.
Proof.
  assert (M : forall fuel max h fm body f, In f (more_frames fuel max h fm body) -> exists t, f = FTransfer t).
  { induction fuel as [|fuel IH]; intros max h fm body f H; [destruct H|]. cbn [more_frames] in H. destruct body; [destruct H|]. destruct H as [<-|H]; [eauto | exact (IH _ _ _ _ _ H)]. }
  intros mfs h id tag body st fm f H. unfold transfer_frames in H. cbv zeta in H.
  repeat match type of H with context [match ?x with _ => _ end] => destruct x end; cbn [In] in H; repeat (destruct H as [<-|H]; [eauto|]); try (destruct H; fail); eauto.
Qed.
#[export] Instance wire_rel_transmit t tk l tag s : stable wire_rel s (transmit t tk l tag s).
Proof.
  unfold transmit. cbv zeta. match goal with |- context [post_all ?fs ?x] => set (fr := fs); set (y := x) end.
  assert (P : stable wire_rel y (post_all fr y)). { apply wire_post_all. intros f Hf. apply transfer_frames_are in Hf as (t0 & ->). reflexivity. }
  assert (Q : stable wire_rel s y) by (unfold y; destruct (tk_settled tk); st_chain).
  clearbody fr y. eapply stable_trans; [exact _ | exact Q|]. eapply stable_trans; [exact _ | exact P|]. st_chain.
Qed.
