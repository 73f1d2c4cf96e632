(** * What flow frames tell about the session *)

From Coq Require Import ZifyBool ZifyNat ZifyN.
From Verif Require Export FlowStateRel SendTheorems.
Import ListNotations.

(** What a step posts: flow frames that tell the numbers of the session after it. *)
Definition posts (s s' : ses) : Prop :=
  exists l, s_out s' = s_out s ++ l /\ (forall g, In (FFlow g) l -> tells s' g)
  /\ ((exists g, In (FFlow g) l) -> transfers l = []).
Lemma rel_posts : forall s s', fst_rel s s' -> posts s s'.
Proof.
  intros s s' ((A & B & C & D) & l & E & F). exists l. split; [exact E|]. rewrite Forall_forall in F. split.
  - intros g Hg. apply F in Hg. change (told_frame s' (FFlow g)). eapply tells_same; [symmetry; exact A|symmetry; exact B|symmetry; exact C|symmetry; exact D|exact Hg].
  - intros _. unfold transfers. clear E. induction l as [|x l IH]; [reflexivity|]. cbn [flat_map].
    rewrite IH by (intros y Hy; apply F; right; exact Hy). assert (Z := F x (or_introl eq_refl)). destruct x; auto. destruct Z.
Qed.
Lemma handle_flow_posts : forall f o s, posts s (handle_flow f o s).
Proof.
  intros f o s. unfold handle_flow. cbv zeta. set (s1 := set_s_pending [] _).
  assert (Eo : s_out s1 = s_out s) by (unfold s1; frw; st_cbn; frw; reflexivity). clearbody s1.
  match goal with |- posts s (match o with Some a => apply_flow f a ?t | None => ?t end) => assert (P : posts s t) end.
  { destruct (flow_echo f).
    - eexists. unfold post at 1; st_cbn; rewrite Eo. split; [reflexivity|]. split.
      + intros g [E|[]]. injection E as <-. unfold tells, post. cbn. destruct (s_local s1); auto 10.
      + reflexivity.
    - exists []. rewrite app_nil_r. split; [exact Eo|]. split; [intros g [] | reflexivity]. }
  destruct o as [a|]; [|exact P].
  destruct P as (l & E & F & T). exists l. split; [frw; exact E|]. split; [|exact T].
  intros g Hg. apply F in Hg. unfold tells in *. frw. exact Hg.
Qed.

Lemma posts_after : forall s s1 s', fst_rel s1 s' -> s_out s1 = s_out s -> posts s s'.
Proof. intros s s1 s' R E. apply rel_posts in R. destruct R as (l & A & B). exists l. rewrite <- E. auto. Qed.
Lemma frame_posts : forall p f s s1 r, (forall x, f <> FFlow x) -> ses_handle_frame p f s = EOk (s1, r) -> stable fst_rel s s1.
Proof.
  intros p f s s1 r Nf H. unfold ses_handle_frame in H. destruct f; try (elim (Nf _ eq_refl)); st_er H.
Qed.
Lemma flow_frame_cases : forall p f s s1 r, ses_handle_frame p (FFlow f) s = EOk (s1, r) ->
  s1 = s /\ (s_error s <> None \/ for_sender f s = true) \/ s1 = handle_flow f None s /\ s_error s = None /\ for_sender f s = false.
Proof.
  intros p f s s1 r H. unfold ses_handle_frame in H. unfold for_sender.
  destruct (s_error s). { apply EOk_inj in H. apply (f_equal fst) in H. cbn [fst] in H. left. split; [congruence|left; discriminate]. }
  destruct (flow_handle f) as [h|]; [destruct (map_get h (s_rhandles s)) as [i|]; [destruct (slab_get (s_links s) i) as [[]|]|]|];
    apply EOk_inj in H; apply (f_equal fst) in H; cbn [fst] in H; auto.
Qed.
Lemma ctl_posts : forall p edit k s s', (forall f a, k <> KFlow f a) -> control_ok p edit k s = EOk s' -> stable fst_rel s s'.
Proof. intros p edit k s s' Nk H. unfold control_ok in H. destruct k; try (elim (Nk _ _ eq_refl)); st_er H. Qed.
Lemma step_posts : forall p e s s' os, step p e s = EOk (s', os) -> posts s s'.
Proof.
  intros p e s s' os H.
  destruct e; try solve [apply rel_posts; change (stable fst_rel s s'); cbn [step] in H; step_er H]; cbn [step] in H.
  - destruct (ses_handle_frame p f s) as [[s1 r]|] eqn:Eh; [|discriminate]. cbn [ebind] in H.
    apply EOk_inj in H; apply (f_equal fst) in H; cbn [fst] in H; subst s'.
    assert (D : posts s s1 -> posts s (match r with inl act => dispatch act s1 | inr _ => s1 end)).
    { intros (l & E & F & T). destruct r; [|exists l; auto]. exists l. split; [frw; exact E|]. split; [|exact T]. intros g Hg. apply F in Hg. unfold tells in *. frw. exact Hg. }
    apply D. destruct f; try (refine (rel_posts _ _ (frame_posts _ _ _ _ _ _ Eh)); discriminate).
    destruct (flow_frame_cases _ _ _ _ _ Eh) as [(-> & _)|(-> & _)]; [apply rel_posts; apply (pre_refl (R:=fst_rel)) | apply handle_flow_posts].
  - apply EOk_inj in H; apply (f_equal fst) in H; cbn [fst] in H; subst s'.
    destruct (poll_send_pstep t s) as [E|(tk & lk & st & auto & took & sent & tag & P)].
    { rewrite E. apply rel_posts; apply (pre_refl (R:=fst_rel)). }
    eexists. split; [exact (ps_out _ _ _ _ _ _ _ _ _ _ P)|]. destruct sent.
    + split; [intros g Hg | intros [g Hg]]; apply in_map_iff in Hg as (t0 & Z & _); discriminate Z.
    + split; [intros g [] | reflexivity].
  - destruct (nth_error (s_ctl s) i) as [[k|]|] eqn:Ei.
    2,3: apply EOk_inj in H; apply (f_equal fst) in H; cbn [fst] in H; subst s'; apply rel_posts; apply (pre_refl (R:=fst_rel)).
    unfold noobs, emap in H.
    destruct (control_ok p edit k (set_s_ctl (set_nth i None (s_ctl s)) s)) as [s1|] eqn:Ek; [|discriminate].
    cbn [ebind] in H. apply EOk_inj in H. apply (f_equal fst) in H; cbn [fst] in H; subst s1.
    destruct k; try (refine (posts_after _ _ _ (ctl_posts _ _ _ _ _ _ Ek) eq_refl); discriminate).
    cbn [control_ok] in Ek. apply EOk_inj in Ek. subst s'. set (s1 := set_s_ctl _ s).
    assert (E1 : s_out s1 = s_out s) by reflexivity. destruct (handle_flow_posts f (Some a) s1) as (l & E & B). exists l. rewrite <- E1. auto.
Qed.
Lemma handle_flow_nin : forall f lnk s, s_nin (handle_flow f lnk s) = flow_next_outgoing_id f.
Proof.
  intros f lnk s. unfold handle_flow. cbv zeta.
  destruct lnk as [a|]; [frw|]; (destruct (flow_echo f); [frw|]); frw; reflexivity.
Qed.
Lemma step_nin : forall p e s s' os, step p e s = EOk (s', os) ->
  s_nin s' = match flow_of e s with Some (f, _) => flow_next_outgoing_id f | None => s_nin s end.
Proof.
  intros p e s s' os H. assert (F := step_framed _ _ _ _ _ H).
  destruct e; try solve [exact (F Fnin eq_refl)]; clear F; cbn [step flow_of] in *.
  - destruct (ses_handle_frame p f s) as [[s1 r]|] eqn:Eh; [|discriminate]. cbn [ebind] in H.
    apply EOk_inj in H; apply (f_equal fst) in H; cbn [fst] in H; subst s'.
    assert (E1 : s_nin (match r with inl act => dispatch act s1 | inr _ => s1 end) = s_nin s1).
    { destruct r; [frw|]; reflexivity. }
    rewrite E1. clear E1. destruct f; try (refine (proj1 (proj2 (proj1 (frame_posts _ _ _ _ _ _ Eh)))); discriminate).
    destruct (flow_frame_cases _ _ _ _ _ Eh) as [(-> & [N|N])|(-> & Er & N)].
    + destruct (s_error s); [reflexivity|congruence].
    + destruct (s_error s); [reflexivity|]. rewrite N. reflexivity.
    + rewrite Er, N. apply handle_flow_nin.
  - destruct (nth_error (s_ctl s) i) as [[k|]|] eqn:Ei.
    2,3: apply EOk_inj in H; apply (f_equal fst) in H; cbn [fst] in H; subst s'; reflexivity.
    unfold noobs, emap in H.
    destruct (control_ok p edit k (set_s_ctl (set_nth i None (s_ctl s)) s)) as [s1|] eqn:Ek; [|discriminate].
    cbn [ebind] in H. apply EOk_inj in H. apply (f_equal fst) in H; cbn [fst] in H; subst s1.
    destruct k; try (refine (proj1 (proj2 (proj1 (ctl_posts _ _ _ _ _ _ Ek)))); discriminate).
    cbn [control_ok] in Ek. apply EOk_inj in Ek. subst s'. apply handle_flow_nin.
Qed.

Lemma flows_app : forall p e evs s s1 os, run p evs s = EOk (s1, os) ->
  flows p (evs ++ [e]) s = flows p evs s ++ match flow_of e s1 with Some x => [x] | None => [] end.
Proof.
  intros p e. induction evs as [|x evs IH]; intros s s1 os H.
  - cbn [run] in H. apply EOk_inj in H. apply (f_equal fst) in H. cbn [fst] in H. subst s1. cbn [app flows].
    destruct (step p e s) as [[]|]; rewrite app_nil_r; reflexivity.
  - cbn [run] in H. destruct (step p x s) as [[s2 o]|] eqn:E; [|discriminate]. cbn [ebind] in H.
    destruct (run p evs s2) as [[s3 o3]|] eqn:E3; [|discriminate]. cbn [ebind] in H. apply EOk_inj in H. apply (f_equal fst) in H. cbn [fst] in H. subst s3.
    cbn [app flows]. rewrite E, (IH _ _ _ E3), app_assoc. reflexivity.
Qed.
Lemma run_nin : forall p evs s s1 os, run p evs s = EOk (s1, os) ->
  s_nin s1 = last (map (fun x => flow_next_outgoing_id (fst x)) (flows p evs s)) (s_nin s).
Proof.
  intros p. induction evs as [|x evs IH]; intros s s1 os H.
  - cbn [run] in H. apply EOk_inj in H. apply (f_equal fst) in H. cbn [fst] in H. subst s1. reflexivity.
  - cbn [run] in H. destruct (step p x s) as [[s2 o]|] eqn:E; [|discriminate]. cbn [ebind] in H.
    destruct (run p evs s2) as [[s3 o3]|] eqn:E3; [|discriminate]. cbn [ebind] in H. apply EOk_inj in H. apply (f_equal fst) in H. cbn [fst] in H. subst s3.
    cbn [flows]. rewrite E, (IH _ _ _ E3), map_app, (step_nin _ _ _ _ _ E), last_app2. f_equal.
    destruct (flow_of x s) as [[]|]; reflexivity.
Qed.
Lemma reachable_nout : forall p s, reachable p s -> s_nout s = (1 + N.of_nat (length (delivery_ids (s_out s)))) mod 2 ^ 32.
Proof.
  intros p s H. destruct (wire_reachable _ _ H) as (order & ND & Nn & Ti & gs & C & L & G). rewrite Nn. change two32 with (2 ^ 32). f_equal.
  rewrite N.add_comm. f_equal. f_equal. rewrite <- L. unfold delivery_ids. rewrite C.
  change (flat_map _ (concat gs)) with (ts_ids (concat gs)). rewrite (concat_ids _ (fun k => (N.of_nat k + 1) mod 2 ^ 32)); [rewrite map_length, seq_length; reflexivity|].
  intros k g Eg. destruct (nth_error order k) as [t|] eqn:Ek.
  - destruct (G _ _ _ Ek Eg) as (tk & l & i & d & _ & _ & _ & _ & Hi & _ & _ & ->). rewrite delivery_ts_ids, Hi. reflexivity.
  - apply nth_error_None in Ek. apply nth_lt in Eg. lia.
Qed.
