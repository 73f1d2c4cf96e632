(** * Proofs about connections *)

From Coq Require Import ZifyBool ZifyNat ZifyN.
From Verif Require Export ConnInv SpecConnection.
Import ListNotations.

(** ** Every session of a connection is a session *)
Definition ses_go (p : profile) (ss ss' : list ses) : Prop :=
  forall a s, nth_error ss a = Some s -> exists evs os s', run p evs s = EOk (s', os) /\ nth_error ss' a = Some s'.
Lemma ses_run_app : forall p evs1 evs2 s s1 s2 os1 os2, run p evs1 s = EOk (s1, os1) -> run p evs2 s1 = EOk (s2, os2) -> run p (evs1 ++ evs2) s = EOk (s2, os1 ++ os2).
Proof.
  induction evs1 as [|e evs1 IH]; intros evs2 s s1 s2 os1 os2 H1 H2; cbn [run app] in *.
  - apply EOk_inj in H1. assert (s1 = s /\ os1 = []) as [-> ->] by (split; congruence). exact H2.
  - destruct (step p e s) as [[x o]|]; [|discriminate]. cbn [ebind] in *. destruct (run p evs1 x) as [[y o']|] eqn:E; [|discriminate]. cbn [ebind] in H1.
    apply EOk_inj in H1. assert (s1 = y /\ os1 = o ++ o') as [-> ->] by (split; congruence). rewrite (IH _ _ _ _ _ _ E H2). cbn [ebind]. rewrite app_assoc. reflexivity.
Qed.
Lemma ses_go_refl : forall p ss, ses_go p ss ss.
Proof. intros p ss a s H. exists [], [], s. split; [reflexivity | exact H]. Qed.
Lemma ses_go_trans : forall p x y z, ses_go p x y -> ses_go p y z -> ses_go p x z.
Proof.
  intros p x y z H1 H2 a s H. destruct (H1 _ _ H) as (e1 & o1 & s1 & R1 & E1). destruct (H2 _ _ E1) as (e2 & o2 & s2 & R2 & E2).
  exists (e1 ++ e2), (o1 ++ o2), s2. split; [exact (ses_run_app _ _ _ _ _ _ _ _ R1 R2) | exact E2].
Qed.
Lemma ses_go_set : forall p a s e s' os ss, nth_error ss a = Some s -> step p e s = EOk (s', os) -> ses_go p ss (set_nth a s' ss).
Proof.
  intros p a s e s' os ss E H b x Hx. rewrite nth_set_nth. destruct (Nat.eqb_spec a b) as [<-|].
  - rewrite E. replace x with s by congruence. exists [e], (os ++ []), s'. split; [|reflexivity]. cbn [run]. rewrite H. reflexivity.
  - exists [], [], x. split; [reflexivity | exact Hx].
Qed.
Lemma ses_go_add : forall p ss s, ses_go p ss (ss ++ [s]).
Proof.
  intros p ss s a x H. exists [], [], x. split; [reflexivity|]. rewrite nth_error_app1; [exact H | eapply nth_lt; eauto].
Qed.
Lemma fail_slots_go : forall p e sls ss, ses_go p ss (fold_left (fail_slot e) sls ss).
Proof.
  induction sls as [|sl sls IH]; intros ss; cbn [fold_left]; [apply ses_go_refl|]. eapply ses_go_trans; [|apply IH].
  destruct sl as [i|a|a]; cbn [fail_slot]; try apply ses_go_refl. destruct (nth_error ss a) as [s|] eqn:E; [|apply ses_go_refl].
  apply (ses_go_set p a s (EvFail e) _ [] ss E). reflexivity.
Qed.
Lemma forget_sess : forall ch c, c_sess (forget ch c) = c_sess c.
Proof. intros ch c. unfold forget. destruct (map_get ch (c_map c)); reflexivity. Qed.
Lemma frame_go : forall p ch f c c' os, CI c -> conn_frame p ch f c = EOk (c', os) -> ses_go p (c_sess c) (c_sess c').
Proof.
  intros p ch f c c' os C H. destruct (plain f) eqn:P.
  - destruct (c_error c) as [e|] eqn:Er.
    { assert (c' = c) as ->; [|apply ses_go_refl]. unfold conn_frame in H. rewrite Er in H. destruct f; try discriminate P; apply EOk_inj in H; congruence. }
    destruct (frame_cases _ _ _ _ _ _ H P Er) as [(-> & _)|[(k & i & _ & _ & -> & _)|[(k & a & Em & Ha & Na)|[(k & a & s & Em & Es & Ea & X)|(k & a & s & Em & Es & Ea & X)]]]]; try apply ses_go_refl.
    + destruct (ci_slot c C _ _ Ha) as (s & Es & _). congruence.
    + destruct f; try discriminate P; try (destruct X as (s' & r & X & _ & -> & _); exact (ses_go_set _ _ _ _ _ _ _ Ea X)).
      * destruct X as [-> _]. apply (ses_go_set p a s (EvAttach x) _ [] _ Ea). reflexivity.
      * destruct X as [-> _]. cbn [cpost set_c_out c_sess]. rewrite forget_sess. apply (ses_go_set p a s (EvFail (ESessionEnded (end_error x))) _ [] _ Ea). reflexivity.
    + assert (X' : (exists en, f = FEnd en /\ c' = forget ch (put_ses a s (ses_set_error (ESessionEnded (end_error en)) s) c)) \/ c' = c) by (destruct f; try discriminate P; destruct X as [X _]; eauto).
      destruct X' as [(en & -> & ->)| ->]; [|apply ses_go_refl]. rewrite forget_sess. apply (ses_go_set p a s (EvFail (ESessionEnded (end_error en))) _ [] _ Ea). reflexivity.
  - destruct f; try discriminate P; cbn [conn_frame] in H.
    + destruct (begin_remote_channel x) as [n|]; apply EOk_inj in H; apply (f_equal fst) in H; cbn [fst] in H; subst c'.
      * unfold complete_session. destruct (slab_get (c_slots c) n) as [[i|a|a]|]; try apply ses_go_refl. apply ses_go_add.
      * apply ses_go_add.
    + destruct (c_state c); apply EOk_inj in H; apply (f_equal fst) in H; cbn [fst] in H; subst c'; apply fail_slots_go.
    + apply EOk_inj in H. assert (c' = c) as -> by congruence. apply ses_go_refl.
Qed.
Lemma step_go : forall p e c c' os, CI c -> cstep p e c = EOk (c', os) -> ses_go p (c_sess c) (c_sess c').
Proof.
  intros p e c c' os C H. destruct e; cbn [cstep] in H;
    try (apply EOk_inj in H; apply (f_equal fst) in H; cbn [fst] in H; subst c').
  - exact (frame_go _ _ _ _ _ _ C H).
  - destruct (nth_error (c_sess c) a) as [s|] eqn:Ea; [|apply EOk_inj in H; assert (c' = c) as -> by congruence; apply ses_go_refl].
    destruct (own_event e); [|apply EOk_inj in H; assert (c' = c) as -> by congruence; apply ses_go_refl].
    apply ses_event_inv in H as (s' & o & Es & -> & _). exact (ses_go_set _ _ _ _ _ _ _ Ea Es).
  - unfold conn_end. destruct (nth_error (c_sess c) a) as [s|] eqn:Ea; [|apply ses_go_refl].
    assert (X : ses_go p (c_sess c) (set_nth a (ses_end s) (c_sess c))) by (apply (ses_go_set p a s EvEnd _ [] _ Ea); reflexivity).
    destruct (s_ended s || s_ending s); [exact X|]. unfold close_session. destruct (slab_get (c_slots c) (s_rchan s)) as [[]|]; exact X.
  - unfold open_session. destruct (c_error c); [apply ses_go_refl|]. destruct (c_chmax c <=? slab_key (c_slots c)); apply ses_go_refl.
  - destruct (nth_error (c_opens c) i) as [[]|]; apply ses_go_refl.
  - unfold conn_close, io_close. cbn. destruct (c_io c); apply ses_go_refl.
  - unfold conn_force_close, io_close. cbn. destruct (c_io c); apply fail_slots_go.
  - apply ses_go_refl.
  - apply ses_go_refl.
  - destruct (nth_error (c_ctl c) i) as [[[e|]|]|]; try apply ses_go_refl; apply fail_slots_go.
  - destruct (c_failed c); [|apply ses_go_refl]. unfold conn_close, io_close. cbn. destruct (c_io c); apply ses_go_refl.
  - unfold conn_close, io_close. cbn. destruct (c_io c); apply ses_go_refl.
  - apply ses_go_refl.
  - apply fail_slots_go.
Qed.
Definition ses_grow (ss ss' : list ses) : Prop :=
  length ss' = length ss \/ exists id local ch mfs b, ss' = ss ++ [ses_new id local ch mfs b].
Lemma fail_slots_len : forall e sls ss, length (fold_left (fail_slot e) sls ss) = length ss.
Proof. intros e sls ss. exact (proj1 (fail_slots_same e sls ss)). Qed.
Lemma frame_grow : forall p ch f c c' os, CI c -> conn_frame p ch f c = EOk (c', os) -> ses_grow (c_sess c) (c_sess c').
Proof.
  intros p ch f c c' os C H. destruct (plain f) eqn:P.
  - left. destruct (c_error c) as [e|] eqn:Er.
    { assert (c' = c) as ->; [|reflexivity]. unfold conn_frame in H. rewrite Er in H. destruct f; try discriminate P; apply EOk_inj in H; congruence. }
    destruct (frame_cases _ _ _ _ _ _ H P Er) as [(-> & _)|[(k & i & _ & _ & -> & _)|[(k & a & Em & Ha & Na)|[(k & a & s & Em & Es & Ea & X)|(k & a & s & Em & Es & Ea & X)]]]]; try reflexivity.
    + destruct (ci_slot c C _ _ Ha) as (s & Es & _). congruence.
    + destruct f; try discriminate P; try (destruct X as (s' & r & X & _ & -> & _); apply set_nth_length).
      * destruct X as [-> _]. apply set_nth_length.
      * destruct X as [-> _]. cbn [cpost set_c_out c_sess]. rewrite forget_sess. apply set_nth_length.
    + assert (X' : (exists en, f = FEnd en /\ c' = forget ch (put_ses a s (ses_set_error (ESessionEnded (end_error en)) s) c)) \/ c' = c) by (destruct f; try discriminate P; destruct X as [X _]; eauto).
      destruct X' as [(en & -> & ->)| ->]; [|reflexivity]. rewrite forget_sess. apply set_nth_length.
  - destruct f; try discriminate P; cbn [conn_frame] in H.
    + destruct (begin_remote_channel x) as [n|]; apply EOk_inj in H; apply (f_equal fst) in H; cbn [fst] in H; subst c'.
      * unfold complete_session. destruct (slab_get (c_slots c) n) as [[i|a|a]|]; try (left; reflexivity). right. do 5 eexists. reflexivity.
      * right. do 5 eexists. reflexivity.
    + left. destruct (c_state c); apply EOk_inj in H; apply (f_equal fst) in H; cbn [fst] in H; subst c'; apply fail_slots_len.
    + left. apply EOk_inj in H. assert (c' = c) as -> by congruence. reflexivity.
Qed.
Lemma step_grow : forall p e c c' os, CI c -> cstep p e c = EOk (c', os) -> ses_grow (c_sess c) (c_sess c').
Proof.
  intros p e c c' os C H. destruct e; cbn [cstep] in H;
    try (apply EOk_inj in H; apply (f_equal fst) in H; cbn [fst] in H; subst c').
  - exact (frame_grow _ _ _ _ _ _ C H).
  - left. destruct (nth_error (c_sess c) a) as [s|] eqn:Ea; [|apply EOk_inj in H; assert (c' = c) as -> by congruence; reflexivity].
    destruct (own_event e); [|apply EOk_inj in H; assert (c' = c) as -> by congruence; reflexivity].
    apply ses_event_inv in H as (s' & o & Es & -> & _). apply set_nth_length.
  - left. unfold conn_end. destruct (nth_error (c_sess c) a) as [s|] eqn:Ea; [|reflexivity].
    destruct (s_ended s || s_ending s); [apply set_nth_length|]. unfold close_session. destruct (slab_get (c_slots c) (s_rchan s)) as [[]|]; apply set_nth_length.
  - left. unfold open_session. destruct (c_error c); [reflexivity|]. destruct (c_chmax c <=? slab_key (c_slots c)); reflexivity.
  - left. destruct (nth_error (c_opens c) i) as [[]|]; reflexivity.
  - left. unfold conn_close, io_close. cbn. destruct (c_io c); reflexivity.
  - left. unfold conn_force_close, io_close. cbn. destruct (c_io c); apply fail_slots_len.
  - left. reflexivity.
  - left. reflexivity.
  - left. destruct (nth_error (c_ctl c) i) as [[[e|]|]|]; try reflexivity; apply fail_slots_len.
  - left. destruct (c_failed c); [|reflexivity]. unfold conn_close, io_close. cbn. destruct (c_io c); reflexivity.
  - left. unfold conn_close, io_close. cbn. destruct (c_io c); reflexivity.
  - left. reflexivity.
  - left. apply fail_slots_len.
Qed.
Lemma sessions_reachable : forall p c a s, creachable p c -> nth_error (c_sess c) a = Some s -> reachable p s.
Proof.
  intros p c a s (chmax & mfs & evs & os & _ & H) E.
  assert (X : CI c /\ forall a s, nth_error (c_sess c) a = Some s -> reachable p s).
  { refine (crun_ind (fun c => CI c /\ forall a s, nth_error (c_sess c) a = Some s -> reachable p s) p _ _ _ _ _ _ H).
    - clear. intros e c c' os [C R] H. split; [exact (CI_step _ _ _ _ _ C H)|]. intros a s' E.
      assert (Old : forall x, nth_error (c_sess c) a = Some x -> reachable p s').
      { intros x Ex. destruct (step_go _ _ _ _ _ C H _ _ Ex) as (evs & os' & y & Ry & Ey). replace s' with y by congruence.
        destruct (R _ _ Ex) as (id & l & rc & m & b & evs0 & os0 & R0). exists id, l, rc, m, b, (evs0 ++ evs), (os0 ++ os'). exact (ses_run_app _ _ _ _ _ _ _ _ R0 Ry). }
      destruct (nth_error (c_sess c) a) as [x|] eqn:Ex; [exact (Old x eq_refl)|]. apply nth_error_None in Ex. assert (L := nth_lt _ _ _ _ E).
      destruct (step_grow _ _ _ _ _ C H) as [L'|(id & l & ch & m & b & Eq)]; [lia|]. rewrite Eq, app_length in L. cbn [length] in L. rewrite Eq, nth_error_app2 in E by exact Ex.
      replace (a - length (c_sess c))%nat with 0%nat in E by lia. cbn in E. apply Some_inj in E. subst s'. exists id, l, ch, m, b, [], []. reflexivity.
    - split; [apply CI_new|]. intros [|n] x Hx; discriminate Hx. }
  exact (proj2 X a s E).
Qed.

(** ** Failure *)
Lemma set_error_error : forall e c, c_error (conn_set_error e c) = match c_error c with Some x => Some x | None => Some e end.
Proof. reflexivity. Qed.
Lemma forget_error : forall ch c, c_error (forget ch c) = c_error c.
Proof. intros ch c. unfold forget. destruct (map_get ch (c_map c)); reflexivity. Qed.
Lemma close_error_kept : forall x c c' (os : list cobs) e, c_error c = Some e ->
  match c_state c with
  | CsClosing => EOk (conn_set_error EDisconnected c, [])
  | _ => EOk (ccontrol (KProtocolError (EClosed (close_error x))) (set_c_state CsRemoteClose (cpost 0 (FClose (mk_close None)) (conn_set_error (EClosed (close_error x)) c))), [])
  end = EOk (c', os) -> c_error c' = Some e.
Proof.
  intros x c c' os e Er H. assert (A := set_error_error EDisconnected c). assert (B := set_error_error (EClosed (close_error x)) c). rewrite Er in A, B.
  generalize dependent (conn_set_error (EClosed (close_error x)) c). generalize dependent (conn_set_error EDisconnected c).
  intros d A d' H B. destruct (c_state c); apply EOk_inj in H; apply (f_equal fst) in H; cbn [fst] in H; subst c'; [exact B|exact A|exact B|exact B].
Qed.
Lemma frame_error : forall p ch f c c' os e, c_error c = Some e -> conn_frame p ch f c = EOk (c', os) -> c_error c' = Some e.
Proof.
  intros p ch f c c' os e Er H. destruct (plain f) eqn:P.
  - assert (c' = c) as ->; [|exact Er]. unfold conn_frame in H. rewrite Er in H. destruct f; try discriminate P; apply EOk_inj in H; congruence.
  - destruct f; try discriminate P; cbn [conn_frame] in H.
    + destruct (begin_remote_channel x) as [n|]; apply EOk_inj in H; apply (f_equal fst) in H; cbn [fst] in H; subst c'; [|exact Er].
      unfold complete_session. destruct (slab_get (c_slots c) n) as [[]|]; exact Er.
    + exact (close_error_kept _ _ _ _ _ Er H).
    + apply EOk_inj in H. congruence.
Qed.
Lemma step_error : forall p ev c c' os e, c_error c = Some e -> cstep p ev c = EOk (c', os) -> c_error c' = Some e.
Proof.
  intros p ev c c' os e Er H. destruct ev; cbn [cstep] in H;
    try (apply EOk_inj in H; apply (f_equal fst) in H; cbn [fst] in H; subst c').
  - exact (frame_error _ _ _ _ _ _ _ Er H).
  - destruct (nth_error (c_sess c) a) as [s|] eqn:Ea; [|apply EOk_inj in H; congruence].
    destruct (own_event e0); [|apply EOk_inj in H; congruence]. apply ses_event_inv in H as (s' & o & Es & -> & _). exact Er.
  - unfold conn_end. destruct (nth_error (c_sess c) a) as [s|]; [|exact Er]. destruct (s_ended s || s_ending s); [exact Er|].
    unfold close_session. destruct (slab_get (c_slots c) (s_rchan s)) as [[]|]; exact Er.
  - unfold open_session. rewrite Er. exact Er.
  - destruct (nth_error (c_opens c) i) as [[]|]; exact Er.
  - unfold conn_close, io_close. cbn. destruct (c_io c); exact Er.
  - unfold conn_force_close. rewrite set_error_error. unfold io_close. cbn. destruct (c_io c); cbn; rewrite Er; reflexivity.
  - exact Er.
  - exact Er.
  - destruct (nth_error (c_ctl c) i) as [[[e'|]|]|]; try exact Er; cbn [set_c_failed c_error]; rewrite set_error_error; cbn; rewrite Er; reflexivity.
  - destruct (c_failed c); [|exact Er]. unfold conn_close, io_close. cbn. destruct (c_io c); exact Er.
  - unfold conn_close, io_close. cbn. destruct (c_io c); exact Er.
  - exact Er.
  - rewrite set_error_error, Er. reflexivity.
Qed.
Lemma run_error : forall p evs c c' os e, c_error c = Some e -> crun p evs c = EOk (c', os) -> c_error c' = Some e.
Proof.
  intros p evs c c' os e Er H. refine (crun_ind (fun c => c_error c = Some e) p _ _ _ _ _ Er H). intros ev x x' o Ex Hx. exact (step_error _ _ _ _ _ _ Ex Hx).
Qed.
Lemma CI_run : forall p evs c c' os, CI c -> crun p evs c = EOk (c', os) -> CI c'.
Proof. intros p evs c c' os C H. exact (crun_ind CI p (CI_step p) _ _ _ _ C H). Qed.
Lemma permanent : forall p c e evs c' os, creachable p c -> c_error c = Some e -> crun p evs c = EOk (c', os) ->
  c_error c' = Some e /\ is_opened c' = false /\ c_notified c' = true /\
  forall oc dc props, exists c2, cstep p (CvOpen oc dc props) c' = EOk (c2, []) /\
    nth_error (c_opens c2) (length (c_opens c')) = Some (ODone (inr e)) /\ c_out c2 = c_out c'.
Proof.
  intros p c e evs c' os R Er H. assert (E' := run_error _ _ _ _ _ _ Er H). assert (C := CI_run _ _ _ _ _ (CI_reachable _ _ R) H).
  repeat apply conj.
  - exact E'.
  - unfold is_opened. rewrite E'. destruct (c_state c'); reflexivity.
  - apply (ci_note c' C). congruence.
  - intros oc dc props. eexists. split; [reflexivity|]. unfold open_session. rewrite E'. cbn. split; [|reflexivity]. rewrite nth_error_app2, Nat.sub_diag by lia. reflexivity.
Qed.

(** A step that makes the connection fail is a call of [set_error]. *)
Definition quiet (c c0 : conn) : Prop :=
  c_slots c0 = c_slots c /\ c_sess c0 = c_sess c /\ c_opens c0 = c_opens c /\ c_error c0 = c_error c.
Definition tables (c c0 : conn) : Prop :=
  c_slots c0 = c_slots c /\ c_sess c0 = c_sess c /\ c_opens c0 = c_opens c /\ c_error c0 = c_error c.
Lemma closed_tables : forall k y f c, tables c (ccontrol k (set_c_state y (cpost 0 f c))).
Proof. intros k y f c. repeat apply conj; reflexivity. Qed.
Lemma close_frame : forall x c c' (os : list cobs), c_state c <> CsClosing ->
  match c_state c with
  | CsClosing => EOk (conn_set_error EDisconnected c, [])
  | _ => EOk (ccontrol (KProtocolError (EClosed (close_error x))) (set_c_state CsRemoteClose (cpost 0 (FClose (mk_close None)) (conn_set_error (EClosed (close_error x)) c))), [])
  end = EOk (c', os) -> exists y, c' = ccontrol (KProtocolError (EClosed (close_error x))) (set_c_state y (cpost 0 (FClose (mk_close None)) (conn_set_error (EClosed (close_error x)) c))) /\ y = CsRemoteClose.
Proof.
  intros x c c' os N H. exists CsRemoteClose. split; [|reflexivity]. generalize dependent (conn_set_error (EClosed (close_error x)) c). generalize (conn_set_error EDisconnected c).
  intros d d' H. destruct (c_state c); [| congruence | |]; apply EOk_inj in H; congruence.
Qed.
Lemma fails_tables : forall p ev x c c', CI c -> fails p ev x c c' -> exists c0, quiet c c0 /\ tables (conn_set_error x c0) c'.
Proof.
  intros p ev x c c' C (E0 & E1 & os & H).
  assert (NE : forall c1, c' = c1 -> c_error c1 = None -> False) by (intros c1 -> E; congruence).
  destruct ev; cbn [cstep] in H;
    try (apply EOk_inj in H; apply (f_equal fst) in H; cbn [fst] in H; symmetry in H).
  - destruct (plain f) eqn:P.
    + exfalso. destruct (frame_cases _ _ _ _ _ _ H P E0) as [(-> & _)|[(k & i & _ & _ & -> & _)|[(k & a & Em & Ha & Na)|[(k & a & s & Em & Es & Ea & X)|(k & a & s & Em & Es & Ea & X)]]]]; try congruence.
      * destruct (ci_slot c C _ _ Ha) as (s & Es & _). congruence.
      * destruct f; try discriminate P; try (destruct X as (s' & r & X & _ & -> & _); cbn in E1; congruence); destruct X as [-> _]; cbn [cpost set_c_out c_error] in E1; rewrite ?forget_error in E1; cbn in E1; congruence.
      * assert (X' : (exists en, f = FEnd en /\ c' = forget (as_u16 ch) (put_ses a s (ses_set_error (ESessionEnded (end_error en)) s) c)) \/ c' = c) by (destruct f; try discriminate P; destruct X as [X _]; eauto).
        destruct X' as [(en & -> & ->)| ->]; [|congruence]. rewrite forget_error in E1. cbn in E1. congruence.
    + destruct f; try discriminate P; cbn [conn_frame] in H.
      * exfalso. destruct (begin_remote_channel x0) as [n|]; apply EOk_inj in H; apply (f_equal fst) in H; cbn [fst] in H; symmetry in H; apply (NE _ H); [|exact E0].
        unfold complete_session. destruct (slab_get (c_slots c) n) as [[]|]; exact E0.
      * assert (X : x = EClosed (close_error x0) /\ tables (conn_set_error (EClosed (close_error x0)) c) c').
        { destruct (close_frame _ _ _ _ (ci_norm c C) H) as (y & -> & _). destruct (closed_tables (KProtocolError (EClosed (close_error x0))) y (FClose (mk_close None))
            (conn_set_error (EClosed (close_error x0)) c)) as (T1 & T2 & T3 & T4).
          split; [|repeat apply conj; assumption]. rewrite T4, set_error_error, E0 in E1. apply Some_inj in E1. congruence. }
        destruct X as [-> X]. exists c. split; [repeat apply conj; reflexivity | exact X].
      * exfalso. apply EOk_inj in H. congruence.
  - exfalso. destruct (nth_error (c_sess c) a) as [s|]; [|apply EOk_inj in H; congruence]. destruct (own_event e); [|apply EOk_inj in H; congruence].
    apply ses_event_inv in H as (s' & o & Es & -> & _). cbn in E1. congruence.
  - exfalso. apply (NE _ H). unfold conn_end. destruct (nth_error (c_sess c) a) as [s|]; [|exact E0]. destruct (s_ended s || s_ending s); [exact E0|].
    unfold close_session. destruct (slab_get (c_slots c) (s_rchan s)) as [[]|]; exact E0.
  - exfalso. apply (NE _ H). unfold open_session. rewrite E0. destruct (c_chmax c <=? slab_key (c_slots c)); exact E0.
  - exfalso. apply (NE _ H). destruct (nth_error (c_opens c) i) as [[]|]; exact E0.
  - exfalso. apply (NE _ H). unfold conn_close, io_close. cbn. destruct (c_io c); exact E0.
  - subst c'. unfold conn_force_close in *. rewrite set_error_error in E1.
    assert (Ec : c_error (io_close (set_c_state CsDrop c)) = None) by (unfold io_close; cbn; destruct (c_io c); exact E0). rewrite Ec in E1. apply Some_inj in E1. subst x.
    exists (io_close (set_c_state CsDrop c)). split; [unfold io_close; cbn; destruct (c_io c); repeat apply conj; reflexivity | repeat apply conj; reflexivity].
  - exfalso. exact (NE _ H E0).
  - exfalso. exact (NE _ H E0).
  - destruct (nth_error (c_ctl c) i) as [[[e|]|]|]; try (exfalso; exact (NE _ H E0)); subst c'.
    + cbn [set_c_failed c_error] in E1. rewrite set_error_error in E1. cbn [set_c_ctl c_error] in E1. rewrite E0 in E1. apply Some_inj in E1. subst x.
      exists (set_c_ctl (set_nth i None (c_ctl c)) c). split; repeat apply conj; reflexivity.
    + rewrite set_error_error in E1. cbn [set_c_ctl c_error] in E1. rewrite E0 in E1. apply Some_inj in E1. subst x.
      exists (set_c_ctl (set_nth i None (c_ctl c)) c). split; repeat apply conj; reflexivity.
  - exfalso. apply (NE _ H). destruct (c_failed c); [|exact E0]. unfold conn_close, io_close. cbn. destruct (c_io c); exact E0.
  - exfalso. apply (NE _ H). unfold conn_close, io_close. cbn. destruct (c_io c); exact E0.
  - exfalso. exact (NE _ H E0).
  - subst c'. rewrite set_error_error, E0 in E1. apply Some_inj in E1. subst x. exists c. split; repeat apply conj; reflexivity.
Qed.
Lemma fail_slots_other : forall e sls ss a, ~ In (CoEstablished a) sls -> nth_error (fold_left (fail_slot e) sls ss) a = nth_error ss a.
Proof.
  intros e sls. induction sls as [|sl sls IH]; intros ss a N; [reflexivity|]. cbn [fold_left]. rewrite IH by (intro X; apply N; right; exact X).
  destruct sl as [i|b|b]; cbn [fail_slot]; try reflexivity. destruct (nth_error ss b); [|reflexivity]. apply nth_set_nth_neq. intros ->. apply N. left. reflexivity.
Qed.
Lemma fail_slots_at : forall e l ss a s, nth_error ss a = Some s -> In (Some (CoEstablished a)) l ->
  (forall i j, nth_error l i = Some (Some (CoEstablished a)) -> nth_error l j = Some (Some (CoEstablished a)) -> i = j) ->
  nth_error (fold_left (fail_slot e) (somes l) ss) a = Some (ses_set_error e s).
Proof.
  intros e l. induction l as [|x l IH]; intros ss a s E Hin U; [contradiction|].
  assert (U' : forall i j, nth_error l i = Some (Some (CoEstablished a)) -> nth_error l j = Some (Some (CoEstablished a)) -> i = j).
  { intros i j Hi Hj. assert (X := U (Datatypes.S i) (Datatypes.S j) Hi Hj). congruence. }
  destruct x as [sl|]; cbn [somes].
  - cbn [fold_left]. destruct Hin as [Hx|Hin].
    + injection Hx as ->. cbn [fail_slot]. rewrite E. rewrite fail_slots_other.
      * exact (nth_set_nth_eq _ _ _ (ses_set_error e s) (nth_lt _ _ _ _ E)).
      * intros Hx. apply in_somes in Hx. apply In_nth_error in Hx as (j & Hj). discriminate (U 0%nat (Datatypes.S j) eq_refl Hj).
    + apply IH; [|exact Hin|exact U']. destruct sl as [i|b|b]; cbn [fail_slot]; try exact E. destruct (nth_error ss b) eqn:Eb; [|exact E].
      rewrite nth_set_nth_neq; [exact E|]. intros ->. apply In_nth_error in Hin as (j & Hj). discriminate (U 0%nat (Datatypes.S j) eq_refl Hj).
  - destruct Hin as [Hx|Hin]; [discriminate Hx|]. exact (IH ss a s E Hin U').
Qed.
Lemma items_get : forall A (s : slab A) i x, nth_error (sl_items s) i = Some (Some x) -> slab_get s (N.of_nat i) = Some x.
Proof. intros A s i x H. unfold slab_get. rewrite Nnat.Nat2N.id, H. reflexivity. Qed.
Lemma drop_slots_len : forall sls os, length (fold_left drop_slot sls os) = length os.
Proof.
  intros sls. induction sls as [|sl sls IH]; intros os; [reflexivity|]. cbn [fold_left]. rewrite IH. destruct sl as [i| |]; try reflexivity. cbn [drop_slot].
  destruct (nth_error os i) as [[]|]; try reflexivity. apply set_nth_length.
Qed.
Lemma drop_slots_same : forall sls os i o, nth_error os i = Some o -> o <> OWait -> nth_error (fold_left drop_slot sls os) i = Some o.
Proof.
  intros sls. induction sls as [|sl sls IH]; intros os i o E N; [exact E|]. cbn [fold_left]. apply IH; [|exact N]. destruct sl as [j| |]; try exact E. cbn [drop_slot].
  destruct (nth_error os j) as [[]|] eqn:Ej; try exact E. rewrite nth_set_nth_neq; [exact E|]. intros ->. congruence.
Qed.
Lemma drop_slots_done : forall sls os i, nth_error os i = Some OWait -> In (CoOpening i) sls ->
  nth_error (fold_left drop_slot sls os) i = Some (ODone (inr EDisconnected)).
Proof.
  intros sls. induction sls as [|sl sls IH]; intros os i E Hin; [contradiction|]. cbn [fold_left]. destruct sl as [j|j|j]; cbn [drop_slot];
    try (destruct Hin as [Hin|Hin]; [discriminate Hin | exact (IH _ _ E Hin)]).
  destruct Hin as [Hin|Hin].
  - injection Hin as ->. rewrite E. apply drop_slots_same; [|discriminate]. exact (nth_set_nth_eq _ _ _ _ (nth_lt _ _ _ _ E)).
  - destruct (Nat.eq_dec j i) as [->|Nj].
    + rewrite E. apply drop_slots_same; [|discriminate]. exact (nth_set_nth_eq _ _ _ _ (nth_lt _ _ _ _ E)).
    + apply IH; [|exact Hin]. destruct (nth_error os j) as [[]|]; try exact E. rewrite nth_set_nth_neq by exact Nj. exact E.
Qed.
Lemma failure_tells : forall p ev x c c', creachable p c -> fails p ev x c c' ->
  slab_values (c_slots c') = [] /\ c_notified c' = true
  /\ (forall i, nth_error (c_opens c) i = Some OWait -> nth_error (c_opens c') i = Some (ODone (inr EDisconnected)))
  /\ (forall k a s, slab_get (c_slots c) k = Some (CoEstablished a) -> nth_error (c_sess c) a = Some s ->
        exists s', nth_error (c_sess c') a = Some s' /\ step p (EvFail x) s = EOk (s', []))
  /\ (forall a s, nth_error (c_sess c) a = Some s -> (forall k, slab_get (c_slots c) k <> Some (CoEstablished a)) ->
        nth_error (c_sess c') a = Some s).
Proof.
  intros p ev x c c' R F. assert (C := CI_reachable _ _ R). destruct (fails_tables _ _ _ _ _ C F) as (c0 & (Q1 & Q2 & Q3 & Q4) & (T1 & T2 & T3 & T4)).
  assert (C' : CI c') by (destruct F as (_ & _ & os & H); exact (CI_step _ _ _ _ _ C H)).
  cbn [conn_set_error c_slots c_sess c_opens set_c_notified set_c_error set_c_map set_c_slots set_c_opens set_c_sess] in T1, T2, T3.
  rewrite Q1 in T2, T3. rewrite Q2 in T2. rewrite Q3 in T3. repeat apply conj.
  - rewrite T1. reflexivity.
  - apply (ci_note c' C'). destruct F as (_ & E1 & _). congruence.
  - intros i Ei. rewrite T3. apply drop_slots_done; [exact Ei|]. apply slab_values_get. exact (ci_wait c C i Ei).
  - intros k a s Ek Es. exists (ses_set_error x s). split; [|reflexivity]. rewrite T2. apply fail_slots_at; [exact Es| |].
    + apply in_somes. apply slab_values_get. exists k. exact Ek.
    + intros i j Hi Hj. apply items_get in Hi, Hj. assert (X := ses_at_fun _ _ _ _ C (or_introl Hi) (or_introl Hj)). lia.
  - intros a s Es N. rewrite T2, fail_slots_other; [exact Es|]. intros Hin. apply slab_values_get in Hin as (k & Hk). exact (N k Hk).
Qed.

(** ** No sessions after the failure *)
Lemma empty_slab : forall A (s : slab A), slab_values s = [] -> forall k, slab_get s k = None.
Proof. intros A s H k. destruct (slab_get s k) as [x|] eqn:E; [|reflexivity]. assert (X : In x (slab_values s)) by (apply slab_values_get; exists k; exact E). rewrite H in X. contradiction. Qed.
Lemma slab_empty : forall A (s : slab A), (forall k, slab_get s k = None) -> slab_values s = [].
Proof. intros A s H. destruct (slab_values s) as [|x l] eqn:E; [reflexivity|]. assert (X : In x (slab_values s)) by (rewrite E; left; reflexivity). apply slab_values_get in X as (k & Hk). rewrite H in Hk. discriminate Hk. Qed.
Lemma step_stays_empty : forall p ev c c' os, c_error c <> None -> slab_values (c_slots c) = [] -> peer_begins ev = false ->
  cstep p ev c = EOk (c', os) -> slab_values (c_slots c') = [].
Proof.
  intros p ev c c' os Er V B H. destruct (c_error c) as [e0|] eqn:E0; [clear Er|congruence]. assert (G := empty_slab _ _ V).
  assert (Same : forall c1, c' = c1 -> c_slots c1 = c_slots c -> slab_values (c_slots c') = []) by (intros c1 -> Q; rewrite Q; exact V).
  destruct ev; cbn [cstep] in H; try (apply EOk_inj in H; apply (f_equal fst) in H; cbn [fst] in H; symmetry in H).
  - destruct (plain f) eqn:P.
    + assert (c' = c) as ->; [|exact V]. unfold conn_frame in H. rewrite E0 in H. destruct f; try discriminate P; apply EOk_inj in H; congruence.
    + destruct f; try discriminate P; cbn [conn_frame] in H.
      * cbn [peer_begins] in B. destruct (begin_remote_channel x) as [n|]; [|discriminate B]. apply EOk_inj in H; apply (f_equal fst) in H; cbn [fst] in H; symmetry in H.
        apply (Same _ H). unfold complete_session. rewrite G. reflexivity.
      * destruct (c_state c); apply EOk_inj in H; apply (f_equal fst) in H; cbn [fst] in H; subst c'; reflexivity.
      * apply EOk_inj in H. assert (c' = c) as -> by congruence. exact V.
  - destruct (nth_error (c_sess c) a) as [s|]; [|apply EOk_inj in H; assert (c' = c) as -> by congruence; exact V]. destruct (own_event e); [|apply EOk_inj in H; assert (c' = c) as -> by congruence; exact V].
    apply ses_event_inv in H as (s' & o & Es & -> & _). exact V.
  - apply (Same _ H). unfold conn_end. destruct (nth_error (c_sess c) a) as [s|]; [|reflexivity]. destruct (s_ended s || s_ending s); [reflexivity|].
    unfold close_session. rewrite G. reflexivity.
  - apply (Same _ H). unfold open_session. rewrite E0. reflexivity.
  - apply (Same _ H). destruct (nth_error (c_opens c) i) as [[]|]; reflexivity.
  - apply (Same _ H). unfold conn_close, io_close. cbn. destruct (c_io c); reflexivity.
  - subst c'. reflexivity.
  - exact (Same _ H eq_refl).
  - exact (Same _ H eq_refl).
  - destruct (nth_error (c_ctl c) i) as [[[e|]|]|]; try (exact (Same _ H eq_refl)); subst c'; reflexivity.
  - apply (Same _ H). destruct (c_failed c); [|reflexivity]. unfold conn_close, io_close. cbn. destruct (c_io c); reflexivity.
  - apply (Same _ H). unfold conn_close, io_close. cbn. destruct (c_io c); reflexivity.
  - exact (Same _ H eq_refl).
  - subst c'. reflexivity.
Qed.
Lemma crun_cons : forall p e evs c c' os, crun p (e :: evs) c = EOk (c', os) ->
  exists c1 os1 os2, cstep p e c = EOk (c1, os1) /\ crun p evs c1 = EOk (c', os2) /\ os = os1 ++ os2.
Proof.
  intros p e evs c c' os H. cbn [crun] in H. destruct (cstep p e c) as [[c1 os1]|] eqn:E1; [|discriminate H]. cbn [ebind] in H.
  destruct (crun p evs c1) as [[c2 os2]|] eqn:E2; [|discriminate H]. cbn [ebind] in H. apply EOk_inj in H. exists c1, os1, os2. repeat split; congruence.
Qed.
Lemma crun_app : forall p evs1 evs2 c c1 c2 os1 os2, crun p evs1 c = EOk (c1, os1) -> crun p evs2 c1 = EOk (c2, os2) -> crun p (evs1 ++ evs2) c = EOk (c2, os1 ++ os2).
Proof.
  intros p evs1. induction evs1 as [|e evs1 IH]; intros evs2 c c1 c2 os1 os2 H1 H2.
  - cbn in H1. apply EOk_inj in H1. injection H1 as -> <-. exact H2.
  - apply crun_cons in H1 as (x & o1 & o2 & Hs & Hr & ->). cbn [app crun]. rewrite Hs. cbn [ebind]. rewrite (IH _ _ _ _ _ _ Hr H2). cbn [ebind]. rewrite app_assoc. reflexivity.
Qed.
Lemma no_sessions : forall p ev x c c1 evs c2 os, creachable p c -> fails p ev x c c1 -> crun p evs c1 = EOk (c2, os) ->
  forallb (fun e => negb (peer_begins e)) evs = true -> slab_values (c_slots c2) = [].
Proof.
  intros p ev x c c1 evs c2 os R F H B. assert (E : c_error c1 <> None) by (destruct F as (_ & E & _); congruence).
  assert (V := proj1 (failure_tells _ _ _ _ _ R F)). clear F R c. revert c1 os E V H. induction evs as [|e evs IH]; intros c1 os E V H.
  - cbn in H. apply EOk_inj in H. congruence.
  - cbn [forallb] in B. apply andb_prop in B as [B1 B2]. apply Bool.negb_true_iff in B1. apply crun_cons in H as (c3 & o1 & o2 & Hs & Hr & ->).
    apply (IH B2 c3 o2); [|exact (step_stays_empty _ _ _ _ _ E V B1 Hs)|exact Hr].
    destruct (c_error c1) as [y|] eqn:Ey; [|congruence]. rewrite (step_error _ _ _ _ _ _ Ey Hs). discriminate.
Qed.

(** ** Routing *)
Lemma last_newest : forall ch a c, last_begun ch a c <-> newest ch a (c_sess c).
Proof. reflexivity. Qed.
Lemma slab_table : forall c k a, in_table c k a <-> ses_at c k a.
Proof. reflexivity. Qed.
Lemma newest_or_none : forall ch ss, (exists a, newest ch a ss) \/ forall a s, nth_error ss a = Some s -> s_rchan s <> ch.
Proof.
  intros ch ss. induction ss as [|s ss IH] using rev_ind.
  - right. intros [|n] s H; discriminate H.
  - destruct (N.eq_dec (s_rchan s) ch) as [<-|N]; [left; exists (length ss); apply newest_end|]. destruct IH as [(a & Ha)|Hn].
    + left. exists a. apply newest_old; assumption.
    + right. intros a x H. destruct (Nat.lt_ge_cases a (length ss)) as [L|G].
      * rewrite nth_error_app1 in H by exact L. exact (Hn _ _ H).
      * rewrite nth_error_app2 in H by exact G. destruct (a - length ss)%nat as [|n]; cbn in H; [apply Some_inj in H; congruence | destruct n; discriminate H].
Qed.
Lemma routed : forall p ch f c c' os, creachable p c -> c_error c = None -> for_session f = true -> ch < two16 ->
  cstep p (CvFrame ch f) c = EOk (c', os) ->
  (exists a s, last_begun ch a c /\ nth_error (c_sess c) a = Some s /\ s_ended s = false
     /\ (forall b x, b <> a -> nth_error (c_sess c) b = Some x -> nth_error (c_sess c') b = Some x)
     /\ exists s', nth_error (c_sess c') a = Some s' /\ (takes p f s s' \/ ((exists k, slab_get (c_slots c) k = Some (CoClosing a)) /\ s' = s)))
  \/ ((forall a s, last_begun ch a c -> nth_error (c_sess c) a = Some s -> s_ended s = true) /\ c' = c /\ os = [ObErr (EUnknownSession f)]).
Proof.
  intros p ch f c c' os R Er P L H. assert (C := CI_reachable _ _ R). cbn [cstep] in H. unfold as_u16 in H. rewrite N.mod_small in H by exact L.
  assert (Put : forall a s, nth_error (c_sess c) a = Some s -> forall y, (forall b x, b <> a -> nth_error (c_sess c) b = Some x -> nth_error (set_nth a y (c_sess c)) b = Some x)
     /\ nth_error (set_nth a y (c_sess c)) a = Some y).
  { intros a s Ea y. split; [|exact (nth_set_nth_eq _ _ _ _ (nth_lt _ _ _ _ Ea))]. intros b x Nb Eb. rewrite nth_set_nth_neq by congruence. exact Eb. }
  assert (Find : forall k a s, map_get ch (c_map c) = Some k -> ses_at c k a -> nth_error (c_sess c) a = Some s -> last_begun ch a c /\ s_ended s = false).
  { intros k a s Em Ea Es. destruct (ci_map c C _ _ Em) as (a' & Ha' & Nw). rewrite <- (ses_at_key _ _ _ _ Ea Ha') in Nw. split; [exact Nw|].
    destruct (ci_slot c C _ _ Ea) as (s0 & Es0 & _ & D & _). congruence. }
  destruct (frame_cases _ _ _ _ _ _ H P Er) as [(-> & X & ->)|[(k & i & Em & Es & -> & ->)|[(k & a & Em & Ha & Na)|[(k & a & s & Em & Es & Ea & X)|(k & a & s & Em & Es & Ea & X)]]]].
  - right. split; [|split; reflexivity]. intros a s Nw Es. destruct (ci_ended c C _ _ Es) as [(k & Hk)|[D|D]]; [|exact D|congruence].
    exfalso. assert (Em := ci_last c C _ _ _ Hk Nw). destruct X as [X|(k' & X & Y)]; [congruence|]. assert (k' = k) by congruence. subst k'. destruct Hk; congruence.
  - exfalso. destruct (ci_map c C _ _ Em) as (a & [Ha|Ha] & _); congruence.
  - exfalso. destruct (ci_slot c C _ _ Ha) as (s & Es & _). congruence.
  - left. exists a, s. destruct (Find _ _ _ Em (or_introl Es) Ea) as [Nw D]. split; [exact Nw|]. split; [exact Ea|]. split; [exact D|].
    assert (Y : exists s', c_sess c' = set_nth a s' (c_sess c) /\ takes p f s s').
    { destruct f; try discriminate P; cbn [takes]; try (destruct X as (s' & r & X & _ & -> & _); exists s'; split; [reflexivity|exact X]).
      - destruct X as [-> _]. eexists. split; reflexivity.
      - destruct X as [-> _]. cbn [cpost set_c_out c_sess]. rewrite forget_sess. eexists. split; reflexivity. }
    destruct Y as (s' & -> & T). split; [exact (proj1 (Put _ _ Ea s'))|]. exists s'. split; [exact (proj2 (Put _ _ Ea s'))|]. left. exact T.
  - left. exists a, s. destruct (Find _ _ _ Em (or_intror Es) Ea) as [Nw D]. split; [exact Nw|]. split; [exact Ea|]. split; [exact D|].
    assert (Y : (exists s', c_sess c' = set_nth a s' (c_sess c) /\ takes p f s s') \/ c' = c).
    { destruct f; try discriminate P; cbn [takes]; try (destruct X as [-> _]; right; reflexivity).
      left. destruct X as [-> _]. rewrite forget_sess. eexists. split; reflexivity. }
    destruct Y as [(s' & -> & T)| ->].
    + split; [exact (proj1 (Put _ _ Ea s'))|]. exists s'. split; [exact (proj2 (Put _ _ Ea s'))|]. left. exact T.
    + split; [intros b x _ Eb; exact Eb|]. exists s. split; [exact Ea|]. right. split; [exists k; exact Es|reflexivity].
Qed.
