(** * Channels, Begin, End and Close *)

From Coq Require Import ZifyBool ZifyNat ZifyN.
From Verif Require Export ConnTheorems.
Import ListNotations.

(** ** What a step does to the table and to the frames that begin and end sessions *)
Definition alike (ss ss' : list ses) : Prop :=
  length ss' = length ss /\
  forall a s, nth_error ss a = Some s -> exists s', nth_error ss' a = Some s' /\ same_id s s' /\ s_ending s' = s_ending s.
(** Neither begins nor ends a session. *)
Definition no_bound (x : N * frame) : bool := match snd x with FBegin _ | FEnd _ => false | _ => true end.
Inductive move (c c' : conn) : Prop :=
| MvQuiet l : c_slots c' = c_slots c -> alike (c_sess c) (c_sess c') -> c_out c' = c_out c ++ l -> forallb no_bound l = true -> move c c'
| MvFail l : c_error c' <> None -> c_slots c' = slab0 -> alike (c_sess c) (c_sess c') -> c_out c' = c_out c ++ l -> forallb no_bound l = true -> move c c'
| MvOpen i b : c_error c = None -> slab_key (c_slots c) < c_chmax c -> c_slots c' = slab_insert (CoOpening i) (c_slots c) -> c_sess c' = c_sess c ->
    c_out c' = c_out c ++ [(as_u16 (slab_key (c_slots c)), FBegin b)] -> move c c'
| MvRegister ch mfs b b' : ch < two16 -> c_slots c' = slab_insert (CoEstablished (length (c_sess c))) (c_slots c) ->
    c_sess c' = c_sess c ++ [ses_new (slab_key (c_slots c)) false ch mfs b] ->
    c_out c' = c_out c ++ [(as_u16 (slab_key (c_slots c)), FBegin b')] -> begin_remote_channel b' = Some ch -> move c c'
| MvComplete k ch i mfs b : ch < two16 -> slab_get (c_slots c) k = Some (CoOpening i) ->
    c_slots c' = slab_set k (CoEstablished (length (c_sess c))) (c_slots c) ->
    c_sess c' = c_sess c ++ [ses_new k true ch mfs b] -> c_out c' = c_out c -> move c c'
| MvEnd a s : nth_error (c_sess c) a = Some s -> s_ended s = false -> s_ending s = false ->
    c_sess c' = set_nth a (ses_end s) (c_sess c) -> c_slots c' = c_slots (close_session (s_rchan s) c) ->
    c_out c' = c_out c ++ [(as_u16 (s_id s), FEnd (mk_end None))] -> move c c'
| MvEnded ch k a s e l : map_get ch (c_map c) = Some k -> ses_at c k a -> nth_error (c_sess c) a = Some s ->
    c_sess c' = set_nth a (ses_set_error e s) (c_sess c) -> c_slots c' = slab_remove k (c_slots c) ->
    c_out c' = c_out c ++ l ->
    (slab_get (c_slots c) k = Some (CoEstablished a) /\ l = [(as_u16 (s_id s), FEnd (mk_end None))]
     \/ slab_get (c_slots c) k = Some (CoClosing a) /\ l = []) -> move c c'.

Lemma alike_refl : forall ss, alike ss ss.
Proof. intros ss. split; [reflexivity|]. intros a s H. exists s. repeat split; auto. Qed.
Lemma alike_set : forall ss a s s', nth_error ss a = Some s -> same_id s s' -> s_ending s' = s_ending s -> alike ss (set_nth a s' ss).
Proof.
  intros ss a s s' E I D. split; [apply set_nth_length|]. intros b x Ex. destruct (Nat.eq_dec a b) as [<-|N].
  - exists s'. split; [exact (nth_set_nth_eq _ _ _ _ (nth_lt _ _ _ _ E))|]. assert (x = s) as -> by congruence. auto.
  - exists x. rewrite nth_set_nth_neq by exact N. repeat split; auto.
Qed.
Lemma alike_trans : forall x y z, alike x y -> alike y z -> alike x z.
Proof.
  intros x y z [L1 H1] [L2 H2]. split; [congruence|]. intros a s E. destruct (H1 _ _ E) as (s1 & E1 & (A1 & A2 & A3) & D1). destruct (H2 _ _ E1) as (s2 & E2 & (B1 & B2 & B3) & D2).
  exists s2. split; [exact E2|]. repeat split; congruence.
Qed.
Lemma fail_slots_alike : forall e sls ss, alike ss (fold_left (fail_slot e) sls ss).
Proof.
  intros e sls. induction sls as [|sl sls IH]; intros ss; [apply alike_refl|]. cbn [fold_left]. eapply alike_trans; [|apply IH].
  destruct sl as [i|a|a]; try apply alike_refl. cbn [fail_slot]. destruct (nth_error ss a) as [s|] eqn:E; [|apply alike_refl].
  assert (F := fail_fields e s). cbv zeta in F. apply (alike_set _ _ s); [exact E| |]; unfold same_id; intuition.
Qed.
Lemma wire_alike : forall a s s' ss, nth_error ss a = Some s -> wire_rel s s' -> alike ss (set_nth a s' ss).
Proof. intros a s s' ss E (A1 & A2 & A3 & A4 & A5 & A6 & A7 & _). apply (alike_set _ _ s); [exact E| |exact A5]. repeat split; assumption. Qed.
Lemma skip_own : forall A (l m : list A), skipn (length l) (l ++ m) = m.
Proof. intros A l m. rewrite skipn_app, skipn_all, Nat.sub_diag. reflexivity. Qed.
Lemma wire_put : forall a s s' c, wire_rel s s' -> exists l, c_out (put_ses a s s' c) = c_out c ++ map (pair (as_u16 (s_id s))) l
  /\ s_out s' = s_out s ++ l /\ forallb inner_frame l = true.
Proof.
  intros a s s' c (_ & _ & _ & _ & _ & _ & _ & l & E & F). exists l. split; [|auto]. cbn [put_ses set_c_out c_out]. rewrite E, skip_own. reflexivity.
Qed.
Lemma inner_no_bound : forall n l, forallb inner_frame l = true -> forallb no_bound (map (pair n) l) = true.
Proof. intros n l. induction l as [|f l IH]; [reflexivity|]. cbn [forallb map]. intros H. apply andb_prop in H as [H1 H2]. rewrite (IH H2), Bool.andb_true_r. destruct f; try discriminate H1; reflexivity. Qed.
Lemma move_quiet0 : forall c c', c_slots c' = c_slots c -> c_sess c' = c_sess c -> c_out c' = c_out c -> move c c'.
Proof. intros c c' A B D. apply (MvQuiet c c' []); [exact A | rewrite B; apply alike_refl | rewrite D, app_nil_r; reflexivity | reflexivity]. Qed.
Lemma move_put : forall a s s' c, nth_error (c_sess c) a = Some s -> wire_rel s s' -> move c (put_ses a s s' c).
Proof.
  intros a s s' c E W. destruct (wire_put a s s' c W) as (l & Ho & _ & F). apply (MvQuiet _ _ (map (pair (as_u16 (s_id s))) l)).
  - reflexivity.
  - exact (wire_alike _ _ _ _ E W).
  - exact Ho.
  - apply inner_no_bound. exact F.
Qed.
Lemma move_fail : forall e c c0 c', c_slots c0 = c_slots c -> c_sess c0 = c_sess c -> c_out c0 = c_out c ->
  (exists l, c_out c' = c_out (conn_set_error e c0) ++ l /\ forallb no_bound l = true) -> c_error c' = c_error (conn_set_error e c0) ->
  c_slots c' = c_slots (conn_set_error e c0) -> c_sess c' = c_sess (conn_set_error e c0) -> move c c'.
Proof.
  intros e c c0 c' A1 A2 A3 (l & B1 & B2) B3 B4 B5. apply (MvFail c c' l).
  - rewrite B3, set_error_error. destruct (c_error c0); discriminate.
  - rewrite B4. reflexivity.
  - rewrite B5. cbn. rewrite A2. apply fail_slots_alike.
  - rewrite B1. cbn. rewrite A3. reflexivity.
  - exact B2.
Qed.
Lemma io_close_same : forall c, c_slots (io_close c) = c_slots c /\ c_sess (io_close c) = c_sess c /\ c_out (io_close c) = c_out c /\ c_chmax (io_close c) = c_chmax c
  /\ c_error (io_close c) = c_error c /\ c_state (io_close c) = c_state c.
Proof. intros c. unfold io_close. destruct (c_io c); repeat apply conj; reflexivity. Qed.
Lemma move_close : forall e c c0, c_slots c0 = c_slots c -> c_sess c0 = c_sess c -> c_out c0 = c_out c -> move c (conn_close e c0).
Proof.
  intros e c c0 A B D. destruct (io_close_same (cpost 0 (FClose (mk_close e)) c0)) as (X1 & X2 & X3 & _). unfold conn_close. apply (MvQuiet _ _ [(0, FClose (mk_close e))]).
  - rewrite X1. exact A.
  - rewrite X2. cbn. rewrite B. apply alike_refl.
  - rewrite X3. cbn. rewrite D. reflexivity.
  - reflexivity.
Qed.
Lemma move_closed : forall e c d, d = conn_set_error e c -> forall k y f, no_bound (0, f) = true -> move c (ccontrol k (set_c_state y (cpost 0 f d))).
Proof.
  intros e c d Ed k y f F. apply (move_fail e c c); try reflexivity; try (rewrite <- Ed; reflexivity). rewrite <- Ed. exists [(0, f)]. split; [reflexivity|]. cbn [forallb]. rewrite F. reflexivity.
Qed.
Lemma forget_out : forall ch c, c_out (forget ch c) = c_out c.
Proof. intros ch c. unfold forget. destruct (map_get ch (c_map c)); reflexivity. Qed.
Lemma forget_slots : forall ch k c, map_get ch (c_map c) = Some k -> c_slots (forget ch c) = slab_remove k (c_slots c).
Proof. intros ch k c H. unfold forget. rewrite H. reflexivity. Qed.
Lemma put_fail_out : forall a s e c, c_out (put_ses a s (ses_set_error e s) c) = c_out c.
Proof.
  intros a s e c. cbn [put_ses set_c_out c_out]. assert (F := fail_fields e s). cbv zeta in F. destruct F as (_ & _ & _ & _ & -> & _).
  rewrite skipn_all, app_nil_r. reflexivity.
Qed.
Lemma frame_move : forall p ch f c c' os, CI c -> ch < two16 -> conn_frame p ch f c = EOk (c', os) -> move c c'.
Proof.
  intros p ch f c c' os C L H. destruct (plain f) eqn:P.
  - destruct (c_error c) as [e|] eqn:Er.
    { assert (c' = c) as ->; [|apply move_quiet0; reflexivity]. unfold conn_frame in H. rewrite Er in H. destruct f; try discriminate P; apply EOk_inj in H; congruence. }
    destruct (frame_cases _ _ _ _ _ _ H P Er) as [(-> & _)|[(k & i & _ & _ & -> & _)|[(k & a & Em & Ha & Na)|[(k & a & s & Em & Es & Ea & X)|(k & a & s & Em & Es & Ea & X)]]]];
      try (apply move_quiet0; reflexivity).
    + destruct (ci_slot c C _ _ Ha) as (s & Es & _). congruence.
    + destruct f; try discriminate P; try (destruct X as (s' & r & X & _ & -> & _); exact (move_put _ _ _ _ Ea (frame_wire _ _ _ _ _ X))).
      * destruct X as [-> _]. exact (move_put _ _ _ _ Ea (attach_wire _ _)).
      * destruct X as [-> _]. eapply (MvEnded c _ ch k a s (ESessionEnded (end_error x)) [(as_u16 (s_id s), FEnd (mk_end None))]); try assumption.
        -- left. exact Es.
        -- cbn [cpost set_c_out c_sess]. rewrite forget_sess. reflexivity.
        -- cbn [cpost set_c_out c_slots]. rewrite (forget_slots ch k) by exact Em. reflexivity.
        -- cbn [cpost set_c_out c_out]. rewrite forget_out. rewrite put_fail_out. reflexivity.
        -- left. split; [exact Es|reflexivity].
    + assert (X' : (exists en, f = FEnd en /\ c' = forget ch (put_ses a s (ses_set_error (ESessionEnded (end_error en)) s) c)) \/ c' = c) by (destruct f; try discriminate P; destruct X as [X _]; eauto).
      destruct X' as [(en & -> & ->)| ->]; [|apply move_quiet0; reflexivity].
      eapply (MvEnded c _ ch k a s (ESessionEnded (end_error en)) []); try assumption.
      * right. exact Es.
      * rewrite forget_sess. reflexivity.
      * rewrite (forget_slots ch k) by exact Em. reflexivity.
      * rewrite forget_out, put_fail_out, app_nil_r. reflexivity.
      * right. split; [exact Es|reflexivity].
  - destruct f; try discriminate P; cbn [conn_frame] in H.
    + destruct (begin_remote_channel x) as [n|]; apply EOk_inj in H; apply (f_equal fst) in H; cbn [fst] in H; subst c'.
      * unfold complete_session. destruct (slab_get (c_slots c) n) as [[i|a|a]|] eqn:En; try (apply move_quiet0; reflexivity).
        eapply (MvComplete c _ n ch i); try reflexivity; assumption.
      * eapply (MvRegister c _ ch); try reflexivity; assumption.
    + destruct (close_frame _ _ _ _ (ci_norm c C) H) as (y & -> & _). exact (move_closed (EClosed (close_error x)) c (conn_set_error (EClosed (close_error x)) c) eq_refl (KProtocolError (EClosed (close_error x))) y (FClose (mk_close None)) eq_refl).
    + apply EOk_inj in H. assert (c' = c) as -> by congruence. apply move_quiet0; reflexivity.
Qed.
Lemma move_failed : forall e c c0, c_slots c0 = c_slots c -> c_sess c0 = c_sess c -> c_out c0 = c_out c -> forall b, move c (set_c_failed b (conn_set_error e c0)) /\ move c (conn_set_error e c0).
Proof. intros e c c0 A B D b. split; eapply (move_fail e c c0); try assumption; try reflexivity; exists []; rewrite app_nil_r; split; reflexivity. Qed.
Lemma step_move : forall p e c c' os, CI c -> cstep p e c = EOk (c', os) -> move c c'.
Proof.
  intros p e c c' os C H. destruct e; cbn [cstep] in H;
    try (apply EOk_inj in H; apply (f_equal fst) in H; cbn [fst] in H; subst c').
  - refine (frame_move _ _ _ _ _ _ C _ H). unfold as_u16. apply N.mod_lt. discriminate.
  - destruct (nth_error (c_sess c) a) as [s|] eqn:Ea; [|apply EOk_inj in H; assert (c' = c) as -> by congruence; apply move_quiet0; reflexivity].
    destruct (own_event e) eqn:O; [|apply EOk_inj in H; assert (c' = c) as -> by congruence; apply move_quiet0; reflexivity].
    apply ses_event_inv in H as (s' & o & Es & -> & _). exact (move_put _ _ _ _ Ea (own_wire _ _ _ _ _ O Es)).
  - unfold conn_end. destruct (nth_error (c_sess c) a) as [s|] eqn:Ea; [|apply move_quiet0; reflexivity].
    assert (F := end_fields s). cbv zeta in F. destruct F as (F1 & F2 & F3 & F4 & F5 & F6 & F7).
    destruct (s_ended s || s_ending s) eqn:D.
    + apply (MvQuiet _ _ []); [reflexivity| | |reflexivity].
      * cbn [put_ses set_c_out set_c_sess c_sess]. apply (alike_set _ _ s); [exact Ea|repeat split; assumption|]. rewrite F6. destruct (s_ended s), (s_ending s); try discriminate D; reflexivity.
      * cbn [put_ses set_c_out set_c_sess c_out]. rewrite F7, skip_own. reflexivity.
    + apply Bool.orb_false_iff in D as [D1 D2]. apply (MvEnd _ _ a s); try assumption.
      * cbn [put_ses set_c_out set_c_sess c_sess]. f_equal. unfold close_session. destruct (slab_get (c_slots c) (s_rchan s)) as [[]|]; reflexivity.
      * reflexivity.
      * cbn [put_ses set_c_out set_c_sess c_out]. rewrite F7, skip_own. f_equal. unfold close_session. destruct (slab_get (c_slots c) (s_rchan s)) as [[]|]; reflexivity.
  - unfold open_session. destruct (c_error c) eqn:Er; [apply move_quiet0; reflexivity|].
    destruct (N.leb_spec (c_chmax c) (slab_key (c_slots c))) as [G|L]; [apply move_quiet0; reflexivity|].
    eapply (MvOpen _ _ (length (c_opens c))); try reflexivity; assumption.
  - destruct (nth_error (c_opens c) i) as [[]|]; apply move_quiet0; reflexivity.
  - apply move_close; reflexivity.
  - unfold conn_force_close. destruct (io_close_same (set_c_state CsDrop c)) as (X1 & X2 & X3 & _). exact (proj2 (move_failed EConnectionDropped c _ X1 X2 X3 true)).
  - apply move_quiet0; reflexivity.
  - apply move_quiet0; reflexivity.
  - destruct (nth_error (c_ctl c) i) as [[[e|]|]|]; try (apply move_quiet0; reflexivity); [exact (proj1 (move_failed e c (set_c_ctl _ c) eq_refl eq_refl eq_refl true)) | exact (proj2 (move_failed EDisconnected c (set_c_ctl _ c) eq_refl eq_refl eq_refl true))].
  - destruct (c_failed c); [|apply move_quiet0; reflexivity]. apply move_close; reflexivity.
  - apply move_close; reflexivity.
  - apply (MvQuiet _ _ [(0, FEmpty)]); try reflexivity. apply alike_refl.
  - exact (proj2 (move_failed EDisconnected c c eq_refl eq_refl eq_refl true)).
Qed.
Lemma step_chmax : forall p e c c' os, CI c -> cstep p e c = EOk (c', os) -> c_chmax c' = c_chmax c.
Proof.
  assert (K : forall e c, c_chmax (conn_close e c) = c_chmax c) by (intros e c; exact (proj1 (proj2 (proj2 (proj2 (io_close_same (cpost 0 (FClose (mk_close e)) c))))))).
  assert (G : forall ch c, c_chmax (forget ch c) = c_chmax c) by (intros ch c; unfold forget; destruct (map_get ch (c_map c)); reflexivity).
  intros p e c c' os C H. destruct e; cbn [cstep] in H;
    try (apply EOk_inj in H; apply (f_equal fst) in H; cbn [fst] in H; subst c'); try reflexivity; try apply K.
  - destruct (plain f) eqn:P.
    + destruct (c_error c) as [e|] eqn:Er.
      { assert (c' = c) as ->; [|reflexivity]. unfold conn_frame in H. rewrite Er in H. destruct f; try discriminate P; apply EOk_inj in H; congruence. }
      destruct (frame_cases _ _ _ _ _ _ H P Er) as [(-> & _)|[(k & i & _ & _ & -> & _)|[(k & a & Em & Ha & Na)|[(k & a & s & Em & Es & Ea & X)|(k & a & s & Em & Es & Ea & X)]]]]; try reflexivity.
      * destruct (ci_slot c C _ _ Ha) as (s & Es & _). congruence.
      * destruct f; try discriminate P; try (destruct X as (s' & r & X & _ & -> & _); reflexivity); destruct X as [-> _]; try reflexivity. cbn [cpost set_c_out c_chmax]. rewrite G. reflexivity.
      * destruct f; try discriminate P; destruct X as [-> _]; try reflexivity. rewrite G. reflexivity.
    + destruct f; try discriminate P; cbn [conn_frame] in H.
      * destruct (begin_remote_channel x) as [n|]; apply EOk_inj in H; apply (f_equal fst) in H; cbn [fst] in H; subst c'; [|reflexivity].
        unfold complete_session. destruct (slab_get (c_slots c) n) as [[]|]; reflexivity.
      * destruct (close_frame _ _ _ _ (ci_norm c C) H) as (y & -> & _). transitivity (c_chmax (conn_set_error (EClosed (close_error x)) c)); [|reflexivity].
        generalize (conn_set_error (EClosed (close_error x)) c). reflexivity.
      * apply EOk_inj in H. congruence.
  - destruct (nth_error (c_sess c) a) as [s|] eqn:Ea; [|apply EOk_inj in H; congruence].
    destruct (own_event e) eqn:O; [|apply EOk_inj in H; congruence]. apply ses_event_inv in H as (s' & o & Es & -> & _). reflexivity.
  - unfold conn_end. destruct (nth_error (c_sess c) a) as [s|]; [|reflexivity]. destruct (s_ended s || s_ending s); [reflexivity|]. unfold close_session. destruct (slab_get (c_slots c) (s_rchan s)) as [[]|]; reflexivity.
  - unfold open_session. destruct (c_error c); [reflexivity|]. destruct (c_chmax c <=? slab_key (c_slots c)); reflexivity.
  - destruct (nth_error (c_opens c) i) as [[]|]; reflexivity.
  - unfold conn_force_close. cbn. exact (proj1 (proj2 (proj2 (proj2 (io_close_same (set_c_state CsDrop c)))))).
  - destruct (nth_error (c_ctl c) i) as [[[e|]|]|]; reflexivity.
  - destruct (c_failed c); [|reflexivity]. rewrite K. reflexivity.
Qed.

(** ** Channel numbers *)
Lemma close_session_get : forall k c j, slab_get (c_slots (close_session k c)) j
  = match slab_get (c_slots c) j with
    | Some (CoEstablished a) => if j =? k then Some (CoClosing a) else Some (CoEstablished a)
    | o => o end.
Proof.
  intros k c j. unfold close_session. destruct (slab_get (c_slots c) k) as [[i|a|a]|] eqn:E.
  - destruct (slab_get (c_slots c) j) as [[]|] eqn:Ej; try reflexivity. destruct (N.eqb_spec j k) as [->|]; [congruence|reflexivity].
  - cbn [set_c_slots c_slots]. rewrite slab_get_set by congruence. destruct (N.eqb_spec k j) as [<-|N].
    + rewrite E, N.eqb_refl. reflexivity.
    + destruct (slab_get (c_slots c) j) as [[]|] eqn:Ej; try reflexivity. destruct (N.eqb_spec j k) as [->|]; [congruence|reflexivity].
  - destruct (slab_get (c_slots c) j) as [[]|] eqn:Ej; try reflexivity. destruct (N.eqb_spec j k) as [->|]; [congruence|reflexivity].
  - destruct (slab_get (c_slots c) j) as [[]|] eqn:Ej; try reflexivity. destruct (N.eqb_spec j k) as [->|]; [congruence|reflexivity].
Qed.
Lemma slab_set_length : forall A (s : slab A) k a, length (sl_items (slab_set k a s)) = length (sl_items s).
Proof. intros A s k a. unfold slab_set. destruct (slab_get s k); [apply set_nth_length|reflexivity]. Qed.
Lemma slab_remove_length : forall A (s : slab A) k, length (sl_items (slab_remove k s)) = length (sl_items s).
Proof. intros A s k. unfold slab_remove. destruct (slab_get s k); [apply set_nth_length|reflexivity]. Qed.
Lemma move_size : forall c c', move c c' ->
  (length (sl_items (c_slots c')) <= length (sl_items (c_slots c)))%nat \/ exists x, c_slots c' = slab_insert x (c_slots c).
Proof.
  intros c c' [l E|l _ E|i b _ _ E|ch mfs b b' _ E|k ch i mfs b _ _ E|a s _ _ _ _ E|ch k a s e l _ _ _ _ E]; rewrite E; eauto.
  - left. cbn. lia.
  - left. rewrite slab_set_length. lia.
  - left. unfold close_session. destruct (slab_get (c_slots c) (s_rchan s)) as [[]|]; cbn [set_c_slots c_slots]; rewrite ?slab_set_length; lia.
  - left. rewrite slab_remove_length. lia.
Qed.
Lemma size_bounded : forall n p evs c c' os, CI c -> N.of_nat (length (sl_items (c_slots c))) <= n -> at_most n p evs c -> crun p evs c = EOk (c', os) ->
  CI c' /\ N.of_nat (length (sl_items (c_slots c'))) <= n.
Proof.
  intros n p evs. induction evs as [|e evs IH]; intros c c' os C L A H.
  - cbn in H. apply EOk_inj in H. assert (c' = c) as -> by congruence. auto.
  - apply crun_cons in H as (c1 & o1 & o2 & Hs & Hr & ->).
    refine (IH c1 c' o2 (CI_step _ _ _ _ _ C Hs) _ _ Hr).
    + destruct (move_size _ _ (step_move _ _ _ _ _ C Hs)) as [L'|(x & Ex)]; [lia|]. rewrite Ex. enough (X : (length (sl_items (slab_insert x (c_slots c))) <= N.to_nat n)%nat) by lia. apply full_grows; [exact (ci_full c C)|lia|]. rewrite <- Ex.
      enough (X : N.of_nat (length (slab_values (c_slots c1))) <= n) by lia. apply (A [e] evs c1 (o1 ++ [])); [reflexivity|]. cbn [crun]. rewrite Hs. reflexivity.
    + intros evs1 evs2 c2 os2 E R. apply (A (e :: evs1) evs2 c2 (o1 ++ os2)); [rewrite E; reflexivity|]. cbn [crun]. rewrite Hs. cbn [ebind]. rewrite R. reflexivity.
Qed.
Lemma channels_unique : forall p chmax mfs evs c os, at_most 65536 p evs (conn_new chmax mfs) -> crun p evs (conn_new chmax mfs) = EOk (c, os) ->
  (forall k, slab_get (c_slots c) k <> None -> k < two16)
  /\ forall k a s k' b s', in_table c k a -> in_table c k' b -> nth_error (c_sess c) a = Some s -> nth_error (c_sess c) b = Some s' ->
    channel_of s = channel_of s' -> a = b.
Proof.
  intros p chmax mfs evs c os A H. destruct (size_bounded 65536 p evs _ _ _ (CI_new chmax mfs) (N.le_0_l _) A H) as [C L].
  assert (K : forall k, slab_get (c_slots c) k <> None -> k < two16).
  { intros k Hk. destruct (slab_get (c_slots c) k) as [x|] eqn:E; [|congruence]. apply slab_get_lt in E. unfold two16. lia. }
  split; [exact K|]. intros k a s k' b s' Ta Tb Ea Eb Ech. destruct (ci_slot c C _ _ Ta) as (x & Ex & Ix & _). destruct (ci_slot c C _ _ Tb) as (y & Ey & Iy & _).
  assert (x = s) by congruence. assert (y = s') by congruence. subst x y. unfold channel_of, as_u16 in Ech.
  assert (Ka : k < two16) by (apply K; destruct Ta; congruence). assert (Kb : k' < two16) by (apply K; destruct Tb; congruence).
  rewrite Ix, Iy, !N.mod_small in Ech by assumption. subst k'. exact (ses_at_key _ _ _ _ Ta Tb).
Qed.

(** What this side begins by itself stays below its channel-max. *)
Definition begins_of (c : conn) : Prop := c_chmax c < two16 /\
  forall ch b, In (ch, FBegin b) (c_out c) -> begin_remote_channel b = None -> ch < c_chmax c.
Lemma no_bound_in : forall l ch b, forallb no_bound l = true -> ~ In (ch, FBegin b) l.
Proof. intros l ch b H Hin. rewrite forallb_forall in H. discriminate (H _ Hin). Qed.
Lemma begins_step : forall p e c c' os, CI c /\ begins_of c -> cstep p e c = EOk (c', os) -> CI c' /\ begins_of c'.
Proof.
  intros p e c c' os [C [M B]] H. split; [exact (CI_step _ _ _ _ _ C H)|]. unfold begins_of. rewrite (step_chmax _ _ _ _ _ C H). split; [exact M|]. intros ch b Hin Hb.
  destruct (step_move _ _ _ _ _ C H) as [l _ _ E F|l _ _ _ E F|i b0 _ L _ _ E|ch0 mfs b0 b' _ _ _ E Eb|k ch0 i mfs b0 _ _ _ _ E|a s _ _ _ _ _ E|ch0 k a s e0 l _ _ _ _ _ E D]; rewrite E in Hin;
    try (apply in_app_or in Hin as [Hin|Hin]; [exact (B _ _ Hin Hb)|]).
  - elim (no_bound_in _ _ _ F Hin).
  - elim (no_bound_in _ _ _ F Hin).
  - destruct Hin as [Hin|[]]. injection Hin as <- <-. unfold as_u16. rewrite N.mod_small; [exact L|lia].
  - destruct Hin as [Hin|[]]. injection Hin as <- <-. congruence.
  - exact (B _ _ Hin Hb).
  - destruct Hin as [Hin|[]]. discriminate Hin.
  - destruct D as [[_ ->]|[_ ->]]; [destruct Hin as [Hin|[]]; discriminate Hin|contradiction].
Qed.
Lemma local_channels : forall p c, creachable p c ->
  (forall a s, nth_error (c_sess c) a = Some s -> s_local s = true -> s_id s < c_chmax c /\ channel_of s = s_id s)
  /\ (forall ch b, In (ch, FBegin b) (c_out c) -> begin_remote_channel b = None -> ch < c_chmax c).
Proof.
  intros p c (chmax & mfs & evs & os & L & H).
  assert (X : CI c /\ begins_of c).
  { refine (crun_ind (fun c => CI c /\ begins_of c) p (begins_step p) _ _ _ _ _ H). split; [apply CI_new|]. split; [exact L|]. intros ch b []. }
  destruct X as [C [M B]]. split; [|exact B]. intros a s Es El. assert (Li := ci_local c C _ _ Es El). split; [exact Li|]. unfold channel_of, as_u16. apply N.mod_small. lia.
Qed.

(** ** Begin and End *)
Lemma move_ids : forall c c' a s, move c c' -> nth_error (c_sess c) a = Some s -> exists s', nth_error (c_sess c') a = Some s' /\ same_id s s'.
Proof.
  assert (App : forall ss x a (s : ses), nth_error ss a = Some s -> nth_error (ss ++ [x]) a = Some s) by (intros ss x a s H; rewrite nth_error_app1; [exact H|eapply nth_lt; eauto]).
  assert (Rf : forall s, same_id s s) by (intros s; repeat split).
  assert (Pt : forall ss b y y' a (s : ses), nth_error ss b = Some y -> same_id y y' -> nth_error ss a = Some s -> exists s', nth_error (set_nth b y' ss) a = Some s' /\ same_id s s').
  { intros ss b y y' a s Eb I Ea. destruct (Nat.eq_dec b a) as [->|N].
    - exists y'. split; [exact (nth_set_nth_eq _ _ _ _ (nth_lt _ _ _ _ Ea))|]. assert (s = y) as -> by congruence. exact I.
    - exists s. rewrite nth_set_nth_neq by exact N. auto. }
  intros c c' a s M Ea. destruct M as [l _ [_ A] _ _|l _ _ [_ A] _ _|i b _ _ _ E _|ch0 mfs b b' _ _ E _|k ch0 i mfs b _ _ _ E _|b y Eb _ _ E _ _|ch0 k b y e0 l _ _ Eb E _ _ D].
  - destruct (A _ _ Ea) as (s' & E' & I & _). eauto.
  - destruct (A _ _ Ea) as (s' & E' & I & _). eauto.
  - rewrite E. eauto.
  - rewrite E. eauto.
  - rewrite E. eauto.
  - rewrite E. assert (F := end_fields y). cbv zeta in F. apply (Pt _ b y); try assumption. unfold same_id. intuition.
  - rewrite E. assert (F := fail_fields e0 y). cbv zeta in F. apply (Pt _ b y); try assumption. unfold same_id. intuition.
Qed.
Lemma same_numbers_back : forall c c', move c c' -> same_numbers c' -> same_numbers c.
Proof. intros c c' M N a s Es. destruct (move_ids _ _ _ _ M Es) as (s' & Es' & I1 & I2 & _). assert (X := N _ _ Es'). congruence. Qed.
Lemma phase_app : forall ch l1 l2 b, phase ch b (l1 ++ l2) = match phase ch b l1 with Some b' => phase ch b' l2 | None => None end.
Proof.
  intros ch l1. induction l1 as [|[n f] l1 IH]; intros l2 b; [reflexivity|]. cbn [app phase]. destruct (ch =? n); [|apply IH].
  destruct f; try apply IH; destruct b; try reflexivity; apply IH.
Qed.
Lemma phase_no_bound : forall ch l b, forallb no_bound l = true -> phase ch b l = Some b.
Proof.
  intros ch l. induction l as [|[n f] l IH]; intros b H; [reflexivity|]. cbn [forallb] in H. apply andb_prop in H as [H1 H2]. cbn [phase]. destruct (ch =? n); [|exact (IH b H2)].
  destruct f; try discriminate H1; exact (IH b H2).
Qed.
Definition busy (c : conn) (ch : N) : bool :=
  match slab_get (c_slots c) ch with Some (CoOpening _) | Some (CoEstablished _) => true | _ => false end.
Record PH (c : conn) : Prop := mk_PH {
  ph_ci : CI c;
  ph_max : c_chmax c < two16;
  ph_rc : forall a s, nth_error (c_sess c) a = Some s -> s_rchan s < two16;
  ph_end : c_error c = None -> same_numbers c -> forall k a s, nth_error (c_sess c) a = Some s ->
    (slab_get (c_slots c) k = Some (CoEstablished a) -> s_ending s = false) /\ (slab_get (c_slots c) k = Some (CoClosing a) -> s_ending s = true);
  ph_phase : c_error c = None -> same_numbers c -> forall ch, ch < two16 -> phase ch false (c_out c) = Some (busy c ch)
}.
Lemma alike_back : forall ss ss' a s', alike ss ss' -> nth_error ss' a = Some s' -> exists s, nth_error ss a = Some s /\ same_id s s' /\ s_ending s' = s_ending s.
Proof.
  intros ss ss' a s' [L A] E. assert (La := nth_lt _ _ _ _ E). destruct (nth_error ss a) as [s|] eqn:Es; [|apply nth_error_None in Es; lia].
  destruct (A _ _ Es) as (x & Ex & I & D). exists s. assert (x = s') as -> by congruence. auto.
Qed.
Lemma nth_snoc : forall A (l : list A) x i y, nth_error (l ++ [x]) i = Some y -> nth_error l i = Some y \/ (i = length l /\ y = x).
Proof.
  intros A l x i y H. destruct (Nat.lt_ge_cases i (length l)) as [L|G].
  - left. rewrite nth_error_app1 in H by exact L. exact H.
  - right. assert (Li := nth_lt _ _ _ _ H). rewrite app_length in Li. cbn [length] in Li. assert (i = length l) as -> by lia. rewrite nth_error_app2, Nat.sub_diag in H by lia. apply Some_inj in H. auto.
Qed.
Lemma PH_step : forall p e c c' os, PH c -> cstep p e c = EOk (c', os) -> PH c'.
Proof.
  intros p e c c' os [C M R D P] H. assert (Mv := step_move _ _ _ _ _ C H). assert (C' := CI_step _ _ _ _ _ C H). assert (Mx := step_chmax _ _ _ _ _ C H).
  assert (Err : c_error c' = None -> c_error c = None).
  { intros E. destruct (c_error c) as [x|] eqn:Ex; [|reflexivity]. rewrite (step_error _ _ _ _ _ _ Ex H) in E. discriminate E. }
  assert (SN := same_numbers_back _ _ Mv). clear H.
  assert (Key : forall k, slab_get (c_slots c) k <> None -> same_numbers c -> k < two16).
  { intros k Hk N. destruct (slab_get (c_slots c) k) as [[i|a|a]|] eqn:Ek; [|pose (T := or_introl Ek : ses_at c k a)|pose (T := or_intror Ek : ses_at c k a)|congruence].
    - destruct (ci_open c C _ _ Ek) as [L _]. lia.
    - destruct (ci_slot c C _ _ T) as (s & Es & I & _). assert (X := R _ _ Es). rewrite (N _ _ Es), I in X. exact X.
    - destruct (ci_slot c C _ _ T) as (s & Es & I & _). assert (X := R _ _ Es). rewrite (N _ _ Es), I in X. exact X. }
  assert (Lt : forall k a, ses_at c k a -> (a < length (c_sess c))%nat).
  { intros k a T. destruct (ci_slot c C _ _ T) as (s & Es & _). eapply nth_lt; eauto. }
  assert (Kf := slab_key_free _ _ (ci_wf c C)). assert (G := fun x k => slab_get_insert _ (c_slots c) x k (ci_wf c C)).
  destruct Mv as [l Es A Eo F|l Er Es A Eo F|i b E0 Lk Es E Eo|ch0 mfs b b' L0 Es E Eo Eb|k ch0 i mfs b L0 Ek Es E Eo|a0 s0 Ea N1 N2 E Es Eo|ch0 k a0 s0 e0 l Em T Ea E Es Eo X].
  - constructor; [exact C' | lia | | |].
    + intros a s' Hs. destruct (alike_back _ _ _ _ A Hs) as (s & Hs0 & (_ & I2 & _) & _). rewrite I2. exact (R _ _ Hs0).
    + intros Er Ns k a s' Hs. rewrite Es. destruct (alike_back _ _ _ _ A Hs) as (s & Hs0 & _ & De). rewrite De. exact (D (Err Er) (SN Ns) k a s Hs0).
    + intros Er Ns ch L. rewrite Eo, phase_app, (P (Err Er) (SN Ns) ch L), phase_no_bound by exact F. unfold busy. rewrite Es. reflexivity.
  - constructor; [exact C' | lia | | |]; try (intros Er'; congruence).
    intros a s' Hs. destruct (alike_back _ _ _ _ A Hs) as (s & Hs0 & (_ & I2 & _) & _). rewrite I2. exact (R _ _ Hs0).
  - constructor; [exact C' | lia | | |].
    + rewrite E. exact R.
    + intros Er Ns k a s Hs. rewrite E in Hs. rewrite Es, G. destruct (N.eqb_spec (slab_key (c_slots c)) k) as [_|_]; [split; discriminate|]. exact (D (Err Er) (SN Ns) k a s Hs).
    + intros Er Ns ch L. rewrite Eo, phase_app, (P (Err Er) (SN Ns) ch L). unfold busy. rewrite Es, G. cbn [phase].
      unfold as_u16. rewrite N.mod_small by lia. rewrite (N.eqb_sym ch). destruct (N.eqb_spec (slab_key (c_slots c)) ch) as [<-|]; [rewrite Kf|]; reflexivity.
  - constructor; [exact C' | lia | | |].
    + intros a s Hs. rewrite E in Hs. apply nth_snoc in Hs as [Hs|[_ ->]]; [exact (R _ _ Hs)|exact L0].
    + intros Er Ns k a s Hs. rewrite E in Hs. rewrite Es, G. destruct (N.eqb_spec (slab_key (c_slots c)) k) as [_|_].
      * split; [|discriminate]. intros Hk. injection Hk as <-. rewrite nth_error_app2, Nat.sub_diag in Hs by lia. cbn in Hs. apply Some_inj in Hs. subst s. reflexivity.
      * apply nth_snoc in Hs as [Hs|[-> _]]; [exact (D (Err Er) (SN Ns) k a s Hs)|]. split; intros Hk; exfalso; [assert (Z := Lt k _ (or_introl Hk))|assert (Z := Lt k _ (or_intror Hk))]; lia.
    + intros Er Ns ch L. rewrite Eo, phase_app, (P (Err Er) (SN Ns) ch L). unfold busy. rewrite Es, G. cbn [phase].
      assert (Kc : slab_key (c_slots c) < two16).
      { assert (X := Ns (length (c_sess c))). rewrite E in X. rewrite nth_error_app2, Nat.sub_diag in X by lia. specialize (X _ eq_refl). cbn in X. lia. }
      unfold as_u16. rewrite N.mod_small by exact Kc. rewrite (N.eqb_sym ch). destruct (N.eqb_spec (slab_key (c_slots c)) ch) as [<-|]; [rewrite Kf|]; reflexivity.
  - assert (Gs := fun x j => slab_get_set _ (c_slots c) x k j ltac:(congruence)). constructor; [exact C' | lia | | |].
    + intros a s Hs. rewrite E in Hs. apply nth_snoc in Hs as [Hs|[_ ->]]; [exact (R _ _ Hs)|exact L0].
    + intros Er Ns j a s Hs. rewrite E in Hs. rewrite Es, Gs. destruct (N.eqb_spec k j) as [_|_].
      * split; [|discriminate]. intros Hk. injection Hk as <-. rewrite nth_error_app2, Nat.sub_diag in Hs by lia. cbn in Hs. apply Some_inj in Hs. subst s. reflexivity.
      * apply nth_snoc in Hs as [Hs|[-> _]]; [exact (D (Err Er) (SN Ns) j a s Hs)|]. split; intros Hk; exfalso; [assert (Z := Lt j _ (or_introl Hk))|assert (Z := Lt j _ (or_intror Hk))]; lia.
    + intros Er Ns ch L. rewrite Eo, (P (Err Er) (SN Ns) ch L). unfold busy. rewrite Es, Gs. destruct (N.eqb_spec k ch) as [<-|]; [rewrite Ek|]; reflexivity.
  - assert (F := end_fields s0). cbv zeta in F. destruct F as (F1 & F2 & F3 & F4 & F5 & F6 & _). assert (Ee : s_ending (ses_end s0) = true) by (rewrite F6, N1, N2; reflexivity).
    assert (Cg := fun j => close_session_get (s_rchan s0) c j).
    constructor; [exact C' | lia | | |].
    + intros a s Hs. rewrite E, nth_set_nth in Hs. destruct (Nat.eqb_spec a0 a) as [<-|]; [|exact (R _ _ Hs)]. rewrite Ea in Hs. apply Some_inj in Hs. subst s. rewrite F2. exact (R _ _ Ea).
    + intros Er Ns j a s Hs. rewrite Es, Cg. rewrite E, nth_set_nth in Hs. assert (Sn := SN Ns). destruct (Nat.eqb_spec a0 a) as [<-|Na].
      * rewrite Ea in Hs. apply Some_inj in Hs. subst s. rewrite Ee. split; [|reflexivity]. intros Hj. exfalso.
        destruct (slab_get (c_slots c) j) as [[i|y|y]|] eqn:Ej; try discriminate Hj. destruct (N.eqb_spec j (s_rchan s0)) as [|Nj]; [discriminate Hj|]. injection Hj as ->.
        destruct (ci_slot c C _ _ (or_introl Ej)) as (x & Ex & I & _). apply Nj. rewrite (Sn _ _ Ea). congruence.
      * assert (Z := D (Err Er) Sn j a s Hs). destruct (slab_get (c_slots c) j) as [[i|y|y]|] eqn:Ej; try exact Z.
        destruct (N.eqb_spec j (s_rchan s0)) as [->|Nj]; [|exact Z]. split; [discriminate|]. intros Hj. exfalso. injection Hj as ->.
        destruct (ci_ended c C _ _ Ea) as [(k0 & T0)|[Y|Y]]; [|congruence|rewrite (Err Er) in Y; congruence].
        destruct (ci_slot c C _ _ T0) as (x & Ex & I & _). assert (Hk : k0 = s_rchan s0) by (rewrite (Sn _ _ Ea); congruence). rewrite Hk in T0. apply Na.
        exact (ses_at_key _ _ _ _ T0 (or_introl Ej)).
    + intros Er Ns ch L. assert (Sn := SN Ns). rewrite Eo, phase_app, (P (Err Er) Sn ch L). unfold busy. rewrite Es, Cg. cbn [phase].
      destruct (ci_ended c C _ _ Ea) as [(k0 & T0)|[Y|Y]]; [|congruence|rewrite (Err Er) in Y; congruence].
      destruct (ci_slot c C _ _ T0) as (x & Ex & I & _). assert (x = s0) by congruence. subst x. assert (Kc : s_id s0 < two16) by (rewrite <- (Sn _ _ Ea); exact (R _ _ Ea)).
      unfold as_u16. rewrite N.mod_small by exact Kc. rewrite (Sn _ _ Ea). destruct (N.eqb_spec ch (s_id s0)) as [->|Nc].
      * rewrite I in *. destruct T0 as [T0|T0]; rewrite T0; [reflexivity|]. assert (Z := proj2 (D (Err Er) Sn k0 a0 s0 Ea) T0). congruence.
      * destruct (slab_get (c_slots c) ch) as [[]|]; reflexivity.
  - assert (F := fail_fields e0 s0). cbv zeta in F. destruct F as (F1 & F2 & F3 & F4 & _). assert (Gr := fun j => slab_get_remove _ (c_slots c) k j).
    constructor; [exact C' | lia | | |].
    + intros a s Hs. rewrite E, nth_set_nth in Hs. destruct (Nat.eqb_spec a0 a) as [<-|]; [|exact (R _ _ Hs)]. rewrite Ea in Hs. apply Some_inj in Hs. subst s. rewrite F2. exact (R _ _ Ea).
    + intros Er Ns j a s Hs. rewrite Es, Gr. destruct (N.eqb_spec k j) as [<-|Nk]; [split; discriminate|]. rewrite E, nth_set_nth in Hs. destruct (Nat.eqb_spec a0 a) as [<-|Na]; [|exact (D (Err Er) (SN Ns) j a s Hs)].
      rewrite Ea in Hs. apply Some_inj in Hs. subst s. rewrite F4. exact (D (Err Er) (SN Ns) j a0 s0 Ea).
    + intros Er Ns ch L. assert (Sn := SN Ns). rewrite Eo, phase_app, (P (Err Er) Sn ch L). unfold busy. rewrite Es, Gr.
      destruct (ci_slot c C _ _ T) as (x & Ex & I & _). assert (x = s0) by congruence. subst x. assert (Kc : s_id s0 < two16) by (rewrite <- (Sn _ _ Ea); exact (R _ _ Ea)).
      destruct X as [[Ek ->]|[Ek ->]]; cbn [phase].
      * unfold as_u16. rewrite N.mod_small by exact Kc. rewrite I. rewrite (N.eqb_sym ch). destruct (N.eqb_spec k ch) as [<-|]; [rewrite Ek|]; reflexivity.
      * destruct (N.eqb_spec k ch) as [<-|]; [rewrite Ek|]; reflexivity.
Qed.
Lemma PH_reachable : forall p c, creachable p c -> PH c.
Proof.
  intros p c (chmax & mfs & evs & os & L & H). refine (crun_ind PH p (PH_step p) _ _ _ _ _ H).
  constructor; [apply CI_new | exact L | | |]; try (intros [|n] s Hs; discriminate Hs).
  - intros _ _ k [|n] s Hs; discriminate Hs.
  - intros _ _ ch Hch. unfold busy. destruct (slab_get (c_slots (conn_new chmax mfs)) ch) as [x|] eqn:E; [|reflexivity]. apply slab_get_lt in E. cbn in E. lia.
Qed.
Lemma begin_end_alternate : forall p c, creachable p c -> c_error c = None -> same_numbers c -> forall ch, ch < two16 -> phase ch false (c_out c) <> None.
Proof. intros p c R E N ch L. rewrite (ph_phase c (PH_reachable _ _ R) E N ch L). discriminate. Qed.

(** ** [Session::end] *)
Lemma end_one : forall p a s c, nth_error (c_sess c) a = Some s -> s_ended s = false -> exists c' s',
  cstep p (CvEnd a) c = EOk (c', [])
  /\ c_out c' = c_out c ++ (if s_ending s then [] else [(channel_of s, FEnd (mk_end None))])
  /\ nth_error (c_sess c') a = Some s' /\ step p EvEnd s = EOk (s', [])
  /\ (forall b, b <> a -> nth_error (c_sess c') b = nth_error (c_sess c) b)
  /\ c_opens c' = c_opens c
  /\ (s_rchan s = s_id s -> s_ending s = false -> forall k, k <> s_id s -> slab_get (c_slots c') k = slab_get (c_slots c) k)
  /\ (s_rchan s = s_id s -> s_ending s = false -> slab_get (c_slots c) (s_id s) = Some (CoEstablished a) -> slab_get (c_slots c') (s_id s) = Some (CoClosing a)).
Proof.
  intros p a s c Ea D. assert (F := end_fields s). cbv zeta in F. destruct F as (F1 & F2 & F3 & F4 & F5 & F6 & F7). rewrite D in F7. cbn [orb] in F7.
  exists (conn_end a c), (ses_end s). split; [reflexivity|]. unfold conn_end. rewrite Ea, D. cbn [orb].
  set (c0 := if s_ending s then c else close_session (s_rchan s) c).
  assert (Eo : c_out c0 = c_out c) by (unfold c0, close_session; destruct (s_ending s); [reflexivity|]; destruct (slab_get (c_slots c) (s_rchan s)) as [[]|]; reflexivity).
  assert (Es : c_sess c0 = c_sess c) by (unfold c0, close_session; destruct (s_ending s); [reflexivity|]; destruct (slab_get (c_slots c) (s_rchan s)) as [[]|]; reflexivity).
  assert (Ef : c_opens c0 = c_opens c) by (unfold c0, close_session; destruct (s_ending s); [reflexivity|]; destruct (slab_get (c_slots c) (s_rchan s)) as [[]|]; reflexivity).
  assert (El : s_ending s = false -> c_slots c0 = c_slots (close_session (s_rchan s) c)) by (intros X; unfold c0; rewrite X; reflexivity).
  clearbody c0. cbn [put_ses set_c_out set_c_sess c_out c_sess c_slots c_opens]. repeat apply conj.
  - rewrite F7, skip_own, Eo. destruct (s_ending s); reflexivity.
  - rewrite Es. exact (nth_set_nth_eq _ _ _ _ (nth_lt _ _ _ _ Ea)).
  - reflexivity.
  - intros b Nb. rewrite Es. apply nth_set_nth_neq. congruence.
  - exact Ef.
  - intros Er En k Nk. rewrite (El En), close_session_get, Er. destruct (slab_get (c_slots c) k) as [[]|]; try reflexivity. destruct (N.eqb_spec k (s_id s)); [congruence|reflexivity].
  - intros Er En Ek. rewrite (El En), close_session_get, Ek, Er, N.eqb_refl. reflexivity.
Qed.

(** ** What a session sends *)
Lemma own_out : forall p a e s s' os c, nth_error (c_sess c) a = Some s -> own_event e = true -> step p e s = EOk (s', os) -> exists c' l,
  cstep p (CvSes a e) c = EOk (c', map (ObSes a) os) /\ nth_error (c_sess c') a = Some s'
  /\ (forall b, b <> a -> nth_error (c_sess c') b = nth_error (c_sess c) b)
  /\ s_out s' = s_out s ++ l /\ c_out c' = c_out c ++ map (pair (channel_of s)) l.
Proof.
  intros p a e s s' os c Ea O H. destruct (wire_put a s s' c (own_wire _ _ _ _ _ O H)) as (l & Ho & Hs & _). exists (put_ses a s s' c), l.
  repeat apply conj; [| | |exact Hs|exact Ho].
  - cbn [cstep]. rewrite Ea, O. unfold ses_event. rewrite H. reflexivity.
  - exact (nth_set_nth_eq _ _ _ _ (nth_lt _ _ _ _ Ea)).
  - intros b Nb. apply nth_set_nth_neq. congruence.
Qed.

(** ** Close *)
Lemma closes_app : forall l m, closes_sent (l ++ m) = (closes_sent l + closes_sent m)%nat.
Proof. intros l m. unfold closes_sent. rewrite filter_app, app_length. reflexivity. Qed.
Lemma closes_inner : forall n l, forallb inner_frame l = true -> closes_sent (map (pair n) l) = 0%nat.
Proof. intros n l. induction l as [|f l IH]; [reflexivity|]. cbn [forallb]. intros H. apply andb_prop in H as [H1 H2]. unfold closes_sent in *. destruct f; try discriminate H1; exact (IH H2). Qed.
Definition close_step (ev : cev) (c c' : conn) : Prop := exists l, c_out c' = c_out c ++ l /\
  match c_io c with
  | Some _ => c_io c' = c_io c
  | None => (c_io c' = None /\ (closes_sent l <= if peer_closes ev then 1 else 0)%nat)
            \/ (c_io c' = Some (length (c_out c')) /\ (closes_sent l <= 1)%nat)
  end.
Lemma close_none : forall ev c c', c_io c' = c_io c -> (exists l, c_out c' = c_out c ++ l /\ closes_sent l = 0%nat) -> close_step ev c c'.
Proof. intros ev c c' E (l & Ho & Hc). exists l. split; [exact Ho|]. destruct (c_io c); [exact E|]. left. split; [exact E|]. rewrite Hc. destruct (peer_closes ev); lia. Qed.
Lemma close_same : forall ev c c', c_io c' = c_io c -> c_out c' = c_out c -> close_step ev c c'.
Proof. intros ev c c' E Ho. apply close_none; [exact E|]. exists []. rewrite app_nil_r. auto. Qed.
Lemma close_closes : forall ev e c c0, c_io c0 = c_io c -> c_out c0 = c_out c -> close_step ev c (conn_close e c0).
Proof.
  intros ev e c c0 E Ho. exists [(0, FClose (mk_close e))]. unfold conn_close, io_close. cbn [cpost set_c_out c_io]. rewrite E. destruct (c_io c) as [n|] eqn:En; cbn; rewrite Ho; split; try reflexivity.
  - rewrite E. reflexivity.
  - right. split; [reflexivity|]. unfold closes_sent. cbn. lia.
Qed.
Lemma forget_io : forall ch c, c_io (forget ch c) = c_io c.
Proof. intros ch c. unfold forget. destruct (map_get ch (c_map c)); reflexivity. Qed.
Lemma close_put : forall ev a s s' c, wire_rel s s' -> close_step ev c (put_ses a s s' c).
Proof. intros ev a s s' c W. apply close_none; [reflexivity|]. destruct (wire_put a s s' c W) as (l & Ho & _ & F). exists (map (pair (as_u16 (s_id s))) l). split; [exact Ho|apply closes_inner; exact F]. Qed.
Lemma close_remote : forall ch c d k y f, c_out d = c_out c -> c_io d = c_io c -> (closes_sent [(0%N, f)] <= 1)%nat ->
  forall cl, close_step (CvFrame ch (FClose cl)) c (ccontrol k (set_c_state y (cpost 0 f d))).
Proof. intros ch c d k y f Ho Hi Hf cl. exists [(0, f)]. cbn [ccontrol set_c_ctl set_c_state cpost set_c_out c_out c_io peer_closes]. rewrite Ho, Hi. split; [reflexivity|]. destruct (c_io c); auto. Qed.
Lemma step_close : forall p ev c c' os, CI c -> cstep p ev c = EOk (c', os) -> close_step ev c c'.
Proof.
  intros p ev c c' os C H. destruct ev; cbn [cstep] in H;
    try (apply EOk_inj in H; apply (f_equal fst) in H; cbn [fst] in H; subst c').
  - destruct (plain f) eqn:P.
    + destruct (c_error c) as [e|] eqn:Er.
      { assert (c' = c) as ->; [|apply close_same; reflexivity]. unfold conn_frame in H. rewrite Er in H. destruct f; try discriminate P; apply EOk_inj in H; congruence. }
      destruct (frame_cases _ _ _ _ _ _ H P Er) as [(-> & _)|[(k & i & _ & _ & -> & _)|[(k & a & Em & Ha & Na)|[(k & a & s & Em & Es & Ea & X)|(k & a & s & Em & Es & Ea & X)]]]]; try (apply close_same; reflexivity).
      * destruct (ci_slot c C _ _ Ha) as (s & Es & _). congruence.
      * destruct f; try discriminate P; try (destruct X as (s' & r & X & _ & -> & _); exact (close_put _ _ _ _ _ (frame_wire _ _ _ _ _ X))); destruct X as [-> _].
        -- apply close_put, attach_wire.
        -- apply close_none; cbn [cpost set_c_out c_io c_out]; rewrite ?forget_io; [reflexivity|]. rewrite forget_out, put_fail_out. eexists. split; reflexivity.
      * destruct f; try discriminate P; destruct X as [-> _]; try (apply close_same; reflexivity). apply close_same; [rewrite forget_io; reflexivity|]. rewrite forget_out. apply put_fail_out.
    + destruct f; try discriminate P; cbn [conn_frame] in H.
      * destruct (begin_remote_channel x) as [n|]; apply EOk_inj in H; apply (f_equal fst) in H; cbn [fst] in H; subst c'.
        -- unfold complete_session. destruct (slab_get (c_slots c) n) as [[]|]; apply close_same; reflexivity.
        -- apply close_none; [reflexivity|]. eexists. split; reflexivity.
      * destruct (close_frame _ _ _ _ (ci_norm c C) H) as (y & -> & _).
        exact (close_remote ch c (conn_set_error (EClosed (close_error x)) c) (KProtocolError (EClosed (close_error x))) y (FClose (mk_close None)) eq_refl eq_refl (le_n 1) x).
      * apply EOk_inj in H. assert (c' = c) as -> by congruence. apply close_same; reflexivity.
  - destruct (nth_error (c_sess c) a) as [s|] eqn:Ea; [|apply EOk_inj in H; assert (c' = c) as -> by congruence; apply close_same; reflexivity].
    destruct (own_event e) eqn:O; [|apply EOk_inj in H; assert (c' = c) as -> by congruence; apply close_same; reflexivity].
    apply ses_event_inv in H as (s' & o & Es & -> & _). exact (close_put _ _ _ _ _ (own_wire _ _ _ _ _ O Es)).
  - unfold conn_end. destruct (nth_error (c_sess c) a) as [s|]; [|apply close_same; reflexivity]. assert (F := end_fields s). cbv zeta in F. destruct F as (_ & _ & _ & _ & _ & _ & F7).
    destruct (s_ended s || s_ending s).
    + apply close_none; [reflexivity|]. cbn [put_ses set_c_out set_c_sess c_out]. rewrite F7, skip_own. eexists. split; reflexivity.
    + apply close_none; cbn [put_ses set_c_out set_c_sess c_out c_io]; [unfold close_session; destruct (slab_get (c_slots c) (s_rchan s)) as [[]|]; reflexivity|].
      rewrite F7, skip_own. unfold close_session. eexists. destruct (slab_get (c_slots c) (s_rchan s)) as [[]|]; split; reflexivity.
  - unfold open_session. destruct (c_error c); [apply close_same; reflexivity|]. destruct (c_chmax c <=? slab_key (c_slots c)); [apply close_same; reflexivity|].
    apply close_none; [reflexivity|]. eexists. split; reflexivity.
  - destruct (nth_error (c_opens c) i) as [[]|]; apply close_same; reflexivity.
  - apply close_closes; reflexivity.
  - exists []. rewrite app_nil_r. unfold conn_force_close, io_close. cbn. destruct (c_io c) as [n|] eqn:En; cbn; split; try reflexivity; [exact En|]. right. split; [reflexivity|]. unfold closes_sent. cbn. lia.
  - apply close_same; reflexivity.
  - apply close_same; reflexivity.
  - destruct (nth_error (c_ctl c) i) as [[[e|]|]|]; apply close_same; reflexivity.
  - destruct (c_failed c); [|apply close_same; reflexivity]. apply close_closes; reflexivity.
  - apply close_closes; reflexivity.
  - apply close_none; [reflexivity|]. eexists. split; reflexivity.
  - apply close_same; reflexivity.
Qed.
Definition few_closes (n : nat) (c : conn) : Prop :=
  match c_io c with
  | None => (closes_sent (c_out c) <= n)%nat
  | Some k => (k <= length (c_out c))%nat /\ (closes_sent (firstn k (c_out c)) <= n + 1)%nat
  end.
Lemma few_step : forall ev c c' n, few_closes n c -> close_step ev c c' -> few_closes (n + if peer_closes ev then 1 else 0) c'.
Proof.
  intros ev c c' n F (l & Eo & X). unfold few_closes in *. rewrite Eo in *. destruct (c_io c) as [k|].
  - rewrite X. destruct F as [F1 F2]. rewrite app_length, firstn_app. replace (k - length (c_out c))%nat with 0%nat by lia. cbn [firstn]. rewrite app_nil_r. lia.
  - rewrite closes_app in *. destruct X as [[-> X]|[-> X]]; [lia|]. split; [lia|]. rewrite firstn_all, closes_app. lia.
Qed.
Lemma few_run : forall p evs c c' os n, CI c -> few_closes n c -> crun p evs c = EOk (c', os) -> few_closes (n + length (filter peer_closes evs)) c'.
Proof.
  intros p evs. induction evs as [|e evs IH]; intros c c' os n C F H.
  - cbn in H. apply EOk_inj in H. assert (c' = c) as -> by congruence. cbn. rewrite Nat.add_0_r. exact F.
  - apply crun_cons in H as (c1 & o1 & o2 & Hs & Hr & ->). assert (X := IH c1 c' o2 _ (CI_step _ _ _ _ _ C Hs) (few_step _ _ _ _ F (step_close _ _ _ _ _ C Hs)) Hr).
    cbn [filter]. destruct (peer_closes e); cbn [length]; [|rewrite Nat.add_0_r in X; exact X]. replace (n + Datatypes.S (length (filter peer_closes evs)))%nat with (n + 1 + length (filter peer_closes evs))%nat by lia. exact X.
Qed.
Lemma closes_bounded : forall p chmax mfs evs c os, crun p evs (conn_new chmax mfs) = EOk (c, os) ->
  (closes_sent (before_io_close c) <= 1 + length (filter peer_closes evs))%nat.
Proof.
  intros p chmax mfs evs c os H. assert (F := few_run p evs _ _ _ 0 (CI_new chmax mfs) (Nat.le_0_l 0) H). unfold few_closes in F. unfold before_io_close. destruct (c_io c); lia.
Qed.
Lemma close_answered : forall p c ch cl, creachable p c -> exists c',
  cstep p (CvFrame ch (FClose cl)) c = EOk (c', []) /\ c_out c' = c_out c ++ [(0, FClose (mk_close None))]
  /\ c_io c' = c_io c /\ c_error c' = Some (match c_error c with Some e => e | None => EClosed (close_error cl) end) /\ is_opened c' = false.
Proof.
  intros p c ch cl R. assert (N := ci_norm c (CI_reachable _ _ R)). cbn [cstep conn_frame]. destruct (c_state c); [| congruence | |]; eexists; (split; [reflexivity|]);
    cbn; destruct (c_error c); repeat apply conj; reflexivity.
Qed.
