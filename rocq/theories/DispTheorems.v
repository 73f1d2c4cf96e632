(** * What this side says about a delivery: the theorems *)

From Coq Require Import ZifyBool ZifyNat ZifyN.
From Verif Require Export TrkRel.
Import ListNotations.

Lemma step_dsp : forall p e s s' os, step p e s = EOk (s', os) ->
  stable dsp_rel s s' \/ exists d, e = EvDisposition d /\ s' = post (FDisposition d) s.
Proof.
  intros p e s s' os H. destruct e; try (left; solve [cbn [step] in H; step_er H]).
  right. cbn [step] in H. apply EOk_inj in H. apply (f_equal fst) in H. cbn [fst] in H. eauto.
Qed.
Lemma step_trk : forall p e s s' os, step p e s = EOk (s', os) -> stable trk_rel s s'.
Proof. intros p e s s' os H. destruct e; cbn [step] in H; step_er H. Qed.
Definition dsp_key (k : bool * N) (s s' : ses) : Prop :=
  heap_rel s s' /\ (ok_key k s -> ok_key k s')
  /\ (forall i x, nth_error (s_dlvs s) i = Some x -> key_of x = k -> only i k s' -> quiet x ->
        said (fst k) (snd k) s' = said (fst k) (snd k) s).
Lemma dsp_key_trans : forall k s s1 s2, dsp_key k s s1 -> dsp_key k s1 s2 -> dsp_key k s s2.
Proof.
  intros k s s1 s2 (A1 & B1 & C1) (A2 & B2 & C2). refine (conj _ (conj _ _)); [|auto|].
  - intros i x E. apply A1 in E as (x1 & E1 & I1 & Q1). apply A2 in E1 as (x2 & E2 & I2 & Q2). exists x2. split; [exact E2|]. split; [congruence | auto].
  - intros i x E K O Q. destruct (A1 _ _ E) as (x1 & E1 & G1). assert (K1 := grows_key _ _ G1).
    rewrite (C2 i x1 E1); [|congruence|exact O|apply G1, Q]. apply (C1 i x E K); [|exact Q]. exact (only_back _ _ _ _ A2 O).
Qed.
Lemma step_dsp_key : forall p e s s' os k, step p e s = EOk (s', os) ->
  (forall d, e = EvDisposition d -> about (fst k) (snd k) (FDisposition d) = false) -> dsp_key k s s'.
Proof.
  intros p e s s' os k H N. destruct (step_dsp _ _ _ _ _ H) as [(A & B & C)|(d & -> & ->)].
  - refine (conj A (conj (B k) _)). intros i x. exact (C k i x).
  - specialize (N d eq_refl). assert (Es : said (fst k) (snd k) (post (FDisposition d) s) = said (fst k) (snd k) s).
    { unfold said, post. st_cbn. rewrite filter_app. cbn [filter]. rewrite N. apply app_nil_r. }
    refine (conj _ (conj _ _)).
    + intros i x E. exists x. split; [exact E | apply grows_refl].
    + unfold ok_key. rewrite Es. intros O. exact O.
    + intros. exact Es.
Qed.
Lemma run_dsp_key : forall p k evs s s' os, run p evs s = EOk (s', os) ->
  (forall d, In (EvDisposition d) evs -> about (fst k) (snd k) (FDisposition d) = false) -> dsp_key k s s'.
Proof.
  intros p k evs. induction evs as [|e evs IH]; intros s s' os H N.
  - cbn [run] in H. apply EOk_inj in H. apply (f_equal fst) in H. cbn [fst] in H. subst s'. refine (conj _ (conj (fun O => O) _)); [|reflexivity].
    intros i x E. exists x. split; [exact E | apply grows_refl].
  - cbn [run] in H. destruct (step p e s) as [[s1 o1]|] eqn:E; [|discriminate H]. cbn [ebind] in H. destruct (run p evs s1) as [[s2 o2]|] eqn:E2; [|discriminate H].
    cbn [ebind] in H. apply EOk_inj in H. apply (f_equal fst) in H. cbn [fst] in H. subst s2. apply dsp_key_trans with s1.
    + apply (step_dsp_key _ _ _ _ _ _ E). intros d ->. apply N. left. reflexivity.
    + apply (IH _ _ _ E2). intros d Hin. apply N. right. exact Hin.
Qed.
Lemma run_trk : forall p evs s s' os, run p evs s = EOk (s', os) -> stable trk_rel s s'.
Proof.
  intros p evs s s' os H. refine (run_ind (stable trk_rel s) p _ evs s s' os (stable_refl _ _ _) H).
  intros e s1 s2 o1 I E. eapply stable_trans; [exact _ | exact I | exact (step_trk _ _ _ _ _ E)].
Qed.
Lemma own_only : forall i x s, own_id i x s -> nth_error (s_dlvs s) i = Some x /\ only i (key_of x) s.
Proof.
  intros i x s [E O]. split; [exact E|]. intros j y Ey K. unfold key_of in K. apply (O j y Ey); congruence.
Qed.
Lemma said_once : forall p id local rc mfs b evs s os i x, run p evs (ses_new id local rc mfs b) = EOk (s, os) -> own_id i x s -> no_raw evs x ->
  exists n, map settles (said (dl_sender x) (dl_id x) s) = repeat false n \/ map settles (said (dl_sender x) (dl_id x) s) = repeat false n ++ [true].
Proof.
  intros p id local rc mfs b evs s os i x H O N. apply own_only in O as [E O]. destruct (run_dsp_key p (key_of x) _ _ _ _ H N) as (_ & K & _).
  destruct K as [_ K].
  - split; [intros _; reflexivity|]. intros j y Ey. destruct j; discriminate Ey.
  - destruct (K i x E eq_refl O) as (n & [S|[S _]]); exists n; auto.
Qed.
Lemma tracked_reachable : forall p s, reachable p s -> all_tracked s.
Proof.
  intros p s (id & local & rc & mfs & b & evs & os & H). apply (run_trk _ _ _ _ _ H). intros _ i x E. destruct i; discriminate E.
Qed.
Lemma drop_says : forall p s s' os i x, reachable p s -> s_error s = None -> own_id i x s -> held i x s -> step p (EvDrop i) s = EOk (s', os) ->
  s_out s' = s_out s ++ [says x true dropped_outcome].
Proof.
  intros p s s' os i x R Er O (E & Al & Lo & Re) H. apply own_only in O as [_ O]. assert (T := tracked_reachable _ _ R Er i x E O Al Lo).
  cbn [step] in H. apply EOk_inj in H. apply (f_equal fst) in H. cbn [fst] in H. subst s'. unfold dlv_drop. rewrite E, Al. cbn [negb]. cbv zeta.
  assert (X : map_get (dl_id x) (unsettled (dl_sender x) (upd_dlv i (set_dl_alive false) s)) = entry (key_of x) s).
  { unfold entry. cbn [key_of fst snd]. rewrite (unsettled_same (dl_sender x) s); [reflexivity | frw; reflexivity..]. }
  rewrite X. destruct (entry (key_of x) s); [|destruct T; reflexivity]. rewrite Re, Lo. cbn [orb].
  match goal with |- s_out (post ?f ?s0) = _ => change (s_out (post f s0)) with (s_out s0 ++ [f]) end. frw. reflexivity.
Qed.
Lemma settle_says : forall p s s' os i x st, held i x s -> step p (EvSettle i st) s = EOk (s', os) ->
  s_out s' = s_out s ++ [says x true st].
Proof.
  intros p s s' os i x st (E & Al & Lo & Re) H.
  cbn [step] in H. apply EOk_inj in H. apply (f_equal fst) in H. cbn [fst] in H. subst s'. unfold dlv_settle. rewrite E, Al, Lo, Re. cbn [negb orb].
  match goal with |- s_out (post ?f ?s0) = _ => change (s_out (post f s0)) with (s_out s0 ++ [f]) end. frw. reflexivity.
Qed.
Lemma update_says : forall p s s' os i x st, held i x s -> step p (EvUpdate i st) s = EOk (s', os) ->
  s_out s' = s_out s ++ [says x false st] /\ held i x s'.
Proof.
  intros p s s' os i x st (E & Al & Lo & Re) H.
  cbn [step] in H. apply EOk_inj in H. apply (f_equal fst) in H. cbn [fst] in H. subst s'. unfold dlv_update. rewrite E, Al, Lo, Re. cbn [negb orb].
  split; [reflexivity|]. repeat split; assumption.
Qed.
(** ** Deliveries the peer settled *)
Lemma run_chan : forall p evs s s' os, reachable p s -> run p evs s = EOk (s', os) -> chan_rel s s'.
Proof. intros p evs s s' os R H. destruct (fut_reachable _ _ R) as [W _]. exact (proj1 (proj2 (run_hold _ _ _ _ _ W H))). Qed.
Lemma step_waits : forall p e s s' os w k, step p e s = EOk (s', os) -> e <> EvPollWait w -> e <> EvCancelWait w ->
  nth_error (s_waits s) w = Some k -> nth_error (s_waits s') w = Some k.
Proof.
  intros p e s s' os w k H N1 N2 E.
  destruct (memf Fwaits (ev_fields e)) eqn:M.
  - destruct e; try discriminate M; cbn [step] in H.
    + destruct (nth_error (s_dlvs s) d); apply EOk_inj in H; apply (f_equal fst) in H; cbn [fst] in H; subst s'; [|exact E]. st_cbn.
      rewrite nth_error_app1 by (apply nth_lt in E; exact E). exact E.
    + apply EOk_inj in H; apply (f_equal fst) in H; cbn [fst] in H; subst s'. assert (Nw : w <> w0) by congruence.
      assert (X : forall f s1, s_waits s1 = s_waits s -> nth_error (s_waits (upd_wait w0 f s1)) w = Some k).
      { intros f s1 Es. unfold upd_wait. rewrite <- Es in E. destruct (nth_error (s_waits s1) w0); [|exact E]. st_cbn. rewrite nth_set_nth_neq by congruence. exact E. }
      unfold poll_wait. cbv zeta. unfold new_chan. repeat (fr_break; try exact E); try exact E; apply X; frw; reflexivity.
    + apply EOk_inj in H; apply (f_equal fst) in H; cbn [fst] in H; subst s'. assert (Nw : w <> w0) by congruence.
      unfold upd_wait. destruct (nth_error (s_waits s) w0); [|exact E]. st_cbn. rewrite nth_set_nth_neq by congruence. exact E.
  - assert (X := step_framed _ _ _ _ _ H Fwaits M). cbn [same] in X. rewrite X. exact E.
Qed.
Lemma run_waits : forall p w k evs s s' os, run p evs s = EOk (s', os) -> ~ In (EvPollWait w) evs -> ~ In (EvCancelWait w) evs ->
  nth_error (s_waits s) w = Some k -> nth_error (s_waits s') w = Some k.
Proof.
  intros p w k evs. induction evs as [|e evs IH]; intros s s' os H N1 N2 E; cbn [run] in H.
  - apply EOk_inj in H. apply (f_equal fst) in H. cbn [fst] in H. subst s'. exact E.
  - destruct (step p e s) as [[s1 o1]|] eqn:E1; [|discriminate H]. cbn [ebind] in H. destruct (run p evs s1) as [[s2 o2]|] eqn:E2; [|discriminate H].
    cbn [ebind] in H. apply EOk_inj in H. apply (f_equal fst) in H. cbn [fst] in H. subst s2. cbn [In] in N1, N2.
    apply (IH s1 s' o2 E2); auto. apply (step_waits _ _ _ _ _ _ _ E1); [intros X; apply N1; auto | intros X; apply N2; auto | exact E].
Qed.
Lemma reach_step : forall p e s s' os, reachable p s -> step p e s = EOk (s', os) -> reachable p s'.
Proof.
  intros p e s s' os (id & local & rc & mfs & b & evs & o & R) H. exists id, local, rc, mfs, b, (evs ++ [e]). 
  assert (X : forall evs s0 s1 o1, run p evs s0 = EOk (s1, o1) -> step p e s1 = EOk (s', os) -> exists o2, run p (evs ++ [e]) s0 = EOk (s', o2)).
  { clear. induction evs as [|e0 evs IH]; intros s0 s1 o1 R H; cbn [run app] in *.
    - apply EOk_inj in R. apply (f_equal fst) in R. cbn [fst] in R. subst s1. rewrite H. cbn [ebind]. eauto.
    - destruct (step p e0 s0) as [[s2 o2]|]; [|discriminate R]. cbn [ebind] in *. destruct (run p evs s2) as [[s3 o3]|] eqn:E3; [|discriminate R].
      cbn [ebind] in R. apply EOk_inj in R. apply (f_equal fst) in R. cbn [fst] in R. subst s3. destruct (IH _ _ _ E3 H) as (o4 & ->). cbn [ebind]. eauto. }
  exact (X _ _ _ _ R H).
Qed.
Lemma reach_run : forall p evs s s' os, reachable p s -> run p evs s = EOk (s', os) -> reachable p s'.
Proof. intros p evs s s' os R H. refine (run_ind (reachable p) p _ evs s s' os R H). intros e s1 s2 o1. apply reach_step. Qed.
Lemma peer_settled_quiet : forall p disp evs1 evs2 s s1 s2 s3 s4 os1 os2 os3 os4 w i x, reachable p s -> s_error s = None -> no_wrap disp ->
  step p (EvFrame (FDisposition disp)) s = EOk (s1, os1) -> disposition_settled disp = true -> awaits_outcome w i s ->
  run p evs1 s1 = EOk (s2, os2) -> ~ In (EvPollWait w) evs1 -> ~ In (EvCancelWait w) evs1 -> s_error s2 = None ->
  step p (EvPollWait w) s2 = EOk (s3, os3) -> run p evs2 s3 = EOk (s4, os4) ->
  own_id i x s4 -> dl_id x < two32 -> covers disp (dl_sender x) (dl_id x) -> no_raw evs2 x ->
  said (dl_sender x) (dl_id x) s4 = said (dl_sender x) (dl_id x) s2.
Proof.
  intros p disp evs1 evs2 s s1 s2 s3 s4 os1 os2 os3 os4 w i x R Er Nw H1 Sd A H2 N1 N2 Er2 H3 H4 O L Cv Nr.
  apply own_only in O as [E4 O4]. assert (I := fut_reachable _ _ R). destruct A as (c & Ew & Wc).
  assert (Pw : wait_placed s (mk_wtask i (WWait c))) by exact (proj2 (proj2 (proj2 (proj2 I))) _ _ Ew).
  destruct Pw as (_ & dv & Edv & P). cbn [wk_dlv] in Edv. destruct (P Wc) as (di & G & T).
  assert (R1 := reach_step _ _ _ _ _ R H1). assert (R2 := reach_run _ _ _ _ _ R1 H2).
  assert (K2 := run_trk _ _ _ _ _ H2). assert (K3 := step_trk _ _ _ _ _ H3). assert (K4 := run_trk _ _ _ _ _ H4).
  assert (K1 := step_trk _ _ _ _ _ H1).
  destruct (proj1 K1 _ _ Edv) as (x1 & E1 & F1 & _). destruct (proj1 K2 _ _ E1) as (x2 & E2 & F2 & _). destruct (proj1 K3 _ _ E2) as (x3 & E3 & F3 & _).
  destruct (proj1 K4 _ _ E3) as (x4 & E4' & F4 & _). rewrite E4 in E4'. apply Some_inj in E4'. subst x4.
  assert (Kd : key_of dv = key_of x) by congruence. assert (Kd' := Kd). unfold key_of in Kd'. injection Kd' as Ks Ki.
  (* the entry is settled *)
  apply step_disposition in H1; [|exact Er]. subst s1.
  assert (G1 : entry (key_of x) (settle_deliveries disp s) = Some (di_disposition disp di)).
  { unfold entry, key_of. cbn [fst snd]. destruct (settle_get disp s (dl_sender x) (dl_id x) Nw L) as [G1 _]. rewrite (G1 Cv), <- Ks, <- Ki, G. reflexivity. }
  assert (C1 : nth_error (s_chans (settle_deliveries disp s)) c = Some (CSent VOk)).
  { rewrite settle_as_all. rewrite <- Ks, <- Ki in Cv. unfold covers in Cv. rewrite speaks_dir in Cv. rewrite <- (settle_list_in disp) in Cv; [|exact Nw|congruence].
    destruct Cv as [Eb Hin]. rewrite Eb in G. eapply settle_all_self; eauto. }
  assert (Ew1 : nth_error (s_waits (settle_deliveries disp s)) w = Some (mk_wtask i (WWait c))) by (frw; exact Ew).
  assert (Ew2 := run_waits _ _ _ _ _ _ _ H2 N1 N2 Ew1).
  assert (C2 : nth_error (s_chans s2) c = Some (CSent VOk)) by (apply (proj2 (run_chan _ _ _ _ _ R1 H2) _ _ C1); discriminate).
  assert (O3 : only i (key_of x) s3) by exact (only_falls _ _ _ _ (proj1 K4) O4).
  assert (O2 : only i (key_of x) s2) by exact (only_falls _ _ _ _ (proj1 K3) O3).
  assert (L2 : ent_le (entry (key_of x) (settle_deliveries disp s)) (entry (key_of x) s2)).
  { replace (key_of x) with (key_of x1) by congruence. apply (proj2 (proj2 K2) i x1 E1). replace (key_of x1) with (key_of x) by congruence. exact O2. }
  rewrite G1 in L2. cbn [ent_le] in L2.
  assert (Q : quiet x3 /\ said (dl_sender x) (dl_id x) s3 = said (dl_sender x) (dl_id x) s2).
  { assert (Es : said (dl_sender x) (dl_id x) s3 = said (dl_sender x) (dl_id x) s2).
    { unfold said. assert (X := step_framed _ _ _ _ _ H3 Fout eq_refl). cbn [same] in X. rewrite X. reflexivity. }
    split; [|exact Es]. assert (D2 : quiet x2 \/ (dl_alive x2 = true /\ dl_local x2 = false)).
    { unfold quiet. destruct (dl_alive x2), (dl_local x2); auto. }
    destruct D2 as [D2|[Al Lo]].
    - destruct (step_dsp _ _ _ _ _ H3) as [(B & _)|(d & D & _)]; [|discriminate D]. apply B in E2 as (x3' & E3' & _ & Q). rewrite E3 in E3'. apply Some_inj in E3'. subst x3'. auto.
    - assert (Tr : entry (key_of x) s2 <> None). { replace (key_of x) with (key_of x2) by congruence. apply (tracked_reachable _ _ R2 Er2 i x2 E2); auto. replace (key_of x2) with (key_of x) by congruence. exact O2. }
      destruct (entry (key_of x) s2) as [d2|] eqn:G2; [|congruence]. assert (Sd2 : di_settled d2 = true). { apply L2. unfold di_disposition. st_cbn. rewrite Sd. apply Bool.orb_true_r. }
      cbn [step] in H3. apply EOk_inj in H3. apply (f_equal fst) in H3. cbn [fst] in H3. unfold poll_wait in H3. rewrite Ew2 in H3. cbn [wk_dlv wk_st] in H3. rewrite E2, C2 in H3.
      assert (G2' : map_get (dl_id x2) (unsettled (dl_sender x2) s2) = Some d2).
      { replace (key_of x) with (key_of x2) in G2 by congruence. exact G2. }
      rewrite G2', Sd2 in H3. right. left. cbv zeta in H3.
      assert (N3 : nth_error (s_dlvs (upd_dlv i (set_dl_remote true) s2)) i = Some (set_dl_remote true x2)) by (rewrite nth_upd_dlv, Nat.eqb_refl, E2; reflexivity).
      assert (N3' : nth_error (s_dlvs s3) i = Some (set_dl_remote true x2)).
      { destruct (check_inner d2) as [[r|] d2']; subst s3; frw; exact N3. }
      rewrite E3 in N3'. apply Some_inj in N3'. subst x3. reflexivity. }
  destruct Q as [Q Es]. rewrite <- Es. destruct (run_dsp_key p (key_of x) _ _ _ _ H4 Nr) as (_ & _ & C). apply (C i x3 E3); [congruence|exact O4 | exact Q].
Qed.
Lemma own_nodup : forall i x s, nth_error (s_dlvs s) i = Some x -> NoDup (map (fun d => (dl_sender d, dl_id d)) (s_dlvs s)) -> own_id i x s.
Proof.
  intros i x s E N. split; [exact E|]. intros j y Ey S I. rewrite NoDup_nth_error in N. apply N.
  - rewrite map_length. apply nth_lt in Ey. exact Ey.
  - rewrite !nth_error_map, E, Ey. cbn [option_map]. congruence.
Qed.
