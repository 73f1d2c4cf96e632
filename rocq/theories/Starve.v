(** * A send that waits can be overtaken for ever *)

From Coq Require Import ZifyBool ZifyNat ZifyN Strings.String.
From Verif Require Import Base SpecProgress Scenario.
From Verif Require Export ProgressProofs.
Import ListNotations.

(** One more credit, one more send. *)
Definition grant (n dc : N) : flow_t := mk_flow (Some n) 1000 1 100 (Some 0) (Some dc) (Some 1) None false false None.
Definition one_more (n dc : N) (i t : nat) : list ev :=
  [EvFrame (FFlow (grant n dc)); EvCtlOk i same_frame; EvSend 0 (bytes_of 3) (Some [x07]) false None; EvPollSend t; EvPollSend 0].
Definition wide_open (l : slink) : Prop := sn_error l = None /\ sn_closed l = false /\ sn_max l = None /\ sn_dc l < two32.
Definition attached0 (s : ses) : Prop :=
  s_error s = None /\ exists i l, map_get 0 (s_rhandles s) = Some i /\ slab_get (s_links s) i = Some (SEstablished 0)
    /\ nth_error (s_snds s) 0 = Some l /\ wide_open l.

Lemma wsub_one : forall a n, a < two32 -> n < two32 -> wsub (wadd a n) a = n.
Proof.
  intros a n A B. unfold wsub, wadd. rewrite (N.mod_small a) by exact A. destruct (N.lt_ge_cases (a + n) (two32)) as [L|L].
  - rewrite (N.mod_small (a + n)) by exact L. replace (a + n + two32 - a) with (n + 1 * two32) by lia.
    rewrite N.mod_add by discriminate. apply N.mod_small. exact B.
  - assert (E : (a + n) mod two32 = a + n - two32).
    { replace (a + n) with (a + n - two32 + 1 * two32) at 1 by lia. rewrite N.mod_add by discriminate. apply N.mod_small. lia. }
    rewrite E. replace (a + n - two32 + two32 - a) with n by lia. apply N.mod_small. exact B.
Qed.

(** The flow reaches the link and wakes the one that waits. *)
Lemma grant_steps : forall p s t c tk tag, reachable p s -> attached0 s ->
  nth_error (s_tasks s) t = Some tk -> tk_link tk = 0%nat -> tk_st tk = TLink tag c -> waits_on c s ->
  forall l, nth_error (s_snds s) 0 = Some l ->
  exists s2, run p [EvFrame (FFlow (grant (s_nout s) (sn_dc l))); EvCtlOk (length (s_ctl s)) same_frame] s = EOk (s2, [])
    /\ attached0 s2 /\ s_tasks s2 = s_tasks s /\ s_dlvs s2 = s_dlvs s /\ nth_error (s_chans s2) c = Some (CSent VOk) /\ window_open s2
    /\ exists l2, nth_error (s_snds s2) 0 = Some l2 /\ sn_credit l2 = 1 /\ sn_pending l2 = [] /\ wide_open l2.
Proof.
  intros p s t c tk tag R (Er & i & l0 & Hr & Hl & E0 & O) Et La Es W l El. assert (l0 = l) as -> by congruence. clear E0.
  set (f := grant (s_nout s) (sn_dc l)).
  assert (F := fut_reachable _ _ R). destruct F as (_ & _ & _ & T & _). specialize (T _ _ Et). unfold task_placed in T. rewrite Es in T.
  destruct T as [Lc P]. destruct (P W) as (l1 & E1 & I). rewrite La in E1. assert (l1 = l) as -> by congruence. clear E1.
  set (s1 := set_s_ctl (set_nth (length (s_ctl s)) None (s_ctl s ++ [Some (KFlow f 0)])) (set_s_ctl (s_ctl s ++ [Some (KFlow f 0)]) s)).
  exists (handle_flow f (Some 0%nat) s1).
  assert (Nn : s_nout s < two32) by (apply wire_reachable in R as (o & _ & -> & _); apply N.mod_lt; discriminate).
  assert (Fr : framed s s1 [Fctl]) by (unfold s1; fr_chain).
  assert (X : nth_error (s_ctl s ++ [Some (KFlow f 0)]) (length (s_ctl s)) = Some (Some (KFlow f 0))) by apply nth_end.
  split.
  { cbn [run step]. unfold ses_handle_frame. rewrite Er. change (flow_handle f) with (Some 0). cbv beta iota.
    rewrite Hr, Hl. cbn [ebind dispatch]. unfold control. st_cbn. rewrite X. cbn [control_ok noobs emap ebind]. reflexivity. }
  assert (Hn : s_snds s1 = s_snds s) by apply (Fr Fsnds eq_refl).
  assert (Cr : wsub (wadd (or_default 0 (flow_delivery_count f)) 1) (sn_dc l) = 1).
  { unfold f. cbn [grant flow_delivery_count or_default]. apply wsub_one; [apply O|reflexivity]. }
  set (s2 := set_s_pending [] (fire_all (map fst (s_pending (set_s_iwin (wsub (wadd (s_nout s1) 1000) (s_nout s1)) (set_s_owin 100 (set_s_nin 1 s1))))) VOk
      (set_s_iwin (wsub (wadd (s_nout s1) 1000) (s_nout s1)) (set_s_owin 100 (set_s_nin 1 s1))))).
  assert (Hf : handle_flow f (Some 0%nat) s1 = apply_flow f 0 s2).
  { unfold handle_flow, s2. cbv zeta. unfold f at 1 2 3 4 5. cbn [grant flow_next_outgoing_id flow_outgoing_window flow_next_incoming_id flow_incoming_window flow_echo or_default].
    assert (En : s_nout s1 = s_nout s) by apply (Fr Fnout eq_refl). rewrite <- En. reflexivity. }
  rewrite Hf.
  assert (F2 : framed s1 s2 [Fnin; Fowin; Fiwin; Fpending; Fchans]) by (unfold s2; fr_chain).
  assert (Hs2 : s_snds s2 = s_snds s) by (rewrite (F2 Fsnds eq_refl : s_snds s2 = s_snds s1); exact Hn).
  assert (El2 : nth_error (s_snds s2) 0 = Some l) by (rewrite Hs2; exact El).
  assert (I2 : s_iwin (apply_flow f 0 s2) = 1000).
  { frw. unfold s2. frw. st_cbn. apply wsub_one; [|reflexivity]. rewrite (Fr Fnout eq_refl : s_nout s1 = s_nout s). exact Nn. }
  assert (Hc : nth_error (s_chans (apply_flow f 0 s2)) c = Some (CSent VOk)).
  { assert (C1 : s_chans s1 = s_chans s) by apply (Fr Fchans eq_refl).
    assert (NP : ~ In c (map fst (s_pending (set_s_iwin (wsub (wadd (s_nout s1) 1000) (s_nout s1)) (set_s_owin 100 (set_s_nin 1 s1)))))).
    { st_cbn. rewrite (Fr Fpending eq_refl : s_pending s1 = s_pending s). intros J. apply in_map_iff in J as ((c' & h) & Ec & J). cbn [fst] in Ec. subst c'.
      assert (Y := place_unique s (PLink 0) c (fut_reachable _ _ R)). specialize (Y (ex_intro _ l (conj El I)) (PSes h) J). discriminate Y. }
    assert (W2 : waits_on c s2).
    { unfold waits_on, s2. st_cbn. rewrite fire_all_other by exact NP. st_cbn. rewrite C1. exact W. }
    unfold apply_flow. unfold f at 1. cbn [grant flow_link_credit]. rewrite El2. cbv zeta.
    assert (W3 := fire_all_self (sn_pending l) VOk s2 c I W2).
    destruct (0 <? _); [|frw; exact W3].
    assert (K : forall x, nth_error (s_chans x) c = Some (CSent VOk) -> nth_error (s_chans (fire_all (cd_wait (sn_on_credit l)) VOk x)) c = Some (CSent VOk)).
    { intros x Ex. apply (chan_value x); [|exact Ex]. apply hold_chan. st_chain. }
    frw. apply K. frw. exact W3. }
  assert (Es2 : exists l2, nth_error (s_snds (apply_flow f 0 s2)) 0 = Some l2 /\ sn_credit l2 = 1 /\ sn_pending l2 = [] /\ wide_open l2).
  { unfold apply_flow. unfold f at 1. cbn [grant flow_link_credit]. rewrite El2. cbv zeta. rewrite Cr. cbn [N.ltb N.compare].
    rewrite nth_upd_snd, Nat.eqb_refl. frw. rewrite nth_upd_snd, Nat.eqb_refl. frw. rewrite El2. cbn [option_map].
    eexists. split; [reflexivity|]. split; [reflexivity|]. split; [reflexivity|]. exact O. }
  split; [|split; [|split; [|split; [|split]]]].
  - split; [frw; rewrite (F2 Ferror eq_refl : s_error s2 = s_error s1); rewrite (Fr Ferror eq_refl : s_error s1 = s_error s); exact Er|].
    destruct Es2 as (l2 & A & _ & _ & B). exists i, l2. split; [frw; rewrite (F2 Frhandles eq_refl : s_rhandles s2 = s_rhandles s1), (Fr Frhandles eq_refl : s_rhandles s1 = s_rhandles s); exact Hr|].
    split; [frw; rewrite (F2 Flinks eq_refl : s_links s2 = s_links s1), (Fr Flinks eq_refl : s_links s1 = s_links s); exact Hl|]. auto.
  - frw. rewrite (F2 Ftasks eq_refl : s_tasks s2 = s_tasks s1). apply (Fr Ftasks eq_refl).
  - frw. rewrite (F2 Fdlvs eq_refl : s_dlvs s2 = s_dlvs s1). apply (Fr Fdlvs eq_refl).
  - exact Hc.
  - unfold window_open. rewrite I2. reflexivity.
  - exact Es2.
Qed.

(** The links that a poll of a send leaves attached. *)
Lemma loop_attached : forall t tk l tag s, tk_link tk = 0%nat -> nth_error (s_snds s) 0 = Some l -> attached0 s -> attached0 (link_loop t tk l tag s).
Proof.
  intros t tk l tag s La El (Er & i & l0 & Hr & Hl & E0 & O). assert (l0 = l) as -> by congruence.
  split; [frw; exact Er|]. eexists i, _. split; [frw; exact Hr|]. split; [frw; exact Hl|].
  rewrite link_loop_snds, La, nth_upd_snd, Nat.eqb_refl, El. cbn [option_map]. split; [reflexivity|].
  destruct O as (A & B & C & D). destruct (must_wait l); (split; [exact A|]; split; [exact B|]; split; [exact C|]); st_cbn; [exact D|].
  unfold wadd. apply N.mod_lt. discriminate.
Qed.
Lemma sent_kept : forall p e s s' os t, step p e s = EOk (s', os) -> on_link t 0 s -> sent t s -> on_link t 0 s' /\ sent t s'.
Proof.
  intros p e s s' os t St (tk & Et & La) (tk' & d & (Et' & i & Es & Ed)). assert (tk' = tk) as -> by congruence.
  destruct (step_keeps_tasks _ _ _ _ _ St t tk Et) as (k' & E' & _ & D & _). assert (k' = tk) as -> by (apply D; eauto).
  destruct (step_keeps_objs _ _ _ _ _ St) as [_ Kd]. apply Kd in Ed as (d2 & Ed2 & _).
  split; [exists tk; auto|]. exists tk, d2. split; [exact E'|eauto].
Qed.
Lemma sent_run : forall p evs s s' os t, run p evs s = EOk (s', os) -> on_link t 0 s -> sent t s -> on_link t 0 s' /\ sent t s'.
Proof.
  intros p evs s s' os t H A B. apply (run_ind (fun s => on_link t 0 s /\ sent t s) p) with (evs := evs) (s := s) (os := os); [|auto|exact H].
  intros e s1 s2 o [C D] St. exact (sent_kept _ _ _ _ _ _ St C D).
Qed.
Lemma tasks_longer : forall p evs s s' os, run p evs s = EOk (s', os) -> (length (s_tasks s) <= length (s_tasks s'))%nat.
Proof.
  intros p evs s s' os H. apply (run_ind (fun x => (length (s_tasks s) <= length (s_tasks x))%nat) p) with (evs := evs) (s := s) (os := os); [|lia|exact H].
  intros e s1 s2 o L St. assert (K := step_keeps_tasks _ _ _ _ _ St). destruct (s_tasks s1) as [|k ks] eqn:E1; [cbn [length] in L; lia|].
  destruct (nth_error (s_tasks s1) (length ks)) as [x|] eqn:E2.
  - apply K in E2 as (x' & E2' & _). apply nth_lt in E2'. cbn [length] in L. lia.
  - apply nth_error_None in E2. rewrite E1 in E2. cbn [length] in E2. lia.
Qed.
Lemma reachable_run : forall p evs s s' os, reachable p s -> run p evs s = EOk (s', os) -> reachable p s'.
Proof.
  intros p evs s s' os (id & local & rc & mfs & b & evs0 & os0 & H0) H. exists id, local, rc, mfs, b, (evs0 ++ evs), (os0 ++ os).
  exact (run_then _ _ _ _ _ _ _ _ H0 H).
Qed.

Lemma round : forall p s ts, reachable p s -> attached0 s -> overtaken ts s ->
  exists evs s' os t, run p evs s = EOk (s', os) /\ attached0 s' /\ overtaken (t :: ts) s'.
Proof.
  intros p s ts R At ((tk & tag & c & Et & La & Es & W) & ND & F). assert (A0 := At). destruct A0 as (Er & i & l & Hr & Hl & El & O).
  destruct (grant_steps p s 0 c tk tag R At Et La Es W l El) as (s2 & R2 & At2 & T2 & D2 & C2 & Wo & l2 & El2 & Cr2 & Pe2 & O2).
  set (t := length (s_tasks s)). set (k := mk_stask 0 (Some [x07]) (bytes_of 3) false None false TNew).
  set (s3 := set_s_tasks (s_tasks s2 ++ [k]) s2).
  assert (St3 : step p (EvSend 0 (bytes_of 3) (Some [x07]) false None) s2 = EOk (s3, [])) by (cbn [step]; rewrite El2; reflexivity).
  assert (Ek : nth_error (s_tasks s3) t = Some k) by (unfold s3, t; st_cbn; rewrite <- T2; apply nth_end).
  assert (El3 : nth_error (s_snds s3) 0 = Some l2) by exact El2.
  assert (P4 : poll_send t s3 = link_loop t k l2 [x07] s3).
  { unfold poll_send. rewrite Ek. change (tk_link k) with 0%nat. rewrite El3. cbv zeta. change (tk_st k) with TNew. cbv iota.
    destruct O2 as (A & B & C & _). rewrite A, B, C. reflexivity. }
  assert (N0 : (0 < t)%nat) by (unfold t; apply nth_lt in Et; lia).
  destruct (go_poll t k [x07] l2 s3 Ek El3) as ((l4 & El4 & Pe4 & Cr4) & _ & _ & k4 & d4 & Dn4 & _); [lia|exact Pe2|exact Wo|].
  change (tk_link k) with 0%nat in El4. rewrite <- P4 in El4, Dn4.
  set (s4 := poll_send t s3) in *.
  assert (Et3 : nth_error (s_tasks s3) 0 = Some tk).
  { unfold s3. st_cbn. rewrite T2. rewrite nth_error_app1; [exact Et|]. exact (nth_lt _ _ _ _ Et). }
  assert (Rs3 : run p [EvSend 0 (bytes_of 3) (Some [x07]) false None] s2 = EOk (s3, [])) by (cbn [run]; rewrite St3; reflexivity).
  assert (R3 : reachable p s3) by exact (reachable_run _ _ _ _ _ (reachable_run _ _ _ _ _ R R2) Rs3).
  assert (Wf3 : slab_wf (s_links s3)) by (apply (fut_reachable _ _ R3)).
  assert (Wk4 : woken_on 0 0 s4).
  { apply (woken_others p); [exact Wf3| |lia]. exists tk, tag, c. split; [exact Et3|]. split; [exact La|]. split; [exact Es|]. exact C2. }
  destruct Wk4 as (tk4 & tag4 & c4 & Et4 & La4 & Es4 & W4).
  assert (At3 : attached0 s3) by exact At2.
  assert (At4 : attached0 s4) by (rewrite P4; apply loop_attached; [reflexivity|exact El3|exact At3]).
  assert (El4' : nth_error (s_snds s4) (tk_link tk4) = Some l4) by (rewrite La4; exact El4).
  assert (P5 := poll_woken 0 s4 tk4 tag4 c4 l4 Et4 Es4 W4 El4').
  assert (Z4 : sn_credit l4 = 0) by lia.
  destruct (wait_poll 0 tk4 tag4 l4 s4 Et4 El4' Z4) as (_ & _ & Q5). rewrite <- P5 in Q5. rewrite La4 in Q5.
  set (s5 := poll_send 0 s4) in *.
  assert (Rn : run p (one_more (s_nout s) (sn_dc l) (length (s_ctl s)) t) s = EOk (s5, [])).
  { unfold one_more. change (?a :: ?b :: ?r) with ([a; b] ++ r). apply (run_then p _ _ s s2 s5 [] [] R2).
    cbn [run]. rewrite St3. cbn [ebind]. cbn [step ebind]. reflexivity. }
  assert (Rn45 : run p [EvPollSend 0%nat] s4 = EOk (s5, [])) by reflexivity.
  exists (one_more (s_nout s) (sn_dc l) (length (s_ctl s)) t), s5, [], t. split; [exact Rn|].
  split; [rewrite P5; apply loop_attached; auto|].
  split; [|split].
  - destruct Q5 as (a & b & X1 & X2 & X3 & X4). exists a, b, (length (s_chans s4)). auto.
  - constructor; [|exact ND]. intros J. rewrite Forall_forall in F. destruct (F _ J) as [X _]. unfold t in X. lia.
  - assert (Lt : (t < length (s_tasks s5))%nat).
    { assert (X := tasks_longer _ _ _ _ _ Rn45). assert (Y := step_keeps_tasks p (EvPollSend t) s3 _ _ (poll_step p t s3) t k Ek).
      destruct Y as (k' & Y & _). apply nth_lt in Y. fold s4 in Y. lia. }
    constructor.
    + split; [lia|]. assert (L4 : on_link t 0 s4).
      { destruct (step_keeps_tasks p (EvPollSend t) s3 _ _ (poll_step p t s3) t k Ek) as (k' & Y & Id & _). exists k'. split; [exact Y|].
        unfold tk_ids in Id. apply (f_equal (fun x => fst (fst (fst (fst x))))) in Id. exact Id. }
      apply (sent_run _ _ _ _ _ _ Rn45 L4). exists k4, d4. exact Dn4.
    + rewrite Forall_forall in *. intros u J. destruct (F _ J) as ([A B] & C & D). split; [lia|].
      exact (sent_run _ _ _ _ _ _ Rn C D).
Qed.
Lemma starved : forall n, exists evs s os ts, run Debug evs (start 512 10) = EOk (s, os) /\ overtaken ts s /\ length ts = n.
Proof.
  assert (X : forall n, exists evs s os ts, run Debug evs (start 512 10) = EOk (s, os) /\ attached0 s /\ overtaken ts s /\ length ts = n).
  { induction n as [|n (evs & s & os & ts & Rn & At & Ov & Ln)].
    - set (evs := sender_link ++ send_event 0 0 (bytes_of 3)). set (s := result Debug evs (start 512 10)).
      exists evs, s, (observed Debug evs (start 512 10)), []. split; [apply runs_ok; vm_compute; reflexivity|]. split; [|split; [|reflexivity]].
      + split; [vm_compute; reflexivity|]. do 2 eexists. split; [vm_compute; reflexivity|]. split; [vm_compute; reflexivity|].
        split; [vm_compute; reflexivity|]. split; [reflexivity|]. split; [reflexivity|]. split; [reflexivity|]. reflexivity.
      + split; [|split; constructor]. do 3 eexists. split; [vm_compute; reflexivity|]. split; [reflexivity|]. split; [reflexivity|]. vm_compute; reflexivity.
    - assert (R : reachable Debug s) by (do 7 eexists; exact Rn).
      destruct (round Debug s ts R At Ov) as (e2 & s' & o2 & t & R2 & At2 & Ov2).
      exists (evs ++ e2), s', (os ++ o2), (t :: ts). split; [exact (run_then _ _ _ _ _ _ _ _ Rn R2)|].
      split; [exact At2|]. split; [exact Ov2|]. cbn [length]. lia. }
  intros n. destruct (X n) as (evs & s & os & ts & A & _ & B & C). exists evs, s, os, ts. auto.
Qed.
