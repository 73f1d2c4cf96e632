(** * Dispositions and detaches: theorems *)

From Coq Require Import ZifyBool ZifyNat ZifyN.
From Verif Require Export SettleProofs.
Import ListNotations.

Lemma step_disposition : forall p disp s s' os, s_error s = None -> step p (EvFrame (FDisposition disp)) s = EOk (s', os) -> s' = settle_deliveries disp s.
Proof.
  intros p disp s s' os E H. cbn [step] in H. unfold ses_handle_frame in H. rewrite E in H. cbn in H. apply EOk_inj in H. apply (f_equal fst) in H. symmetry. exact H.
Qed.
Lemma settle_get : forall disp s b id, no_wrap disp -> id < two32 ->
  (covers disp b id -> map_get id (unsettled b (settle_deliveries disp s)) = option_map (di_disposition disp) (map_get id (unsettled b s)))
  /\ (~ covers disp b id -> map_get id (unsettled b (settle_deliveries disp s)) = map_get id (unsettled b s)).
Proof.
  intros disp s b id Nw L. rewrite settle_as_all, settle_all_get by apply settle_list_nodup. unfold covers. rewrite speaks_dir.
  rewrite <- (settle_list_in disp id Nw L), <- existsb_in.
  destruct (Bool.eqb_spec b (dir_of disp)) as [->|]; destruct (existsb (N.eqb id) (settle_list disp)); cbn [andb]; intuition congruence.
Qed.
Lemma disposition_told : forall disp d, told disp d (di_disposition disp d).
Proof. intros. repeat split. Qed.
Lemma settle_framed : forall disp s, framed s (settle_deliveries disp s) [Fsnd; Frcv; Fchans].
Proof. intros. exact _. Qed.
(** A channel that is elsewhere is not touched. *)
Lemma settle_keeps : forall disp s pl c, fut_inv s -> at_place pl c s ->
  (forall b id, pl = PEntry b id -> b = dir_of disp -> ~ In id (settle_list disp)) ->
  nth_error (s_chans (settle_deliveries disp s)) c = nth_error (s_chans s) c.
Proof.
  intros disp s pl c I P H. rewrite settle_as_all. apply settle_all_other. intros id d Hin G T.
  apply (H (dir_of disp) id); auto. symmetry. apply (place_unique _ _ _ I P). exists d. auto.
Qed.
Lemma dispositions : forall p disp s s' os, reachable p s -> s_error s = None -> no_wrap disp ->
  step p (EvFrame (FDisposition disp)) s = EOk (s', os) ->
  (forall b id, id < two32 ->
     (covers disp b id -> forall d, outstanding b id d s -> exists d', outstanding b id d' s' /\ told disp d d')
     /\ (~ covers disp b id -> forall d, outstanding b id d s -> outstanding b id d s')
     /\ (forall d', outstanding b id d' s' -> exists d, outstanding b id d s))
  /\ (forall w i dv, awaits_outcome w i s -> nth_error (s_dlvs s) i = Some dv -> dl_id dv < two32 ->
       (covers disp (dl_sender dv) (dl_id dv) -> wait_gives p w (inl (disposition_state disp)) s')
       /\ (~ covers disp (dl_sender dv) (dl_id dv) -> awaits_outcome w i s'))
  /\ (forall t a, awaits_credit t a s -> awaits_credit t a s') /\ (forall t a, awaits_window t a s -> awaits_window t a s')
  /\ s_out s' = s_out s /\ s_dlvs s' = s_dlvs s.
Proof.
  intros p disp s s' os R Er Nw H. apply step_disposition in H; [|exact Er]. subst s'.
  assert (I := fut_reachable _ _ R). assert (C := clean_reachable _ _ R).
  assert (Et : s_tasks (settle_deliveries disp s) = s_tasks s) by (frw; reflexivity).
  assert (Ew : s_waits (settle_deliveries disp s) = s_waits s) by (frw; reflexivity).
  assert (Ed : s_dlvs (settle_deliveries disp s) = s_dlvs s) by (frw; reflexivity).
  refine (conj _ (conj _ (conj _ (conj _ (conj _ Ed))))).
  - intros b id L. destruct (settle_get disp s b id Nw L) as [G1 G2]. unfold outstanding. refine (conj _ (conj _ _)).
    + intros Cv d E. exists (di_disposition disp d). rewrite (G1 Cv), E. split; [reflexivity | apply disposition_told].
    + intros Cv d E. rewrite (G2 Cv). exact E.
    + intros d' E. destruct (map_get id (unsettled b s)) as [d|] eqn:E0; [eauto|]. exfalso. 
      rewrite settle_as_all, settle_all_get, E0 in E by apply settle_list_nodup. destruct (_ && _)%bool; discriminate E.
  - intros w i dv (c & E & W) Edv L.
    assert (Pw : wait_placed s (mk_wtask i (WWait c))) by exact (proj2 (proj2 (proj2 (proj2 I))) _ _ E).
    destruct Pw as (_ & dv' & Edv' & P). cbn [wk_dlv] in Edv'. rewrite Edv in Edv'. apply Some_inj in Edv'. subst dv'.
    assert (P' := P W). destruct P' as (di & G & T). destruct (settle_get disp s (dl_sender dv) (dl_id dv) Nw L) as [G1 G2].
    unfold covers in *. rewrite speaks_dir in *. rewrite <- (settle_list_in disp _ Nw L) in *. split.
    + intros Cv. apply (wait_told p w _ i dv c VOk).
      * rewrite Ew. exact E.
      * rewrite Ed. exact Edv.
      * rewrite settle_as_all. destruct Cv as [Eb Hin]. rewrite Eb in G. eapply settle_all_self; eauto.
      * rewrite (G1 Cv), G. cbn [option_map]. destruct (C _ _ _ G) as [Cs Ce]; [congruence|].
        unfold check_inner, di_disposition. st_cbn. rewrite Cs, Ce. destruct (disposition_state disp) as [[]|]; reflexivity.
    + intros Cv. exists c. rewrite Ew. split; [exact E|]. rewrite (settle_keeps disp s (PEntry (dl_sender dv) (dl_id dv)) c I (P W)); [exact W|].
      intros b id [= <- <-] Eb Hin. apply Cv. split; assumption.
  - intros t a (tk & tag & c & E & La & Es & W). exists tk, tag, c. rewrite Et. refine (conj E (conj La (conj Es _))).
    assert (P := proj1 (proj2 (proj2 (proj2 I))) t tk E). unfold task_placed in P. rewrite Es in P. destruct P as (_ & P).
    rewrite (settle_keeps disp s _ c I (P W)); [exact W|]. intros b id Ep. discriminate Ep.
  - intros t a (tk & tag & c & E & La & Es & W). exists tk, tag, c. rewrite Et. refine (conj E (conj La (conj Es _))).
    assert (P := proj1 (proj2 (proj2 (proj2 I))) t tk E). unfold task_placed in P. rewrite Es in P. destruct P as (_ & l & _ & P).
    rewrite (settle_keeps disp s _ c I (P W)); [exact W|]. intros b id Ep. discriminate Ep.
  - frw. reflexivity.
Qed.

(** ** Detached sender links *)
Definition detach_mid (a : nat) (l : slink) (err : perr) (s : ses) : ses :=
  fail_unsettled true (as_u32 (sn_id l)) err (drain_pending (sn_rhandle l) err (set_s_names (name_del (sn_name l) (s_names s)) s)).
Lemma step_detach : forall p d s s' os a l, s_error s = None -> names_sender d a s -> nth_error (s_snds s) a = Some l ->
  step p (EvFrame (FDetach d)) s = EOk (s', os) ->
  let err := ELinkDetached (detach_error d) in
  exists i, slab_get (s_links s) i = Some (SEstablished a) /\ s' = control (KRemoteDetachSender d a) (set_s_rhandles (map_del (detach_handle d) (s_rhandles s))
    (remove_link i (post (detach_frame (as_u32 (sn_id l)) true (detach_error d)) (snd_remote_detached a err (detach_mid a l err s))))).
Proof.
  intros p d s s' os a l Er (i & Eh & Es) El H err. exists i. split; [exact Es|]. cbn [step] in H. unfold ses_handle_frame in H. rewrite Er in H.
  unfold handle_detach in H. rewrite Eh, Es, El in H. cbn [ebind] in H. cbv zeta in H. apply EOk_inj in H. apply (f_equal fst) in H. cbn [fst] in H.
  subst s'. unfold dispatch. fold err. unfold detach_mid. f_equal. f_equal. f_equal. unfold snd_remote_detached. repeat frw. reflexivity.
Qed.
Lemma drain_self : forall h e s c, In (c, h) (s_pending s) -> waits_on c s -> nth_error (s_chans (drain_pending h e s)) c = Some (CSent (VErr e)).
Proof.
  intros h e s c Hin W. unfold drain_pending. cbv zeta. st_cbn. apply fire_all_self; [|exact W]. apply in_map_iff. exists (c, h). split; [reflexivity|].
  apply filter_In. split; [exact Hin | apply N.eqb_refl].
Qed.
Lemma drain_other : forall h e s c, ~ In (c, h) (s_pending s) -> nth_error (s_chans (drain_pending h e s)) c = nth_error (s_chans s) c.
Proof.
  intros h e s c N. unfold drain_pending. cbv zeta. st_cbn. apply fire_all_other. intros Hin. apply in_map_iff in Hin as ([c' h'] & E & Hin). cbn in E. subst c'.
  apply filter_In in Hin as [Hin E]. apply N.eqb_eq in E. subst h'. auto.
Qed.
Lemma fail_unsettled_other : forall b h e s c, NoDup (keys (unsettled b s)) ->
  (forall id d, map_get id (unsettled b s) = Some d -> di_tx d = Some c -> di_handle d <> h) ->
  nth_error (s_chans (fail_unsettled b h e s)) c = nth_error (s_chans s) c.
Proof.
  intros b h e s c Nd H. unfold fail_unsettled. cbv zeta.
  transitivity (nth_error (s_chans (fail_all (filter (fun '(_, d) => di_handle d =? h) (unsettled b s)) s)) c); [destruct b; reflexivity|].
  apply fail_all_other. intros k d Hin T. apply filter_In in Hin as [Hin E]. apply N.eqb_eq in E. apply map_in_get in Hin; [|exact Nd]. exact (H _ _ Hin T E).
Qed.
Lemma fail_unsettled_self : forall b h e s c id d, map_get id (unsettled b s) = Some d -> di_tx d = Some c -> di_handle d = h -> waits_on c s ->
  nth_error (s_chans (fail_unsettled b h e s)) c = Some (CSent VOk).
Proof.
  intros b h e s c id d G T Eh W. unfold fail_unsettled. cbv zeta.
  transitivity (nth_error (s_chans (fail_all (filter (fun '(_, d) => di_handle d =? h) (unsettled b s)) s)) c); [destruct b; reflexivity|].
  apply (fail_all_self _ _ id d); [|exact T | exact W]. apply filter_In. split; [apply map_get_in, G | apply N.eqb_eq, Eh].
Qed.
(** After the detach of a sender link nothing else changes the channels. *)
Lemma detach_tail : forall i a l e h ctl f s, stable chan_rel s (control ctl (set_s_rhandles h (remove_link i (post f (snd_remote_detached a e (detach_mid a l e s)))))).
Proof.
  intros. assert (K1 : stable chan_rel s (detach_mid a l e s)) by (unfold detach_mid; st_chain).
  set (m := detach_mid a l e s) in *. clearbody m.
  assert (K2 : stable chan_rel m (snd_remote_detached a e m)) by (apply hold_chan; exact _).
  set (m2 := snd_remote_detached a e m) in *. clearbody m2.
  assert (K3 : stable chan_rel (post f m2) (remove_link i (post f m2))) by apply chan_remove_link.
  set (m3 := remove_link i _) in *. clearbody m3. st_chain.
Qed.
Lemma detach_end : forall i h ctl f s, stable chan_rel s (control ctl (set_s_rhandles h (remove_link i (post f s)))).
Proof.
  intros. assert (K3 : stable chan_rel (post f s) (remove_link i (post f s))) by apply chan_remove_link.
  set (m3 := remove_link i _) in *. clearbody m3. st_chain.
Qed.
Lemma detach_end_other : forall i a h ctl f s c, slab_get (s_links s) i = Some (SEstablished a) -> ~ at_place (PClose a) c s -> ~ at_place (PCredit a) c s ->
  nth_error (s_chans (control ctl (set_s_rhandles h (remove_link i (post f s))))) c = nth_error (s_chans s) c.
Proof.
  intros i a h ctl f s c E N1 N2. frw. unfold remove_link. frw. rewrite E. cbn [drop_link]. unfold drop_established_snd. repeat frw.
  destruct (nth_error (s_snds s) a) as [l|] eqn:El; [|frw; reflexivity]. destruct (sn_closed l); [frw; reflexivity|].
  set (s1 := set_s_links _ _).
  assert (S1 : stable shr_rel (post f s) s1).
  { unfold s1. replace (s_links s) with (s_links (post f s)) by (frw; reflexivity). st_chain. }
  assert (Sh : stable shr_rel s (upd_snd a (set_sn_closed true) s1)).
  { st_chain. }
  rewrite notify_other.
  - frw. unfold s1. frw. reflexivity.
  - intros P. apply N1. exact (shr_at _ _ _ _ Sh P).
  - intros P. apply N2. exact (shr_at _ _ _ _ Sh P).
Qed.
Lemma detach_mid_shr : forall a l e s, stable shr_rel s (detach_mid a l e s).
Proof. intros. unfold detach_mid. st_chain. Qed.
Lemma unsettled_drain : forall b h e s, unsettled b (drain_pending h e s) = unsettled b s.
Proof. intros []; intros; unfold unsettled; frw; reflexivity. Qed.
(** What [detach_mid] leaves alone. *)
Lemma detach_mid_other : forall a l e s c, NoDup (keys (unsettled true s)) -> ~ at_place (PSes (sn_rhandle l)) c s ->
  (forall id d, map_get id (unsettled true s) = Some d -> di_tx d = Some c -> di_handle d <> as_u32 (sn_id l)) ->
  nth_error (s_chans (detach_mid a l e s)) c = nth_error (s_chans s) c.
Proof.
  intros a l e s c Nd N H. unfold detach_mid. rewrite fail_unsettled_other.
  - rewrite drain_other; [frw; reflexivity|]. frw. exact N.
  - rewrite unsettled_drain. exact Nd.
  - rewrite unsettled_drain. exact H.
Qed.
Lemma detach_releases : forall p d s s' os a l, reachable p s -> s_error s = None -> names_sender d a s -> nth_error (s_snds s) a = Some l ->
  step p (EvFrame (FDetach d)) s = EOk (s', os) ->
  let err := ELinkDetached (detach_error d) in
  (forall t, awaits_credit t a s -> send_fails p t err s')
  /\ (forall t, awaits_window t a s -> sn_rhandle l = as_u32 (sn_id l) -> send_fails p t err s')
  /\ (forall t b, b <> a -> awaits_credit t b s -> awaits_credit t b s')
  /\ (forall t b lb, nth_error (s_snds s) b = Some lb -> as_u32 (sn_id lb) <> sn_rhandle l -> awaits_window t b s -> awaits_window t b s')
  /\ (forall w i dv di, awaits_outcome w i s -> nth_error (s_dlvs s) i = Some dv -> outstanding (dl_sender dv) (dl_id dv) di s ->
       (dl_sender dv = true /\ di_handle di = as_u32 (sn_id l) -> wait_gives p w (inr err) s')
       /\ (~ (dl_sender dv = true /\ di_handle di = as_u32 (sn_id l)) -> awaits_outcome w i s')).
Proof.
  intros p d s s' os a l R Er Nm El H err.
  destruct (step_detach _ _ _ _ _ _ _ Er Nm El H) as (i0 & Ei & Es'). fold err in Es'.
  assert (I := fut_reachable _ _ R). assert (C := clean_reachable _ _ R). assert (Nd := keys_reachable _ _ R). assert (Lk := linked_reachable _ _ R).
  assert (Ob := step_keeps_objs _ _ _ _ _ H). clear H.
  set (m := detach_mid a l err s) in *.
  assert (Sh : stable shr_rel s m) by apply detach_mid_shr.
  assert (Lm : s_links m = s_links s) by (unfold m, detach_mid; frw; reflexivity).
  assert (Et : s_tasks s' = s_tasks s) by (subst s'; unfold m, detach_mid; frw; reflexivity).
  assert (Ew : s_waits s' = s_waits s) by (subst s'; unfold m, detach_mid; frw; reflexivity).
  assert (Ed : s_dlvs s' = s_dlvs s) by (subst s'; unfold m, detach_mid; frw; reflexivity).
  assert (Em : forall b, unsettled b s' = unsettled b m) by (intros b; apply unsettled_same; subst s'; frw; reflexivity).
  set (m2 := snd_remote_detached a err m) in *.
  assert (K1 : chan_rel m m2) by (apply hold_chan; unfold m2; exact _).
  assert (K2 : chan_rel m2 s') by (subst s'; apply detach_end).
  (* a channel of another place stays *)
  assert (Oth : forall pl c, at_place pl c s -> pl <> PSes (sn_rhandle l) -> pl <> PLink a -> pl <> PClose a -> pl <> PCredit a ->
    (forall b id di, pl = PEntry b id -> map_get id (unsettled b s) = Some di -> ~ (b = true /\ di_handle di = as_u32 (sn_id l))) ->
    nth_error (s_chans s') c = nth_error (s_chans s) c).
  { intros pl c P N1 N2 N3 N4 N5.
    assert (U : forall q, q <> pl -> ~ at_place q c s) by (intros q Nq Q; apply Nq, (place_unique _ _ _ I P _ Q)).
    assert (Um : forall q, q <> pl -> ~ at_place q c m) by (intros q Nq Q; apply (U q Nq), (shr_at _ _ _ _ Sh Q)).
    assert (E1 : nth_error (s_chans m) c = nth_error (s_chans s) c).
    { unfold m. apply detach_mid_other; [apply Nd | apply U; congruence|]. intros id di G T Eh.
      assert (Q : at_place (PEntry true id) c s) by (exists di; auto). assert (Ep := place_unique _ _ _ I P _ Q).
      exact (N5 _ _ _ (eq_sym Ep) G (conj eq_refl Eh)). }
    assert (E2 : nth_error (s_chans m2) c = nth_error (s_chans m) c).
    { unfold m2. apply detached_other; apply Um; congruence. }
    rewrite Es', (detach_end_other i0 a).
    - congruence.
    - unfold m2. frw. rewrite Lm. exact Ei.
    - intros Q. apply (Um (PClose a)); [congruence|]. assert (K : stable shr_rel m m2) by (unfold m2; exact _). exact (shr_at _ _ _ _ K Q).
    - intros Q. apply (Um (PCredit a)); [congruence|]. assert (K : stable shr_rel m m2) by (unfold m2; exact _). exact (shr_at _ _ _ _ K Q). }
  assert (Snd : forall b lb, nth_error (s_snds s) b = Some lb -> exists lb', nth_error (s_snds s') b = Some lb').
  { intros b lb E. apply (proj1 Ob) in E as (lb' & E & _). eauto. }
  refine (conj _ (conj _ (conj _ (conj _ _)))).
  - intros t (tk & tag & c & E & La & Et' & W). assert (P := proj1 (proj2 (proj2 (proj2 I))) t tk E). unfold task_placed in P. rewrite Et' in P.
    destruct P as (_ & P). specialize (P W). rewrite La in P. destruct (Lk _ _ E) as (l0 & E0).
    assert (U : forall q, q <> PLink a -> ~ at_place q c s) by (intros q Nq Q; apply Nq, (place_unique _ _ _ I P _ Q)).
    assert (E1 : nth_error (s_chans m) c = nth_error (s_chans s) c).
    { unfold m. apply detach_mid_other; [apply Nd | apply U; discriminate|]. intros id di G T _. apply (U (PEntry true id)); [discriminate|]. exists di. auto. }
    apply (poll_told p t _ tk tag c); [rewrite Et; exact E | eapply Snd; eauto | auto|].
    eapply chan_value; [exact K2|]. unfold m2. apply detached_tells.
    + red. rewrite E1. exact W.
    + destruct P as (lp & Elp & Hin). exists lp. split; [|exact Hin]. unfold m, detach_mid. frw. exact Elp.
    + intros Q. apply (U (PClose a)); [discriminate|]. exact (shr_at _ _ _ _ Sh Q).
    + intros Q. apply (U (PCredit a)); [discriminate|]. exact (shr_at _ _ _ _ Sh Q).
  - intros t (tk & tag & c & E & La & Et' & W) Eh. assert (P := proj1 (proj2 (proj2 (proj2 I))) t tk E). unfold task_placed in P. rewrite Et' in P.
    destruct P as (_ & lp & Elp & P). specialize (P W). rewrite La, El in Elp. apply Some_inj in Elp. subst lp. cbn [at_place] in P. rewrite <- Eh in P.
    apply (poll_told p t _ tk tag c); [rewrite Et; exact E | rewrite La; eapply Snd; eauto | auto|].
    eapply chan_value; [exact K2|]. eapply chan_value; [exact K1|]. unfold m, detach_mid.
    eapply chan_value; [apply hold_chan; exact _|]. apply drain_self; [frw; exact P | exact W].
  - intros t b Nb (tk & tag & c & E & La & Et' & W). assert (P := proj1 (proj2 (proj2 (proj2 I))) t tk E). unfold task_placed in P. rewrite Et' in P.
    destruct P as (_ & P). specialize (P W). rewrite La in P. exists tk, tag, c. rewrite Et. refine (conj E (conj La (conj Et' _))).
    rewrite (Oth _ _ P); try discriminate; [exact W | congruence].
  - intros t b lb Elb Nh (tk & tag & c & E & La & Et' & W). assert (P := proj1 (proj2 (proj2 (proj2 I))) t tk E). unfold task_placed in P. rewrite Et' in P.
    destruct P as (_ & lp & Elp & P). specialize (P W). rewrite La, Elb in Elp. apply Some_inj in Elp. subst lp. exists tk, tag, c. rewrite Et. refine (conj E (conj La (conj Et' _))).
    rewrite (Oth _ _ P); try discriminate; [exact W | congruence].
  - intros w i dv di (c & E & W) Edv G.
    assert (Pw : wait_placed s (mk_wtask i (WWait c))) by exact (proj2 (proj2 (proj2 (proj2 I))) _ _ E).
    destruct Pw as (_ & dv' & Edv' & P). cbn [wk_dlv] in Edv'. rewrite Edv in Edv'. apply Some_inj in Edv'. subst dv'.
    specialize (P W). destruct (P) as (di' & G' & T). unfold outstanding in G. rewrite G in G'. apply Some_inj in G'. subst di'.
    assert (Ec : forall q, q <> PEntry (dl_sender dv) (dl_id dv) -> ~ at_place q c s) by (intros q Nq Q; apply Nq, (place_unique _ _ _ I P _ Q)).
    split.
    + intros [Eb Eh]. rewrite Eb in *. apply (wait_told p w _ i dv c VOk).
      * rewrite Ew. exact E.
      * rewrite Ed. exact Edv.
      * eapply chan_value; [exact K2|]. eapply chan_value; [exact K1|]. unfold m, detach_mid.
        eapply fail_unsettled_self; [rewrite unsettled_drain; exact G | exact T | exact Eh|].
        red. rewrite drain_other; [exact W|]. frw. apply (Ec (PSes (sn_rhandle l))). discriminate.
      * rewrite Eb, Em. unfold m, detach_mid, fail_unsettled. cbv zeta. rewrite unsettled_set. cbn [Bool.eqb].
        rewrite map_get_vals, unsettled_drain. change (unsettled true (set_s_names (name_del (sn_name l) (s_names s)) s)) with (unsettled true s). rewrite G. cbn [option_map]. rewrite Eh, N.eqb_refl.
        unfold check_inner, di_fail. st_cbn. destruct (C _ _ _ G) as [Cs Ce]; [congruence|]. rewrite Cs. reflexivity.
    + intros Nb. exists c. rewrite Ew. split; [exact E|]. rewrite (Oth _ _ P); try discriminate; [exact W|].
      intros b id dx [= <- <-] Gx. assert (dx = di) by congruence. subst dx. exact Nb.
Qed.

(** ** Where outcomes come from *)
Lemma run_hist : forall (P : list ev -> ses -> Prop) p,
  (forall h e s s' os, P h s -> step p e s = EOk (s', os) -> P (h ++ [e]) s') ->
  forall evs h s s' os, P h s -> run p evs s = EOk (s', os) -> P (h ++ evs) s'.
Proof.
  intros P p Hs. induction evs as [|e evs IH]; intros h s s' os Hp H; cbn [run] in H.
  - apply EOk_inj in H. rewrite app_nil_r. congruence.
  - destruct (step p e s) as [[s1 o1]|] eqn:E1; [|discriminate]. cbn [ebind] in H.
    destruct (run p evs s1) as [[s2 o2]|] eqn:E2; [|discriminate]. cbn [ebind] in H.
    apply EOk_inj in H. assert (s' = s2) by congruence. subst s'. replace (h ++ e :: evs) with ((h ++ [e]) ++ evs) by (rewrite <- app_assoc; reflexivity). eauto.
Qed.
Definition assigned (h : list ev) (b : bool) (id : N) (st : delivery_state) : Prop :=
  exists disp, In (EvFrame (FDisposition disp)) h /\ disposition_state disp = Some st /\ names_id disp b id.
Lemma assigned_more : forall h h' b id st, assigned h b id st -> assigned (h ++ h') b id st.
Proof. intros h h' b id st (disp & Hin & H). exists disp. split; [apply in_or_app; auto | exact H]. Qed.
Lemma settle_list_names : forall disp b id, b = dir_of disp -> In id (settle_list disp) -> names_id disp b id.
Proof.
  intros disp b id E Hin. split; [apply speaks_dir, E|]. unfold settle_list in Hin. destruct (disposition_last disp); [apply range_in, Hin|].
  destruct Hin as [<-|[]]. reflexivity.
Qed.
Definition hist_inv (h : list ev) (s : ses) : Prop :=
  (forall b id d st, map_get id (unsettled b s) = Some d -> di_state d = Some st -> assigned h b id st)
  /\ (forall w d st, nth_error (s_waits s) w = Some (mk_wtask d (WDone (inl (Some st)))) ->
        exists dv, nth_error (s_dlvs s) d = Some dv /\ assigned h (dl_sender dv) (dl_id dv) st).
Lemma check_state : forall d st d', check_inner d = (Some (inl (Some st)), d') -> di_state d = Some st.
Proof.
  intros d st d' H. unfold check_inner in H. destruct (di_state d) as [[]|]; try (injection H as H _; congruence). destruct (di_error d); discriminate H.
Qed.
Lemma poll_wait_result : forall w s k st, nth_error (s_waits (poll_wait w s)) w = Some k -> wk_st k = WDone (inl (Some st)) ->
  nth_error (s_waits s) w = Some k
  \/ exists dv di, nth_error (s_dlvs s) (wk_dlv k) = Some dv /\ map_get (dl_id dv) (unsettled (dl_sender dv) s) = Some di /\ di_state di = Some st.
Proof.
  intros w s k' st E Ek.
  assert (X : forall f s1 x, nth_error (s_waits (upd_wait w f s1)) w = Some x -> exists k, nth_error (s_waits s1) w = Some k /\ x = f k).
  { intros f s1 x H0. unfold upd_wait in H0. destruct (nth_error (s_waits s1) w) eqn:E1; [|congruence]. st_cbn_in H0.
    rewrite nth_set_nth_eq in H0 by (apply nth_lt in E1; exact E1). injection H0 as <-. eauto. }
  assert (D : forall r s1, s_waits s1 = s_waits s -> nth_error (s_waits (upd_wait w (set_wk_st (WDone r)) s1)) w = Some k' ->
     r = inl (Some st) /\ exists k, nth_error (s_waits s) w = Some k /\ wk_dlv k' = wk_dlv k).
  { intros r s1 Es H0. apply X in H0 as (k & H0 & ->). cbn [wk_st set_wk_st] in Ek. split; [congruence|]. exists k. rewrite <- Es. auto. }
  unfold poll_wait in E. destruct (nth_error (s_waits s) w) as [t|] eqn:Ew; [|congruence].
  destruct (nth_error (s_dlvs s) (wk_dlv t)) as [d|] eqn:Ed; [|left; congruence]. cbv zeta in E.
  assert (Done : forall r s1 di di', s_waits s1 = s_waits s -> map_get (dl_id d) (unsettled (dl_sender d) s) = Some di -> check_inner di = (Some r, di') ->
     nth_error (s_waits (upd_wait w (set_wk_st (WDone r)) s1)) w = Some k' ->
     exists dv di, nth_error (s_dlvs s) (wk_dlv k') = Some dv /\ map_get (dl_id dv) (unsettled (dl_sender dv) s) = Some di /\ di_state di = Some st).
  { intros r s1 di di' Es G Ck H0. destruct (D _ _ Es H0) as (-> & k & Ek' & El). assert (k = t) by congruence. subst k.
    exists d, di. rewrite El. split; [exact Ed | split; [exact G | exact (check_state _ _ _ Ck)]]. }
  destruct (wk_st t) as [|c|r|]; [| |left; congruence|left; congruence].
  - destruct (dl_local d); [destruct (D _ _ eq_refl E) as (F & _); discriminate F|].
    destruct (map_get (dl_id d) (unsettled (dl_sender d) s)) as [di|] eqn:G; [|destruct (D _ _ eq_refl E) as (F & _); discriminate F].
    destruct (check_inner di) as [[r|] di'] eqn:Ck.
    + right. refine (Done _ _ _ _ _ eq_refl Ck E). destruct (dl_sender d); unfold set_unsettled; try destruct (di_settled di); frw; reflexivity.
    + unfold new_chan in E. apply X in E as (k & _ & ->). discriminate Ek.
  - destruct (nth_error (s_chans s) c) as [[]|]; [left; congruence| |destruct (D _ _ eq_refl E) as (F & _); discriminate F|left; congruence].
    destruct (map_get (dl_id d) (unsettled (dl_sender d) s)) as [di|] eqn:G; [|destruct (D _ _ eq_refl E) as (F & _); discriminate F].
    destruct (check_inner di) as [[r|] di'] eqn:Ck.
    + right. refine (Done _ _ _ _ _ eq_refl Ck E). destruct (dl_sender d); unfold set_unsettled; try destruct (di_settled di); frw; reflexivity.
    + assert (F : inl None = inl (Some st) :> option delivery_state + perr); [|discriminate F]. refine (proj1 (D _ _ _ E)). destruct (dl_sender d); unfold set_unsettled; try destruct (di_settled di); frw; reflexivity.
Qed.
Lemma hist_step : forall p h e s s' os, hist_inv h s -> step p e s = EOk (s', os) -> hist_inv (h ++ [e]) s'.
Proof.
  intros p h e s s' os [H1 H2] H. assert (F := step_framed _ _ _ _ _ H). assert (Ob := proj2 (step_keeps_objs _ _ _ _ _ H)). split.
  - intros b id d st G Es. destruct (step_ent _ _ _ _ _ H) as [K|(disp & -> & _ & -> & _)].
    + destruct (K _ _ _ G) as [(d0 & G0 & _ & _ & St & _)|(hd & _ & _ & St & _)].
      * apply assigned_more. apply (H1 _ _ _ _ G0). destruct St; congruence.
      * destruct St as [St|St]; rewrite St in Es; discriminate Es.
    + rewrite settle_as_all, settle_all_get in G by apply settle_list_nodup.
      destruct (Bool.eqb_spec b (dir_of disp)) as [Eb|]; cbn [andb] in G; [|apply assigned_more; eauto].
      destruct (existsb (N.eqb id) (settle_list disp)) eqn:Ex; [|apply assigned_more; eauto].
      destruct (map_get id (unsettled b s)) as [d0|] eqn:G0; [|discriminate G]. cbn [option_map] in G. apply Some_inj in G. subst d.
      unfold di_disposition in Es. st_cbn_in Es. destruct (disposition_state disp) as [st'|] eqn:Est.
      * exists disp. split; [apply in_or_app; right; left; reflexivity|]. split; [congruence|]. apply settle_list_names; [exact Eb|]. apply existsb_in, Ex.
      * apply assigned_more. eauto.
  - assert (Keep : forall w d st, nth_error (s_waits s) w = Some (mk_wtask d (WDone (inl (Some st)))) ->
      exists dv, nth_error (s_dlvs s') d = Some dv /\ assigned (h ++ [e]) (dl_sender dv) (dl_id dv) st).
    { intros w d st E. destruct (H2 _ _ _ E) as (dv & Edv & A). apply Ob in Edv as (dv' & Edv' & Ei). exists dv'. split; [exact Edv'|].
      assert (dl_sender dv' = dl_sender dv /\ dl_id dv' = dl_id dv) as [-> ->] by (unfold dlv_ids in Ei; split; congruence). apply assigned_more, A. }
    assert (Same : s_waits s' = s_waits s -> forall w d st, nth_error (s_waits s') w = Some (mk_wtask d (WDone (inl (Some st)))) ->
      exists dv, nth_error (s_dlvs s') d = Some dv /\ assigned (h ++ [e]) (dl_sender dv) (dl_id dv) st).
    { intros E w d st Ew. rewrite E in Ew. eauto. }
    destruct (memf Fwaits (ev_fields e)) eqn:M; [|apply Same; exact (F Fwaits M)].
    destruct e; try discriminate M; cbn [step] in H.
    + destruct (nth_error (s_dlvs s) d); apply EOk_inj in H; apply (f_equal fst) in H; cbn [fst] in H; subst s'; [|apply Same; reflexivity].
      intros w i st Ew. st_cbn_in Ew. apply (Keep w). destruct (Nat.lt_ge_cases w (length (s_waits s))); [rewrite nth_error_app1 in Ew by assumption; exact Ew|].
      rewrite nth_error_app2 in Ew by assumption. destruct (w - length (s_waits s))%nat as [|[]]; discriminate Ew.
    + apply EOk_inj in H; apply (f_equal fst) in H; cbn [fst] in H; subst s'. intros x d st Ew. destruct (Nat.eq_dec x w) as [->|Nx].
      * destruct (poll_wait_result _ _ _ _ Ew eq_refl) as [E|(dv & di & Edv & G & Es)]; [eauto|]. cbn [wk_dlv] in Edv.
        apply Ob in Edv as (dv' & Edv' & Ei). exists dv'. split; [exact Edv'|]. 
        assert (dl_sender dv' = dl_sender dv /\ dl_id dv' = dl_id dv) as [-> ->] by (unfold dlv_ids in Ei; split; congruence).
        apply assigned_more. eauto.
      * apply waits_other in Ew; eauto.
    + apply EOk_inj in H; apply (f_equal fst) in H; cbn [fst] in H; subst s'. intros x d st Ew. apply (Keep x).
      unfold upd_wait in Ew. destruct (nth_error (s_waits s) w) as [k|] eqn:Ek; [|exact Ew]. st_cbn_in Ew. rewrite nth_set_nth in Ew.
      destruct (Nat.eqb_spec w x) as [<-|]; [|exact Ew]. rewrite Ek in Ew. cbn [option_map] in Ew. apply Some_inj in Ew. rewrite Ek. f_equal.
      destruct k as [kd [|c|r|]]; cbn [wk_st set_wk_st] in Ew; first [discriminate Ew | exact Ew].
Qed.
Lemma outcomes_assigned : forall p id local rc mfs b evs s os w d st,
  run p evs (ses_new id local rc mfs b) = EOk (s, os) -> nth_error (s_waits s) w = Some (mk_wtask d (WDone (inl (Some st)))) ->
  exists dv, nth_error (s_dlvs s) d = Some dv /\ exists disp, In (EvFrame (FDisposition disp)) evs /\ disposition_state disp = Some st /\ names_id disp (dl_sender dv) (dl_id dv).
Proof.
  intros p id local rc mfs b evs s os w d st H E.
  assert (I : hist_inv ([] ++ evs) s).
  { refine (run_hist hist_inv p (hist_step p) evs [] _ _ _ _ H). split; [intros [] i x y G; discriminate G|]. intros x y z G. destruct x; discriminate G. }
  exact (proj2 I _ _ _ E).
Qed.
