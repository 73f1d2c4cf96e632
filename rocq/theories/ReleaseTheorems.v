(** * Failing sessions and detached links: theorems *)

From Coq Require Import ZifyBool ZifyNat ZifyN.
From Verif Require Export ReleaseProofs.
Import ListNotations.

Lemma step_ok : forall p e s s' os, step p e s = EOk (s', os) -> s' = match step p e s with EOk (x, _) => x | EPanic _ => s end.
Proof. intros p e s s' os H. rewrite H. reflexivity. Qed.
Lemma fail_waits : forall e s, s_waits (ses_set_error e s) = s_waits s /\ s_dlvs (ses_set_error e s) = s_dlvs s /\ s_tasks (ses_set_error e s) = s_tasks s.
Proof. intros. rewrite fail_split. unfold fail_after, fail_before. frw. auto. Qed.
Lemma fail_links_exist : forall e s a l, nth_error (s_snds s) a = Some l -> exists l', nth_error (s_snds (ses_set_error e s)) a = Some l'.
Proof.
  intros e s a l H. assert (K : stable keeps_objs s (ses_set_error e s)) by exact _. apply (proj1 K) in H as (l' & H & _). eauto.
Qed.
(** ** A failed session *)
Lemma fail_all_self : forall m s k d c, In (k, d) m -> di_tx d = Some c -> waits_on c s -> nth_error (s_chans (fail_all m s)) c = Some (CSent VOk).
Proof.
  intros m. induction m as [|[j e] m IH]; intros s k d c Hin T W; [destruct Hin|].
  change (fail_all ((j, e) :: m) s) with (fail_all m (fire_opt (di_tx e) VOk s)).
  destruct (di_tx e) as [c'|] eqn:Ee; cbn [fire_opt].
  - destruct (Nat.eq_dec c c') as [<-|Ne].
    + eapply chan_value; [apply hold_chan; apply hold0_fail_all|]. apply fire_self. exact W.
    + destruct Hin as [[= -> ->]|Hin]; [congruence|]. eapply IH; eauto. red. rewrite fire_other; auto.
  - destruct Hin as [[= -> ->]|Hin]; [congruence|]. eapply IH; eauto.
Qed.
Lemma fail_tells_entry : forall e s b id c, (forall b, NoDup (keys (unsettled b s))) -> waits_on c s -> at_place (PEntry b id) c s ->
  (forall pl, at_place pl c s -> pl = PEntry b id) ->
  nth_error (s_chans (ses_set_error e s)) c = Some (CSent VOk).
Proof.
  intros e s b id c Nd W (di & G & T) U. rewrite fail_split.
  eapply chan_value; [apply chan_after|].
  eapply chan_value; [apply hold_chan; apply hold0_fail_links|].
  unfold fail_before. frw.
  assert (E0 : nth_error (s_chans (fire_all (map fst (s_pending s)) (VErr e) s)) c = nth_error (s_chans s) c).
  { apply fire_all_other. intros Hin. apply in_map_iff in Hin as ([c' h] & E & Hin). cbn in E. subst c'. discriminate (U (PSes h) Hin). }
  set (s0 := fire_all (map fst (s_pending s)) (VErr e) s) in *.
  destruct b; cbn [unsettled] in G; apply map_get_in in G.
  - eapply chan_value; [apply hold_chan; apply hold0_fail_all|]. frw. eapply fail_all_self; [exact G | exact T|].
    red. frw. rewrite E0. exact W.
  - eapply fail_all_self; [exact G | exact T|]. red. frw. rewrite fail_all_other; [frw; rewrite E0; exact W|].
    intros j d Hin T'. assert (X := U (PEntry true j)). cbn [at_place unsettled] in X.
    apply map_in_get in Hin; [|exact (Nd true)]. cbn [unsettled] in Hin. discriminate X. eauto.
Qed.
(** A wait that was woken looks at its entry. *)
Lemma wait_told : forall p w s d dv c v r, nth_error (s_waits s) w = Some (mk_wtask d (WWait c)) ->
  nth_error (s_dlvs s) d = Some dv -> nth_error (s_chans s) c = Some (CSent v) ->
  r = match map_get (dl_id dv) (unsettled (dl_sender dv) s) with
      | None => inr (ELinkDetached None)
      | Some di => match fst (check_inner di) with Some r => r | None => inl None end
      end ->
  wait_gives p w r s.
Proof.
  intros p w s d dv c v r Ew Ed Ec Er. exists (poll_wait w s), []. split; [reflexivity|]. exists d.
  assert (K : forall s1, s_waits s1 = s_waits s -> nth_error (s_waits (upd_wait w (set_wk_st (WDone r)) s1)) w = Some (mk_wtask d (WDone r))).
  { intros s1 E. unfold upd_wait. rewrite E, Ew. st_cbn. rewrite nth_set_nth_eq; [reflexivity|]. apply nth_lt in Ew. exact Ew. }
  unfold poll_wait. rewrite Ew. cbn [wk_dlv wk_st]. rewrite Ed, Ec.
  destruct (map_get (dl_id dv) (unsettled (dl_sender dv) s)) as [di|]; [|subst r; apply K; reflexivity].
  cbv zeta. destruct (check_inner di) as [[r'|] di'] eqn:Ei; cbn [fst] in Er; subst r; apply K; destruct (di_settled di); frw; reflexivity.
Qed.
Lemma failure_releases : forall p s e s' os, reachable p s -> step p (EvFail e) s = EOk (s', os) ->
  (forall t a, awaits_window t a s -> send_fails p t e s')
  /\ (forall t a, awaits_credit t a s -> sender_open a s -> send_fails p t e s')
  /\ (forall w d, awaits_outcome w d s -> wait_gives p w (inr (ELinkDetached None)) s').
Proof.
  intros p s e s' os R H. cbn [step] in H. apply EOk_inj in H. apply (f_equal fst) in H. cbn [fst] in H. subst s'.
  assert (I := fut_reachable _ _ R). assert (Nd := keys_reachable _ _ R). assert (Lk := linked_reachable _ _ R).
  destruct (fail_waits e s) as (Ew & Ed & Et). refine (conj _ (conj _ _)).
  - intros t a (tk & tag & c & E & La & Es & W). 
    destruct I as (_ & _ & _ & T & _). assert (P := T _ _ E). unfold task_placed in P. rewrite Es in P.
    destruct P as (_ & l & El & P). apply (poll_told p t _ tk tag c).
    + rewrite Et. exact E.
    + eapply fail_links_exist; eauto.
    + auto.
    + eapply fail_tells_session; [exact (P W) | exact W].
  - intros t a (tk & tag & c & E & La & Es & W) O.
    assert (P : task_placed s tk) by (apply (proj1 (proj2 (proj2 (proj2 I))) t tk E)). unfold task_placed in P. rewrite Es in P.
    destruct P as (_ & P). destruct (Lk _ _ E) as (l & El). apply (poll_told p t _ tk tag c).
    + rewrite Et. exact E.
    + eapply fail_links_exist; eauto.
    + auto.
    + apply fail_tells_link with (a := a); auto.
      * rewrite <- La. exact (P W).
      * intros pl Q. rewrite <- La. exact (place_unique _ _ _ I (P W) pl Q).
  - intros w d (c & E & W). assert (Wt := proj2 (proj2 (proj2 (proj2 I)))). assert (P := Wt _ _ E). unfold wait_placed in P. cbn [wk_st wk_dlv] in P.
    destruct P as (Lc & d0 & E0 & P).
    apply (wait_told p w _ d d0 c VOk).
    + rewrite Ew. exact E.
    + rewrite Ed. exact E0.
    + apply fail_tells_entry with (b := dl_sender d0) (id := dl_id d0); auto.
      exact (place_unique _ _ _ I (P W)).
    + rewrite fail_unsettled_none. reflexivity.
Qed.

(** ** The futures of calls *)
Definition plain (pl : place) : Prop := match pl with PSlot _ | PEnd => True | _ => False end.
Lemma chan_fire_done : forall c v s s', (c < length (s_chans s))%nat -> stable chan_rel (fire c v s) s' -> ~ waits_on c s'.
Proof.
  intros c v s s' L K W. apply (fire_done c v s). apply (chan_back _ _ _ K); [|exact W]. unfold fire. st_cbn. rewrite put_chan_len. exact L.
Qed.
Lemma detach_sender_placed : forall id cl e tx s, (tx < length (s_chans s))%nat -> waits_on tx (detach_sender id cl e tx s) ->
  at_place (PSlot id) tx (detach_sender id cl e tx s).
Proof.
  intros id cl e tx s L W. unfold detach_sender in *.
  destruct (slab_get (s_links s) id) as [[]|] eqn:E; try (destruct (fire_done tx VOk s W));
  (exists (SClosing (Some tx)); split; [frw; rewrite put_link_get by congruence; rewrite N.eqb_refl|]; reflexivity).
Qed.
Lemma chan_remove_link : forall k s, stable chan_rel s (remove_link k s).
Proof. intros. unfold remove_link. destruct (slab_get (s_links s) k); st_chain. Qed.
Lemma detach_receiver_placed : forall id cl e tx s s', (tx < length (s_chans s))%nat -> detach_receiver id cl e tx s = EOk s' -> waits_on tx s' ->
  at_place (PSlot id) tx s'.
Proof.
  intros id cl e tx s s' L H W. unfold detach_receiver in H.
  assert (F : forall s1 s2 s3, (tx < length (s_chans s1))%nat -> s2 = fire tx VOk s1 -> EOk s3 = EOk s' -> stable chan_rel s2 s3 -> False).
  { intros s1 s2 s3 L1 -> [= ->] K. exact (chan_fire_done _ _ _ _ L1 K W). }
  assert (F' : forall s1, EOk (remove_link id (fire tx VOk s1)) = EOk s' -> (tx < length (s_chans s1))%nat -> False).
  { intros s1 E1 L1. exact (F s1 _ _ L1 eq_refl E1 (chan_remove_link _ _)). }
  destruct (slab_get (s_links s) id) as [[]|] eqn:E; try discriminate H.
  all: try (destruct (F s _ _ L eq_refl H); apply stable_refl; exact _).
  - match goal with o : option (nat * option source_t) |- _ => destruct o as [[a sc]|] | o : option (nat * _) |- _ => destruct o as [[a sc]|] end.
    + destruct (nth_error (s_rcvs s) a); destruct (F' _ H); repeat (frw; st_cbn); exact L.
    + destruct (F' _ H); repeat (frw; st_cbn); exact L.
  - apply EOk_inj in H. subst s'. exists (RClosing (Some tx)). split; [frw; rewrite put_link_get by congruence; rewrite N.eqb_refl|]; reflexivity.
  - destruct (F' _ H); repeat (frw; st_cbn); exact L.
Qed.
Lemma new_chan_len : forall s, (length (s_chans s) < length (s_chans (set_s_chans (s_chans s ++ [CWait]) s)))%nat.
Proof. intros. st_cbn. rewrite app_length. cbn. lia. Qed.
Lemma placed_same : forall pl c s s', s_links s' = s_links s -> s_closed s' = s_closed s -> plain pl -> at_place pl c s -> at_place pl c s'.
Proof. intros pl c s s' E1 E2 P. destruct pl; try destruct P; cbn [at_place]; rewrite ?E1, ?E2; auto. Qed.
Lemma future_placed : forall p e s s' os, slab_wf (s_links s) -> makes_future e = true -> step p e s = EOk (s', os) -> still_waits (next_future s) s' ->
  exists pl, plain pl /\ at_place pl (next_future s) s'.
Proof.
  intros p e s s' os Wf M H W. unfold next_future in *. destruct e; try discriminate M; cbn [step] in H.
  - apply EOk_inj in H. apply (f_equal fst) in H. cbn [fst] in H. subst s'. unfold ses_end in *.
    destruct (s_ended s). { apply nth_lt in W. lia. }
    set (s1 := if s_ending s then s else _) in *.
    assert (E1 : s_chans s1 = s_chans s) by (unfold s1; destruct (s_ending s); reflexivity).
    unfold cond_wait, new_chan in *. rewrite E1 in *. destruct (cd_lock (s_closed s1)).
    + destruct (fire_done (length (s_chans s)) VOk _ W).
    + exists PEnd. split; [exact I|]. cbn [at_place]. st_cbn. apply in_or_app. right. left. reflexivity.
  - apply EOk_inj in H. apply (f_equal fst) in H. cbn [fst] in H. subst s'.
    exists (PSlot (slab_key (s_links s))). split; [exact I|]. exists (SOpening (Some (length (s_chans s)))). split; [|reflexivity].
    unfold attach_local_sender, new_chan, insert_link. cbn [snd]. repeat (frw; st_cbn). rewrite slab_get_insert by exact Wf. rewrite N.eqb_refl. reflexivity.
  - apply EOk_inj in H. apply (f_equal fst) in H. cbn [fst] in H. subst s'.
    exists (PSlot (slab_key (s_links s))). split; [exact I|]. exists (ROpeningLocal (Some (length (s_rcvs s), length (s_chans s)))). split; [|reflexivity].
    unfold attach_local_receiver, new_chan, insert_link. cbn [snd]. repeat (frw; st_cbn). rewrite slab_get_insert by exact Wf. rewrite N.eqb_refl. reflexivity.
  - apply EOk_inj in H. apply (f_equal fst) in H. cbn [fst] in H. subst s'. unfold ses_detach_sender, new_chan in *.
    eexists. split; [|apply detach_sender_placed; [apply new_chan_len | exact W]]. exact I.
  - unfold noobs in H. destruct (ses_detach_receiver h e s) as [s1|] eqn:E; [|discriminate H]. cbn in H. apply EOk_inj in H. apply (f_equal fst) in H. cbn [fst] in H. subst s'.
    unfold ses_detach_receiver, new_chan in E. eexists. split; [|eapply detach_receiver_placed; [apply new_chan_len | exact E | exact W]]. exact I.
  - apply EOk_inj in H. apply (f_equal fst) in H. cbn [fst] in H. subst s'. unfold snd_close in *.
    destruct (nth_error (s_snds s) a) as [l|]; [|apply nth_lt in W; lia]. destruct (sn_closed l); [apply nth_lt in W; lia|].
    unfold new_chan in *. set (s1 := notify_lock_snd _ _) in *.
    assert (E1 : length (s_chans s1) = length (s_chans s)).
    { unfold s1, notify_lock_snd. destruct (nth_error _ a); frw; [|reflexivity]. 
      assert (X : forall cs v s, length (s_chans (fire_all cs v s)) = length (s_chans s)).
      { clear. induction cs as [|c cs IH]; intros v s; [reflexivity|]. cbn [fire_all fold_left]. change (length (s_chans (fire_all cs v (fire c v s))) = length (s_chans s)). rewrite IH. unfold fire. st_cbn. apply put_chan_len. }
      rewrite ?X. frw. rewrite ?X. frw. reflexivity. }
    rewrite <- E1 in W |- *. eexists. split; [|apply detach_sender_placed; [apply new_chan_len | exact W]]. exact I.
  - unfold noobs in H. destruct (rcv_close a e s) as [s1|] eqn:E; [|discriminate H]. cbn in H. apply EOk_inj in H. apply (f_equal fst) in H. cbn [fst] in H. subst s'.
    unfold rcv_close in E. destruct (nth_error (s_rcvs s) a) as [l|]; [|apply EOk_inj in E; subst s1; apply nth_lt in W; lia].
    unfold new_chan in E. destruct (rc_closed l).
    + cbn [ebind] in E. apply EOk_inj in E. subst s1. red in W. frw_in W. destruct (fire_done (length (s_chans s)) VOk _ W).
    + destruct (detach_receiver _ _ _ _ _) as [s2|] eqn:E2; [|discriminate E]. cbn [ebind] in E. apply EOk_inj in E. subst s1.
      red in W. frw_in W. exists (PSlot (rc_handle l)). split; [exact I|]. eapply placed_same; [| | exact I | eapply detach_receiver_placed; [apply new_chan_len | exact E2 | exact W]]; frw; reflexivity.
Qed.
Lemma run_hold : forall p evs s s' os, slab_wf (s_links s) -> run p evs s = EOk (s', os) -> slab_wf (s_links s') /\ hold0 s s'.
Proof.
  intros p evs s s' os W H.
  assert (K : hold_rel s s'); [|exact (K W)].
  revert H. apply run_ind with (P := fun s1 => hold_rel s s1).
  - intros e s1 s2 os1 K H. eapply (pre_trans (R := hold_rel)); [exact K | exact (step_hold _ _ _ _ _ H)].
  - exact (pre_refl (R := hold_rel) s).
Qed.
Lemma futures_complete : forall p s1 e s2 evs s3 err s4 os2 os3 os4,
  reachable p s1 -> makes_future e = true -> step p e s1 = EOk (s2, os2) -> still_waits (next_future s1) s2 ->
  run p evs s2 = EOk (s3, os3) -> step p (EvFail err) s3 = EOk (s4, os4) -> ~ still_waits (next_future s1) s4.
Proof.
  intros p s1 e s2 evs s3 err s4 os2 os3 os4 R M H1 W2 H2 H3 W.
  cbn [step] in H3. apply EOk_inj in H3. apply (f_equal fst) in H3. cbn [fst] in H3. subst s4.
  destruct (fut_reachable _ _ R) as (Wf & _).
  destruct (step_hold _ _ _ _ _ H1 Wf) as [Wf2 [C2 _]].
  destruct (run_hold _ _ _ _ _ Wf2 H2) as [Wf3 [C3 K3]].
  assert (C4 : chan_rel s3 (ses_set_error err s3)).
  { destruct (step_hold p (EvFail err) s3 _ _ eq_refl Wf3) as [_ [C _]]. exact C. }
  assert (L : (next_future s1 < length (s_chans s2))%nat) by (apply nth_lt in W2; exact W2).
  assert (L3 : (next_future s1 < length (s_chans s3))%nat) by (destruct C3; lia).
  assert (W3 : waits_on (next_future s1) s3) by (eapply chan_back; eauto).
  destruct (future_placed _ _ _ _ _ Wf M H1 W2) as (pl & Pl & P).
  apply (fail_free err s3 pl (next_future s1)); auto.
  destruct pl; try destruct Pl; exact I.
Qed.
