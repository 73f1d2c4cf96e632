(** * Failing sessions and detached links complete what waits for them *)

From Coq Require Import ZifyBool ZifyNat ZifyN.
From Verif Require Export KeysRel SpecRelease.
Import ListNotations.

Lemma step_keys : forall p e s s' os, step p e s = EOk (s', os) -> stable keys_rel s s'.
Proof. intros p e s s' os H. destruct e; cbn [step] in H; try solve [step_er H]. Qed.
Lemma keys_reachable : forall p s, reachable p s -> forall b, NoDup (keys (unsettled b s)).
Proof.
  intros p s (id & local & rc & mfs & b & evs & os & H). 
  refine (run_ind (fun s => forall b, NoDup (keys (unsettled b s))) p _ evs _ _ _ _ H).
  - intros e s1 s2 os1 I E b'. exact (step_keys _ _ _ _ _ E b' (I b')).
  - intros []; constructor.
Qed.

(** ** Completing other channels *)
Lemma put_chan_other : forall c d v l, c <> d -> nth_error (put_chan d v l) c = nth_error l c.
Proof.
  intros c d v l H. unfold put_chan. destruct (nth_error l d) as [[]|]; auto. apply nth_set_nth_neq. congruence.
Qed.
Lemma fire_other : forall c d v s, c <> d -> nth_error (s_chans (fire d v s)) c = nth_error (s_chans s) c.
Proof. intros. unfold fire. st_cbn. apply put_chan_other. assumption. Qed.
Lemma fire_opt_other : forall c o v s, o <> Some c -> nth_error (s_chans (fire_opt o v s)) c = nth_error (s_chans s) c.
Proof. intros c [d|] v s H; [apply fire_other; congruence | reflexivity]. Qed.
Lemma drop_opt_other : forall c o s, o <> Some c -> nth_error (s_chans (drop_opt o s)) c = nth_error (s_chans s) c.
Proof. intros c [d|] s H; [unfold drop_opt, drop_tx; st_cbn; apply put_chan_other; congruence | reflexivity]. Qed.
Lemma fire_all_other : forall cs v s c, ~ In c cs -> nth_error (s_chans (fire_all cs v s)) c = nth_error (s_chans s) c.
Proof.
  unfold fire_all. induction cs as [|d cs IH]; intros v s c H; cbn [fold_left]; [reflexivity|].
  rewrite IH by (intros X; apply H; right; exact X). apply fire_other. intros ->. apply H. left. reflexivity.
Qed.
Lemma fail_all_other : forall m s c, (forall k d, In (k, d) m -> di_tx d <> Some c) ->
  nth_error (s_chans (fail_all m s)) c = nth_error (s_chans s) c.
Proof.
  unfold fail_all. induction m as [|[k d] m IH]; intros s c H; cbn [fold_left]; [reflexivity|].
  rewrite IH by (intros; eapply H; right; eauto). apply fire_opt_other. eapply H. left. reflexivity.
Qed.
Lemma fire_self : forall c v s, waits_on c s -> nth_error (s_chans (fire c v s)) c = Some (CSent v).
Proof.
  intros c v s W. unfold fire, put_chan. st_cbn. rewrite W. apply nth_set_nth_eq. apply nth_lt in W. exact W.
Qed.
Lemma hold_chan : forall s s', stable hold0 s s' -> chan_rel s s'.
Proof. intros s s' H. apply H. Qed.
Lemma fire_all_self : forall cs v s c, In c cs -> waits_on c s -> nth_error (s_chans (fire_all cs v s)) c = Some (CSent v).
Proof.
  induction cs as [|d cs IH]; intros v s c Hin W; [destruct Hin|].
  change (fire_all (d :: cs) v s) with (fire_all cs v (fire d v s)).
  destruct (Nat.eq_dec c d) as [->|N].
  - destruct (hold_chan _ _ (hold_fire_all cs v (fire d v s))) as [_ K]. apply K; [|discriminate]. apply fire_self, W.
  - apply IH; [destruct Hin; [congruence | assumption]|]. unfold waits_on. rewrite fire_other by exact N. exact W.
Qed.
Lemma notify_other : forall a s c, ~ at_place (PClose a) c s -> ~ at_place (PCredit a) c s ->
  nth_error (s_chans (notify_lock_snd a s)) c = nth_error (s_chans s) c.
Proof.
  intros a s c N1 N2. unfold notify_lock_snd. destruct (nth_error (s_snds s) a) as [l|] eqn:El; [|reflexivity].
  frw. rewrite fire_all_other, fire_all_other; [reflexivity| |]; intros H; [apply N1 | apply N2]; cbn [at_place]; eauto.
Qed.

(** ** A failing link tells its sends the error *)
Lemma upd_snd_places : forall a s, (forall c pl, at_place pl c (upd_snd a (set_sn_closed true) s) -> at_place pl c s).
Proof.
  intros a s c pl P. assert (K : stable shr_rel s (upd_snd a (set_sn_closed true) s)) by exact _. apply K, P.
Qed.
Lemma detached_tells : forall a e s c, waits_on c s -> at_place (PLink a) c s ->
  ~ at_place (PClose a) c s -> ~ at_place (PCredit a) c s ->
  nth_error (s_chans (snd_remote_detached a e s)) c = Some (CSent (VErr e)).
Proof.
  intros a e s c W (l & El & Hin) N1 N2. unfold snd_remote_detached. rewrite El. cbv zeta.
  rewrite notify_other.
  - frw. apply fire_all_self; assumption.
  - intros P. apply N1. assert (K : stable shr_rel s (upd_snd a (fun l => set_sn_error (Some e) (set_sn_closed true (set_sn_pending [] l)))
      (fire_all (sn_pending l) (VErr e) s))) by st_chain. exact (proj2 K _ _ P).
  - intros P. apply N2. assert (K : stable shr_rel s (upd_snd a (fun l => set_sn_error (Some e) (set_sn_closed true (set_sn_pending [] l)))
      (fire_all (sn_pending l) (VErr e) s))) by st_chain. exact (proj2 K _ _ P).
Qed.
Lemma detached_other : forall a e s c, ~ at_place (PLink a) c s ->
  ~ at_place (PClose a) c s -> ~ at_place (PCredit a) c s ->
  nth_error (s_chans (snd_remote_detached a e s)) c = nth_error (s_chans s) c.
Proof.
  intros a e s c N0 N1 N2. unfold snd_remote_detached. destruct (nth_error (s_snds s) a) as [l|] eqn:El; [|reflexivity]. cbv zeta.
  rewrite notify_other.
  - frw. apply fire_all_other. intros H. apply N0. cbn [at_place]. eauto.
  - intros P. apply N1. assert (K : stable shr_rel s (upd_snd a (fun l => set_sn_error (Some e) (set_sn_closed true (set_sn_pending [] l)))
      (fire_all (sn_pending l) (VErr e) s))) by st_chain. exact (proj2 K _ _ P).
  - intros P. apply N2. assert (K : stable shr_rel s (upd_snd a (fun l => set_sn_error (Some e) (set_sn_closed true (set_sn_pending [] l)))
      (fire_all (sn_pending l) (VErr e) s))) by st_chain. exact (proj2 K _ _ P).
Qed.
Lemma fail_links_tell : forall e ls s a c, In (SEstablished a) ls -> waits_on c s -> at_place (PLink a) c s ->
  (forall pl, at_place pl c s -> pl = PLink a) ->
  nth_error (s_chans (fail_links e ls s)) c = Some (CSent (VErr e)).
Proof.
  intros e ls. induction ls as [|l ls IH]; intros s a c Hin W P U; [destruct Hin|].
  change (fail_links e (l :: ls) s) with (fail_links e ls (fail_link e s l)).
  assert (Np : forall pl, pl <> PLink a -> ~ at_place pl c s) by (intros pl N Q; apply N, U, Q).
  assert (Done : nth_error (s_chans (fail_link e s l)) c = Some (CSent (VErr e)) ->
                 nth_error (s_chans (fail_links e ls (fail_link e s l))) c = Some (CSent (VErr e))).
  { intros E. destruct (hold_chan _ _ (hold0_fail_links e ls (fail_link e s l))) as [_ K]. apply K; [exact E | discriminate]. }
  destruct (nth_error (s_chans (fail_link e s l)) c) as [x|] eqn:Ex.
  2: { apply nth_error_None in Ex. apply nth_lt in W. destruct (hold_chan _ _ (hold0_fail_link e s l)) as [Ln _]. lia. }
  assert (Cases : x = CWait \/ x = CSent (VErr e)).
  { destruct l as [b| |o|o|o|o|b|o]; cbn [fail_link] in Ex; try (left; red in W; congruence).
    - destruct (Nat.eq_dec b a) as [->|Nb].
      + right. rewrite detached_tells in Ex; [congruence | exact W | exact P | apply Np; discriminate | apply Np; discriminate].
      + left. rewrite detached_other in Ex; [red in W; congruence | apply Np; congruence | apply Np; discriminate | apply Np; discriminate].
    - destruct o as [d|]; cbn [fire_opt] in Ex; [|left; red in W; congruence].
      destruct (Nat.eq_dec c d) as [<-|Nd]; [right; rewrite (fire_self c (VErr e) s W) in Ex; congruence|].
      left. rewrite fire_other in Ex by exact Nd. red in W; congruence.
    - left. unfold rcv_remote_detached in Ex. frw_in Ex. red in W; congruence. }
  destruct Cases as [-> | ->]; [|auto].
  assert (Dec : l = SEstablished a \/ l <> SEstablished a).
  { destruct l as [b| |o|o|o|o|b|o]; try (right; discriminate). destruct (Nat.eq_dec b a) as [->|]; [auto | right; congruence]. }
  destruct Dec as [->|Nl].
  - exfalso. cbn [fail_link] in Ex. rewrite detached_tells in Ex; [discriminate | exact W | exact P | apply Np; discriminate | apply Np; discriminate].
  - assert (K : stable shr_rel s (fail_link e s l)) by exact _. 
    apply (IH _ a); [destruct Hin; [congruence | assumption] | exact Ex | | intros pl Q; apply U, K, Q].
    apply (proj2 (hold0_fail_link e s l)); [apply nth_lt in W; exact W | exact P | exact Ex].
Qed.

(** ** A failing session *)
Lemma shr_at : forall s s' pl c, stable shr_rel s s' -> at_place pl c s' -> at_place pl c s.
Proof. intros s s' pl c [_ K]. apply K. Qed.
Lemma detached_empty : forall a e s pl c, pl = PLink a \/ pl = PClose a \/ pl = PCredit a -> ~ at_place pl c (snd_remote_detached a e s).
Proof.
  intros a e s pl c Hp P. unfold snd_remote_detached in P. destruct (nth_error (s_snds s) a) as [l|] eqn:El.
  - cbv zeta in P. set (s1 := upd_snd a _ (fire_all _ _ s)) in P.
    assert (E1 : exists l1, nth_error (s_snds s1) a = Some l1 /\ sn_pending l1 = []).
    { unfold s1. rewrite nth_upd_snd, Nat.eqb_refl. frw. rewrite El. cbn [option_map]. eexists. split; reflexivity. }
    destruct E1 as (l1 & E1 & Ep). destruct Hp as [->|[->| ->]].
    + apply (shr_at s1) in P; [|exact _]. destruct P as (l2 & E2 & Hin). rewrite E1 in E2. injection E2 as <-. rewrite Ep in Hin. destruct Hin.
    + unfold notify_lock_snd in P. rewrite E1 in P. destruct P as (l2 & E2 & Hin). rewrite nth_upd_snd, Nat.eqb_refl in E2.
      frw_in E2. rewrite E1 in E2. cbn [option_map] in E2. injection E2 as <-. exact Hin.
    + unfold notify_lock_snd in P. rewrite E1 in P. destruct P as (l2 & E2 & Hin). rewrite nth_upd_snd, Nat.eqb_refl in E2.
      frw_in E2. rewrite E1 in E2. cbn [option_map] in E2. injection E2 as <-. exact Hin.
  - destruct Hp as [->|[->| ->]]; destruct P as (l2 & E2 & _); congruence.
Qed.
Lemma fail_links_empty : forall e ls s a pl c, In (SEstablished a) ls -> pl = PLink a \/ pl = PClose a \/ pl = PCredit a ->
  ~ at_place pl c (fail_links e ls s).
Proof.
  intros e ls. induction ls as [|l ls IH]; intros s a pl c Hin Hp P; [destruct Hin|].
  change (fail_links e (l :: ls) s) with (fail_links e ls (fail_link e s l)) in P.
  destruct Hin as [->|Hin]; [|exact (IH _ _ _ _ Hin Hp P)].
  apply (shr_at (fail_link e s (SEstablished a))) in P; [|exact _]. exact (detached_empty a e s pl c Hp P).
Qed.
(** [set_error] in three parts. *)
Definition fail_before (e : perr) (s : ses) : ses :=
  let s := set_s_pending [] (fire_all (map fst (s_pending s)) (VErr e) s) in
  let s := set_s_snd [] (fail_all (s_snd s) s) in
  let s := set_s_rcv [] (fail_all (s_rcv s) s) in
  set_s_names [] s.
Definition fail_after (e : perr) (ls : list link) (s : ses) : ses :=
  let s := drop_links ls (set_s_links slab0 s) in
  let s := set_s_ended true (set_s_error (Some e) s) in
  set_s_closed (mk_cond [] true) (fire_all (cd_wait (s_closed s)) VOk s).
Lemma fail_split : forall e s,
  ses_set_error e s = fail_after e (slab_values (s_links s)) (fail_links e (slab_values (s_links s)) (fail_before e s)).
Proof.
  intros e s. unfold ses_set_error. cbv zeta. change (set_s_names [] _) with (fail_before e s).
  assert (E : s_links (fail_before e s) = s_links s) by (unfold fail_before; frw; reflexivity). rewrite E. reflexivity.
Qed.
#[export] Instance shr_fail_after e ls s : stable shr_rel s (fail_after e ls s).
Proof. unfold fail_after. cbv zeta. st_chain. Qed.
#[export] Instance shr_fail_before e s : stable shr_rel s (fail_before e s).
Proof. unfold fail_before. cbv zeta. st_chain. Qed.
#[export] Instance hold0_fail_before e s : stable hold0 s (fail_before e s).
Proof.
  unfold fail_before. cbv zeta. set (s1 := set_s_pending [] _). apply stable_trans with (s1 := s1); [exact _ | exact _|].
  set (s2 := set_s_snd [] (fail_all (s_snd s1) s1)). apply stable_trans with (s1 := s2); [exact _ | exact (hold_no_map true s1)|].
  eapply stable_trans; [exact _ | exact (hold_no_map false s2)|]. st_chain.
Qed.
#[export] Instance chan_pre : preorder chan_rel.
Proof. split; [split; auto|]. intros s s1 s2 [L1 K1] [L2 K2]. split; [lia | auto]. Qed.
#[export] Instance chan_sees : sees chan_rel [Fchans].
Proof. intros s s' H. assert (X := H Fchans eq_refl). cbn [same] in X. split; [rewrite X; auto | congruence]. Qed.
#[export] Instance chan_lift s s' : stable hold0 s s' -> stable chan_rel s s'.
Proof. intros H. apply H. Qed.
Lemma chan_after : forall e ls s, stable chan_rel s (fail_after e ls s).
Proof. intros e ls s. unfold fail_after. cbv zeta. st_chain. Qed.
Lemma fail_pending : forall e s, s_pending (ses_set_error e s) = [].
Proof. intros. rewrite fail_split. unfold fail_after, fail_before. frw. reflexivity. Qed.
Lemma fail_unsettled_none : forall e s b, unsettled b (ses_set_error e s) = [].
Proof. intros. rewrite fail_split. unfold fail_after, fail_before. destruct b; unfold unsettled; frw; reflexivity. Qed.
Lemma fail_closed : forall e s, s_closed (ses_set_error e s) = mk_cond [] true.
Proof. intros. rewrite fail_split. unfold fail_after. cbv zeta. frw. reflexivity. Qed.
Lemma fail_free : forall e s pl c, slab_wf (s_links s) -> at_place pl c s -> (c < length (s_chans s))%nat ->
  match pl with PLink a | PClose a | PCredit a => sender_open a s | _ => True end -> ~ waits_on c (ses_set_error e s).
Proof.
  intros e s pl c W P L O Wc. destruct (hold_rel_ses_set_error e s W) as [_ [_ K]].
  assert (P' := K pl c L P Wc). clear K Wc P.
  assert (Est : forall a, sender_open a s -> pl = PLink a \/ pl = PClose a \/ pl = PCredit a -> False).
  { intros a (k & Ek) Hp. rewrite fail_split in P'. apply (shr_at _ _ _ _ (shr_fail_after _ _ _)) in P'.
    refine (fail_links_empty e _ _ a pl c _ Hp P'). apply slab_values_get. eauto. }
  assert (E1 := fail_pending e s). assert (E2 := fail_unsettled_none e s). assert (E3 := ses_set_error_links e s). assert (E4 := fail_closed e s).
  revert P' E1 E2 E3 E4. generalize (ses_set_error e s). clear W L e. intros s' P' E1 E2 E3 E4.
  destruct pl as [a|a|a|h|b id|k|].
  - eauto.
  - eauto.
  - eauto.
  - cbn [at_place] in P'. rewrite E1 in P'. destruct P'.
  - destruct P' as (di & G & _). rewrite E2 in G. discriminate.
  - destruct P' as (lk & G & _). rewrite E3, slab0_get in G. discriminate.
  - cbn [at_place] in P'. rewrite E4 in P'. destruct P'.
Qed.
Lemma chan_value : forall s s' c v, chan_rel s s' -> nth_error (s_chans s) c = Some (CSent v) -> nth_error (s_chans s') c = Some (CSent v).
Proof. intros s s' c v [_ K] E. apply K; [exact E | discriminate]. Qed.
Lemma fail_tells_session : forall e s h c, In (c, h) (s_pending s) -> waits_on c s ->
  nth_error (s_chans (ses_set_error e s)) c = Some (CSent (VErr e)).
Proof.
  intros e s h c Hin W. rewrite fail_split.
  eapply chan_value; [apply chan_after|]. eapply chan_value; [exact (hold_chan _ _ (hold0_fail_links _ _ _))|].
  unfold fail_before. cbv zeta. set (s1 := set_s_pending [] _).
  assert (E1 : nth_error (s_chans s1) c = Some (CSent (VErr e))).
  { unfold s1. frw. apply fire_all_self; [exact (in_map fst _ _ Hin) | exact W]. }
  clearbody s1. set (s2 := set_s_snd [] (fail_all (s_snd s1) s1)).
  assert (E2 : nth_error (s_chans s2) c = Some (CSent (VErr e))).
  { eapply chan_value; [exact (hold_chan _ _ (hold_no_map true s1)) | exact E1]. }
  eapply chan_value; [exact (hold_chan _ _ (hold_no_map false s2)) | exact E2].
Qed.
Lemma fail_tells_link : forall e s a c, (forall b, NoDup (keys (unsettled b s))) -> waits_on c s -> at_place (PLink a) c s ->
  (forall pl, at_place pl c s -> pl = PLink a) -> sender_open a s ->
  nth_error (s_chans (ses_set_error e s)) c = Some (CSent (VErr e)).
Proof.
  intros e s a c Nd W P U (k & Ek). rewrite fail_split.
  eapply chan_value; [apply chan_after|]. 
  assert (E : nth_error (s_chans (fail_before e s)) c = nth_error (s_chans s) c).
  { unfold fail_before. frw. rewrite fail_all_other; [frw; rewrite fail_all_other; [frw; apply fire_all_other|]|].
    - intros Hin. apply in_map_iff in Hin as ([c' h] & E & Hin). cbn in E. subst c'. discriminate (U (PSes h) Hin).
    - intros j d Hin T. assert (X := U (PEntry true j)). cbn [at_place unsettled] in X. frw_in Hin.
      apply map_in_get in Hin; [|exact (Nd true)]. cbn [unsettled] in Hin. discriminate X. eauto.
    - intros j d Hin T. assert (X := U (PEntry false j)). cbn [at_place unsettled] in X. frw_in Hin.
      apply map_in_get in Hin; [|exact (Nd false)]. cbn [unsettled] in Hin. discriminate X. eauto. }
  apply fail_links_tell with (a := a).
  - apply slab_values_get. eauto.
  - red. rewrite E. exact W.
  - apply (proj2 (hold0_fail_before e s)); [apply nth_lt in W; exact W | exact P | red; rewrite E; exact W].
  - intros pl Q. apply U. exact (shr_at _ _ _ _ (shr_fail_before e s) Q).
Qed.

(** ** Polling after that *)
Lemma poll_told : forall p t s tk tag c e, nth_error (s_tasks s) t = Some tk ->
  (exists l, nth_error (s_snds s) (tk_link tk) = Some l) ->
  tk_st tk = TLink tag c \/ tk_st tk = TSess tag c -> nth_error (s_chans s) c = Some (CSent (VErr e)) ->
  send_fails p t e s.
Proof.
  intros p t s tk tag c e Et (l & El) Es Ec. exists (poll_send t s), []. split; [reflexivity|].
  assert (E : poll_send t s = upd_task t (set_tk_st (TDone (inr e))) s).
  { unfold poll_send. rewrite Et, El. cbv zeta. destruct Es as [-> | ->]; rewrite Ec; reflexivity. }
  exists (set_tk_st (TDone (inr e)) tk). split; [|reflexivity]. rewrite E. unfold upd_task. rewrite Et. st_cbn.
  apply nth_set_nth_eq. apply nth_lt in Et. exact Et.
Qed.
Lemma place_unique : forall s pl c, fut_inv s -> at_place pl c s -> forall pl', at_place pl' c s -> pl' = pl.
Proof. intros s pl c (_ & _ & U & _) P pl' P'. eauto. Qed.
(** Every send is on a link that exists. *)
Definition tasks_linked (s : ses) : Prop :=
  forall t tk, nth_error (s_tasks s) t = Some tk -> exists l, nth_error (s_snds s) (tk_link tk) = Some l.
Lemma linked_reachable : forall p s, reachable p s -> tasks_linked s.
Proof.
  intros p s R. destruct (wire_reachable _ _ R) as (order & _ & _ & T & _). intros t tk E. destruct (T t tk E) as (_ & L). 
  match type of L with context [exists l, nth_error (s_snds s) (tk_link tk) = Some l] => tauto end.
Qed.
