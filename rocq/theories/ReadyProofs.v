(** * A sender link wakes those who wait for it *)

From Coq Require Import ZifyBool ZifyNat ZifyN.
From Verif Require Import Base SpecReady.
From Verif Require Export ReadyRel OwnedRel FutureProofs.
Import ListNotations.

Lemma step_stl : forall p e s s' os, step p e s = EOk (s', os) -> stable stl_rel s s'.
Proof.
  intros p e s s' os H. destruct e; cbn [step] in H; try solve [step_er H].
  - destruct (nth_error (s_snds s) a) as [l|] eqn:El; [|step_er H].
    cbv beta iota zeta delta [cond_wait new_chan] in H. destruct (cd_lock (sn_on_close l)) eqn:Lk; apply EOk_inj in H;
      apply (f_equal fst) in H; cbn [fst] in H; subst s'; (eapply stable_trans; [exact _| |apply stl_upd]); [st_chain| |st_chain|];
      intros x Ex; frw_in Ex; assert (x = l) as -> by congruence; unfold settled_link; st_cbn; cbn [cd_wait cd_lock]; [tauto|].
    rewrite Lk. intros (A & B & C). rewrite <- A in *. intuition discriminate.
  - destruct (nth_error (s_snds s) a) as [l|] eqn:El; [|step_er H].
    cbv beta iota zeta delta [cond_wait new_chan] in H. destruct (cd_lock (sn_on_credit l)) eqn:Lk; apply EOk_inj in H;
      apply (f_equal fst) in H; cbn [fst] in H; subst s'; (eapply stable_trans; [exact _| |apply stl_upd]); [st_chain| |st_chain|];
      intros x Ex; frw_in Ex; assert (x = l) as -> by congruence; unfold settled_link; st_cbn; cbn [cd_wait cd_lock]; [tauto|].
    rewrite Lk. intros (A & B & C). rewrite <- B in *. intuition discriminate.
Qed.
Lemma reachable_step : forall p e s s' os, reachable p s -> step p e s = EOk (s', os) -> reachable p s'.
Proof.
  intros p e s s' os (id & local & rc & mfs & b & evs & os0 & H) St. exists id, local, rc, mfs, b, (evs ++ [e]), (os0 ++ os).
  revert H. generalize (ses_new id local rc mfs b). revert os0. induction evs as [|x evs IH]; intros os0 s0 H; cbn [List.app run] in *.
  - apply EOk_inj in H. injection H as -> <-. rewrite St. cbn [ebind]. cbn [List.app]. rewrite app_nil_r. reflexivity.
  - destruct (step p x s0) as [[s1 o1]|]; [|discriminate]. cbn [ebind] in *.
    destruct (run p evs s1) as [[s2 o2]|] eqn:E2; [|discriminate]. cbn [ebind] in H. apply EOk_inj in H. injection H as -> <-.
    rewrite (IH _ _ E2). cbn [ebind]. rewrite app_assoc. reflexivity.
Qed.
Lemma reachable_settled : forall p s, reachable p s -> all_settled s.
Proof.
  intros p s (id & local & rc & mfs & b & evs & os & H). revert H. apply run_ind.
  - intros e s1 s2 os1 A H. exact (step_stl _ _ _ _ _ H A).
  - intros a l E. destruct a; discriminate E.
Qed.

(** Old waiters for credit see no credit appear. *)
Lemma step_crd : forall p e s s' os a l' c, step p e s = EOk (s', os) -> (c < length (s_chans s))%nat ->
  nth_error (s_snds s') a = Some l' -> In c (cd_wait (sn_on_credit l')) ->
  exists l, nth_error (s_snds s) a = Some l /\ In c (cd_wait (sn_on_credit l)) /\ (sn_credit l = 0 -> sn_credit l' = 0).
Proof.
  intros p e s s' os a l' c H L E I.
  assert (X : (forall b, e <> EvOnCredit b) -> stable crd_rel s s').
  { clear - H. intros N. destruct e; cbn [step] in H; try solve [step_er H]. destruct (N a eq_refl). }
  assert (Y : (exists b, e = EvOnCredit b) \/ (forall b, e <> EvOnCredit b)) by (destruct e; eauto; right; discriminate).
  destruct Y as [(b & ->)|Y]; [|exact (X Y _ _ _ E I)]. clear X. cbn [step] in H.
  destruct (nth_error (s_snds s) b) as [l|] eqn:El.
  2: { apply EOk_inj in H. assert (s' = s) as -> by congruence. eauto. }
  cbv beta iota zeta delta [cond_wait new_chan] in H. destruct (cd_lock (sn_on_credit l)) eqn:Lk; apply EOk_inj in H;
    apply (f_equal fst) in H; cbn [fst] in H; subst s'; rewrite nth_upd_snd in E; frw_in E;
    (destruct (Nat.eqb_spec b a) as [->|]; [|eauto]); rewrite El in E; cbn [option_map] in E; apply Some_inj in E; subst l';
    exists l; st_cbn_in I; st_cbn; [auto|].
  cbn [cd_wait] in I. apply in_app_or in I as [I|[I|[]]]; [auto|lia].
Qed.

Definition awaits (a c : nat) (s : ses) : Prop :=
  slab_wf (s_links s) /\ all_settled s /\ (c < length (s_chans s))%nat
  /\ (waits_on c s -> exists l, nth_error (s_snds s) a = Some l /\ In c (cd_wait (sn_on_credit l)) /\ sn_credit l = 0).
Lemma awaits_step : forall p e s s' os a c, awaits a c s -> step p e s = EOk (s', os) -> awaits a c s'.
Proof.
  intros p e s s' os a c (Wf & A & L & W) H. assert (Hh := step_hold _ _ _ _ _ H Wf). destruct Hh as [Wf' [Ch Pl]].
  assert (A' := step_stl _ _ _ _ _ H A). split; [exact Wf'|]. split; [exact A'|]. split; [destruct Ch; lia|]. intros W'.
  assert (W0 := chan_back _ _ _ Ch L W'). destruct (W W0) as (l & El & I & Z).
  destruct (Pl (PCredit a) c L) as (l' & El' & I'); [exists l; auto | exact W' |].
  exists l'. split; [exact El'|]. split; [exact I'|].
  destruct (step_crd _ _ _ _ _ _ _ _ H L El' I') as (l0 & E0 & _ & Z0). apply Z0. congruence.
Qed.
Lemma awaits_run : forall p evs s s' os a c, awaits a c s -> run p evs s = EOk (s', os) -> awaits a c s'.
Proof. intros p evs s s' os a c A H. revert A H. apply (run_ind (awaits a c)). intros. eapply awaits_step; eauto. Qed.

(** One turn of [ready] on a link in a reachable state. *)
Lemma turn_cases : forall p a s l, reachable p s -> nth_error (s_snds s) a = Some l ->
  (sn_closed l = true /\ ready_turn a s = (RdDone false, s))
  \/ (sn_closed l = false /\ 0 < sn_credit l /\ ready_turn a s = (RdDone true, s))
  \/ (sn_closed l = false /\ sn_credit l = 0
      /\ exists s', ready_turn a s = (RdWait (length (s_chans s)), s') /\ step p (EvOnCredit a) s = EOk (s', [])
           /\ awaits a (length (s_chans s)) s').
Proof.
  intros p a s l R E. destruct (reachable_settled _ _ R a l E) as (S1 & S2 & S3). unfold ready_turn. rewrite E.
  destruct (sn_closed l) eqn:C; [auto|]. destruct (N.ltb_spec 0 (sn_credit l)) as [P|P]; [auto|]. right. right.
  split; [reflexivity|]. split; [lia|]. rewrite S2.
  assert (St : exists s', step p (EvOnCredit a) s = EOk (s', [])
     /\ s' = upd_snd a (set_sn_on_credit (fst (cond_wait (sn_on_credit l) s))) (snd (cond_wait (sn_on_credit l) s))).
  { cbn [step]. rewrite E. destruct (cond_wait (sn_on_credit l) s) as [cd s1]. eauto. }
  destruct St as (s' & St & Es'). exists s'. destruct (cond_wait (sn_on_credit l) s) as [cd s1] eqn:Ec. cbn [fst snd] in Es'. subst s'.
  split; [reflexivity|]. split; [exact St|].
  assert (R' := fut_reachable _ _ R). destruct R' as (Wf & _). destruct (step_hold _ _ _ _ _ St Wf) as [Wf' _].
  split; [exact Wf'|]. split; [exact (step_stl _ _ _ _ _ St (reachable_settled _ _ R))|].
  cbv beta iota zeta delta [cond_wait new_chan] in Ec. rewrite S2 in Ec. apply pair_equal_spec in Ec as [<- <-]. split.
  - frw. cbn [s_chans set_s_chans]. rewrite app_length. cbn [length]. lia.
  - intros _. rewrite nth_upd_snd, Nat.eqb_refl. frw. rewrite E. cbn [option_map]. eexists. split; [reflexivity|]. st_cbn.
    split; [cbn [cd_wait]; apply in_or_app; right; left; reflexivity | lia].
Qed.

Lemma woken : forall p a s1 c s2 evs s3 os, reachable p s1 -> ready_turn a s1 = (RdWait c, s2) -> run p evs s2 = EOk (s3, os) ->
  still_waits c s3 -> snd_credit a s3 0.
Proof.
  intros p a s1 c s2 evs s3 os R T RN W. destruct (nth_error (s_snds s1) a) as [l|] eqn:E.
  - destruct (turn_cases p a s1 l R E) as [(_ & X)|[(_ & _ & X)|(_ & _ & s' & X & _ & Aw)]]; rewrite X in T; try discriminate T.
    apply pair_equal_spec in T as [T1 <-]. injection T1 as <-. destruct (awaits_run _ _ _ _ _ _ _ Aw RN) as (_ & A & _ & K).
    destruct (K W) as (l3 & E3 & I & Z). exists l3. split; [exact E3|]. split; [|exact Z].
    destruct (A _ _ E3) as (_ & _ & N). destruct (sn_closed l3); [|reflexivity]. destruct N as [_ N]; [reflexivity|]. rewrite N in I. destruct I.
  - unfold ready_turn in T. rewrite E in T. discriminate T.
Qed.
Lemma turn_done : forall a s l, nth_error (s_snds s) a = Some l -> sn_closed l = true \/ sn_credit l <> 0 ->
  fst (ready_turn a s) = RdDone (negb (sn_closed l)).
Proof.
  intros a s l E H. unfold ready_turn. rewrite E. destruct (sn_closed l); [reflexivity|].
  destruct (N.ltb_spec 0 (sn_credit l)); [reflexivity|]. destruct H; [discriminate | lia].
Qed.

(** ** Waiters for the close *)
Definition awaits_close (a c : nat) (s : ses) : Prop :=
  slab_wf (s_links s) /\ all_settled s /\ (c < length (s_chans s))%nat
  /\ (waits_on c s -> exists l, nth_error (s_snds s) a = Some l /\ In c (cd_wait (sn_on_close l))).
Lemma awaits_close_step : forall p e s s' os a c, awaits_close a c s -> step p e s = EOk (s', os) -> awaits_close a c s'.
Proof.
  intros p e s s' os a c (Wf & A & L & W) H. destruct (step_hold _ _ _ _ _ H Wf) as [Wf' [Ch Pl]].
  split; [exact Wf'|]. split; [exact (step_stl _ _ _ _ _ H A)|]. split; [destruct Ch; lia|]. intros W'.
  apply (Pl (PClose a) c L); [|exact W']. exact (W (chan_back _ _ _ Ch L W')).
Qed.
Lemma close_told : forall p a s1 s2 o evs s3 os l, reachable p s1 -> nth_error (s_snds s1) a = Some l ->
  step p (EvOnClose a) s1 = EOk (s2, o) -> run p evs s2 = EOk (s3, os) ->
  still_waits (next_future s1) s3 -> exists l3, nth_error (s_snds s3) a = Some l3 /\ sn_closed l3 = false.
Proof.
  intros p a s1 s2 o evs s3 os l R E St RN W. assert (A1 := reachable_settled _ _ R).
  destruct (fut_reachable _ _ R) as (Wf & _). destruct (step_hold _ _ _ _ _ St Wf) as [Wf' _].
  assert (A2 := step_stl _ _ _ _ _ St A1).
  assert (Aw : awaits_close a (next_future s1) s2).
  { split; [exact Wf'|]. split; [exact A2|]. unfold next_future. cbn [step] in St. rewrite E in St.
    cbv beta iota zeta delta [cond_wait new_chan] in St. destruct (cd_lock (sn_on_close l)) eqn:Lk; apply EOk_inj in St;
      apply (f_equal fst) in St; cbn [fst] in St; subst s2; (split; [frw; cbn [fire s_chans set_s_chans];
        rewrite ?put_chan_len, app_length; cbn [length]; lia|]); intros Ws.
    - exfalso. unfold waits_on in Ws. frw_in Ws. apply (fire_done _ _ _ Ws).
    - rewrite nth_upd_snd, Nat.eqb_refl. frw. rewrite E. cbn [option_map]. eexists. split; [reflexivity|]. st_cbn.
      cbn [cd_wait]. apply in_or_app. right. left. reflexivity. }
  assert (Aw3 : awaits_close a (next_future s1) s3).
  { revert Aw RN. apply (run_ind (awaits_close a (next_future s1))). intros. eapply awaits_close_step; eauto. }
  destruct Aw3 as (_ & A3 & _ & K). destruct (K W) as (l3 & E3 & I). exists l3. split; [exact E3|].
  destruct (A3 _ _ E3) as (_ & _ & N). destruct (sn_closed l3); [|reflexivity]. destruct N as [N _]; [reflexivity|]. rewrite N in I. destruct I.
Qed.

(** ** Leaving the slot *)
Lemma step_own : forall p e s s' os, step p e s = EOk (s', os) -> stable own_rel s s'.
Proof. intros p e s s' os H. destruct e; cbn [step] in H; step_er H. Qed.
Lemma run_own : forall p evs s s' os, run p evs s = EOk (s', os) -> stable own_rel s s'.
Proof.
  intros p evs s s' os. change (run p evs s = EOk (s', os) -> (fun x => stable own_rel s x) s'). apply run_ind.
  - intros e s1 s2 os1 K H. eapply stable_trans; [exact _|exact K|exact (step_own _ _ _ _ _ H)].
  - apply stable_refl. exact _.
Qed.
Lemma lk_reachable : forall p s, reachable p s -> lk_inv [] s.
Proof.
  intros p s (id & local & rc & mfs & b & evs & os & H). revert H. apply run_ind; [|apply lk_new].
  intros e s1 s2 os1 A H. exact (step_lk _ _ _ _ _ H A).
Qed.
Lemma left_shut : forall p evs s s' os a, reachable p s -> run p evs s = EOk (s', os) -> sender_open a s -> ~ sender_open a s' ->
  snd_closed a s'.
Proof.
  intros p evs s s' os a R RN O NO. destruct (fut_reachable _ _ R) as (Wf & _). destruct (run_own _ _ _ _ _ RN Wf) as [_ [H _]].
  destruct O as (k & G). assert (L : (a < length (s_snds s))%nat).
  { destruct (lk_reachable _ _ R) as (_ & _ & Ss & _). destruct (Ss _ _ G) as (l & E & _). apply nth_lt in E. exact E. }
  destruct (H a) as [[_ O']|C]; [split; eauto | destruct (NO O') | exact C].
Qed.
