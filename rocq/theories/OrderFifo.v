(** * Woken sends that are polled in the order of the queue are transmitted in it *)

From Coq Require Import ZifyBool ZifyNat ZifyN.
From Verif Require Import Base SpecOrder.
From Verif Require Export OrderProofs.
Import ListNotations.

Lemma poll_step : forall (p : profile) t s, step p (EvPollSend t) s = EOk (poll_send t s, snd (match step p (EvPollSend t) s with EOk x => x | EPanic _ => (s, []) end)).
Proof. intros p t s. cbn [step]. reflexivity. Qed.
Lemma poll_woken : forall t s tk tag c l, nth_error (s_tasks s) t = Some tk -> tk_st tk = TLink tag c ->
  nth_error (s_chans s) c = Some (CSent VOk) -> nth_error (s_snds s) (tk_link tk) = Some l ->
  poll_send t s = link_loop t tk l tag s.
Proof. intros t s tk tag c l Et Es W El. unfold poll_send. rewrite Et, El. cbv zeta. rewrite Es, W. reflexivity. Qed.
Lemma poll_others : forall (p : profile) t s i k, nth_error (s_tasks s) i = Some k -> i <> t -> nth_error (s_tasks (poll_send t s)) i = Some k.
Proof.
  intros p t s i k E N. destruct (step_keeps_tasks p (EvPollSend t) s _ _ (poll_step p t s) i k E) as (k' & E' & _).
  assert (X := tasks_other _ _ _ _ E' N). congruence.
Qed.
Lemma poll_chan_kept : forall (p : profile) t s c x, slab_wf (s_links s) -> nth_error (s_chans s) c = Some x -> x <> CWait ->
  nth_error (s_chans (poll_send t s)) c = Some x.
Proof. intros p t s c x Wf. destruct (step_hold _ _ _ _ _ (poll_step p t s) Wf) as [_ [[_ C] _]]. apply C. Qed.
Lemma woken_others : forall (p : profile) t s u a, slab_wf (s_links s) -> woken_on u a s -> u <> t -> woken_on u a (poll_send t s).
Proof.
  intros p t s u a Wf (tk & tag & c & Et & La & Es & W) N. exists tk, tag, c.
  split; [exact (poll_others p _ _ _ _ Et N)|]. repeat split; auto. apply (poll_chan_kept p); auto. discriminate.
Qed.
Lemma poll_wf : forall (p : profile) t s, slab_wf (s_links s) -> slab_wf (s_links (poll_send t s)).
Proof. intros p t s Wf. apply (step_hold _ _ _ _ _ (poll_step p t s) Wf). Qed.

(** ** Without credit *)
Lemma wait_poll : forall t tk tag l s, nth_error (s_tasks s) t = Some tk -> nth_error (s_snds s) (tk_link tk) = Some l -> sn_credit l = 0 ->
  let s' := link_loop t tk l tag s in
  s_chans s' = s_chans s ++ [CWait]
  /\ nth_error (s_snds s') (tk_link tk) = Some (set_sn_pending (sn_pending l ++ [length (s_chans s)]) l)
  /\ queued_at t (tk_link tk) (length (s_chans s)) s'.
Proof.
  intros t tk tag l s Et El Z. cbn zeta. assert (M : must_wait l = true) by (unfold must_wait; rewrite Z; reflexivity).
  assert (S := link_loop_snds t tk l tag s). rewrite M in S.
  assert (C : s_chans (link_loop t tk l tag s) = s_chans s ++ [CWait]).
  { unfold link_loop. fold (must_wait l). rewrite M. cbv beta iota zeta delta [new_chan]. frw. reflexivity. }
  split; [exact C|]. split.
  - rewrite S, nth_upd_snd, Nat.eqb_refl, El. reflexivity.
  - exists (set_tk_st (TLink tag (length (s_chans s))) tk), tag. split.
    + unfold link_loop. fold (must_wait l). rewrite M. cbv beta iota zeta delta [new_chan]. rewrite nth_upd_task, Nat.eqb_refl. frw. rewrite Et. reflexivity.
    + split; [reflexivity|]. split; [reflexivity|]. rewrite C. apply nth_end.
Qed.
Lemma fifo_wait : forall p a ts s l, slab_wf (s_links s) -> NoDup ts -> Forall (fun t => woken_on t a s) ts ->
  nth_error (s_snds s) a = Some l -> sn_credit l = 0 ->
  exists s' os cs l', run p (map EvPollSend ts) s = EOk (s', os)
    /\ nth_error (s_snds s') a = Some l' /\ sn_pending l' = sn_pending l ++ cs
    /\ Forall2 (fun t c => queued_at t a c s') ts cs
    /\ (forall u c, ~ In u ts -> queued_at u a c s -> queued_at u a c s').
Proof.
  intros p a. induction ts as [|t ts IH]; intros s l Wf ND F El Z.
  - exists s, [], [], l. split; [reflexivity|]. split; [exact El|]. split; [symmetry; apply app_nil_r|]. split; [constructor|auto].
  - apply NoDup_cons_iff in ND as [NI ND]. apply Forall_cons_iff in F as [(tk & tag & c & Et & La & Es & W) F]. subst a.
    assert (P := poll_woken t s tk tag c l Et Es W El).
    destruct (wait_poll t tk tag l s Et El Z) as (C1 & S1 & Q1). rewrite <- P in C1, S1, Q1.
    assert (O : forall u x, u <> t -> queued_at u (tk_link tk) x s -> queued_at u (tk_link tk) x (poll_send t s)).
    { intros u x N (k & g & Ek & Lk & Sk & Wk). exists k, g. split; [exact (poll_others p _ _ _ _ Ek N)|].
      split; [exact Lk|]. split; [exact Sk|]. rewrite C1. rewrite nth_error_app1; [exact Wk|]. exact (nth_lt _ _ _ _ Wk). }
    destruct (IH (poll_send t s) (set_sn_pending (sn_pending l ++ [length (s_chans s)]) l) (poll_wf p t s Wf) ND)
      as (s' & os & cs & l' & Rn & El' & P' & Q' & K'); [|exact S1|exact Z|].
    { rewrite Forall_forall in *. intros u I. apply (woken_others p); auto. congruence. }
    exists s', (snd (match step p (EvPollSend t) s with EOk x => x | EPanic _ => (s, []) end) ++ os), (length (s_chans s) :: cs), l'.
    split; [cbn [map run]; rewrite poll_step; cbn [ebind]; rewrite Rn; reflexivity|].
    split; [exact El'|]. st_cbn_in P'. split; [rewrite P', <- app_assoc; reflexivity|]. split.
    + constructor; [|exact Q']. apply K'; auto.
    + intros u x N Q. apply K'; [intros I; apply N; right; exact I|]. apply O; [intros ->; apply N; left; reflexivity|exact Q].
Qed.

(** ** With credit *)
Lemma go_poll : forall t tk tag l s, nth_error (s_tasks s) t = Some tk -> nth_error (s_snds s) (tk_link tk) = Some l ->
  0 < sn_credit l -> sn_pending l = [] -> 0 < s_iwin s ->
  let s' := link_loop t tk l tag s in
  (exists l', nth_error (s_snds s') (tk_link tk) = Some l' /\ sn_pending l' = [] /\ sn_credit l' = sn_credit l - 1)
  /\ s_iwin s' = s_iwin s - 1 /\ s_nout s' = wadd (s_nout s) 1
  /\ exists k d, send_done s' t k d /\ dl_id d = s_nout s.
Proof.
  intros t tk tag l s Et El Pc Pe Iw. cbn zeta. assert (M : must_wait l = false) by (unfold must_wait; rewrite Pe; lia).
  assert (S := link_loop_snds t tk l tag s). rewrite M in S. split.
  - rewrite S, nth_upd_snd, Nat.eqb_refl, El. cbn [option_map]. eexists. split; [reflexivity|]. st_cbn. auto.
  - unfold link_loop. fold (must_wait l). rewrite M. unfold session_loop.
    set (s1 := upd_task t (set_tk_took true) _).
    assert (I1 : s_iwin s1 = s_iwin s) by (unfold s1; frw; reflexivity).
    assert (N1 : s_nout s1 = s_nout s) by (unfold s1; frw; reflexivity).
    rewrite I1. destruct (N.eqb_spec (s_iwin s) 0); [lia|].
    destruct (transmit_effect t tk l tag s1) as (_ & No & D & Iw' & T).
    split; [|split; [congruence|]].
    + rewrite <- I1. exact Iw'.
    + exists (set_tk_st (TDone (inl (length (s_dlvs s1)))) (set_tk_took true tk)), (mk_dlv (s_nout s1) tag true (tk_settled tk) false true).
      split; [|exact N1]. split.
      * rewrite T, nth_upd_task, Nat.eqb_refl. unfold s1. rewrite nth_upd_task, Nat.eqb_refl. frw. rewrite Et. reflexivity.
      * eexists. split; [reflexivity|]. rewrite D. apply nth_end.
Qed.
Lemma done_kept : forall p evs s s' os t k d, run p evs s = EOk (s', os) -> send_done s t k d ->
  exists d', send_done s' t k d' /\ dl_id d' = dl_id d.
Proof.
  intros p evs s s' os t k d H S.
  apply (run_ind (fun s => exists d', send_done s t k d' /\ dl_id d' = dl_id d) p) with (evs := evs) (s := s) (os := os); [|eauto|exact H].
  intros e s1 s2 o (d1 & (Et & i & Es & Ed) & Eid) St.
  destruct (step_keeps_tasks _ _ _ _ _ St t k Et) as (k' & E' & _ & D & _).
  assert (k' = k) as -> by (apply D; eauto).
  destruct (step_keeps_objs _ _ _ _ _ St) as [_ Kd]. apply Kd in Ed as (d2 & Ed2 & I2). unfold dlv_ids in I2.
  exists d2. split; [split; eauto|]. congruence.
Qed.
Lemma fifo_go : forall p a ts s l, slab_wf (s_links s) -> NoDup ts -> Forall (fun t => woken_on t a s) ts ->
  nth_error (s_snds s) a = Some l -> N.of_nat (length ts) <= sn_credit l -> sn_pending l = [] -> N.of_nat (length ts) <= s_iwin s ->
  s_nout s < two32 ->
  exists s' os l', run p (map EvPollSend ts) s = EOk (s', os) /\ slab_wf (s_links s')
    /\ nth_error (s_snds s') a = Some l' /\ sn_pending l' = [] /\ sn_credit l' = sn_credit l - N.of_nat (length ts)
    /\ (forall k t, nth_error ts k = Some t -> exists tk d, send_done s' t tk d /\ dl_id d = (s_nout s + N.of_nat k) mod two32)
    /\ (forall u, ~ In u ts -> woken_on u a s -> woken_on u a s').
Proof.
  intros p a. induction ts as [|t ts IH]; intros s l Wf ND F El Cr Pe Iw Nn.
  - exists s, [], l. split; [reflexivity|]. split; [exact Wf|]. split; [exact El|]. split; [exact Pe|].
    split; [cbn [length]; lia|]. split; [intros [|k] t; discriminate|auto].
  - apply NoDup_cons_iff in ND as [NI ND]. apply Forall_cons_iff in F as [(tk & tag & c & Et & La & Es & W) F]. subst a.
    assert (P := poll_woken t s tk tag c l Et Es W El). cbn [length] in Cr, Iw |- *.
    destruct (go_poll t tk tag l s Et El) as ((l1 & S1 & P1 & C1) & I1 & N1 & k1 & d1 & D1 & Id1); [lia|exact Pe|lia|].
    rewrite <- P in S1, I1, N1, D1.
    destruct (IH (poll_send t s) l1 (poll_wf p t s Wf) ND) as (s' & os & l' & Rn & Wf' & El' & P' & C' & D' & K').
    { rewrite Forall_forall in *. intros u I. apply (woken_others p); auto. congruence. }
    { exact S1. } { lia. } { exact P1. } { lia. } { rewrite N1. unfold wadd. apply N.mod_lt. discriminate. }
    exists s', (snd (match step p (EvPollSend t) s with EOk x => x | EPanic _ => (s, []) end) ++ os), l'.
    split; [cbn [map run]; rewrite poll_step; cbn [ebind]; rewrite Rn; reflexivity|].
    split; [exact Wf'|]. split; [exact El'|]. split; [exact P'|]. split; [lia|]. split.
    + intros [|k] u E; cbn [nth_error] in E.
      * apply Some_inj in E. subst u. destruct (done_kept _ _ _ _ _ _ _ _ Rn D1) as (d2 & D2 & Id2). exists k1, d2. split; [exact D2|].
        rewrite Id2, Id1, N.add_0_r, N.mod_small by exact Nn. reflexivity.
      * destruct (D' k u E) as (tk2 & d2 & D2 & Id2). exists tk2, d2. split; [exact D2|]. rewrite Id2, N1. unfold wadd.
        rewrite N.add_mod_idemp_l by discriminate. f_equal. lia.
    + intros u N Wk. apply K'; [intros I; apply N; right; exact I|]. apply (woken_others p); auto. intros ->. apply N. left. reflexivity.
Qed.

Lemma run_then : forall p evs1 evs2 s s1 s2 os1 os2, run p evs1 s = EOk (s1, os1) -> run p evs2 s1 = EOk (s2, os2) ->
  run p (evs1 ++ evs2) s = EOk (s2, os1 ++ os2).
Proof.
  intros p. induction evs1 as [|e evs1 IH]; intros evs2 s s1 s2 os1 os2 H1 H2; cbn [run app] in *.
  - apply EOk_inj in H1. apply pair_equal_spec in H1 as [<- <-]. exact H2.
  - destruct (step p e s) as [[s0 o0]|]; [|discriminate]. cbn [ebind] in *. destruct (run p evs1 s0) as [[sx ox]|] eqn:E; [|discriminate].
    cbn [ebind] in *. apply EOk_inj in H1. apply pair_equal_spec in H1 as [<- <-]. rewrite (IH _ _ _ _ _ _ E H2). cbn [ebind].
    rewrite app_assoc. reflexivity.
Qed.
Lemma apart : forall (l l' : list nat) x, NoDup (l ++ l') -> In x l -> ~ In x l'.
Proof.
  induction l as [|y l IH]; intros l' x N I J; [destruct I|]. cbn [app] in N. apply NoDup_cons_iff in N as [A N].
  destruct I as [->|I]; [|exact (IH _ _ N I J)]. apply A, in_or_app. auto.
Qed.
Lemma nodup_parts : forall (l l' : list nat), NoDup (l ++ l') -> NoDup l /\ NoDup l'.
Proof.
  induction l as [|y l IH]; intros l' N; [split; [constructor|exact N]|]. cbn [app] in N. apply NoDup_cons_iff in N as [A N].
  destruct (IH _ N) as [B C]. split; [|exact C]. constructor; [|exact B]. intros I. apply A, in_or_app. auto.
Qed.
Lemma nth_first : forall (l : list nat) m k, (k < m)%nat -> nth_error (firstn m l) k = nth_error l k.
Proof.
  induction l as [|x l IH]; intros [|m] [|k] L; try reflexivity; try lia. cbn [firstn nth_error]. apply IH. lia.
Qed.
Lemma fifo : forall p s a ts n, reachable p s -> NoDup ts -> Forall (fun t => woken_on t a s) ts ->
  link_credit a s n -> 0 < n -> N.min n (N.of_nat (length ts)) <= s_iwin s ->
  exists s' os, run p (map EvPollSend ts) s = EOk (s', os)
    /\ (forall k t, nth_error ts k = Some t -> N.of_nat k < n ->
          exists tk d, send_done s' t tk d /\ dl_id d = (s_nout s + N.of_nat k) mod 2 ^ 32)
    /\ queue a s' (skipn (N.to_nat n) ts).
Proof.
  intros p s a ts n R ND F (l & El & Ec) Pn Iw. set (m := N.to_nat n). assert (Q := queue_reachable _ _ R _ _ El).
  assert (Pe : sn_pending l = []) by (destruct Q as [[X|X] _]; [exact X|lia]).
  assert (Wf : slab_wf (s_links s)) by (apply (fut_reachable _ _ R)).
  assert (Nn : s_nout s < two32) by (apply wire_reachable in R as (o & _ & -> & _); apply N.mod_lt; discriminate).
  assert (Ln : (length (firstn m ts) <= m)%nat) by apply firstn_le_length.
  assert (Lt : (length (firstn m ts) <= length ts)%nat) by (rewrite firstn_length; lia).
  assert (NDs := ND). rewrite <- (firstn_skipn m ts) in NDs.
  assert (ND1 : NoDup (firstn m ts)) by (apply (nodup_parts _ _ NDs)).
  assert (ND2 : NoDup (skipn m ts)) by (apply (nodup_parts _ _ NDs)).
  assert (F1 : Forall (fun t => woken_on t a s) (firstn m ts)) by (rewrite <- (firstn_skipn m ts) in F; apply Forall_app in F; apply F).
  assert (F2 : Forall (fun t => woken_on t a s) (skipn m ts)) by (rewrite <- (firstn_skipn m ts) in F; apply Forall_app in F; apply F).
  destruct (fifo_go p a (firstn m ts) s l Wf ND1 F1 El) as (s1 & o1 & l1 & R1 & W1 & E1 & P1 & C1 & D1 & K1); try lia; try assumption.
  assert (G : exists s' o2 cs l', run p (map EvPollSend (skipn m ts)) s1 = EOk (s', o2) /\ nth_error (s_snds s') a = Some l'
     /\ sn_pending l' = cs /\ Forall2 (fun t c => queued_at t a c s') (skipn m ts) cs).
  { destruct (skipn m ts) as [|x xs] eqn:Sk.
    - exists s1, [], [], l1. split; [reflexivity|]. split; [exact E1|]. split; [exact P1|constructor].
    - assert (Lm : length (firstn m ts) = m).
      { apply firstn_length_le. assert (X : length (skipn m ts) = S (length xs)) by (rewrite Sk; reflexivity). rewrite skipn_length in X. lia. }
      destruct (fifo_wait p a (x :: xs) s1 l1 W1 ND2) as (s' & o2 & cs & l' & R2 & E2 & P2 & Q2 & _).
      + apply Forall_forall. intros u I. apply K1.
        * intros J. exact (apart _ _ u NDs J I).
        * rewrite Forall_forall in F2. apply F2. exact I.
      + exact E1.
      + lia.
      + exists s', o2, cs, l'. split; [exact R2|]. split; [exact E2|]. rewrite P1 in P2. split; [exact P2|exact Q2]. }
  destruct G as (s' & o2 & cs & l' & R2 & E2 & P2 & Q2). exists s', (o1 ++ o2). split; [|split].
  - rewrite <- (firstn_skipn m ts), map_app. exact (run_then _ _ _ _ _ _ _ _ R1 R2).
  - intros k t Ek Lk. assert (Ek1 : nth_error (firstn m ts) k = Some t) by (rewrite nth_first by lia; exact Ek).
    destruct (D1 k t Ek1) as (tk & d & D & Id). destruct (done_kept _ _ _ _ _ _ _ _ R2 D) as (d2 & D2 & Id2).
    exists tk, d2. split; [exact D2|]. rewrite Id2. exact Id.
  - exists l', cs. auto.
Qed.
