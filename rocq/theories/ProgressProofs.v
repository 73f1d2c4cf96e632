(** * Sends that can proceed: proofs *)

From Coq Require Import ZifyBool ZifyNat ZifyN.
From Verif Require Import Base SpecProgress.
From Verif Require Export WindowRel OrderFifo.
Import ListNotations.

Lemma step_win : forall p e s s' os, step p e s = EOk (s', os) -> poll_ev e = false -> stable win_rel s s'.
Proof. intros p e s s' os H N. destruct e; try discriminate N; cbn [step] in H; step_er H. Qed.
Definition window_inv (s : ses) : Prop := s_pending s <> [] -> s_iwin s = 0.
Lemma window_same : forall s s', s_pending s' = s_pending s -> s_iwin s' = s_iwin s -> window_inv s -> window_inv s'.
Proof. unfold window_inv. intros s s' -> -> H. exact H. Qed.
Lemma window_session_loop : forall t tk l tag s, window_inv s -> window_inv (session_loop t tk l tag s).
Proof.
  intros t tk l tag s W. unfold session_loop. destruct (N.eqb_spec (s_iwin s) 0) as [Z|Z].
  - cbv beta iota zeta delta [new_chan]. intros _. frw. exact Z.
  - intros N. frw_in N. elim Z. apply W. exact N.
Qed.
Lemma window_step : forall p e s s' os, window_inv s -> step p e s = EOk (s', os) -> window_inv s'.
Proof.
  intros p e s s' os W H. destruct (poll_ev e) eqn:Ev.
  2: { intros N. destruct (step_win _ _ _ _ _ H Ev N) as [A B]. auto. }
  destruct e; try discriminate Ev. cbn [step] in H. apply EOk_inj in H. apply pair_equal_spec in H as [<- _].
  destruct (poll_send_polled t s) as [|tk l e Et El D|tk l tag s0 Et El Bg|tk l tag c Et El Es].
  - exact W.
  - apply (window_same s); [frw; reflexivity|frw; reflexivity|exact W].
  - assert (F := begins_framed _ _ _ _ _ Bg).
    assert (W0 : window_inv s0) by (apply (window_same s); [apply (F Fpending eq_refl)|apply (F Fiwin eq_refl)|exact W]).
    unfold link_loop. destruct (_ || _).
    + cbv beta iota zeta delta [new_chan]. apply (window_same s0); [frw; reflexivity|frw; reflexivity|exact W0].
    + apply window_session_loop. apply (window_same s0); [frw; reflexivity|frw; reflexivity|exact W0].
  - apply window_session_loop. exact W.
Qed.
Lemma window_reachable : forall p s, reachable p s -> window_inv s.
Proof.
  intros p s (id & local & rc & mfs & b & evs & os & H). revert H. apply run_ind.
  - intros e s1 s2 os1 W H. exact (window_step _ _ _ _ _ W H).
  - intros N. elim N. reflexivity.
Qed.
Lemma no_window : forall p s t a, reachable p s -> awaits_window t a s -> s_iwin s = 0.
Proof.
  intros p s t a R (tk & tag & c & Et & <- & Es & W). apply (window_reachable _ _ R).
  assert (F := fut_reachable _ _ R). destruct F as (_ & _ & _ & T & _). specialize (T _ _ Et). unfold task_placed in T. rewrite Es in T.
  destruct T as (_ & l & El & T). specialize (T W). cbn [at_place] in T. intros N. rewrite N in T. destruct T.
Qed.
Lemma none_asleep : forall p s t, reachable p s -> asleep t s ->
  exists a, on_link t a s /\ ((awaits_credit t a s /\ link_credit a s 0) \/ (awaits_window t a s /\ ~ window_open s)).
Proof.
  intros p s t R (a & [A|A]); exists a; assert (A0 := A); destruct A0 as (tk & tag & c & Et & La & _); (split; [exists tk; auto|]).
  - left. split; [exact A|]. destruct (linked_reachable _ _ R _ _ Et) as (l & El). exists l. rewrite La in El. split; [exact El|].
    apply (no_credit p s t a); auto. exists l. auto.
  - right. split; [exact A|]. unfold window_open. rewrite (no_window _ _ _ _ R A). lia.
Qed.

Lemma done_now : forall t s r, (exists tk, nth_error (s_tasks s) t = Some tk) ->
  send_result t (upd_task t (set_tk_st (TDone r)) s) r.
Proof.
  intros t s r (tk & Et). exists (set_tk_st (TDone r) tk). split; [|reflexivity]. rewrite nth_upd_task, Nat.eqb_refl, Et. reflexivity.
Qed.
Lemma session_done : forall t tk0 tk l tag s, nth_error (s_tasks s) t = Some tk -> window_open s ->
  exists i, send_result t (session_loop t tk0 l tag s) (inl i).
Proof.
  intros t tk0 tk l tag s Et W. unfold session_loop, window_open in *. destruct (N.eqb_spec (s_iwin s) 0); [lia|].
  destruct (transmit_effect t tk0 l tag s) as (_ & _ & _ & _ & T). eexists. unfold send_result. rewrite T.
  apply (done_now t s (inl _)). eauto.
Qed.
Lemma link_done : forall t tk l tag s, nth_error (s_tasks s) t = Some tk -> 0 < sn_credit l -> sn_pending l = [] -> window_open s ->
  exists i, send_result t (link_loop t tk l tag s) (inl i).
Proof.
  intros t tk l tag s Et C P W. unfold link_loop. rewrite P. destruct (N.eqb_spec (sn_credit l) 0); [lia|]. cbn [orb].
  apply (session_done t tk (set_tk_took true tk)).
  - rewrite nth_upd_task, Nat.eqb_refl. frw. rewrite Et. reflexivity.
  - unfold window_open in *. frw. exact W.
Qed.
Lemma poll_completes : forall p s t a n, reachable p s -> alive t s -> on_link t a s ->
  link_credit a s n -> 0 < n -> window_open s ->
  exists s' os r, step p (EvPollSend t) s = EOk (s', os) /\ send_result t s' r
    /\ (unrefused t a s -> exists i, r = inl i).
Proof.
  intros p s t a n R (tk & Et & G) (tk' & Et' & <-) (l & El & <-) Pn W. assert (tk' = tk) as -> by congruence.
  exists (poll_send t s), (snd (match step p (EvPollSend t) s with EOk x => x | EPanic _ => (s, []) end)).
  assert (Q : sn_pending l = []) by (destruct (queue_reachable _ _ R _ _ El) as [[X|X] _]; [exact X|lia]).
  assert (F := fut_reachable _ _ R). destruct F as (_ & _ & _ & T & _). specialize (T _ _ Et). unfold task_placed in T.
  cut (exists r, send_result t (poll_send t s) r /\ (unrefused t (tk_link tk) s -> exists i, r = inl i)).
  { intros (r & A & B). exists r. split; [exact (poll_step p t s)|]. auto. }
  unfold poll_send. rewrite Et, El. cbv zeta.
  assert (D : forall e, exists tk2, tk2 = tk /\ send_result t (upd_task t (set_tk_st (TDone (inr e))) s) (inr e)).
  { intros e. exists tk. split; [reflexivity|]. apply done_now. eauto. }
  assert (U : unrefused t (tk_link tk) s -> match tk_st tk with
       | TNew => sn_error l = None /\ sn_closed l = false /\ (forall m, sn_max l = Some m -> tb_size (tk_body tk) <= m)
       | TLink _ c | TSess _ c => nth_error (s_chans s) c = Some (CSent VOk) | _ => False end).
  { intros (k & l1 & E1 & _ & E2 & X). assert (k = tk) as -> by congruence. assert (l1 = l) as -> by congruence. exact X. }
  destruct (tk_st tk) as [|tag c|tag c|r|] eqn:Es.
  - destruct (sn_error l) as [e|] eqn:Ee.
    { exists (inr e). destruct (D e) as (_ & _ & X). split; [exact X|]. intros Y. apply U in Y as [Y _]. discriminate Y. }
    destruct (sn_closed l) eqn:Ec.
    { exists (inr EDisconnected). destruct (D EDisconnected) as (_ & _ & X). split; [exact X|]. intros Y. apply U in Y as (_ & Y & _). discriminate Y. }
    destruct (match sn_max l with Some m => m <? tb_size (tk_body tk) | None => false end) eqn:Em.
    { exists (inr EBodyTooLarge). destruct (D EBodyTooLarge) as (_ & _ & X). split; [exact X|]. intros Y. apply U in Y as (_ & _ & Y).
      destruct (sn_max l) as [m|]; [|discriminate]. specialize (Y m eq_refl). lia. }
    assert (L : forall tag s0, begins tk l tag s s0 -> exists r, send_result t (link_loop t tk l tag s0) r
                /\ (unrefused t (tk_link tk) s -> exists i, r = inl i)).
    { intros tag s0 B. destruct (link_done t tk l tag s0) as (i & X); [rewrite (begins_tasks _ _ _ _ _ B); exact Et|exact Pn|exact Q| |eauto].
      unfold window_open in *. rewrite (begins_framed _ _ _ _ _ B Fiwin eq_refl : s_iwin s0 = s_iwin s). exact W. }
    destruct (tk_tag tk) eqn:Eg; apply L; [apply begins_given|apply begins_auto]; auto.
  - destruct T as [Lc Pc]. destruct (nth_error (s_chans s) c) as [x|] eqn:Ex; [|apply nth_error_None in Ex; lia].
    destruct x as [|v|].
    + exfalso. destruct (Pc Ex) as (l1 & E1 & I). assert (l1 = l) as -> by congruence. rewrite Q in I. destruct I.
    + assert (L : exists r, send_result t (link_loop t tk l tag s) r /\ (unrefused t (tk_link tk) s -> exists i, r = inl i)).
      { destruct (link_done t tk l tag s Et Pn Q W) as (i & X). eauto. }
      destruct v; try exact L. eexists. destruct (D e) as (_ & _ & X). split; [exact X|]. intros Y. apply U in Y. discriminate Y.
    + eexists. destruct (D EConnectionDropped) as (_ & _ & X). split; [exact X|]. intros Y. apply U in Y. discriminate Y.
  - destruct T as (Lc & _). destruct (nth_error (s_chans s) c) as [x|] eqn:Ex; [|apply nth_error_None in Ex; lia].
    destruct x as [|v|].
    + exfalso. assert (Z := no_window p s t (tk_link tk) R). unfold window_open in W. rewrite Z in W; [lia|]. exists tk, tag, c. auto.
    + assert (L : exists r, send_result t (session_loop t tk l tag s) r /\ (unrefused t (tk_link tk) s -> exists i, r = inl i)).
      { destruct (session_done t tk tk l tag s Et W) as (i & X). eauto. }
      destruct v; try exact L. eexists. destruct (D e) as (_ & _ & X). split; [exact X|]. intros Y. apply U in Y. discriminate Y.
    + eexists. destruct (D EConnectionDropped) as (_ & _ & X). split; [exact X|]. intros Y. apply U in Y. discriminate Y.
  - exists r. split; [exists tk; auto|]. intros Y. destruct (U Y).
  - elim G. reflexivity.
Qed.
