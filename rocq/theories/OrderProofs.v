(** * The order in which sends are transmitted: proofs *)

From Coq Require Import ZifyBool ZifyNat ZifyN Sorted.
From Verif Require Import Base SpecOrder.
From Verif Require Export OrderRel FutureProofs ReleaseTheorems.
Import ListNotations.

(** ** Whoever waits, waits for lack of credit, and the queue is in order of arrival *)
Definition poll_ev (e : ev) : bool := match e with EvPollSend _ => true | _ => false end.
Lemma step_pnd : forall p e s s' os, step p e s = EOk (s', os) -> poll_ev e = false -> stable pnd_rel s s'.
Proof. intros p e s s' os H N. destruct e; try discriminate N; cbn [step] in H; step_er H. Qed.

Definition queue_inv (s : ses) : Prop :=
  forall a l, nth_error (s_snds s) a = Some l ->
    (sn_pending l = [] \/ sn_credit l = 0) /\ StronglySorted lt (sn_pending l).
Lemma queue_pnd : forall s s', pnd_rel s s' -> queue_inv s -> queue_inv s'.
Proof.
  intros s s' R Q a l' E. destruct (sn_pending l') as [|c cs] eqn:P.
  - split; [auto|constructor].
  - destruct (R a l' E) as (l & E0 & P0 & Z); [congruence|]. destruct (Q _ _ E0) as [A B].
    rewrite <- P, P0. split; [|exact B]. right. destruct A as [A|A]; [congruence|auto].
Qed.
Lemma sorted_snoc : forall l x, StronglySorted lt l -> Forall (fun y => (y < x)%nat) l -> StronglySorted lt (l ++ [x]).
Proof.
  induction l as [|y l IH]; intros x S F; cbn [app]; [repeat constructor|].
  inversion S; subst. inversion F; subst. constructor; [auto|]. apply Forall_app. split; auto.
Qed.
Lemma session_loop_snds : forall t tk l tag s, s_snds (session_loop t tk l tag s) = s_snds s.
Proof. intros. frw. reflexivity. Qed.
(** The guard of [link_loop]. *)
Definition must_wait (l : slink) : bool := (sn_credit l =? 0) || match sn_pending l with [] => false | _ => true end.
Lemma link_loop_snds : forall t tk l tag s, s_snds (link_loop t tk l tag s) =
  s_snds (upd_snd (tk_link tk) (fun l0 => if must_wait l then set_sn_pending (sn_pending l0 ++ [length (s_chans s)]) l0
            else set_sn_credit (sn_credit l0 - 1) (set_sn_dc (wadd (sn_dc l0) 1) l0)) s).
Proof.
  intros. unfold link_loop. fold (must_wait l). destruct (must_wait l).
  - cbv beta iota zeta delta [new_chan]. frw. unfold upd_snd. frw. destruct (nth_error (s_snds s) (tk_link tk)); st_cbn; reflexivity.
  - rewrite session_loop_snds. frw. reflexivity.
Qed.
Lemma queue_link_loop : forall t tk l l0 tag s, queue_inv s -> bounded_places s ->
  nth_error (s_snds s) (tk_link tk) = Some l0 -> sn_credit l0 = sn_credit l -> sn_pending l0 = sn_pending l ->
  queue_inv (link_loop t tk l tag s).
Proof.
  intros t tk l l0 tag s Q B El Ec Ep a l' E. rewrite link_loop_snds, nth_upd_snd in E.
  destruct (Nat.eqb_spec (tk_link tk) a) as [<-|]; [|exact (Q _ _ E)].
  rewrite El in E. cbn [option_map] in E. apply Some_inj in E. subst l'. destruct (Q _ _ El) as [A S].
  unfold must_wait. rewrite <- Ec, <- Ep. destruct (sn_credit l0 =? 0) eqn:Z.
  - cbn [orb]. st_cbn. split; [lia|]. apply sorted_snoc; [exact S|]. apply Forall_forall. intros c I.
    apply (B (PLink (tk_link tk))). exists l0. auto.
  - destruct A as [A|A]; [|lia]. rewrite A. cbn [orb]. st_cbn. rewrite A. split; [auto|constructor].
Qed.
Lemma queue_step : forall p e s s' os, fut_inv s -> queue_inv s -> step p e s = EOk (s', os) -> queue_inv s'.
Proof.
  intros p e s s' os F Q H. destruct (poll_ev e) eqn:Ev; [|exact (queue_pnd _ _ (step_pnd _ _ _ _ _ H Ev) Q)].
  destruct e; try discriminate Ev. cbn [step] in H. apply EOk_inj in H. apply pair_equal_spec in H as [<- _].
  destruct F as (_ & B & _).
  destruct (poll_send_polled t s) as [|tk l e Et El D|tk l tag s0 Et El Bg|tk l tag c Et El Es].
  - exact Q.
  - intros a l' E. frw_in E. exact (Q _ _ E).
  - assert (X : queue_inv s0 /\ bounded_places s0 /\ exists l0, nth_error (s_snds s0) (tk_link tk) = Some l0
                /\ sn_credit l0 = sn_credit l /\ sn_pending l0 = sn_pending l).
    { destruct Bg as [_ _|_ _ _|c _]; [split; [exact Q|split; [exact B|eauto]]| |split; [exact Q|split; [exact B|eauto]]].
      split; [|split].
      - apply (queue_pnd s); [|exact Q]. change (stable pnd_rel s (upd_snd (tk_link tk) (fun l => set_sn_tag (wadd (sn_tag l) 1) l) s)). st_chain.
      - intros pl c P. frw. apply (B pl).
        assert (Y : forall a l1, nth_error (s_snds (upd_snd (tk_link tk) (fun l => set_sn_tag (wadd (sn_tag l) 1) l) s)) a = Some l1 ->
          exists l2, nth_error (s_snds s) a = Some l2 /\ sn_pending l2 = sn_pending l1 /\ sn_on_close l2 = sn_on_close l1 /\ sn_on_credit l2 = sn_on_credit l1).
        { intros a l1 E1. rewrite nth_upd_snd in E1. destruct (Nat.eqb_spec (tk_link tk) a) as [<-|]; [|eauto].
          rewrite El in E1. cbn [option_map] in E1. apply Some_inj in E1. subst l1. exists l. auto. }
        destruct pl as [a|a|a|h|[] i|k|]; cbn [at_place unsettled] in *.
        1-3: destruct P as (l1 & E1 & I1); destruct (Y _ _ E1) as (l2 & E2 & Y1 & Y2 & Y3); exists l2; rewrite ?Y1, ?Y2, ?Y3; auto.
        all: frw_in P; exact P.
      - rewrite nth_upd_snd, Nat.eqb_refl, El. cbn [option_map]. eexists. split; [reflexivity|]. split; reflexivity. }
    destruct X as (Q0 & B0 & l0 & E0 & C0 & P0). exact (queue_link_loop _ _ _ _ _ _ Q0 B0 E0 C0 P0).
  - intros a l' E. rewrite session_loop_snds in E. exact (Q _ _ E).
Qed.
Lemma queue_reachable : forall p s, reachable p s -> queue_inv s.
Proof.
  intros p s (id & local & rc & mfs & b & evs & os & H).
  assert (X : fut_inv s /\ queue_inv s); [|apply X]. revert H. apply (run_ind (fun s => fut_inv s /\ queue_inv s)).
  - intros e s1 s2 os1 [F Q] H. split; [exact (fut_step _ _ _ _ _ F H)|exact (queue_step _ _ _ _ _ F Q H)].
  - split; [apply fut_init|]. intros a l E. destruct a; discriminate E.
Qed.
Lemma no_credit : forall p s t a n, reachable p s -> awaits_credit t a s -> link_credit a s n -> n = 0.
Proof.
  intros p s t a n R (tk & tag & c & Et & <- & Es & W) (l & El & <-).
  assert (F := fut_reachable _ _ R). destruct F as (_ & _ & _ & T & _). specialize (T _ _ Et). unfold task_placed in T. rewrite Es in T.
  destruct T as [_ T]. destruct (T W) as (l0 & E0 & I). assert (l0 = l) as -> by congruence.
  destruct (queue_reachable _ _ R _ _ El) as [[A|A] _]; [|exact A]. rewrite A in I. destruct I.
Qed.

(** ** While one waits, no later one is given credit *)
Definition granted (k : stask) : Prop := (exists tag c, tk_st k = TSess tag c) \/ exists i, tk_st k = TDone (inl i).
Lemma step_guard : forall p e s s' os a l c u k', step p e s = EOk (s', os) ->
  nth_error (s_snds s) a = Some l -> In c (sn_pending l) ->
  nth_error (s_tasks s') u = Some k' -> tk_link k' = a -> granted k' ->
  exists k, nth_error (s_tasks s) u = Some k /\ tk_link k = a /\ granted k.
Proof.
  intros p e s s' os a l c u k' H El I Eu La G. assert (F := step_framed _ _ _ _ _ H).
  destruct e; try (rewrite (F Ftasks eq_refl : s_tasks s' = s_tasks s) in Eu; eauto); cbn [step] in H; clear F.
  - destruct (nth_error (s_snds s) a0) eqn:Ea; apply EOk_inj in H; apply pair_equal_spec in H as [<- _]; [|eauto].
    st_cbn_in Eu. apply nth_snoc in Eu as [Eu|[-> ->]]; [eauto|]. destruct G as [(? & ? & G)|(? & G)]; discriminate G.
  - apply EOk_inj in H. apply pair_equal_spec in H as [<- _].
    destruct (Nat.eq_dec u t) as [->|NE]; [|apply tasks_other in Eu; eauto].
    destruct (poll_send_polled t s) as [|tk l1 e Et E1 D|tk l1 tag s0 Et E1 Bg|tk l1 tag c1 Et E1 Es].
    + eauto.
    + rewrite nth_upd_task, Nat.eqb_refl, Et in Eu. cbn [option_map] in Eu. apply Some_inj in Eu. subst k'.
      destruct G as [(? & ? & G)|(? & G)]; discriminate G.
    + assert (Ht := begins_tasks _ _ _ _ _ Bg). unfold link_loop in Eu. fold (must_wait l1) in Eu.
      assert (Lk : tk_link tk = a -> must_wait l1 = true).
      { intros L. assert (l1 = l) as -> by congruence. unfold must_wait. destruct (sn_pending l); [destruct I|]. apply orb_true_r. }
      destruct (must_wait l1).
      * cbv beta iota zeta delta [new_chan] in Eu. rewrite nth_upd_task, Nat.eqb_refl in Eu. frw_in Eu. rewrite Ht, Et in Eu.
        cbn [option_map] in Eu. apply Some_inj in Eu. subst k'. destruct G as [(? & ? & G)|(? & G)]; discriminate G.
      * exfalso. assert (K := keeps_session_loop t tk l1 tag (upd_task t (set_tk_took true) (upd_snd (tk_link tk) (fun l => set_sn_credit (sn_credit l - 1) (set_sn_dc (wadd (sn_dc l) 1) l)) s0)) (set_tk_took true tk)).
        assert (X : tk_link k' = tk_link tk).
        { assert (N : nth_error (s_tasks (upd_task t (set_tk_took true) (upd_snd (tk_link tk) (fun l => set_sn_credit (sn_credit l - 1) (set_sn_dc (wadd (sn_dc l) 1) l)) s0))) t = Some (set_tk_took true tk)).
          { rewrite nth_upd_task, Nat.eqb_refl. frw. rewrite Ht, Et. reflexivity. }
          destruct (K N (begins_active _ _ _ _ _ Bg) t _ N) as (k2 & E2 & Id & _).
          rewrite Eu in E2. apply Some_inj in E2. subst k2. unfold tk_ids in Id. st_cbn_in Id. congruence. }
        rewrite La in X. symmetry in X. specialize (Lk X). discriminate Lk.
    + exists tk. assert (K := keeps_session_loop t tk l1 tag s tk Et). assert (K' : forall r, tk_st tk <> TDone r) by (rewrite Es; discriminate).
      destruct (K K' t tk Et) as (k2 & E2 & Id & _). rewrite Eu in E2. apply Some_inj in E2. subst k2. unfold tk_ids in Id.
      split; [exact Et|]. split; [congruence|]. left. eauto.
  - apply EOk_inj in H. apply pair_equal_spec in H as [<- _]. apply upd_task_cases in Eu as (k0 & E0 & ->). exists k0.
    split; [exact E0|]. destruct (Nat.eqb t u); [|auto].
    destruct (tk_st k0) eqn:Ek; st_cbn_in La; (split; [exact La|]); try exact G; destruct G as [(? & ? & G)|(? & G)]; try discriminate G;
      try (unfold granted; rewrite Ek; eauto; congruence).
Qed.

(** ** The sends are transmitted one after the other *)
Definition grows (order order' : list nat) : Prop := exists x, order' = order ++ x.
Lemma same_order : forall s order, wire_inv s order -> exists order', wire_inv s order' /\ grows order order'.
Proof. intros s order W. exists order. split; [exact W|]. exists []. symmetry. apply app_nil_r. Qed.
Lemma grow_session_loop : forall t tk0 tk l tag s order,
  wire_inv s order ->
  nth_error (s_tasks s) t = Some tk -> nth_error (s_snds s) (tk_link tk) = Some l ->
  tk_ids tk0 = tk_ids tk -> (forall r, tk_st tk <> TDone r) ->
  (forall x, tk_tag tk = Some x -> tag = x) ->
  exists order', wire_inv (session_loop t tk0 l tag s) order' /\ grows order order'.
Proof.
  intros t tk0 tk l tag s order W Et El Iid Act Htag. unfold session_loop.
  destruct (s_iwin s =? 0); [|exists (order ++ [t]); split; [eapply wire_transmit; eauto|exists [t]; reflexivity]].
  cbv beta iota zeta delta [new_chan]. apply same_order. apply (wire_quiet s); try reflexivity; auto.
  - st_get.
  - apply (keeps_then_upd _ _ _ _ tk); auto.
  - frw. reflexivity.
  - frw. reflexivity.
  - frw. reflexivity.
  - intros u k' E. apply upd_task_cases in E as (k0 & E0 & ->). left. exists k0.
    refine (conj E0 _). destruct (Nat.eqb_spec t u) as [->|]; [|auto].
    frw_in E0. rewrite Et in E0. injection E0 as <-.
    refine (conj eq_refl (conj _ _)); right.
    + intros _ x Hx. st_cbn. apply Htag. exact Hx.
    + st_cbn. discriminate.
Qed.
Lemma grow_step : forall p e s s' os order, wire_inv s order -> step p e s = EOk (s', os) ->
  exists order', wire_inv s' order' /\ grows order order'.
Proof.
  intros p e s s' os order W H.
  assert (F := step_framed _ _ _ _ _ H). assert (Ks := step_keeps_objs _ _ _ _ _ H).
  assert (Kt := step_keeps_tasks _ _ _ _ _ H). assert (Q := step_transfers_quiet _ _ _ _ _ H).
  destruct e;
    try solve [ apply same_order; apply (wire_quiet s); auto;
                [ apply (F Fnout eq_refl) | apply (F Fmfs eq_refl) | apply Q; discriminate
                | intros t' k' E; rewrite (F Ftasks eq_refl : s_tasks s' = s_tasks s) in E;
                  left; exists k'; auto ] ].
  - (* send *)
    apply same_order. apply (wire_quiet s); auto;
      [ apply (F Fnout eq_refl) | apply (F Fmfs eq_refl) | apply Q; discriminate|].
    intros u k' E. cbn [step] in H. destruct (nth_error (s_snds s) a) eqn:Ea; apply EOk_inj in H;
      apply (f_equal fst) in H; cbn [fst] in H; subst s'; [|left; exists k'; auto].
    st_cbn_in E. apply nth_snoc in E as [E|[-> ->]]; [left; exists k'; auto|].
    right. st_cbn. eauto.
  - (* poll *)
    clear Q Kt Ks. cbn [step] in H. apply EOk_inj in H. apply (f_equal fst) in H; cbn [fst] in H; subst s'.
    assert (W0 := W). destruct W as (_ & _ & Ti & _).
    destruct (poll_send_polled t s) as [|tk l e Et El D|tk l tag s0 Et El B|tk l tag c Et El Es].
    + apply same_order. exact W0.
    + apply same_order. apply (wire_quiet s); auto; try (frw; reflexivity).
      * st_get.
      * eapply keeps_upd_task; eauto.
      * intros u k' E. apply upd_task_cases in E as (k0 & E0 & ->). left. exists k0.
        refine (conj E0 _). destruct (Nat.eqb_spec t u) as [->|]; [|auto].
        refine (conj eq_refl (conj _ _)); right.
        -- intros _ x Hx. exact I.
        -- st_cbn. discriminate.
    + destruct (Ti _ _ Et) as (Tk & _ & _). assert (A := begins_active _ _ _ _ _ B).
      assert (Ht := begins_tasks _ _ _ _ _ B). assert (Hx := begins_tag _ _ _ _ _ B Tk).
      assert (Fb := begins_framed _ _ _ _ _ B). assert (Kb := begins_objs _ _ _ _ _ B).
      assert (W1 : wire_inv s0 order).
      { apply (wire_quiet s); auto.
        - apply keeps_tasks_refl. exact Ht.
        - apply (Fb Fnout eq_refl).
        - apply (Fb Fmfs eq_refl).
        - rewrite (Fb Fout eq_refl : s_out s0 = s_out s). reflexivity.
        - intros u k' E. rewrite Ht in E. left. exists k'. auto. }
      rewrite <- Ht in Et. unfold link_loop. cbv beta iota zeta delta [new_chan]. destruct (_ || _).
      * apply same_order. apply (wire_quiet s0); auto; try (frw; reflexivity).
        -- st_get.
        -- apply (keeps_then_upd _ _ _ _ tk); auto. frw. reflexivity.
        -- intros u k' E. apply upd_task_cases in E as (k0 & E0 & ->). left. exists k0. frw_in E0.
           refine (conj E0 _). destruct (Nat.eqb_spec t u) as [->|]; [|auto].
           rewrite Et in E0. injection E0 as <-.
           refine (conj eq_refl (conj _ _)); right.
           ++ intros _ x Hx'. st_cbn. apply Hx. exact Hx'.
           ++ st_cbn. discriminate.
      * match goal with |- context [upd_task t (set_tk_took true) ?x] => set (s1 := x) end.
        set (s2 := upd_task t (set_tk_took true) s1).
        assert (Et1 : s_tasks s1 = s_tasks s0) by (unfold s1; frw; reflexivity).
        assert (W2 : wire_inv s2 order).
        { apply (wire_quiet s0); auto; try (unfold s2, s1; frw; reflexivity).
          - unfold s2, s1. st_get.
          - unfold s2. apply (keeps_then_upd _ _ _ _ tk); auto.
          - intros u k' E. apply upd_task_cases in E as (k0 & E0 & ->). left. exists k0.
            rewrite Et1 in E0. refine (conj E0 _).
            destruct (Nat.eqb_spec t u) as [->|]; [|auto].
            rewrite Et in E0. injection E0 as <-.
            refine (conj eq_refl (conj _ _)); right.
            + intros K x Hx'. st_cbn. exact (K x Hx').
            + st_cbn. intros i Hi. elim (A (inl i) Hi). }
        destruct Kb as [Kb _]. apply Kb in El as (l1 & El1 & I1).
        assert (K2 : keeps_objs s0 s2) by (unfold s2, s1; st_get).
        destruct K2 as [K2 _]. apply K2 in El1 as (l2 & El2 & I2).
        assert (Hl : session_loop t tk l tag s2 = session_loop t tk l2 tag s2).
        { unfold snd_ids in I1, I2. assert (Ei : sn_id l2 = sn_id l) by congruence.
          unfold session_loop, transmit. rewrite Ei. reflexivity. }
        rewrite Hl. eapply (grow_session_loop t tk (set_tk_took true tk)); eauto.
        unfold s2. rewrite nth_upd_task, Nat.eqb_refl, Et1, Et. reflexivity.
    + destruct (Ti _ _ Et) as (Tk & _ & _).
      eapply (grow_session_loop t tk tk); eauto; [congruence|].
      intros x Hx. specialize (Tk x Hx). rewrite Es in Tk. exact Tk.
  - (* cancel *)
    apply same_order. apply (wire_quiet s); auto;
      [ apply (F Fnout eq_refl) | apply (F Fmfs eq_refl) | apply Q; discriminate|].
    cbn [step] in H. apply EOk_inj in H. apply (f_equal fst) in H; cbn [fst] in H; subst s'.
    intros u k' E. apply upd_task_cases in E as (k0 & E0 & ->). left. exists k0.
    refine (conj E0 _). destruct (Nat.eqb_spec t u) as [->|]; [|auto].
    destruct (tk_st k0) eqn:Ek; auto;
      refine (conj eq_refl (conj _ _)); right; try (st_cbn; discriminate);
      intros _ x Hx; exact I.
Qed.
Lemma grow_run : forall p evs s s' os order, wire_inv s order -> run p evs s = EOk (s', os) ->
  exists order', wire_inv s' order' /\ grows order order'.
Proof.
  intros p evs s s' os order W H.
  apply (run_ind (fun s => exists order', wire_inv s order' /\ grows order order') p) with (evs := evs) (s := s) (os := os); [|apply same_order; exact W|exact H].
  intros e s1 s2 o (o1 & W1 & x & ->) St. destruct (grow_step _ _ _ _ _ _ W1 St) as (o2 & W2 & y & ->).
  exists ((order ++ x) ++ y). split; [exact W2|]. exists (x ++ y). symmetry. apply app_assoc.
Qed.
Lemma wire_sent : forall s order t, wire_inv s order -> In t order <-> sent t s.
Proof.
  intros s order t (ND & Nn & Ti & gs & C & L & G). split.
  - intros I. apply In_nth_error in I as [k Ek]. destruct (nth_error gs k) as [g|] eqn:Eg.
    + destruct (G _ _ _ Ek Eg) as (tk & l & i & d & Et & Es & El & Ed & _). exists tk, d. split; eauto.
    + apply nth_error_None in Eg. apply nth_lt in Ek. lia.
  - intros (tk & d & Et & i & Es & _). destruct (Ti _ _ Et) as (_ & _ & X). eauto.
Qed.
Lemma transmitted_in_turn : forall p s evs s' os, reachable p s -> run p evs s = EOk (s', os) ->
  (forall t tk, nth_error (s_tasks s') t = Some tk -> honest (tk_body tk)) ->
  exists before after gs,
    transfers (s_out s') = concat gs /\ length gs = length (before ++ after) /\ NoDup (before ++ after)
    /\ (forall t, In t before <-> sent t s)
    /\ (forall t, In t (before ++ after) <-> sent t s')
    /\ forall k t g, nth_error (before ++ after) k = Some t -> nth_error gs k = Some g -> wire_of s' k t g.
Proof.
  intros p s evs s' os R H Hh. apply wire_reachable in R as (before & W).
  destruct (grow_run _ _ _ _ _ _ W H) as (order & W' & after & ->). exists before, after.
  assert (W2 := W'). destruct W' as (ND & Nn & Ti & gs & C & L & G). exists gs.
  refine (conj C (conj L (conj ND (conj _ (conj _ _))))).
  - intros t. apply wire_sent. exact W.
  - intros t. apply wire_sent. exact W2.
  - intros k t g Ek Eg. destruct (G _ _ _ Ek Eg) as (tk & l & i & d & E1 & E2 & E3 & E4 & Hi & Hsd & Hx & ->).
    exists tk, l, d. refine (conj _ (conj E3 (conj Hi (conj Hx _)))).
    + split; eauto.
    + apply delivery_ts_one. eauto.
Qed.

(** ** In a queue *)
Lemma run_guard : forall p evs s s' os a c u k', slab_wf (s_links s) -> run p evs s = EOk (s', os) ->
  (c < length (s_chans s))%nat -> at_place (PLink a) c s -> waits_on c s' ->
  nth_error (s_tasks s') u = Some k' -> tk_link k' = a -> granted k' ->
  exists k, nth_error (s_tasks s) u = Some k /\ tk_link k = a /\ granted k.
Proof.
  intros p. induction evs as [|e evs IH]; intros s s' os a c u k' Wf H L P W Eu La G; cbn [run] in H.
  - apply EOk_inj in H. apply pair_equal_spec in H as [<- _]. eauto.
  - destruct (step p e s) as [[s1 o]|] eqn:St; [|discriminate]. cbn [ebind] in H.
    destruct (run p evs s1) as [[s2 o2]|] eqn:Rn; [|discriminate]. apply EOk_inj in H. apply pair_equal_spec in H as [<- _].
    assert (P0 := P). destruct P0 as (l & El & I).
    destruct (step_hold _ _ _ _ _ St Wf) as [Wf1 [C1 K1]].
    destruct (run_hold _ _ _ _ _ Wf1 Rn) as [Wf2 [C2 K2]].
    assert (L1 : (c < length (s_chans s1))%nat) by (destruct C1; lia).
    assert (W1 : waits_on c s1) by (apply (chan_back s1 s2); auto).
    destruct (IH s1 s2 o2 a c u k' Wf1 Rn L1 (K1 _ _ L P W1) W Eu La G) as (k1 & E1 & La1 & G1).
    exact (step_guard _ _ _ _ _ _ _ _ _ _ St El I E1 La1 G1).
Qed.
Lemma waits_its_turn : forall p s evs s' os t a c u, reachable p s -> queued_at t a c s ->
  run p evs s = EOk (s', os) -> queued_at t a c s' ->
  on_link u a s' -> has_credit u s' -> on_link u a s /\ has_credit u s.
Proof.
  intros p s evs s' os t a c u R (tk & tag & Et & <- & Es & W) H (tk' & tag' & Et' & La' & Es' & W') (k & Ek & La) (k2 & Ek2 & G).
  assert (k2 = k) as -> by congruence. assert (F := fut_reachable _ _ R). destruct F as (Wf & _ & _ & T & _).
  specialize (T _ _ Et). unfold task_placed in T. rewrite Es in T. destruct T as [L P].
  destruct (run_guard p evs s s' os (tk_link tk) c u k Wf H L (P W) W' Ek La G) as (k0 & E0 & L0 & G0).
  split; exists k0; auto.
Qed.
