(** * Proofs about the control queue *)

From Verif Require Import Base Control SpecControl.
From Coq Require Import Permutation Lia ZifyBool ZifyNat ZifyN.

Notation fut := (ctl_frame * bool)%type.
Definition waiting (l : list fut) : list ctl_frame := map fst (filter (fun x => negb (snd x)) l).

Lemma presented_app a b : presented (a ++ b) = presented a ++ presented b.
Proof. unfold presented. apply flat_map_app. Qed.
Lemma handled_app a b : handled (a ++ b) = handled a ++ handled b.
Proof. unfold handled. apply flat_map_app. Qed.
Lemma waiting_app a b : waiting (a ++ b) = waiting a ++ waiting b.
Proof. unfold waiting. rewrite filter_app, map_app. reflexivity. Qed.
Lemma swap_out_perm {A} (l : list A) : Permutation (swap_out l) l.
Proof.
  unfold swap_out. destruct (rev l) as [|x m] eqn:E.
  - apply (f_equal (@rev A)) in E. rewrite rev_involutive in E. subst. constructor.
  - apply (f_equal (@rev A)) in E. rewrite rev_involutive in E. subst. cbn [rev].
    apply Permutation_cons_append.
Qed.
Lemma swap_out_length {A} (l : list A) : length (swap_out l) = length l.
Proof. apply Permutation_length, swap_out_perm. Qed.
Lemma filter_perm {A} (f : A -> bool) l m : Permutation l m -> Permutation (filter f l) (filter f m).
Proof.
  induction 1; cbn [filter].
  - constructor.
  - destruct (f x); auto.
  - destruct (f x), (f y); auto using perm_swap.
  - etransitivity; eassumption.
Qed.
Lemma waiting_perm l m : Permutation l m -> Permutation (waiting l) (waiting m).
Proof. intros H. apply Permutation_map, filter_perm, H. Qed.

Definition attentive (ans : ctl_frame -> answer) : Prop := forall f, ans f <> ANotReady /\ ans f <> AUnready.

(** ** The loop *)

(** Handled frames leave, the others stay. *)
Lemma loop_keeps fuel ans : forall kept rest, (length rest <= fuel)%nat ->
  let '(n, futs, _) := poll_futs fuel ans kept rest in
  Permutation (map fst (kept ++ rest)) (handled n ++ map fst futs).
Proof.
  induction fuel as [|fuel IH]; intros kept rest L; cbn [poll_futs].
  - destruct rest; [|cbn in L; lia]. apply Permutation_refl.
  - destruct rest as [|[f got] tl]; [apply Permutation_refl|]. cbn [length] in L.
    assert (SW : (length (swap_out tl) <= fuel)%nat) by (rewrite swap_out_length; lia).
    assert (ST : forall b, Permutation (map fst (kept ++ (f, got) :: tl)) (map fst ((kept ++ [(f, b)]) ++ tl))).
    { intros b. rewrite <- app_assoc, !map_app. cbn. apply Permutation_refl. }
    assert (SO : Permutation (map fst (kept ++ (f, got) :: tl)) (f :: map fst (kept ++ swap_out tl))).
    { rewrite !map_app. cbn [map fst]. etransitivity; [symmetry; apply Permutation_middle|].
      apply perm_skip, Permutation_app_head, Permutation_map. symmetry. apply swap_out_perm. }
    destruct (ans f) as [| | |ok].
    + specialize (IH (kept ++ [(f, got)]) tl ltac:(lia)). destruct (poll_futs _ _ _ _) as [[n futs] err].
      etransitivity; [apply (ST got)|exact IH].
    + destruct (cf_fatal f).
      * cbn. exact SO.
      * specialize (IH kept (swap_out tl) SW). destruct (poll_futs _ _ _ _) as [[n futs] err].
        cbn. etransitivity; [exact SO|]. apply perm_skip. exact IH.
    + specialize (IH (kept ++ [(f, true)]) tl ltac:(lia)). destruct (poll_futs _ _ _ _) as [[n futs] err].
      rewrite handled_app. replace (handled (if got then [] else [NPresent f])) with (@nil ctl_frame) by (destruct got; reflexivity).
      etransitivity; [apply (ST true)|exact IH].
    + assert (H0 : handled ((if got then [] else [NPresent f]) ++ [NHandled f ok]) = [f]) by (destruct got; reflexivity).
      destruct (cf_fatal f).
      * rewrite H0. exact SO.
      * specialize (IH kept (swap_out tl) SW). destruct (poll_futs _ _ _ _) as [[n futs] err].
        rewrite handled_app, H0. cbn. etransitivity; [exact SO|]. apply perm_skip. exact IH.
Qed.

(** Frames not yet presented are presented, stay unpresented or are given up. *)
Lemma loop_presents fuel ans : forall kept rest, (length rest <= fuel)%nat ->
  let '(n, futs, _) := poll_futs fuel ans kept rest in
  exists gone, Permutation (waiting (kept ++ rest)) (presented n ++ waiting futs ++ gone)
  /\ ((forall f, ans f <> AUnready) -> gone = []).
Proof.
  induction fuel as [|fuel IH]; intros kept rest L; cbn [poll_futs].
  - destruct rest; [|cbn in L; lia]. exists []. cbn [presented flat_map app]. rewrite !app_nil_r. split; [apply Permutation_refl|reflexivity].
  - destruct rest as [|[f got] tl]; [exists []; cbn [presented flat_map app]; rewrite !app_nil_r; split; [apply Permutation_refl|reflexivity]|]. cbn [length] in L.
    assert (SW : (length (swap_out tl) <= fuel)%nat) by (rewrite swap_out_length; lia).
    assert (SO : Permutation (waiting (kept ++ (f, got) :: tl))
                   ((if got then [] else [f]) ++ waiting (kept ++ swap_out tl))).
    { rewrite (waiting_app kept (swap_out tl)). rewrite (waiting_perm _ _ (swap_out_perm tl)).
      rewrite waiting_app. change ((f, got) :: tl) with ([(f, got)] ++ tl). rewrite waiting_app.
      destruct got; cbn; [apply Permutation_refl|]. symmetry. apply Permutation_middle. }
    destruct (ans f) as [| | |ok] eqn:A.
    + specialize (IH (kept ++ [(f, got)]) tl ltac:(lia)). destruct (poll_futs _ _ _ _) as [[n futs] err].
      rewrite <- app_assoc in IH. exact IH.
    + assert (G : exists g, Permutation (if got then [] else [f]) g) by (eexists; apply Permutation_refl).
      destruct (cf_fatal f).
      * exists (if got then [] else [f]). split; [|intros N; destruct (N f A)].
        cbn [presented flat_map app]. etransitivity; [exact SO|]. apply Permutation_app_comm.
      * specialize (IH kept (swap_out tl) SW). destruct (poll_futs _ _ _ _) as [[n futs] err].
        destruct IH as [g [IH _]]. exists ((if got then [] else [f]) ++ g). split; [|intros N; destruct (N f A)].
        cbn [presented flat_map app]. fold (presented n).
        etransitivity; [exact SO|]. rewrite IH.
        etransitivity; [apply Permutation_app_comm|]. rewrite <- !app_assoc.
        apply Permutation_app_head, Permutation_app_head. apply Permutation_app_comm.
    + specialize (IH (kept ++ [(f, true)]) tl ltac:(lia)). destruct (poll_futs _ _ _ _) as [[n futs] err].
      destruct IH as [g [IH N]]. exists g. split; [|exact N].
      rewrite presented_app. replace (presented (if got then [] else [NPresent f])) with (if got then [] else [f]) by (destruct got; reflexivity).
      rewrite <- app_assoc, <- IH.
      rewrite <- app_assoc. rewrite !waiting_app. cbn [app].
      change ((f, got) :: tl) with ([(f, got)] ++ tl). change ((f, true) :: tl) with ([(f, true)] ++ tl).
      rewrite !waiting_app. destruct got; cbn; [apply Permutation_refl|]. symmetry. apply Permutation_middle.
    + assert (H0 : presented ((if got then [] else [NPresent f]) ++ [NHandled f ok]) = if got then [] else [f]) by (destruct got; reflexivity).
      destruct (cf_fatal f).
      * exists []. split; [|reflexivity]. rewrite H0, app_nil_r. exact SO.
      * specialize (IH kept (swap_out tl) SW). destruct (poll_futs _ _ _ _) as [[n futs] err].
        destruct IH as [g [IH N]]. exists g. split; [|exact N].
        rewrite presented_app, H0, <- app_assoc, <- IH. exact SO.
Qed.

(** With the service ready and no protocol error none stays unpresented. *)
Lemma loop_all fuel ans : attentive ans -> forall kept rest, (length rest <= fuel)%nat ->
  Forall (fun x => cf_fatal (fst x) = false) rest ->
  let '(n, futs, err) := poll_futs fuel ans kept rest in waiting futs = waiting kept /\ err = false.
Proof.
  intros AT. induction fuel as [|fuel IH]; intros kept rest L F; cbn [poll_futs].
  - destruct rest; [|cbn in L; lia]. rewrite app_nil_r. split; reflexivity.
  - destruct rest as [|[f got] tl]; [rewrite app_nil_r; split; reflexivity|]. cbn [length] in L.
    assert (SW : (length (swap_out tl) <= fuel)%nat) by (rewrite swap_out_length; lia).
    inversion F as [|? ? F1 F2]; subst. cbn [fst] in F1.
    assert (FS : Forall (fun x : fut => cf_fatal (fst x) = false) (swap_out tl)).
    { rewrite Forall_forall in F2 |- *. intros x I. apply F2. eapply Permutation_in; [apply swap_out_perm|exact I]. }
    destruct (AT f) as [A1 A2]. destruct (ans f) as [| | |ok]; try contradiction.
    + specialize (IH (kept ++ [(f, true)]) tl ltac:(lia) F2). destruct (poll_futs _ _ _ _) as [[n futs] err].
      destruct IH as [IH E]. split; [|exact E]. rewrite IH, waiting_app. cbn. apply app_nil_r.
    + rewrite F1. specialize (IH kept (swap_out tl) SW FS). destruct (poll_futs _ _ _ _) as [[n futs] err]. exact IH.
Qed.

(** If nothing completes, they are presented in order. *)
Lemma loop_order fuel ans : (forall f, ans f = APending) -> forall kept rest, (length rest <= fuel)%nat ->
  let '(n, _, _) := poll_futs fuel ans kept rest in presented n = waiting rest.
Proof.
  intros P. induction fuel as [|fuel IH]; intros kept rest L; cbn [poll_futs].
  - destruct rest; [reflexivity|cbn in L; lia].
  - destruct rest as [|[f got] tl]; [reflexivity|]. cbn [length] in L. rewrite P.
    specialize (IH (kept ++ [(f, true)]) tl ltac:(lia)). destruct (poll_futs _ _ _ _) as [[n futs] err].
    rewrite presented_app, IH. destruct got; reflexivity.
Qed.

(** ** One poll and whole histories *)
Definition queued (c : ctl) : list fut := ct_futs c ++ map (fun f => (f, false)) (ct_pending c).
Lemma waiting_new l : waiting (map (fun f => (f, false)) l) = l.
Proof. unfold waiting. induction l as [|a l IH]; [reflexivity|cbn in *; rewrite IH; reflexivity]. Qed.
Lemma map_fst_new (l : list ctl_frame) : map fst (map (fun f => (f, false)) l) = l.
Proof. induction l as [|a l IH]; [reflexivity|cbn in *; rewrite IH; reflexivity]. Qed.

Lemma poll_queued ans c n c' : ctl_poll ans c = (n, c') -> exists futs err,
  poll_futs (length (queued c)) ans [] (queued c) = (n, futs, err) /\ queued c' = futs /\ ct_pending c' = [] /\ ct_futs c' = futs.
Proof.
  unfold ctl_poll. fold (queued c). destruct (poll_futs _ _ _ _) as [[m futs] err]. intros [= <- <-].
  exists futs, err. unfold queued. cbn. rewrite app_nil_r. auto.
Qed.

Lemma step_inv e c n c' : ctl_step e c = (n, c') ->
  Permutation (occurred [e] ++ map fst (queued c)) (handled n ++ map fst (queued c'))
  /\ exists gone, Permutation (occurred [e] ++ waiting (queued c)) (presented n ++ waiting (queued c') ++ gone)
     /\ (match e with Polled ans => forall f, ans f <> AUnready | _ => True end -> gone = []).
Proof.
  destruct e as [f|f|ans]; cbn [ctl_step].
  - intros [= <- <-]. unfold queued, ctl_enqueue. cbn [ct_futs ct_pending occurred flat_map handled presented app].
    rewrite (map_app (fun f => (f, false))), app_assoc. split.
    + rewrite (map_app fst (_ ++ _)). cbn. apply Permutation_cons_append.
    + exists []. split; [|reflexivity]. rewrite app_nil_r. rewrite (waiting_app (_ ++ _)). cbn. apply Permutation_cons_append.
  - intros [= <- <-]. unfold queued, ctl_call. cbn [ct_futs ct_pending occurred flat_map handled presented app].
    rewrite <- app_assoc. cbn [app]. split.
    + rewrite !map_app. cbn. apply Permutation_middle.
    + exists []. split; [|reflexivity]. rewrite app_nil_r. rewrite !waiting_app.
      change ((f, false) :: ?l) with ([(f, false)] ++ l). rewrite waiting_app. cbn. apply Permutation_middle.
  - intros H. apply poll_queued in H. destruct H as [futs [err [H [Q _]]]]. rewrite Q.
    pose proof (loop_keeps (length (queued c)) ans [] (queued c) ltac:(lia)) as K.
    pose proof (loop_presents (length (queued c)) ans [] (queued c) ltac:(lia)) as P.
    rewrite H in K, P. split; [exact K|exact P].
Qed.

Definition ready_always (h : list ctl_event) : Prop :=
  Forall (fun e => match e with Polled ans => forall f, ans f <> AUnready | _ => True end) h.
Lemma run_inv h : forall c n c', ctl_run h c = (n, c') ->
  Permutation (occurred h ++ map fst (queued c)) (handled n ++ map fst (queued c'))
  /\ exists gone, Permutation (occurred h ++ waiting (queued c)) (presented n ++ waiting (queued c') ++ gone)
     /\ (ready_always h -> gone = []).
Proof.
  induction h as [|e h IH]; intros c n c' H; cbn [ctl_run] in H.
  - injection H as <- <-. split; [apply Permutation_refl|]. exists []. rewrite app_nil_r. split; [apply Permutation_refl|reflexivity].
  - destruct (ctl_step e c) as [n1 c1] eqn:E1. destruct (ctl_run h c1) as [n2 c2] eqn:E2. injection H as <- <-.
    apply step_inv in E1. apply IH in E2. destruct E1 as [A1 [g1 [B1 N1]]], E2 as [A2 [g2 [B2 N2]]].
    assert (O : occurred (e :: h) = occurred [e] ++ occurred h) by (unfold occurred; cbn [flat_map]; rewrite app_nil_r; reflexivity).
    rewrite O. split.
    + rewrite handled_app, <- !app_assoc, <- A2, !app_assoc.
      rewrite (Permutation_app_comm (occurred [e]) (occurred h)), (Permutation_app_comm (handled n1) (occurred h)).
      rewrite <- !app_assoc. apply Permutation_app_head. exact A1.
    + exists (g2 ++ g1). split; [|intros R; inversion R; subst; rewrite N1, N2 by assumption; reflexivity].
      rewrite presented_app, <- !app_assoc.
      rewrite (app_assoc (waiting (queued c2)) g2 g1), (app_assoc (presented n2)), <- B2.
      rewrite !app_assoc.
      rewrite (Permutation_app_comm (occurred [e]) (occurred h)), (Permutation_app_comm (presented n1) (occurred h)).
      rewrite <- !app_assoc. apply Permutation_app_head. exact B1.
Qed.

Lemma presented_once h : exists left, Permutation (occurred h) (presented (observed h) ++ left).
Proof.
  unfold observed. destruct (ctl_run h ctl_init) as [n c] eqn:E. apply run_inv in E. destruct E as [_ [g [B _]]].
  cbn in B. rewrite app_nil_r in B. eexists. exact B.
Qed.
Lemma handled_once h : exists left, Permutation (occurred h) (handled (observed h) ++ left).
Proof.
  unfold observed. destruct (ctl_run h ctl_init) as [n c] eqn:E. apply run_inv in E. destruct E as [A _].
  cbn in A. rewrite app_nil_r in A. eexists. exact A.
Qed.

Lemma run_app h1 h2 c : ctl_run (h1 ++ h2) c =
  let (n, c1) := ctl_run h1 c in let (m, c2) := ctl_run h2 c1 in (n ++ m, c2).
Proof.
  revert c. induction h1 as [|e h1 IH]; intros c; cbn [app ctl_run].
  - destruct (ctl_run h2 c). reflexivity.
  - destruct (ctl_step e c) as [n c1]. rewrite IH. destruct (ctl_run h1 c1) as [m c2].
    destruct (ctl_run h2 c2) as [k c3]. rewrite app_assoc. reflexivity.
Qed.
Lemma occurred_app a b : occurred (a ++ b) = occurred a ++ occurred b.
Proof. unfold occurred. apply flat_map_app. Qed.

Lemma forall_perm {A} (P : A -> Prop) l m : Permutation l m -> Forall P l -> Forall P m.
Proof. intros H F. rewrite Forall_forall in *. intros x I. apply F. eapply Permutation_in; [symmetry; exact H|exact I]. Qed.

(** What is waiting occurred. *)
Lemma fatal_free h n c : ctl_run h ctl_init = (n, c) -> no_fatal h ->
  Forall (fun x => cf_fatal (fst x) = false) (queued c).
Proof.
  intros E NF. apply run_inv in E. destruct E as [A _]. cbn in A. rewrite app_nil_r in A.
  unfold no_fatal in NF. apply (forall_perm _ _ _ A) in NF. apply Forall_app in NF. destruct NF as [_ NF].
  rewrite Forall_map in NF. exact NF.
Qed.
Lemma always_ready_weak h : always_ready h -> ready_always h.
Proof.
  unfold always_ready, ready_always. apply Forall_impl. intros [f|f|ans]; auto. intros H f. apply H.
Qed.
(** After a poll everything that occurred has been presented. *)
Lemma presented_all h ans : always_ready h -> (forall f, ans f <> ANotReady /\ ans f <> AUnready) -> no_fatal h ->
  Permutation (occurred h) (presented (observed (h ++ [Polled ans]))).
Proof.
  intros R A NF. unfold observed. rewrite run_app. destruct (ctl_run h ctl_init) as [n c] eqn:E.
  cbn [ctl_run ctl_step]. destruct (ctl_poll ans c) as [m c2] eqn:P. rewrite app_nil_r. cbn [fst].
  assert (E2 : ctl_run (h ++ [Polled ans]) ctl_init = (n ++ m, c2)).
  { rewrite run_app, E. cbn [ctl_run ctl_step]. rewrite P, app_nil_r. reflexivity. }
  apply run_inv in E2. destruct E2 as [_ [g [B N]]]. rewrite occurred_app in B. cbn in B. rewrite !app_nil_r in B.
  rewrite N in B.
  2: { apply Forall_app. split; [apply always_ready_weak, R|]. constructor; [|constructor]. intros f. apply A. }
  apply poll_queued in P. destruct P as [futs [err [P [Q [_ _]]]]].
  pose proof (loop_all (length (queued c)) ans A [] (queued c) ltac:(lia) (fatal_free h n c E NF)) as W.
  rewrite P in W. destruct W as [W _]. rewrite Q, W in B. cbn in B. rewrite app_nil_r in B. exact B.
Qed.

(** ** Order *)
Lemma perm_short {A} (l m : list A) : Permutation l m -> (length l <= 1)%nat -> m = l.
Proof.
  intros P L. destruct l as [|x [|y l]]; [apply Permutation_nil in P; exact P| |cbn in L; lia].
  apply Permutation_length_1_inv in P. exact P.
Qed.

(** Since the last poll, at which everything had been presented, [fresh]
    occurred. *)
Definition since (c : ctl) (fresh : list ctl_event) : Prop :=
  waiting (ct_futs c) = flat_map (fun e => match e with RemoteEvent f => [f] | _ => [] end) fresh
  /\ ct_pending c = flat_map (fun e => match e with LocalEvent f => [f] | _ => [] end) fresh.

Lemma fresh_split r l : let fresh := map RemoteEvent r ++ map LocalEvent l in
  flat_map (fun e => match e with RemoteEvent f => [f] | _ => [] end) fresh
  ++ flat_map (fun e => match e with LocalEvent f => [f] | _ => [] end) fresh = occurred fresh.
Proof.
  cbn zeta. rewrite occurred_app, !flat_map_app. rewrite <- !flat_map_concat_map || idtac.
  assert (A : forall x : list ctl_frame, flat_map (fun e => match e with RemoteEvent f => [f] | _ => [] end) (map RemoteEvent x) = x)
    by (induction x as [|a x IH]; [reflexivity|cbn in *; rewrite IH; reflexivity]).
  assert (B : forall x : list ctl_frame, flat_map (fun e => match e with RemoteEvent f => [f] | _ => [] end) (map LocalEvent x) = [])
    by (induction x as [|a x IH]; [reflexivity|cbn in *; exact IH]).
  assert (C : forall x : list ctl_frame, flat_map (fun e => match e with LocalEvent f => [f] | _ => [] end) (map RemoteEvent x) = [])
    by (induction x as [|a x IH]; [reflexivity|cbn in *; exact IH]).
  assert (D : forall x : list ctl_frame, flat_map (fun e => match e with LocalEvent f => [f] | _ => [] end) (map LocalEvent x) = x)
    by (induction x as [|a x IH]; [reflexivity|cbn in *; rewrite IH; reflexivity]).
  assert (E : forall x, occurred (map RemoteEvent x) = x)
    by (unfold occurred; induction x as [|a x IH]; [reflexivity|cbn in *; rewrite IH; reflexivity]).
  assert (G : forall x, occurred (map LocalEvent x) = x)
    by (unfold occurred; induction x as [|a x IH]; [reflexivity|cbn in *; rewrite IH; reflexivity]).
  rewrite A, B, C, D, E, G, app_nil_r. reflexivity.
Qed.
Lemma fresh_short fresh : (length fresh <= 1)%nat ->
  flat_map (fun e => match e with RemoteEvent f => [f] | _ => [] end) fresh
  ++ flat_map (fun e => match e with LocalEvent f => [f] | _ => [] end) fresh = occurred fresh
  /\ (length (occurred fresh) <= 1)%nat.
Proof.
  destruct fresh as [|[f|f|ans] [|y l]]; intros L; cbn in *; try lia; split; try reflexivity; lia.
Qed.

Lemma order h : forall c fresh past, since c fresh -> Forall (fun x => cf_fatal (fst x) = false) (queued c) ->
  always_ready h -> no_fatal h -> calm fresh h ->
  exists left, past ++ occurred (fresh ++ h) = (past ++ presented (fst (ctl_run h c))) ++ left.
Proof.
  induction h as [|e h IH]; intros c fresh past SI Q R NF C.
  - exists (occurred (fresh ++ [])). cbn. rewrite !app_nil_r. reflexivity.
  - cbn [ctl_run]. inversion R as [|? ? R1 R2]; subst.
    assert (NF2 : no_fatal h).
    { unfold no_fatal in *. change (e :: h) with ([e] ++ h) in NF. rewrite occurred_app in NF. apply Forall_app in NF. apply NF. }
    destruct e as [f|f|ans]; cbn [ctl_step calm] in *.
    + specialize (IH (ctl_enqueue f c) (fresh ++ [LocalEvent f]) past).
      rewrite <- app_assoc in IH. cbn [app] in IH.
      destruct (ctl_run h (ctl_enqueue f c)) as [m c2]. apply IH; auto.
      * destruct SI as [S1 S2]. split; cbn [ctl_enqueue ct_futs ct_pending]; rewrite flat_map_app; cbn; [rewrite app_nil_r; exact S1|rewrite S2; reflexivity].
      * unfold queued, ctl_enqueue. cbn [ct_futs ct_pending]. rewrite map_app, app_assoc. apply Forall_app. split; [exact Q|].
        constructor; [|constructor]. unfold no_fatal in NF. cbn in NF. inversion NF; subst. assumption.
    + specialize (IH (ctl_call f c) (fresh ++ [RemoteEvent f]) past).
      rewrite <- app_assoc in IH. cbn [app] in IH.
      destruct (ctl_run h (ctl_call f c)) as [m c2]. apply IH; auto.
      * destruct SI as [S1 S2]. split; cbn [ctl_call ct_futs ct_pending]; rewrite flat_map_app; [|cbn; rewrite app_nil_r; exact S2].
        rewrite waiting_app, S1. reflexivity.
      * unfold queued, ctl_call. cbn [ct_futs ct_pending]. unfold queued in Q. rewrite !Forall_app in *. destruct Q as [Q1 Q2]. repeat split; auto.
        constructor; [|constructor]. unfold no_fatal in NF. cbn in NF. inversion NF; subst. assumption.
    + destruct (ctl_poll ans c) as [n c1] eqn:P. apply poll_queued in P. destruct P as [futs [err [P [QQ [PE FE]]]]].
      destruct C as [C CH].
      assert (W : waiting (queued c) = flat_map (fun e => match e with RemoteEvent f => [f] | _ => [] end) fresh
          ++ flat_map (fun e => match e with LocalEvent f => [f] | _ => [] end) fresh).
      { unfold queued. rewrite waiting_app, waiting_new. destruct SI as [S1 S2]. rewrite S1, S2. reflexivity. }
      pose proof (loop_all (length (queued c)) ans R1 [] (queued c) ltac:(lia) Q) as LA. rewrite P in LA. destruct LA as [LA _]. cbn in LA.
      assert (PR : presented n = occurred fresh).
      { destruct C as [C|[C [r [l E]]]].
        - destruct (fresh_short fresh C) as [F1 F2]. rewrite F1 in W.
          pose proof (loop_presents (length (queued c)) ans [] (queued c) ltac:(lia)) as LP. rewrite P in LP.
          destruct LP as [g [LP LN]]. rewrite LN in LP by (intros f; apply R1). cbn [app] in LP.
          rewrite LA, W in LP. cbn in LP. rewrite app_nil_r in LP. apply perm_short; assumption.
        - pose proof (loop_order (length (queued c)) ans C [] (queued c) ltac:(lia)) as LO. rewrite P in LO. rewrite LO, W.
          subst fresh. apply fresh_split. }
      pose proof (loop_keeps (length (queued c)) ans [] (queued c) ltac:(lia)) as K. rewrite P in K. cbn [app] in K.
      specialize (IH c1 [] (past ++ occurred fresh)).
      destruct (ctl_run h c1) as [m c2]. cbn [fst] in *.
      destruct IH as [left IH].
      * split; [rewrite FE; exact LA|exact PE].
      * rewrite QQ. rewrite <- Forall_map in Q |- * || idtac.
        assert (QF : Forall (fun f => cf_fatal f = false) (map fst (queued c))) by (rewrite Forall_map; exact Q).
        apply (forall_perm _ _ _ K) in QF. apply Forall_app in QF. destruct QF as [_ QF]. rewrite Forall_map in QF. exact QF.
      * exact R2.
      * exact NF2.
      * exact CH.
      * exists left. rewrite presented_app, PR. cbn [app] in IH. rewrite !app_assoc in *. rewrite <- IH.
        rewrite <- !app_assoc. rewrite occurred_app. f_equal.
Qed.

Lemma in_order h : always_ready h -> no_fatal h -> calm [] h ->
  exists left, occurred h = presented (observed h) ++ left.
Proof.
  intros R NF C. destruct (order h ctl_init [] [] (conj eq_refl eq_refl) (Forall_nil _) R NF C) as [left E].
  exists left. exact E.
Qed.

(** ** Successful results are those of frames the service got *)
Definition known (pre : list note) (l : list fut) : Prop :=
  forall f, In (f, true) l -> In (NPresent f) pre.
Definition earned (pre n : list note) : Prop :=
  forall a f b, n = a ++ NHandled f true :: b -> In (NPresent f) (pre ++ a).

Lemma earned_nil pre : earned pre [].
Proof. intros a f b E. destruct a; discriminate. Qed.
Lemma earned_cons pre x n : match x with NHandled f true => In (NPresent f) pre | _ => True end ->
  earned (pre ++ [x]) n -> earned pre (x :: n).
Proof.
  intros X E a f b H. destruct a as [|y a]; injection H as -> H.
  - rewrite app_nil_r. exact X.
  - specialize (E a f b H). rewrite <- app_assoc in E. exact E.
Qed.
Lemma earned_app pre n m : earned pre n -> earned (pre ++ n) m -> earned pre (n ++ m).
Proof.
  revert pre. induction n as [|x n IH]; intros pre E1 E2.
  - rewrite app_nil_r in E2. exact E2.
  - cbn [app]. apply earned_cons.
    + destruct x as [f|f []]; auto. specialize (E1 [] f n eq_refl). rewrite app_nil_r in E1. exact E1.
    + apply IH; [|rewrite <- app_assoc; exact E2].
      intros a f b H. rewrite <- app_assoc. apply (E1 (x :: a) f b). rewrite H. reflexivity.
Qed.

Lemma known_app pre a b : known pre (a ++ b) <-> known pre a /\ known pre b.
Proof.
  unfold known. split.
  - intros H. split; intros f I; apply H, in_or_app; auto.
  - intros [A B] f I. apply in_app_or in I. destruct I; auto.
Qed.
Lemma known_perm pre a b : Permutation a b -> known pre b -> known pre a.
Proof. intros P K f I. apply K. eapply Permutation_in; [exact P|exact I]. Qed.
Lemma known_more pre n l : known pre l -> known (pre ++ n) l.
Proof. intros K f I. apply in_or_app. left. apply K, I. Qed.
Lemma known_cons pre f got tl : known pre ((f, got) :: tl) -> (got = true -> In (NPresent f) pre) /\ known pre tl.
Proof.
  intros K. split; [intros ->; apply K; left; reflexivity|intros g I; apply K; right; exact I].
Qed.

Lemma loop_earned fuel ans : forall kept rest pre, known pre (kept ++ rest) ->
  let '(n, futs, _) := poll_futs fuel ans kept rest in earned pre n /\ known (pre ++ n) futs.
Proof.
  induction fuel as [|fuel IH]; intros kept rest pre K; cbn [poll_futs].
  - rewrite app_nil_r. split; [apply earned_nil|exact K].
  - destruct rest as [|[f got] tl]; [rewrite app_nil_r in *; rewrite app_nil_r; split; [apply earned_nil|exact K]|].
    apply known_app in K. destruct K as [K1 K2]. pose proof (known_cons _ _ _ _ K2) as [KG KT].
    assert (KS : forall m, known (pre ++ m) (kept ++ swap_out tl)).
    { intros m. apply known_more, known_app. split; [exact K1|]. eapply known_perm; [apply swap_out_perm|exact KT]. }
    set (pr := if got then [] else [NPresent f]).
    assert (EP : earned pre pr) by (subst pr; destruct got; [apply earned_nil|apply earned_cons; [exact I|apply earned_nil]]).
    assert (IP : In (NPresent f) (pre ++ pr)).
    { apply in_or_app. subst pr. destruct got; [left; apply KG; reflexivity|right; left; reflexivity]. }
    destruct (ans f) as [| | |ok].
    + specialize (IH (kept ++ [(f, got)]) tl pre). rewrite <- app_assoc in IH. apply IH. apply known_app. split; assumption.
    + assert (EH : earned pre [NHandled f false]) by (apply earned_cons; [exact I|apply earned_nil]).
      destruct (cf_fatal f); [split; [exact EH|apply KS]|].
      specialize (IH kept (swap_out tl) (pre ++ [NHandled f false]) (KS _)). destruct (poll_futs _ _ _ _) as [[n futs] err].
      destruct IH as [I1 I2]. split; [apply (earned_app pre [NHandled f false] n); assumption|].
      rewrite <- app_assoc in I2. exact I2.
    + specialize (IH (kept ++ [(f, true)]) tl (pre ++ pr)). destruct (poll_futs _ _ _ _) as [[n futs] err].
      destruct IH as [I1 I2].
      { rewrite <- app_assoc. apply known_app. split; [apply known_more, K1|].
        intros g I. destruct I as [[= <-]|I]; [exact IP|]. apply (known_more pre pr tl KT g I). }
      split; [apply earned_app; assumption|]. rewrite <- app_assoc in I2. exact I2.
    + assert (EH : earned pre (pr ++ [NHandled f ok])).
      { apply earned_app; [exact EP|]. apply earned_cons; [destruct ok; [exact IP|exact I]|apply earned_nil]. }
      destruct (cf_fatal f); [split; [exact EH|apply KS]|].
      specialize (IH kept (swap_out tl) (pre ++ pr ++ [NHandled f ok]) (KS _)). destruct (poll_futs _ _ _ _) as [[n futs] err].
      destruct IH as [I1 I2]. split; [apply (earned_app pre _ n); assumption|].
      rewrite <- app_assoc in I2. exact I2.
Qed.
Lemma run_earned h : forall c pre, known pre (queued c) -> earned pre (fst (ctl_run h c)).
Proof.
  induction h as [|e h IH]; intros c pre K; cbn [ctl_run]; [apply earned_nil|].
  destruct (ctl_step e c) as [n c1] eqn:E.
  assert (H : earned pre n /\ known (pre ++ n) (queued c1)).
  { destruct e as [f|f|ans]; cbn [ctl_step] in E.
    - injection E as <- <-. rewrite app_nil_r. split; [apply earned_nil|]. unfold queued, ctl_enqueue in *. cbn [ct_futs ct_pending].
      rewrite map_app, app_assoc. apply known_app. split; [exact K|]. intros g [I|[]]. discriminate.
    - injection E as <- <-. rewrite app_nil_r. split; [apply earned_nil|]. unfold queued, ctl_call in *. cbn [ct_futs ct_pending].
      apply known_app in K. destruct K as [K1 K2]. rewrite !known_app. split; [split; [exact K1|]|exact K2]. intros g [I|[]]. discriminate.
    - apply poll_queued in E. destruct E as [futs [err [P [Q _]]]]. rewrite Q.
      pose proof (loop_earned (length (queued c)) ans [] (queued c) pre K) as L. rewrite P in L. exact L. }
  destruct H as [H1 H2]. specialize (IH c1 (pre ++ n) H2). destruct (ctl_run h c1) as [m c2]. cbn [fst] in *.
  apply earned_app; assumption.
Qed.
Lemma success_presented h a f b : observed h = a ++ NHandled f true :: b -> In f (presented a).
Proof.
  intros E. assert (N : known [] (queued ctl_init)) by (intros g []).
  pose proof (run_earned h ctl_init [] N a f b E) as I. cbn [app] in I.
  unfold presented. apply in_flat_map. exists (NPresent f). split; [exact I|left; reflexivity].
Qed.

Definition fatal_in (n : list note) : bool := existsb cf_fatal (handled n).
Lemma fatal_app a b : fatal_in (a ++ b) = fatal_in a || fatal_in b.
Proof. unfold fatal_in. rewrite handled_app. apply existsb_app. Qed.
Lemma loop_fatal fuel ans : forall kept rest, let '(n, _, err) := poll_futs fuel ans kept rest in err = fatal_in n.
Proof.
  induction fuel as [|fuel IH]; intros kept rest; cbn [poll_futs]; [reflexivity|]. destruct rest as [|[f got] tl]; [reflexivity|].
  destruct (ans f) as [| | |ok].
  - apply IH.
  - destruct (cf_fatal f) eqn:F; [unfold fatal_in; cbn; rewrite F; reflexivity|].
    specialize (IH kept (swap_out tl)). destruct (poll_futs fuel ans kept (swap_out tl)) as [[n futs] err]. rewrite IH. unfold fatal_in. cbn. rewrite F. reflexivity.
  - specialize (IH (kept ++ [(f, true)]) tl). destruct (poll_futs fuel ans (kept ++ [(f, true)]) tl) as [[n futs] err]. rewrite IH, fatal_app. destruct got; reflexivity.
  - destruct (cf_fatal f) eqn:F; [destruct got; unfold fatal_in; cbn; rewrite F; reflexivity|].
    specialize (IH kept (swap_out tl)). destruct (poll_futs fuel ans kept (swap_out tl)) as [[n futs] err]. rewrite IH, fatal_app.
    destruct got; unfold fatal_in; cbn; rewrite F; reflexivity.
Qed.
Lemma run_fatal h : forall c, ct_error (snd (ctl_run h c)) = ct_error c || fatal_in (fst (ctl_run h c)).
Proof.
  induction h as [|e h IH]; intros c; cbn [ctl_run]; [cbn; rewrite Bool.orb_false_r; reflexivity|].
  assert (X : ct_error (snd (ctl_step e c)) = ct_error c || fatal_in (fst (ctl_step e c))).
  { destruct e as [f|f|ans]; cbn [ctl_step fst snd]; try (cbn; rewrite Bool.orb_false_r; reflexivity).
    unfold ctl_poll. assert (L := loop_fatal (length (ct_futs c ++ map (fun f => (f, false)) (ct_pending c))) ans [] (ct_futs c ++ map (fun f => (f, false)) (ct_pending c))).
    destruct (poll_futs _ _ _ _) as [[n futs] err]. cbn [fst snd ct_error]. rewrite L. reflexivity. }
  destruct (ctl_step e c) as [n c1]. cbn [fst snd] in X. specialize (IH c1). destruct (ctl_run h c1) as [m c2]. cbn [fst snd] in *. rewrite IH, X, fatal_app, Bool.orb_assoc. reflexivity.
Qed.
Lemma fatal_ends h : fails_with h <-> exists f, In f (handled (observed h)) /\ cf_fatal f = true.
Proof.
  unfold fails_with, observed. rewrite run_fatal. cbn [ct_error ctl_init orb]. unfold fatal_in. apply existsb_exists.
Qed.
