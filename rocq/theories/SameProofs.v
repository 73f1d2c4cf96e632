(** * A future that is not polled does not matter *)

From Coq Require Import Lia ZifyBool ZifyNat ZifyN.
From Verif Require Export Same EngineProofs.
Import ListNotations.

Definition at_nth {A} (t : nat) (f : A -> A) (l : list A) : list A :=
  match nth_error l t with Some k => set_nth t (f k) l | None => l end.
Lemma at_nth_other A t u (f : A -> A) l : u <> t -> nth_error (at_nth t f l) u = nth_error l u.
Proof. intros N. unfold at_nth. destruct (nth_error l t); [|reflexivity]. apply nth_set_nth_neq. congruence. Qed.
Lemma set_nth_comm A t u (x y : A) l : t <> u -> set_nth t x (set_nth u y l) = set_nth u y (set_nth t x l).
Proof.
  revert t u. induction l as [|z l IH]; intros [|t] [|u] N; cbn [set_nth]; try reflexivity; [congruence|].
  f_equal. apply IH. congruence.
Qed.
Lemma at_nth_set A t u (f : A -> A) x l : u <> t -> at_nth t f (set_nth u x l) = set_nth u x (at_nth t f l).
Proof.
  intros N. unfold at_nth. rewrite nth_set_nth_neq by congruence.
  destruct (nth_error l t); [|reflexivity]. apply set_nth_comm. congruence.
Qed.
Lemma at_nth_app A t (f : A -> A) l x : (t < length l)%nat -> at_nth t f (l ++ [x]) = at_nth t f l ++ [x].
Proof.
  revert t. induction l as [|y l IH]; intros [|t] H; cbn [length] in H; [lia|lia|reflexivity|].
  specialize (IH t ltac:(lia)). unfold at_nth in *. cbn [nth_error set_nth app].
  destruct (nth_error (l ++ [x]) t); destruct (nth_error l t); cbn [app set_nth] in *; f_equal; exact IH.
Qed.
Lemma set_nth_twice A t (x y : A) l : set_nth t x (set_nth t y l) = set_nth t x l.
Proof. revert t. induction l as [|z l IH]; intros [|t]; cbn [set_nth]; try reflexivity. f_equal. apply IH. Qed.
Lemma at_nth_at A t u (f : A -> A) l : at_nth t f (at_nth u f l) = at_nth u f (at_nth t f l).
Proof.
  destruct (PeanoNat.Nat.eq_dec t u) as [->|N]; [reflexivity|].
  unfold at_nth at 2. destruct (nth_error l u) as [k|] eqn:E.
  - rewrite at_nth_set by congruence. unfold at_nth at 2. rewrite at_nth_other by congruence. rewrite E. reflexivity.
  - unfold at_nth at 2. rewrite at_nth_other by congruence. rewrite E. reflexivity.
Qed.

(** ** Futures that others do not see *)
Definition blind {A} (g : list A -> list A) (u : nat) : Prop :=
  (forall l, nth_error (g l) u = nth_error l u) /\ (forall x l, g (set_nth u x l) = set_nth u x (g l)).
Lemma blind_id A u : blind (fun l : list A => l) u. Proof. split; reflexivity. Qed.
Lemma blind_at A t f u : u <> t -> blind (@at_nth A t f) u.
Proof. intros N. split; intros; [apply at_nth_other|apply at_nth_set]; exact N. Qed.

Lemma wf_upd_task gt gw u f s : blind gt u -> upd_task u f (with_futures gt gw s) = with_futures gt gw (upd_task u f s).
Proof.
  intros [B1 B2]. unfold upd_task. rewrite wf_tasks, B1. destruct (nth_error (s_tasks s) u) as [k|]; [|reflexivity].
  unfold with_futures. cbn [s_tasks s_waits set_s_tasks set_s_waits]. rewrite B2. reflexivity.
Qed.
Lemma wf_upd_wait gt gw u f s : blind gw u -> upd_wait u f (with_futures gt gw s) = with_futures gt gw (upd_wait u f s).
Proof.
  intros [B1 B2]. unfold upd_wait. rewrite wf_waits, B1. destruct (nth_error (s_waits s) u) as [k|]; [|reflexivity].
  unfold with_futures. cbn [s_tasks s_waits set_s_tasks set_s_waits]. rewrite B2. reflexivity.
Qed.
Ltac wf_poll B := wf_small;
  repeat (autorewrite with wf; repeat rewrite (wf_upd_task _ _ _ _ _ B); repeat rewrite (wf_upd_wait _ _ _ _ _ B);
          wf_small; try reflexivity; wf_break; wf_small);
  autorewrite with wf; repeat rewrite (wf_upd_task _ _ _ _ _ B); repeat rewrite (wf_upd_wait _ _ _ _ _ B); try reflexivity.
Ltac wf_send B := wf_small;
  repeat (autorewrite with wf; repeat rewrite (wf_upd_task _ _ _ _ _ B);
          wf_small; try reflexivity; wf_break; wf_small);
  autorewrite with wf; repeat rewrite (wf_upd_task _ _ _ _ _ B); try reflexivity.
Ltac wf_wait B := wf_small;
  repeat (autorewrite with wf; repeat rewrite (wf_upd_wait _ _ _ _ _ B);
          wf_small; try reflexivity; wf_break; wf_small);
  autorewrite with wf; repeat rewrite (wf_upd_wait _ _ _ _ _ B); try reflexivity.

Lemma wf_transmit gt gw u tk l tag s : blind gt u ->
  transmit u tk l tag (with_futures gt gw s) = with_futures gt gw (transmit u tk l tag s).
Proof. intros B. unfold transmit. wf_send B. Qed.
Lemma wf_session_loop gt gw u tk l tag s : blind gt u ->
  session_loop u tk l tag (with_futures gt gw s) = with_futures gt gw (session_loop u tk l tag s).
Proof.
  intros B. unfold session_loop. rewrite wf_iwin. destruct (s_iwin s =? 0); [wf_send B|apply wf_transmit, B].
Qed.
Lemma wf_link_loop gt gw u tk l tag s : blind gt u ->
  link_loop u tk l tag (with_futures gt gw s) = with_futures gt gw (link_loop u tk l tag s).
Proof.
  intros B. unfold link_loop. destruct (_ || _); [wf_send B|].
  cbv zeta. rewrite wf_upd_snd, (wf_upd_task _ _ _ _ _ B), wf_session_loop by exact B. reflexivity.
Qed.
Lemma wf_poll_send gt gw u s : blind gt u -> poll_send u (with_futures gt gw s) = with_futures gt gw (poll_send u s).
Proof.
  intros B. unfold poll_send. rewrite wf_tasks, wf_snds, wf_chans. pose proof B as [B1 _]. rewrite B1.
  repeat (match goal with |- context [match ?x with _ => _ end] =>
            lazymatch x with context [match _ with _ => _ end] => fail | _ => destruct x end end;
          autorewrite with wf; repeat rewrite (wf_upd_task _ _ _ _ _ B);
          repeat rewrite (wf_link_loop _ _ _ _ _ _ _ B); repeat rewrite (wf_session_loop _ _ _ _ _ _ _ B); try reflexivity).
Qed.
Lemma wf_poll_wait gt gw u s : blind gw u -> poll_wait u (with_futures gt gw s) = with_futures gt gw (poll_wait u s).
Proof.
  intros B. unfold poll_wait. rewrite wf_waits. pose proof B as [B1 _]. rewrite B1. wf_wait B.
Qed.

(** ** Steps *)
Definition drop_task (k : stask) : stask := match tk_st k with TDone _ => k | _ => set_tk_st TGone k end.
Definition drop_wait (k : wtask) : wtask := match wk_st k with WDone _ => k | _ => set_wk_st WGone k end.
Definition fine (gt : list stask -> list stask) (gw : list wtask -> list wtask) (e : ev) (s : ses) : Prop :=
  match e with
  | EvPollSend u => blind gt u
  | EvPollWait u => blind gw u
  | EvCancelSend u => forall l, gt (at_nth u drop_task l) = at_nth u drop_task (gt l)
  | EvCancelWait u => forall l, gw (at_nth u drop_wait l) = at_nth u drop_wait (gw l)
  | EvSend _ _ _ _ _ => forall x, gt (s_tasks s ++ [x]) = gt (s_tasks s) ++ [x]
  | EvWait _ => forall x, gw (s_waits s ++ [x]) = gw (s_waits s) ++ [x]
  | _ => True
  end.
Lemma upd_task_at u f s : upd_task u f s = with_futures (at_nth u f) (fun l => l) s.
Proof. unfold upd_task, with_futures, at_nth. destruct (nth_error (s_tasks s) u); [reflexivity|]. destruct s; reflexivity. Qed.
Lemma upd_wait_at u f s : upd_wait u f s = with_futures (fun l => l) (at_nth u f) s.
Proof. unfold upd_wait, with_futures, at_nth. destruct (nth_error (s_waits s) u); [reflexivity|]. destruct s; reflexivity. Qed.
Lemma wf_step p e gt gw s : fine gt gw e s ->
  step p e (with_futures gt gw s) = emap (on_fst (with_futures gt gw)) (step p e s).
Proof.
  intros F. destruct e; cbn [fine] in F; unfold step, noobs.
  all: try (rewrite (wf_poll_send _ _ _ _ F); reflexivity).
  all: try (rewrite (wf_poll_wait _ _ _ _ F); reflexivity).
  all: try (wf_go; fail).
  - rewrite wf_snds. destruct (nth_error (s_snds s) a); [|reflexivity]. cbn [emap on_fst].
    rewrite wf_tasks. do 2 f_equal. unfold with_futures. cbn [s_tasks s_waits set_s_tasks set_s_waits]. rewrite F. reflexivity.
  - cbn [emap on_fst]. fold drop_task. rewrite !upd_task_at. unfold with_futures. cbn [s_tasks s_waits set_s_tasks set_s_waits].
    rewrite F. reflexivity.
  - rewrite wf_dlvs. destruct (nth_error (s_dlvs s) d); [|reflexivity]. cbn [emap on_fst].
    rewrite wf_waits. do 2 f_equal. unfold with_futures. cbn [s_tasks s_waits set_s_tasks set_s_waits]. rewrite F. reflexivity.
  - cbn [emap on_fst]. fold drop_wait. rewrite !upd_wait_at. unfold with_futures. cbn [s_tasks s_waits set_s_tasks set_s_waits].
    rewrite F. reflexivity.
Qed.

(** ** Futures stay *)
Lemma wf_self s : with_futures (fun _ => s_tasks s) (fun _ => s_waits s) s = s.
Proof. destruct s; reflexivity. Qed.
Lemma step_waits p e s s' os : step p e s = EOk (s', os) ->
  match e with EvWait _ | EvPollWait _ | EvCancelWait _ => True | _ => s_waits s' = s_waits s end.
Proof.
  intros St.
  assert (K : fine (fun l => l) (fun _ => s_waits s) e s -> s_waits s' = s_waits s).
  { intros F. apply (wf_step p) in F. assert (E : with_futures (fun l => l) (fun _ => s_waits s) s = s) by (destruct s; reflexivity).
    rewrite E, St in F. cbn [emap on_fst] in F. apply EOk_inj, pair_equal_spec in F as [F _].
    apply (f_equal s_waits) in F. exact F. }
  destruct e; try exact I; apply K; cbn [fine]; try exact I; try (intros; reflexivity). split; reflexivity.
Qed.
Lemma step_tasks p e s s' os : step p e s = EOk (s', os) ->
  match e with EvSend _ _ _ _ _ | EvPollSend _ | EvCancelSend _ => True | _ => s_tasks s' = s_tasks s end.
Proof.
  intros St.
  assert (K : fine (fun _ => s_tasks s) (fun l => l) e s -> s_tasks s' = s_tasks s).
  { intros F. apply (wf_step p) in F. assert (E : with_futures (fun _ => s_tasks s) (fun l => l) s = s) by (destruct s; reflexivity).
    rewrite E, St in F. cbn [emap on_fst] in F. apply EOk_inj, pair_equal_spec in F as [F _].
    apply (f_equal s_tasks) in F. exact F. }
  destruct e; try exact I; apply K; cbn [fine]; try exact I; try (intros; reflexivity). split; reflexivity.
Qed.
Lemma at_nth_length A t (f : A -> A) l : length (at_nth t f l) = length l.
Proof. unfold at_nth. destruct (nth_error l t); [apply set_nth_length|reflexivity]. Qed.
Lemma upd_wait_length u f s : length (s_waits (upd_wait u f s)) = length (s_waits s).
Proof. rewrite upd_wait_at, wf_waits. apply at_nth_length. Qed.
Lemma upd_task_length u f s : length (s_tasks (upd_task u f s)) = length (s_tasks s).
Proof. rewrite upd_task_at, wf_tasks. apply at_nth_length. Qed.
Lemma poll_wait_length u s : length (s_waits (poll_wait u s)) = length (s_waits s).
Proof.
  unfold poll_wait. cbv beta iota zeta delta [new_chan].
  repeat (match goal with |- context [match ?x with _ => _ end] =>
            lazymatch x with context [match _ with _ => _ end] => fail | _ => destruct x end end;
          rewrite ?upd_wait_length; try reflexivity).
  all: cbv zeta; rewrite ?upd_wait_length; frw; reflexivity.
Qed.
Lemma waits_grow p e s s' os : step p e s = EOk (s', os) -> (length (s_waits s) <= length (s_waits s'))%nat.
Proof.
  intros St. pose proof (step_waits _ _ _ _ _ St) as W. destruct e; try (rewrite W; reflexivity); cbn [step] in St.
  - destruct (nth_error (s_dlvs s) d); apply EOk_inj, pair_equal_spec in St as [<- _]; [|lia].
    cbn [s_waits set_s_waits]. rewrite app_length. lia.
  - apply EOk_inj, pair_equal_spec in St as [<- _]. rewrite poll_wait_length. lia.
  - apply EOk_inj, pair_equal_spec in St as [<- _]. rewrite upd_wait_length. lia.
Qed.
Lemma poll_send_length u s : length (s_tasks (poll_send u s)) = length (s_tasks s).
Proof.
  assert (T : forall tk l tag x, length (s_tasks (transmit u tk l tag x)) = length (s_tasks x)).
  { intros. unfold transmit. cbv zeta. rewrite upd_task_length. destruct (tk_settled tk); cbn [s_tasks set_s_dlvs]; frw; reflexivity. }
  assert (S : forall tk l tag x, length (s_tasks (session_loop u tk l tag x)) = length (s_tasks x)).
  { intros. unfold session_loop. destruct (s_iwin x =? 0); [|apply T]. cbv beta iota zeta delta [new_chan]. rewrite upd_task_length. reflexivity. }
  assert (L : forall tk l tag x, length (s_tasks (link_loop u tk l tag x)) = length (s_tasks x)).
  { intros. unfold link_loop. destruct (_ || _); [cbv beta iota zeta delta [new_chan]; rewrite upd_task_length; frw; reflexivity|].
    cbv zeta. rewrite S, upd_task_length. frw. reflexivity. }
  unfold poll_send.
  repeat (match goal with |- context [match ?x with _ => _ end] =>
            lazymatch x with context [match _ with _ => _ end] => fail | _ => destruct x end end;
          rewrite ?upd_task_length, ?L, ?S; frw; try reflexivity).
Qed.
Lemma tasks_grow p e s s' os : step p e s = EOk (s', os) -> (length (s_tasks s) <= length (s_tasks s'))%nat.
Proof.
  intros St. pose proof (step_tasks _ _ _ _ _ St) as W. destruct e; try (rewrite W; reflexivity); cbn [step] in St.
  - destruct (nth_error (s_snds s) a); apply EOk_inj, pair_equal_spec in St as [<- _]; [|lia].
    cbn [s_tasks set_s_tasks]. rewrite app_length. lia.
  - apply EOk_inj, pair_equal_spec in St as [<- _]. rewrite poll_send_length. lia.
  - apply EOk_inj, pair_equal_spec in St as [<- _]. rewrite upd_task_length. lia.
Qed.

(** ** Histories *)
Lemma run_drop_task p t : forall evs s, (t < length (s_tasks s))%nat -> ~ In (EvPollSend t) evs ->
  run p evs (with_futures (at_nth t drop_task) (fun l => l) s)
  = emap (on_fst (with_futures (at_nth t drop_task) (fun l => l))) (run p evs s).
Proof.
  induction evs as [|e evs IH]; intros s L N; [reflexivity|]. cbn [run].
  rewrite wf_step.
  - destruct (step p e s) as [[s1 os]|] eqn:St; try reflexivity. cbn [emap on_fst ebind].
    rewrite IH; [|assert (X := tasks_grow _ _ _ _ _ St); lia|intros H; apply N; right; exact H].
    destruct (run p evs s1) as [[s2 os2]|]; reflexivity.
  - destruct e; cbn [fine]; try exact I; try (intros; reflexivity); try apply blind_id.
    + intros x. apply at_nth_app. exact L.
    + apply blind_at. intros ->. apply N. left. reflexivity.
    + intros l. apply at_nth_at.
Qed.
Lemma run_drop_wait p w : forall evs s, (w < length (s_waits s))%nat -> ~ In (EvPollWait w) evs ->
  run p evs (with_futures (fun l => l) (at_nth w drop_wait) s)
  = emap (on_fst (with_futures (fun l => l) (at_nth w drop_wait))) (run p evs s).
Proof.
  induction evs as [|e evs IH]; intros s L N; [reflexivity|]. cbn [run].
  rewrite wf_step.
  - destruct (step p e s) as [[s1 os]|] eqn:St; try reflexivity. cbn [emap on_fst ebind].
    rewrite IH; [|assert (X := waits_grow _ _ _ _ _ St); lia|intros H; apply N; right; exact H].
    destruct (run p evs s1) as [[s2 os2]|]; reflexivity.
  - destruct e; cbn [fine]; try exact I; try (intros; reflexivity); try apply blind_id.
    + intros x. apply at_nth_app. exact L.
    + apply blind_at. intros ->. apply N. left. reflexivity.
    + intros l. apply at_nth_at.
Qed.
Lemma run_snoc p e : forall evs s, run p (evs ++ [e]) s =
  ebind (run p evs s) (fun '(s1, os) => ebind (step p e s1) (fun '(s2, os2) => EOk (s2, os ++ os2))).
Proof.
  induction evs as [|e1 evs IH]; intros s; cbn [app run ebind].
  - destruct (step p e s) as [[s2 os2]|]; cbn [ebind app]; [rewrite app_nil_r|]; reflexivity.
  - destruct (step p e1 s) as [[s2 os2]|]; cbn [ebind]; try reflexivity. rewrite IH.
    destruct (run p evs s2) as [[s3 os3]|]; cbn [ebind]; try reflexivity.
    destruct (step p e s3) as [[s4 os4]|]; cbn [ebind]; try reflexivity. rewrite app_assoc. reflexivity.
Qed.
Lemma drop_any_time p t evs s : (t < length (s_tasks s))%nat -> ~ In (EvPollSend t) evs ->
  run p (EvCancelSend t :: evs) s = run p (evs ++ [EvCancelSend t]) s.
Proof.
  intros L N. rewrite run_snoc. cbn [run step ebind]. fold drop_task. rewrite upd_task_at, (run_drop_task _ _ _ _ L N).
  destruct (run p evs s) as [[s1 os]|]; cbn [ebind emap on_fst]; try reflexivity. rewrite upd_task_at, app_nil_r. reflexivity.
Qed.
Lemma drop_wait_any_time p w evs s : (w < length (s_waits s))%nat -> ~ In (EvPollWait w) evs ->
  run p (EvCancelWait w :: evs) s = run p (evs ++ [EvCancelWait w]) s.
Proof.
  intros L N. rewrite run_snoc. cbn [run step ebind]. fold drop_wait. rewrite upd_wait_at, (run_drop_wait _ _ _ _ L N).
  destruct (run p evs s) as [[s1 os]|]; cbn [ebind emap on_fst]; try reflexivity. rewrite upd_wait_at, app_nil_r. reflexivity.
Qed.
