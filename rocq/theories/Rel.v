(** * Relations between a session and the session after a function

    A preorder [R] on sessions that only looks at some fields holds across a
    function if it holds across its parts.  SessionRel.v, generated by
    tools/gen_rel.py, uses this to carry such relations through every function of
    Session.v. *)

From Verif Require Export EngineProofs.

Class preorder (R : ses -> ses -> Prop) : Prop := {
  pre_refl : forall s, R s s;
  pre_trans : forall s s1 s2, R s s1 -> R s1 s2 -> R s s2
}.
(** [R] only looks at the fields [fs]. *)
Class sees (R : ses -> ses -> Prop) (fs : list fld) : Prop :=
  get_sees : forall s s', (forall f, memf f fs = true -> same f s s') -> R s s'.
Class stable (R : ses -> ses -> Prop) (s s' : ses) : Prop := get_stable : R s s'.
Class stable_er (R : ses -> ses -> Prop) {A} (pr : A -> ses) (s : ses) (m : er A) : Prop :=
  get_stable_er : forall x, m = EOk x -> R s (pr x).
Class stable_opt (R : ses -> ses -> Prop) (s : ses) (m : option ses) : Prop :=
  get_stable_opt : forall x, m = Some x -> R s x.

Lemma stable_framed : forall R fs M s s',
  sees R fs -> framed s s' M -> forallb (fun f => negb (memf f M)) fs = true -> stable R s s'.
Proof.
  intros R fs M s s' Hs Hf H. apply Hs. intros f Hm. apply Hf.
  rewrite forallb_forall in H. apply Bool.negb_true_iff, H.
  unfold memf in Hm. apply existsb_exists in Hm as [g [Hg E]].
  apply internal_fld_dec_bl in E. subst g. exact Hg.
Qed.
Lemma stable_refl : forall R s, preorder R -> stable R s s.
Proof. intros R s H. exact (pre_refl (R:=R) s). Qed.
Lemma stable_trans : forall R s s1 s2, preorder R -> stable R s s1 -> stable R s1 s2 -> stable R s s2.
Proof. intros R s s1 s2 H. exact (pre_trans (R:=R) s s1 s2). Qed.

Ltac st_one :=
  first [ eapply stable_framed; [typeclasses eauto | typeclasses eauto | reflexivity]
        | typeclasses eauto ].
Ltac st_chain :=
  lazymatch goal with
  | |- stable _ ?s ?s => apply stable_refl; typeclasses eauto
  | |- stable ?R ?s ?t =>
      first
      [ match goal with
        | H : stable R s t |- _ => exact H
        | H : framed s t ?m |- _ =>
            exact (stable_framed R _ m s t _ H eq_refl)
        | H : stable R ?u t |- _ =>
            apply (stable_trans R s u t _); [ st_chain | exact H ]
        | H : framed ?u t ?m |- _ =>
            apply (stable_trans R s u t _); [ st_chain | exact (stable_framed R _ m u t _ H eq_refl) ]
        end
      | let x := lazymatch t with
                 | snd (?g ?x) => x
                 | fst (?g ?x) => x
                 | fail_link _ ?x _ => x
                 | settle_one _ _ ?x _ => x
                 | ?g ?x => x
                 end in
        lazymatch type of x with ses => idtac end;
        apply (stable_trans R s x t _); [ st_chain | st_one ]
      | st_one ]
  end.
Ltac st_know R :=
  match goal with
  | E : ?m = EOk ?x |- _ =>
      let H := fresh "K" in
      pose proof (get_stable_er (R := R) x E : stable R _ _) as H; cbn beta iota delta [fst snd] in H; clear E; rename H into E
  | E : ?m = Some ?x |- _ =>
      let H := fresh "K" in
      pose proof (get_stable_opt (R := R) x E : stable R _ _) as H; clear E; rename H into E
  end.
Ltac st_knows R :=
  repeat first [ st_know R
               | match goal with
                 | E : _ = EOk _ |- _ => progress fr_know E
                 | E : _ = Some _ |- _ => progress fr_know E
                 end ].
Ltac st_goal_knows :=
  lazymatch goal with |- stable ?R _ _ => st_knows R end.
Ltac st_solve :=
  fr_small; repeat (fr_break; fr_small); try discriminate; st_goal_knows; repeat fr_pair; st_chain.
Ltac st_er H :=
  cbv beta iota zeta delta [new_chan insert_link cond_wait ebind emap] in H; cbn [fst snd] in H;
  repeat (fr_break_in H; cbn [fst snd] in H; try discriminate H);
  st_goal_knows;
  repeat fr_pair;
  try discriminate H; try solve [st_chain];
  first [apply EOk_inj in H | apply Some_inj in H];
  try (apply (f_equal fst) in H; cbn [fst] in H); subst; st_chain.

(** ** What a sender link keeps

    Only sends and flows touch the counters of a sender link; a link starts with
    no credit; a closed link stays closed. *)
Definition snd_core (l : slink) : N * bytes * N * N * N * N :=
  (sn_id l, sn_name l, sn_rhandle l, sn_dc l, sn_tag l, sn_credit l).
Definition snd_kept (l l' : slink) : Prop :=
  snd_core l' = snd_core l /\ (sn_closed l = true -> sn_closed l' = true).
Definition keeps_snds (s s' : ses) : Prop :=
  (forall a l, nth_error (s_snds s) a = Some l ->
     exists l', nth_error (s_snds s') a = Some l' /\ snd_kept l l')
  /\ (forall a l, nth_error (s_snds s') a = Some l -> (length (s_snds s) <= a)%nat ->
        sn_credit l = 0 /\ sn_tag l = 0).
#[export] Instance keeps_snds_pre : preorder keeps_snds.
Proof.
  split.
  - intros s. split; [unfold snd_kept; eauto|]. intros a l H L. apply nth_lt in H. lia.
  - intros s s1 s2 [A1 B1] [A2 B2]. split.
    + intros a l H. apply A1 in H as (l1 & H1 & E1 & D1). apply A2 in H1 as (l2 & H2 & E2 & D2).
      exists l2. split; [exact H2 | split; [congruence | auto]].
    + intros a l H L. destruct (Nat.lt_ge_cases a (length (s_snds s1))) as [L1|L1].
      * destruct (nth_error (s_snds s1) a) as [l1|] eqn:E;
          [|apply nth_error_None in E; lia].
        destruct (B1 _ _ E L) as [C1 T1]. apply A2 in E as (l' & H' & C & _).
        rewrite H in H'. injection H' as <-. unfold snd_core in C.
        split; congruence.
      * eapply B2; eauto.
Qed.
#[export] Instance keeps_snds_sees : sees keeps_snds [Fsnds].
Proof.
  intros s s' H. specialize (H Fsnds eq_refl). cbn [same] in H. unfold keeps_snds. rewrite H.
  split; [unfold snd_kept; eauto|]. intros a l E L. apply nth_lt in E. lia.
Qed.
Lemma keeps_upd_snd : forall a f s,
  (forall l, snd_kept l (f l)) -> keeps_snds s (upd_snd a f s).
Proof.
  intros a f s H. split.
  - intros b l E. rewrite nth_upd_snd. destruct (Nat.eqb_spec a b) as [->|].
    + rewrite E. cbn. eauto.
    + unfold snd_kept. eauto.
  - intros b l E L. unfold upd_snd in E. destruct (nth_error (s_snds s) a) eqn:Ea.
    + st_cbn_in E. apply nth_lt in E. rewrite set_nth_length in E. lia.
    + apply nth_lt in E. lia.
Qed.
Ltac kept_snd := apply keeps_upd_snd; intros; split; [reflexivity | st_cbn; auto].
#[export] Instance keeps_upd_snd_closed a s : stable keeps_snds s (upd_snd a (set_sn_closed true) s).
Proof. kept_snd. Qed.
#[export] Instance keeps_upd_snd_onclose a v s : stable keeps_snds s (upd_snd a (set_sn_on_close v) s).
Proof. kept_snd. Qed.
#[export] Instance keeps_upd_snd_oncredit a v s : stable keeps_snds s (upd_snd a (set_sn_on_credit v) s).
Proof. kept_snd. Qed.
#[export] Instance keeps_upd_snd_max a v s : stable keeps_snds s (upd_snd a (set_sn_max v) s).
Proof. kept_snd. Qed.
#[export] Instance keeps_notify_lock_snd a s : stable keeps_snds s (notify_lock_snd a s).
Proof.
  unfold notify_lock_snd. destruct (nth_error (s_snds s) a); [|apply stable_refl; exact _].
  eapply stable_trans; [exact _| |kept_snd]. st_chain.
Qed.
#[export] Instance keeps_snd_remote_detached a e s : stable keeps_snds s (snd_remote_detached a e s).
Proof.
  unfold snd_remote_detached. destruct (nth_error (s_snds s) a); [|apply stable_refl; exact _].
  eapply stable_trans; [exact _| |exact _].
  eapply stable_trans; [exact _| |kept_snd]. st_chain.
Qed.
Lemma keeps_add_snd : forall l s,
  sn_credit l = 0 -> sn_tag l = 0 -> keeps_snds s (set_s_snds (s_snds s ++ [l]) s).
Proof.
  intros l s Hc Ht. split.
  - intros a l' E. exists l'. st_cbn. split; [apply nth_app_old; exact E | split; auto].
  - intros a l' E L. st_cbn_in E. apply nth_snoc in E as [E|[-> ->]]; [apply nth_lt in E; lia|].
    auto.
Qed.
#[export] Instance keeps_add_new id n h dc m s :
  stable keeps_snds s (set_s_snds (s_snds s ++ [snd_new id n h dc m]) s).
Proof. apply keeps_add_snd; reflexivity. Qed.
#[export] Instance keeps_add_with id frm s :
  stable keeps_snds s (set_s_snds (s_snds s ++ [snd_with id frm]) s).
Proof. apply keeps_add_snd; reflexivity. Qed.
#[export] Instance keeps_handle_flow_none f s : stable keeps_snds s (handle_flow f None s).
Proof. unfold handle_flow. st_solve. Qed.

(** ** What a receiver link keeps

    Only transfers and grants of credit touch the counters; a link starts
    empty. *)
Definition rcv_core (l : rlink) : bytes * N * N * N * N * option bytes * N * list (nat * transfer_t) :=
  (rc_name l, rc_handle l, rc_rhandle l, rc_credit l, rc_dc l, rc_partial l, rc_max l, rc_queue l).
(** The waiting tasks are left alone, or the one that is registered is woken. *)
Definition woken (l : rlink) : list nat :=
  match rc_waker l with
  | Some t => filter (fun t' => negb (Nat.eqb t t')) (rc_parked l)
  | None => rc_parked l
  end.
Definition rcv_wk (l l' : rlink) : Prop :=
  (rc_waker l' = rc_waker l /\ rc_parked l' = rc_parked l)
  \/ (rc_waker l' = None /\ rc_parked l' = woken l).
Definition rcv_kept (l l' : rlink) : Prop :=
  rcv_core l' = rcv_core l /\ (rc_closed l = true -> rc_closed l' = true) /\ rcv_wk l l'.
Definition rcv_fresh (l : rlink) : Prop :=
  rc_credit l = 0 /\ rc_partial l = None /\ rc_queue l = [] /\ rc_max l = 262144
  /\ rc_waker l = None /\ rc_parked l = [].
Definition keeps_rcvs (s s' : ses) : Prop :=
  (forall a l, nth_error (s_rcvs s) a = Some l ->
     exists l', nth_error (s_rcvs s') a = Some l' /\ rcv_kept l l')
  /\ (forall a l, nth_error (s_rcvs s') a = Some l -> (length (s_rcvs s) <= a)%nat -> rcv_fresh l).
Lemma rcv_wk_refl : forall l, rcv_wk l l.
Proof. intros l. left. auto. Qed.
Lemma rcv_wk_trans : forall l1 l2 l3, rcv_wk l1 l2 -> rcv_wk l2 l3 -> rcv_wk l1 l3.
Proof.
  intros l1 l2 l3 [[A1 A2]|[A1 A2]] [[B1 B2]|[B1 B2]].
  - left. split; congruence.
  - right. split; [exact B1|]. rewrite B2. unfold woken. rewrite A1, A2. reflexivity.
  - right. split; congruence.
  - right. split; [exact B1|]. rewrite B2. unfold woken at 1. rewrite A1. exact A2.
Qed.
Lemma rcv_wk_wake : forall l, rcv_wk l (rcv_wake l).
Proof. intros l. right. unfold rcv_wake, woken. destruct (rc_waker l) eqn:E; st_cbn; auto. Qed.
Lemma rcv_kept_refl : forall l, rcv_kept l l.
Proof. intros l. unfold rcv_kept. auto using rcv_wk_refl. Qed.
Lemma rcv_kept_trans : forall l1 l2 l3, rcv_kept l1 l2 -> rcv_kept l2 l3 -> rcv_kept l1 l3.
Proof.
  intros l1 l2 l3 (A1 & B1 & C1) (A2 & B2 & C2). unfold rcv_kept.
  split; [congruence|]. split; [auto|]. eapply rcv_wk_trans; eauto.
Qed.
Lemma rcv_kept_fresh : forall l l', rcv_kept l l' -> rcv_fresh l -> rcv_fresh l'.
Proof.
  intros l l' (A & _ & W) (F1 & F2 & F3 & F4 & F5 & F6). unfold rcv_core in A. unfold rcv_fresh.
  assert (woken l = []) by (unfold woken; rewrite F5; exact F6).
  refine (conj _ (conj _ (conj _ (conj _ _)))); try congruence.
  destruct W as [[W1 W2]|[W1 W2]]; split; congruence.
Qed.
#[export] Instance keeps_rcvs_pre : preorder keeps_rcvs.
Proof.
  split.
  - intros s. split; [eauto using rcv_kept_refl|]. intros a l H L. apply nth_lt in H. lia.
  - intros s s1 s2 [A1 B1] [A2 B2]. split.
    + intros a l H. apply A1 in H as (l1 & H1 & E1). apply A2 in H1 as (l2 & H2 & E2).
      eauto using rcv_kept_trans.
    + intros a l H L. destruct (Nat.lt_ge_cases a (length (s_rcvs s1))) as [L1|L1].
      * destruct (nth_error (s_rcvs s1) a) as [l1|] eqn:E;
          [|apply nth_error_None in E; lia].
        assert (F := B1 _ _ E L). apply A2 in E as (l' & H' & C).
        rewrite H in H'. injection H' as <-. eauto using rcv_kept_fresh.
      * eapply B2; eauto.
Qed.
#[export] Instance keeps_rcvs_sees : sees keeps_rcvs [Frcvs].
Proof.
  intros s s' H. specialize (H Frcvs eq_refl). cbn [same] in H. unfold keeps_rcvs. rewrite H.
  split; [eauto using rcv_kept_refl|]. intros a l E L. apply nth_lt in E. lia.
Qed.
Lemma keeps_upd_rcv : forall a f s,
  (forall l, rcv_kept l (f l)) -> keeps_rcvs s (upd_rcv a f s).
Proof.
  intros a f s H. split.
  - intros b l E. rewrite nth_upd_rcv. destruct (Nat.eqb_spec a b) as [->|].
    + rewrite E. cbn. eauto.
    + eauto using rcv_kept_refl.
  - intros b l E L. unfold upd_rcv in E. destruct (nth_error (s_rcvs s) a) eqn:Ea.
    + st_cbn_in E. apply nth_lt in E. rewrite set_nth_length in E. lia.
    + apply nth_lt in E. lia.
Qed.
Lemma rcv_kept_wake : forall l, rcv_kept l (rcv_wake l).
Proof.
  intros l. refine (conj _ (conj _ (rcv_wk_wake l))); unfold rcv_wake, rcv_core; destruct (rc_waker l); st_cbn; auto.
Qed.
Lemma rcv_kept_closed : forall l, rcv_kept l (set_rc_closed true l).
Proof. intros l. refine (conj _ (conj _ (or_introl _))); unfold rcv_core; st_cbn; auto. Qed.
Lemma rcv_kept_error : forall e l, rcv_kept l (set_rc_error e l).
Proof. intros e l. refine (conj _ (conj _ (or_introl _))); unfold rcv_core; st_cbn; auto. Qed.
#[export] Instance keeps_rcv_remote_detached a e s : stable keeps_rcvs s (rcv_remote_detached a e s).
Proof.
  apply keeps_upd_rcv. intros l. eapply rcv_kept_trans; [|apply rcv_kept_wake].
  eapply rcv_kept_trans; [apply rcv_kept_closed | apply rcv_kept_error].
Qed.
#[export] Instance keeps_upd_rcv_closed a s : stable keeps_rcvs s (upd_rcv a (set_rc_closed true) s).
Proof. apply keeps_upd_rcv, rcv_kept_closed. Qed.
#[export] Instance keeps_upd_rcv_wake a s : stable keeps_rcvs s (upd_rcv a rcv_wake s).
Proof. apply keeps_upd_rcv, rcv_kept_wake. Qed.
#[export] Instance keeps_upd_rcv_close a s :
  stable keeps_rcvs s (upd_rcv a (fun l => rcv_wake (set_rc_closed true l)) s).
Proof.
  apply keeps_upd_rcv. intros l.
  eapply rcv_kept_trans; [apply rcv_kept_closed | apply rcv_kept_wake].
Qed.
#[export] Instance keeps_add_rcv h rh frm s :
  stable keeps_rcvs s (set_s_rcvs (s_rcvs s ++ [rcv_new h rh frm]) s).
Proof.
  split.
  - intros a l' E. exists l'. st_cbn. split; [apply nth_app_old; exact E | apply rcv_kept_refl].
  - intros a l' E L. st_cbn_in E. apply nth_snoc in E as [E|[-> ->]]; [apply nth_lt in E; lia|].
    repeat split.
Qed.

(** ** What every object keeps

    The identity of a sender link and of a delivery never changes, and they are
    never removed from their tables. *)
Definition snd_ids (l : slink) : N * bytes * N := (sn_id l, sn_name l, sn_rhandle l).
Definition dlv_ids (d : dlv) : N * bytes * bool := (dl_id d, dl_tag d, dl_sender d).
Definition keeps_objs (s s' : ses) : Prop :=
  (forall a l, nth_error (s_snds s) a = Some l ->
     exists l', nth_error (s_snds s') a = Some l' /\ snd_ids l' = snd_ids l)
  /\ (forall d x, nth_error (s_dlvs s) d = Some x ->
        exists x', nth_error (s_dlvs s') d = Some x' /\ dlv_ids x' = dlv_ids x).
#[export] Instance keeps_objs_pre : preorder keeps_objs.
Proof.
  split.
  - intros s. split; eauto.
  - intros s s1 s2 [A1 B1] [A2 B2]. split.
    + intros a l H. apply A1 in H as (l1 & H1 & E1). apply A2 in H1 as (l2 & H2 & E2).
      exists l2. split; [exact H2 | congruence].
    + intros a l H. apply B1 in H as (l1 & H1 & E1). apply B2 in H1 as (l2 & H2 & E2).
      exists l2. split; [exact H2 | congruence].
Qed.
#[export] Instance keeps_objs_sees : sees keeps_objs [Fsnds; Fdlvs].
Proof.
  intros s s' H. assert (H1 := H Fsnds eq_refl). assert (H2 := H Fdlvs eq_refl).
  cbn [same] in H1, H2. unfold keeps_objs. rewrite H1, H2. split; eauto.
Qed.
Class same_snd_ids (f : slink -> slink) : Prop := get_same_snd_ids : forall l, snd_ids (f l) = snd_ids l.
Class same_dlv_ids (f : dlv -> dlv) : Prop := get_same_dlv_ids : forall l, dlv_ids (f l) = dlv_ids l.
#[export] Hint Extern 0 (same_snd_ids _) => (intro; reflexivity) : typeclass_instances.
#[export] Hint Extern 0 (same_dlv_ids _) => (intro; reflexivity) : typeclass_instances.
#[export] Instance keeps_objs_upd_snd a f s {H : same_snd_ids f} : stable keeps_objs s (upd_snd a f s).
Proof.
  split.
  - intros b l E. rewrite nth_upd_snd. destruct (Nat.eqb_spec a b) as [->|].
    + rewrite E. exists (f l). split; [reflexivity | apply H].
    + eauto.
  - intros d x E. exists x. frw. auto.
Qed.
#[export] Instance keeps_objs_upd_dlv a f s {H : same_dlv_ids f} : stable keeps_objs s (upd_dlv a f s).
Proof.
  split.
  - intros d x E. exists x. frw. auto.
  - intros b l E. rewrite nth_upd_dlv. destruct (Nat.eqb_spec a b) as [->|].
    + rewrite E. exists (f l). split; [reflexivity | apply H].
    + eauto.
Qed.
#[export] Instance keeps_objs_add_snd l s : stable keeps_objs s (set_s_snds (s_snds s ++ [l]) s).
Proof. split; st_cbn; intros a x E; exists x; auto using nth_app_old. Qed.
#[export] Instance keeps_objs_add_dlv l s : stable keeps_objs s (set_s_dlvs (s_dlvs s ++ [l]) s).
Proof. split; st_cbn; intros a x E; exists x; auto using nth_app_old. Qed.

(** ** The counter of automatic tags, touched only by sends *)
Definition keeps_tags (s s' : ses) : Prop :=
  (forall a l, nth_error (s_snds s) a = Some l ->
     exists l', nth_error (s_snds s') a = Some l' /\ sn_tag l' = sn_tag l)
  /\ (forall a l, nth_error (s_snds s') a = Some l -> (length (s_snds s) <= a)%nat -> sn_tag l = 0).
#[export] Instance keeps_tags_pre : preorder keeps_tags.
Proof.
  split.
  - intros s. split; [eauto|]. intros a l H L. apply nth_lt in H. lia.
  - intros s s1 s2 [A1 B1] [A2 B2]. split.
    + intros a l H. apply A1 in H as (l1 & H1 & E1). apply A2 in H1 as (l2 & H2 & E2).
      exists l2. split; [exact H2 | congruence].
    + intros a l H L. destruct (Nat.lt_ge_cases a (length (s_snds s1))) as [L1|L1].
      * destruct (nth_error (s_snds s1) a) as [l1|] eqn:E;
          [|apply nth_error_None in E; lia].
        assert (T1 := B1 _ _ E L). apply A2 in E as (l' & H' & C).
        rewrite H in H'. injection H' as <-. congruence.
      * eapply B2; eauto.
Qed.
#[export] Instance keeps_tags_sees : sees keeps_tags [Fsnds].
Proof.
  intros s s' H. specialize (H Fsnds eq_refl). cbn [same] in H. unfold keeps_tags. rewrite H.
  split; [eauto|]. intros a l E L. apply nth_lt in E. lia.
Qed.
Class same_tag (f : slink -> slink) : Prop := get_same_tag : forall l, sn_tag (f l) = sn_tag l.
#[export] Hint Extern 0 (same_tag _) => (intro; reflexivity) : typeclass_instances.
#[export] Instance keeps_tags_upd_snd a f s {H : same_tag f} : stable keeps_tags s (upd_snd a f s).
Proof.
  split.
  - intros b l E. rewrite nth_upd_snd. destruct (Nat.eqb_spec a b) as [->|].
    + rewrite E. exists (f l). split; [reflexivity | apply H].
    + eauto.
  - intros b l E L. unfold upd_snd in E. destruct (nth_error (s_snds s) a) eqn:Ea.
    + st_cbn_in E. apply nth_lt in E. rewrite set_nth_length in E. lia.
    + apply nth_lt in E. lia.
Qed.
Lemma keeps_tags_add : forall l s, sn_tag l = 0 -> keeps_tags s (set_s_snds (s_snds s ++ [l]) s).
Proof.
  intros l s Ht. split.
  - intros a l' E. exists l'. st_cbn. split; [apply nth_app_old; exact E | auto].
  - intros a l' E L. st_cbn_in E. apply nth_snoc in E as [E|[-> ->]]; [apply nth_lt in E; lia|].
    auto.
Qed.
#[export] Instance keeps_tags_add_new id n h dc m s :
  stable keeps_tags s (set_s_snds (s_snds s ++ [snd_new id n h dc m]) s).
Proof. apply keeps_tags_add; reflexivity. Qed.
#[export] Instance keeps_tags_add_with id frm s :
  stable keeps_tags s (set_s_snds (s_snds s ++ [snd_with id frm]) s).
Proof. apply keeps_tags_add; reflexivity. Qed.
