(** * Which fields a function leaves alone

    Generated by tools/gen_frame.py.  [framed s s' M]: the session [s'] differs
    from [s] only in the fields [M]. *)

From Verif Require Export SessionStep.

Inductive fld : Type :=
| Fid | Flocal | Fended | Fending | Frchan | Fmfs | Fnout | Fnin | Fowin | Fiwin | Flinks | Fnames | Frhandles | Ferror | Fclosed | Fpending | Fsnd | Frcv | Fchans | Fsnds | Frcvs | Fdlvs | Ftasks | Fwaits | Fctl | Fout.
Scheme Equality for fld.
Definition same (f : fld) (s s' : ses) : Prop :=
  match f with
  | Fid => s_id s' = s_id s
  | Flocal => s_local s' = s_local s
  | Fended => s_ended s' = s_ended s
  | Fending => s_ending s' = s_ending s
  | Frchan => s_rchan s' = s_rchan s
  | Fmfs => s_mfs s' = s_mfs s
  | Fnout => s_nout s' = s_nout s
  | Fnin => s_nin s' = s_nin s
  | Fowin => s_owin s' = s_owin s
  | Fiwin => s_iwin s' = s_iwin s
  | Flinks => s_links s' = s_links s
  | Fnames => s_names s' = s_names s
  | Frhandles => s_rhandles s' = s_rhandles s
  | Ferror => s_error s' = s_error s
  | Fclosed => s_closed s' = s_closed s
  | Fpending => s_pending s' = s_pending s
  | Fsnd => s_snd s' = s_snd s
  | Frcv => s_rcv s' = s_rcv s
  | Fchans => s_chans s' = s_chans s
  | Fsnds => s_snds s' = s_snds s
  | Frcvs => s_rcvs s' = s_rcvs s
  | Fdlvs => s_dlvs s' = s_dlvs s
  | Ftasks => s_tasks s' = s_tasks s
  | Fwaits => s_waits s' = s_waits s
  | Fctl => s_ctl s' = s_ctl s
  | Fout => s_out s' = s_out s
  end.

Definition memf (f : fld) (M : list fld) : bool := existsb (fld_beq f) M.
Class framed (s s' : ses) (M : list fld) : Prop :=
  get_framed : forall f, memf f M = false -> same f s s'.

Lemma EOk_inj : forall A (a b : A), EOk a = EOk b -> a = b.
Proof. intros A a b H. congruence. Qed.
Lemma Some_inj : forall A (a b : A), Some a = Some b -> a = b.
Proof. intros A a b H. congruence. Qed.
Lemma same_refl : forall f s, same f s s.
Proof. intros []; reflexivity. Qed.
Lemma same_trans : forall f s s1 s2, same f s s1 -> same f s1 s2 -> same f s s2.
Proof. intros []; cbn [same]; congruence. Qed.
Lemma fr_refl : forall M s, framed s s M.
Proof. intros M s f _. apply same_refl. Qed.
Lemma fr_trans : forall M s s1 s2, framed s s1 M -> framed s1 s2 M -> framed s s2 M.
Proof. intros M s s1 s2 H1 H2 f Hf. eapply same_trans; [apply H1 | apply H2]; exact Hf. Qed.
Lemma fr_weaken : forall m M s s',
  forallb (fun f => memf f M) m = true -> framed s s' m -> framed s s' M.
Proof.
  intros m M s s' Hm H f Hf. apply H. unfold memf in *. apply Bool.not_true_iff_false. intros E.
  apply existsb_exists in E as [g [Hg Eg]]. apply internal_fld_dec_bl in Eg. subst g.
  rewrite forallb_forall in Hm. rewrite (Hm _ Hg) in Hf. discriminate.
Qed.

Lemma get_id : forall s s' M {H : framed s s' M}, memf Fid M = false -> s_id s' = s_id s.
Proof. intros s s' M H. exact (H Fid). Qed.
Lemma get_local : forall s s' M {H : framed s s' M}, memf Flocal M = false -> s_local s' = s_local s.
Proof. intros s s' M H. exact (H Flocal). Qed.
Lemma get_ended : forall s s' M {H : framed s s' M}, memf Fended M = false -> s_ended s' = s_ended s.
Proof. intros s s' M H. exact (H Fended). Qed.
Lemma get_ending : forall s s' M {H : framed s s' M}, memf Fending M = false -> s_ending s' = s_ending s.
Proof. intros s s' M H. exact (H Fending). Qed.
Lemma get_rchan : forall s s' M {H : framed s s' M}, memf Frchan M = false -> s_rchan s' = s_rchan s.
Proof. intros s s' M H. exact (H Frchan). Qed.
Lemma get_mfs : forall s s' M {H : framed s s' M}, memf Fmfs M = false -> s_mfs s' = s_mfs s.
Proof. intros s s' M H. exact (H Fmfs). Qed.
Lemma get_nout : forall s s' M {H : framed s s' M}, memf Fnout M = false -> s_nout s' = s_nout s.
Proof. intros s s' M H. exact (H Fnout). Qed.
Lemma get_nin : forall s s' M {H : framed s s' M}, memf Fnin M = false -> s_nin s' = s_nin s.
Proof. intros s s' M H. exact (H Fnin). Qed.
Lemma get_owin : forall s s' M {H : framed s s' M}, memf Fowin M = false -> s_owin s' = s_owin s.
Proof. intros s s' M H. exact (H Fowin). Qed.
Lemma get_iwin : forall s s' M {H : framed s s' M}, memf Fiwin M = false -> s_iwin s' = s_iwin s.
Proof. intros s s' M H. exact (H Fiwin). Qed.
Lemma get_links : forall s s' M {H : framed s s' M}, memf Flinks M = false -> s_links s' = s_links s.
Proof. intros s s' M H. exact (H Flinks). Qed.
Lemma get_names : forall s s' M {H : framed s s' M}, memf Fnames M = false -> s_names s' = s_names s.
Proof. intros s s' M H. exact (H Fnames). Qed.
Lemma get_rhandles : forall s s' M {H : framed s s' M}, memf Frhandles M = false -> s_rhandles s' = s_rhandles s.
Proof. intros s s' M H. exact (H Frhandles). Qed.
Lemma get_error : forall s s' M {H : framed s s' M}, memf Ferror M = false -> s_error s' = s_error s.
Proof. intros s s' M H. exact (H Ferror). Qed.
Lemma get_closed : forall s s' M {H : framed s s' M}, memf Fclosed M = false -> s_closed s' = s_closed s.
Proof. intros s s' M H. exact (H Fclosed). Qed.
Lemma get_pending : forall s s' M {H : framed s s' M}, memf Fpending M = false -> s_pending s' = s_pending s.
Proof. intros s s' M H. exact (H Fpending). Qed.
Lemma get_snd : forall s s' M {H : framed s s' M}, memf Fsnd M = false -> s_snd s' = s_snd s.
Proof. intros s s' M H. exact (H Fsnd). Qed.
Lemma get_rcv : forall s s' M {H : framed s s' M}, memf Frcv M = false -> s_rcv s' = s_rcv s.
Proof. intros s s' M H. exact (H Frcv). Qed.
Lemma get_chans : forall s s' M {H : framed s s' M}, memf Fchans M = false -> s_chans s' = s_chans s.
Proof. intros s s' M H. exact (H Fchans). Qed.
Lemma get_snds : forall s s' M {H : framed s s' M}, memf Fsnds M = false -> s_snds s' = s_snds s.
Proof. intros s s' M H. exact (H Fsnds). Qed.
Lemma get_rcvs : forall s s' M {H : framed s s' M}, memf Frcvs M = false -> s_rcvs s' = s_rcvs s.
Proof. intros s s' M H. exact (H Frcvs). Qed.
Lemma get_dlvs : forall s s' M {H : framed s s' M}, memf Fdlvs M = false -> s_dlvs s' = s_dlvs s.
Proof. intros s s' M H. exact (H Fdlvs). Qed.
Lemma get_tasks : forall s s' M {H : framed s s' M}, memf Ftasks M = false -> s_tasks s' = s_tasks s.
Proof. intros s s' M H. exact (H Ftasks). Qed.
Lemma get_waits : forall s s' M {H : framed s s' M}, memf Fwaits M = false -> s_waits s' = s_waits s.
Proof. intros s s' M H. exact (H Fwaits). Qed.
Lemma get_ctl : forall s s' M {H : framed s s' M}, memf Fctl M = false -> s_ctl s' = s_ctl s.
Proof. intros s s' M H. exact (H Fctl). Qed.
Lemma get_out : forall s s' M {H : framed s s' M}, memf Fout M = false -> s_out s' = s_out s.
Proof. intros s s' M H. exact (H Fout). Qed.
#[export] Instance fr_set_id v s : framed s (set_s_id v s) [Fid].
Proof. intros []; cbn; try discriminate; reflexivity. Qed.
#[export] Instance fr_set_local v s : framed s (set_s_local v s) [Flocal].
Proof. intros []; cbn; try discriminate; reflexivity. Qed.
#[export] Instance fr_set_ended v s : framed s (set_s_ended v s) [Fended].
Proof. intros []; cbn; try discriminate; reflexivity. Qed.
#[export] Instance fr_set_ending v s : framed s (set_s_ending v s) [Fending].
Proof. intros []; cbn; try discriminate; reflexivity. Qed.
#[export] Instance fr_set_rchan v s : framed s (set_s_rchan v s) [Frchan].
Proof. intros []; cbn; try discriminate; reflexivity. Qed.
#[export] Instance fr_set_mfs v s : framed s (set_s_mfs v s) [Fmfs].
Proof. intros []; cbn; try discriminate; reflexivity. Qed.
#[export] Instance fr_set_nout v s : framed s (set_s_nout v s) [Fnout].
Proof. intros []; cbn; try discriminate; reflexivity. Qed.
#[export] Instance fr_set_nin v s : framed s (set_s_nin v s) [Fnin].
Proof. intros []; cbn; try discriminate; reflexivity. Qed.
#[export] Instance fr_set_owin v s : framed s (set_s_owin v s) [Fowin].
Proof. intros []; cbn; try discriminate; reflexivity. Qed.
#[export] Instance fr_set_iwin v s : framed s (set_s_iwin v s) [Fiwin].
Proof. intros []; cbn; try discriminate; reflexivity. Qed.
#[export] Instance fr_set_links v s : framed s (set_s_links v s) [Flinks].
Proof. intros []; cbn; try discriminate; reflexivity. Qed.
#[export] Instance fr_set_names v s : framed s (set_s_names v s) [Fnames].
Proof. intros []; cbn; try discriminate; reflexivity. Qed.
#[export] Instance fr_set_rhandles v s : framed s (set_s_rhandles v s) [Frhandles].
Proof. intros []; cbn; try discriminate; reflexivity. Qed.
#[export] Instance fr_set_error v s : framed s (set_s_error v s) [Ferror].
Proof. intros []; cbn; try discriminate; reflexivity. Qed.
#[export] Instance fr_set_closed v s : framed s (set_s_closed v s) [Fclosed].
Proof. intros []; cbn; try discriminate; reflexivity. Qed.
#[export] Instance fr_set_pending v s : framed s (set_s_pending v s) [Fpending].
Proof. intros []; cbn; try discriminate; reflexivity. Qed.
#[export] Instance fr_set_snd v s : framed s (set_s_snd v s) [Fsnd].
Proof. intros []; cbn; try discriminate; reflexivity. Qed.
#[export] Instance fr_set_rcv v s : framed s (set_s_rcv v s) [Frcv].
Proof. intros []; cbn; try discriminate; reflexivity. Qed.
#[export] Instance fr_set_chans v s : framed s (set_s_chans v s) [Fchans].
Proof. intros []; cbn; try discriminate; reflexivity. Qed.
#[export] Instance fr_set_snds v s : framed s (set_s_snds v s) [Fsnds].
Proof. intros []; cbn; try discriminate; reflexivity. Qed.
#[export] Instance fr_set_rcvs v s : framed s (set_s_rcvs v s) [Frcvs].
Proof. intros []; cbn; try discriminate; reflexivity. Qed.
#[export] Instance fr_set_dlvs v s : framed s (set_s_dlvs v s) [Fdlvs].
Proof. intros []; cbn; try discriminate; reflexivity. Qed.
#[export] Instance fr_set_tasks v s : framed s (set_s_tasks v s) [Ftasks].
Proof. intros []; cbn; try discriminate; reflexivity. Qed.
#[export] Instance fr_set_waits v s : framed s (set_s_waits v s) [Fwaits].
Proof. intros []; cbn; try discriminate; reflexivity. Qed.
#[export] Instance fr_set_ctl v s : framed s (set_s_ctl v s) [Fctl].
Proof. intros []; cbn; try discriminate; reflexivity. Qed.
#[export] Instance fr_set_out v s : framed s (set_s_out v s) [Fout].
Proof. intros []; cbn; try discriminate; reflexivity. Qed.

(** [frw]: replace [s_X (f s)] by [s_X s] wherever [f] leaves [X] alone. *)
Ltac frw_step P L :=
  match goal with
  | |- context [P ?t] =>
      tryif is_var t then fail else
      (let H := fresh in
       eassert (H : framed _ t _) by typeclasses eauto;
       rewrite (L _ t _ H eq_refl); clear H)
  end.
Ltac frw_step_in H P L :=
  match type of H with
  | context [P ?t] =>
      tryif is_var t then fail else
      (let K := fresh in
       eassert (K : framed _ t _) by typeclasses eauto;
       rewrite (L _ t _ K eq_refl) in H; clear K)
  end.

Ltac frw1 := first
  [ frw_step s_id @get_id
  | frw_step s_local @get_local
  | frw_step s_ended @get_ended
  | frw_step s_ending @get_ending
  | frw_step s_rchan @get_rchan
  | frw_step s_mfs @get_mfs
  | frw_step s_nout @get_nout
  | frw_step s_nin @get_nin
  | frw_step s_owin @get_owin
  | frw_step s_iwin @get_iwin
  | frw_step s_links @get_links
  | frw_step s_names @get_names
  | frw_step s_rhandles @get_rhandles
  | frw_step s_error @get_error
  | frw_step s_closed @get_closed
  | frw_step s_pending @get_pending
  | frw_step s_snd @get_snd
  | frw_step s_rcv @get_rcv
  | frw_step s_chans @get_chans
  | frw_step s_snds @get_snds
  | frw_step s_rcvs @get_rcvs
  | frw_step s_dlvs @get_dlvs
  | frw_step s_tasks @get_tasks
  | frw_step s_waits @get_waits
  | frw_step s_ctl @get_ctl
  | frw_step s_out @get_out ].
Ltac frw1_in H := first
  [ frw_step_in H s_id @get_id
  | frw_step_in H s_local @get_local
  | frw_step_in H s_ended @get_ended
  | frw_step_in H s_ending @get_ending
  | frw_step_in H s_rchan @get_rchan
  | frw_step_in H s_mfs @get_mfs
  | frw_step_in H s_nout @get_nout
  | frw_step_in H s_nin @get_nin
  | frw_step_in H s_owin @get_owin
  | frw_step_in H s_iwin @get_iwin
  | frw_step_in H s_links @get_links
  | frw_step_in H s_names @get_names
  | frw_step_in H s_rhandles @get_rhandles
  | frw_step_in H s_error @get_error
  | frw_step_in H s_closed @get_closed
  | frw_step_in H s_pending @get_pending
  | frw_step_in H s_snd @get_snd
  | frw_step_in H s_rcv @get_rcv
  | frw_step_in H s_chans @get_chans
  | frw_step_in H s_snds @get_snds
  | frw_step_in H s_rcvs @get_rcvs
  | frw_step_in H s_dlvs @get_dlvs
  | frw_step_in H s_tasks @get_tasks
  | frw_step_in H s_waits @get_waits
  | frw_step_in H s_ctl @get_ctl
  | frw_step_in H s_out @get_out ].
Ltac frw := repeat frw1.
Ltac frw_in H := repeat frw1_in H.

(** Splitting on every test of the goal. *)
Ltac fr_break :=
  match goal with
  | |- context [match ?x with _ => _ end] =>
      lazymatch x with context [match _ with _ => _ end] => fail | _ => destruct x eqn:? end
  end.
Ltac fr_small :=
  cbv beta iota zeta delta [new_chan insert_link cond_wait]; cbn [fst snd].
(** [framed s t M] where [t] is a composition. *)
Ltac fr_chain :=
  lazymatch goal with
  | |- framed ?s ?s _ => apply fr_refl
  | |- framed ?s ?t ?M =>
      first
      [ match goal with
        | H : framed s t ?m |- _ => exact (fr_weaken m M s t eq_refl H)
        | H : framed ?u t ?m |- _ =>
            apply (fr_trans M s u t); [ fr_chain | exact (fr_weaken m M u t eq_refl H) ]
        end
      | let x := lazymatch t with
                 | snd (?g ?x) => x
                 | fst (?g ?x) => x
                 | fail_link _ ?x _ => x
                 | settle_one _ _ ?x _ => x
                 | ?g ?x => x
                 end in
        lazymatch type of x with ses => idtac end;
        apply (fr_trans M s x t);
        [ fr_chain | eapply fr_weaken; [|typeclasses eauto]; reflexivity ]
      | eapply fr_weaken; [|typeclasses eauto]; reflexivity ]
  end.
Ltac fr_pair :=
  match goal with
  | E : _ = (_, ?s0) |- _ =>
      lazymatch type of s0 with ses => is_var s0; apply (f_equal snd) in E; cbn [snd] in E; subst s0 end
  | E : _ = (?s0, _) |- _ =>
      lazymatch type of s0 with ses => is_var s0; apply (f_equal fst) in E; cbn [fst] in E; subst s0 end
  end.
Ltac fr_know H := fail.
Ltac fr_knows :=
  repeat match goal with
         | E : _ = EOk _ |- _ => progress fr_know E
         | E : _ = Some _ |- _ => progress fr_know E
         end.
Ltac fr_solve :=
  fr_small; repeat (fr_break; fr_small); try discriminate; fr_knows; repeat fr_pair; fr_chain.
(** The same with the result in a hypothesis [m = EOk s']. *)
Ltac fr_break_in H :=
  match type of H with
  | context [match ?x with _ => _ end] =>
      lazymatch x with context [match _ with _ => _ end] => fail | _ => destruct x eqn:? end
  end.

#[export] Instance fr_post f s : framed s (post f s) [Fout].
Proof. unfold post. fr_solve. Qed.
#[export] Instance fr_post_all l s : framed s (post_all l s) [Fout].
Proof.
  unfold post_all. revert s. induction l as [|x l IH]; intros s; cbn [fold_left]; [apply fr_refl|].
  eapply fr_trans; [|apply IH]. fr_solve.
Qed.
#[export] Instance fr_upd_snd a f s : framed s (upd_snd a f s) [Fsnds].
Proof. unfold upd_snd. fr_solve. Qed.
#[export] Instance fr_upd_rcv a f s : framed s (upd_rcv a f s) [Frcvs].
Proof. unfold upd_rcv. fr_solve. Qed.
#[export] Instance fr_upd_dlv a f s : framed s (upd_dlv a f s) [Fdlvs].
Proof. unfold upd_dlv. fr_solve. Qed.
#[export] Instance fr_upd_task a f s : framed s (upd_task a f s) [Ftasks].
Proof. unfold upd_task. fr_solve. Qed.
#[export] Instance fr_upd_wait a f s : framed s (upd_wait a f s) [Fwaits].
Proof. unfold upd_wait. fr_solve. Qed.
#[export] Instance fr_fire c v s : framed s (fire c v s) [Fchans].
Proof. unfold fire. fr_solve. Qed.
#[export] Instance fr_drop_tx c s : framed s (drop_tx c s) [Fchans].
Proof. unfold drop_tx. fr_solve. Qed.
#[export] Instance fr_fire_opt c v s : framed s (fire_opt c v s) [Fchans].
Proof. unfold fire_opt. fr_solve. Qed.
#[export] Instance fr_drop_opt c s : framed s (drop_opt c s) [Fchans].
Proof. unfold drop_opt. fr_solve. Qed.
#[export] Instance fr_fire_all l v s : framed s (fire_all l v s) [Fchans].
Proof.
  unfold fire_all. revert s. induction l as [|x l IH]; intros s; cbn [fold_left]; [apply fr_refl|].
  eapply fr_trans; [|apply IH]. fr_solve.
Qed.
#[export] Instance fr_control k s : framed s (control k s) [Fctl].
Proof. unfold control. fr_solve. Qed.
#[export] Instance fr_notify_lock_snd a s : framed s (notify_lock_snd a s) [Fchans; Fsnds].
Proof. unfold notify_lock_snd. fr_solve. Qed.
#[export] Instance fr_snd_remote_detached a e s : framed s (snd_remote_detached a e s) [Fchans; Fsnds].
Proof. unfold snd_remote_detached. fr_solve. Qed.
#[export] Instance fr_drop_established_snd a s : framed s (drop_established_snd a s) [Fchans; Fsnds].
Proof. unfold drop_established_snd. fr_solve. Qed.
#[export] Instance fr_apply_flow f a s : framed s (apply_flow f a s) [Fchans; Fsnds].
Proof. unfold apply_flow. fr_solve. Qed.
#[export] Instance fr_rcv_remote_detached a e s : framed s (rcv_remote_detached a e s) [Frcvs].
Proof. unfold rcv_remote_detached. fr_solve. Qed.
#[export] Instance fr_drop_established_rcv a s : framed s (drop_established_rcv a s) [Frcvs].
Proof. unfold drop_established_rcv. fr_solve. Qed.
#[export] Instance fr_drop_link l s : framed s (drop_link l s) [Fchans; Fsnds; Frcvs].
Proof. unfold drop_link. fr_solve. Qed.
#[export] Instance fr_put_link k l s : framed s (put_link k l s) [Flinks; Fchans; Fsnds; Frcvs].
Proof. unfold put_link. fr_solve. Qed.
#[export] Instance fr_remove_link k s : framed s (remove_link k s) [Flinks; Fchans; Fsnds; Frcvs].
Proof. unfold remove_link. fr_solve. Qed.
#[export] Instance fr_set_unsettled b m s : framed s (set_unsettled b m s) [Fsnd; Frcv].
Proof. unfold set_unsettled. fr_solve. Qed.
#[export] Instance fr_put_unsettled b id d s : framed s (put_unsettled b id d s) [Fsnd; Frcv; Fchans].
Proof. unfold put_unsettled. fr_solve. Qed.
#[export] Instance fr_del_unsettled b id s : framed s (del_unsettled b id s) [Fsnd; Frcv; Fchans].
Proof. unfold del_unsettled. fr_solve. Qed.
#[export] Instance fr_new_rcv id h tag settled s : framed s (snd (new_rcv id h tag settled s)) [Fsnd; Frcv; Fchans; Fdlvs].
Proof. unfold new_rcv. fr_solve. Qed.
#[export] Instance fr_dlv_settle i st s : framed s (dlv_settle i st s) [Fdlvs; Fout].
Proof. unfold dlv_settle. fr_solve. Qed.
#[export] Instance fr_dlv_update i st s : framed s (dlv_update i st s) [Fout].
Proof. unfold dlv_update. fr_solve. Qed.
#[export] Instance fr_dlv_drop i s : framed s (dlv_drop i s) [Fsnd; Frcv; Fchans; Fdlvs; Fout].
Proof. unfold dlv_drop. fr_solve. Qed.
#[export] Instance fr_drop_dlvs l s : framed s (drop_dlvs l s) [Fsnd; Frcv; Fchans; Fdlvs; Fout].
Proof.
  unfold drop_dlvs. revert s. induction l as [|x l IH]; intros s; cbn [fold_left]; [apply fr_refl|].
  eapply fr_trans; [|apply IH]. fr_solve.
Qed.
#[export] Instance fr_poll_wait w s : framed s (poll_wait w s) [Fsnd; Frcv; Fchans; Fdlvs; Fwaits].
Proof. unfold poll_wait. fr_solve. Qed.
#[export] Instance fr_fail_all l s : framed s (fail_all l s) [Fchans].
Proof.
  unfold fail_all. revert s. induction l as [|x l IH]; intros s; cbn [fold_left]; [apply fr_refl|].
  eapply fr_trans; [|apply IH]. fr_solve.
Qed.
#[export] Instance fr_fail_link e s x : framed s (fail_link e s x) [Fchans; Fsnds; Frcvs].
Proof. unfold fail_link. fr_solve. Qed.
#[export] Instance fr_fail_links e l s : framed s (fail_links e l s) [Fchans; Fsnds; Frcvs].
Proof.
  unfold fail_links. revert s. induction l as [|x l IH]; intros s; cbn [fold_left]; [apply fr_refl|].
  eapply fr_trans; [|apply IH]. fr_solve.
Qed.
#[export] Instance fr_drop_links l s : framed s (drop_links l s) [Fchans; Fsnds; Frcvs].
Proof.
  unfold drop_links. revert s. induction l as [|x l IH]; intros s; cbn [fold_left]; [apply fr_refl|].
  eapply fr_trans; [|apply IH]. fr_solve.
Qed.

Ltac fr_er H :=
  cbv beta iota zeta delta [new_chan insert_link cond_wait ebind emap] in H; cbn [fst snd] in H;
  repeat (fr_break_in H; cbn [fst snd] in H; try discriminate H);
  fr_knows;
  repeat fr_pair;
  try discriminate H; try solve [fr_chain];
  first [apply EOk_inj in H | apply Some_inj in H];
  try (apply (f_equal fst) in H; cbn [fst] in H); subst; fr_chain.

#[export] Instance fr_ses_set_error e s : framed s (ses_set_error e s) [Fended; Flinks; Fnames; Ferror; Fclosed; Fpending; Fsnd; Frcv; Fchans; Fsnds; Frcvs].
Proof. unfold ses_set_error. fr_solve. Qed.
#[export] Instance fr_attach_local_sender frm s : framed s (snd (attach_local_sender frm s)) [Flinks; Fnames; Fchans; Fout].
Proof. unfold attach_local_sender. fr_solve. Qed.
Lemma fr_attach_remote_sender : forall frm r a s s', attach_remote_sender frm r a s = EOk s' -> framed s s' [Flinks; Fnames; Frhandles; Fchans; Fsnds; Frcvs; Fout].
Proof. intros * H. unfold attach_remote_sender in H. fr_er H. Qed.
Ltac fr_know H ::= first [ match type of H with attach_remote_sender _ _ _ _ = _ => apply fr_attach_remote_sender in H end ].
#[export] Instance fr_detach_sender id c e tx s : framed s (detach_sender id c e tx s) [Flinks; Fchans; Fsnds; Frcvs; Fctl; Fout].
Proof. unfold detach_sender. fr_solve. Qed.
#[export] Instance fr_detach_unconfirmed frm a e s : framed s (detach_unconfirmed frm a e s) [Flinks; Fchans; Fsnds; Frcvs; Fout].
Proof. unfold detach_unconfirmed. fr_solve. Qed.
#[export] Instance fr_attach_remote_receiver frm s : framed s (snd (attach_remote_receiver frm s)) [Flinks; Frhandles; Frcvs].
Proof. unfold attach_remote_receiver. fr_solve. Qed.
#[export] Instance fr_attach_local_receiver frm s : framed s (snd (attach_local_receiver frm s)) [Flinks; Fnames; Fchans; Frcvs; Fout].
Proof. unfold attach_local_receiver. fr_solve. Qed.
#[export] Instance fr_confirm_receiver a r s : framed s (confirm_receiver a r s) [Flinks; Fchans; Fsnds; Frcvs; Fout].
Proof. unfold confirm_receiver. fr_solve. Qed.
Lemma fr_detach_receiver : forall id c e tx s s', detach_receiver id c e tx s = EOk s' -> framed s s' [Flinks; Fchans; Fsnds; Frcvs; Fctl; Fout].
Proof. intros * H. unfold detach_receiver in H. fr_er H. Qed.
Ltac fr_know H ::= first
  [ match type of H with attach_remote_sender _ _ _ _ = _ => apply fr_attach_remote_sender in H end
  | match type of H with detach_receiver _ _ _ _ _ = _ => apply fr_detach_receiver in H end ].
#[export] Instance fr_snd_close a e s : framed s (snd_close a e s) [Flinks; Fchans; Fsnds; Frcvs; Fctl; Fout].
Proof. unfold snd_close. fr_solve. Qed.
Lemma fr_rcv_close : forall a e s s', rcv_close a e s = EOk s' -> framed s s' [Flinks; Fchans; Fsnds; Frcvs; Fctl; Fout].
Proof. intros * H. unfold rcv_close in H. fr_er H. Qed.
Ltac fr_know H ::= first
  [ match type of H with attach_remote_sender _ _ _ _ = _ => apply fr_attach_remote_sender in H end
  | match type of H with detach_receiver _ _ _ _ _ = _ => apply fr_detach_receiver in H end
  | match type of H with rcv_close _ _ _ = _ => apply fr_rcv_close in H end ].
Lemma fr_ses_detach_receiver : forall h e s s', ses_detach_receiver h e s = EOk s' -> framed s s' [Flinks; Fchans; Fsnds; Frcvs; Fctl; Fout].
Proof. intros * H. unfold ses_detach_receiver in H. fr_er H. Qed.
Ltac fr_know H ::= first
  [ match type of H with attach_remote_sender _ _ _ _ = _ => apply fr_attach_remote_sender in H end
  | match type of H with detach_receiver _ _ _ _ _ = _ => apply fr_detach_receiver in H end
  | match type of H with rcv_close _ _ _ = _ => apply fr_rcv_close in H end
  | match type of H with ses_detach_receiver _ _ _ = _ => apply fr_ses_detach_receiver in H end ].
#[export] Instance fr_ses_detach_sender h e s : framed s (ses_detach_sender h e s) [Flinks; Fchans; Fsnds; Frcvs; Fctl; Fout].
Proof. unfold ses_detach_sender. fr_solve. Qed.
#[export] Instance fr_handle_flow f o s : framed s (handle_flow f o s) [Fnin; Fowin; Fiwin; Fpending; Fchans; Fsnds; Fout].
Proof. unfold handle_flow. fr_solve. Qed.
#[export] Instance fr_rcv_link_flow h dc c s : framed s (rcv_link_flow h dc c s) [Fout].
Proof. unfold rcv_link_flow. fr_solve. Qed.
Lemma fr_set_link_credit : forall p a c s s', set_link_credit p a c s = EOk s' -> framed s s' [Frcvs; Fout].
Proof. intros * H. unfold set_link_credit in H. fr_er H. Qed.
Ltac fr_know H ::= first
  [ match type of H with attach_remote_sender _ _ _ _ = _ => apply fr_attach_remote_sender in H end
  | match type of H with detach_receiver _ _ _ _ _ = _ => apply fr_detach_receiver in H end
  | match type of H with rcv_close _ _ _ = _ => apply fr_rcv_close in H end
  | match type of H with ses_detach_receiver _ _ _ = _ => apply fr_ses_detach_receiver in H end
  | match type of H with set_link_credit _ _ _ _ = _ => apply fr_set_link_credit in H end ].
#[export] Instance fr_transmit t tk l tag s : framed s (transmit t tk l tag s) [Fnout; Fiwin; Fsnd; Frcv; Fchans; Fdlvs; Ftasks; Fout].
Proof. unfold transmit. fr_solve. Qed.
#[export] Instance fr_session_loop t tk l tag s : framed s (session_loop t tk l tag s) [Fnout; Fiwin; Fpending; Fsnd; Frcv; Fchans; Fdlvs; Ftasks; Fout].
Proof. unfold session_loop. fr_solve. Qed.
#[export] Instance fr_link_loop t tk l tag s : framed s (link_loop t tk l tag s) [Fnout; Fiwin; Fpending; Fsnd; Frcv; Fchans; Fsnds; Fdlvs; Ftasks; Fout].
Proof. unfold link_loop. fr_solve. Qed.
#[export] Instance fr_poll_send t s : framed s (poll_send t s) [Fnout; Fiwin; Fpending; Fsnd; Frcv; Fchans; Fsnds; Fdlvs; Ftasks; Fout].
Proof. unfold poll_send. fr_solve. Qed.
#[export] Instance fr_settle_one disp b s x : framed s (settle_one disp b s x) [Fsnd; Frcv; Fchans].
Proof. unfold settle_one. fr_solve. Qed.
#[export] Instance fr_settle_all disp b l s : framed s (settle_all disp b l s) [Fsnd; Frcv; Fchans].
Proof.
  unfold settle_all. revert s. induction l as [|x l IH]; intros s; cbn [fold_left]; [apply fr_refl|].
  eapply fr_trans; [|apply IH]. fr_solve.
Qed.
#[export] Instance fr_settle_deliveries disp s : framed s (settle_deliveries disp s) [Fsnd; Frcv; Fchans].
Proof. unfold settle_deliveries. fr_solve. Qed.
Lemma fr_rcv_transfer : forall p tr a s s' r, rcv_transfer p tr a s = EOk (s', r) -> framed s s' [Flinks; Fsnd; Frcv; Fchans; Fsnds; Frcvs; Fdlvs; Fctl; Fout].
Proof. intros * H. unfold rcv_transfer in H. fr_er H. Qed.
Ltac fr_know H ::= first
  [ match type of H with attach_remote_sender _ _ _ _ = _ => apply fr_attach_remote_sender in H end
  | match type of H with detach_receiver _ _ _ _ _ = _ => apply fr_detach_receiver in H end
  | match type of H with rcv_close _ _ _ = _ => apply fr_rcv_close in H end
  | match type of H with ses_detach_receiver _ _ _ = _ => apply fr_ses_detach_receiver in H end
  | match type of H with set_link_credit _ _ _ _ = _ => apply fr_set_link_credit in H end
  | match type of H with rcv_transfer _ _ _ _ = _ => apply fr_rcv_transfer in H end ].
#[export] Instance fr_fail_unsettled b h e s : framed s (fail_unsettled b h e s) [Fsnd; Frcv; Fchans].
Proof. unfold fail_unsettled. fr_solve. Qed.
#[export] Instance fr_drain_pending h e s : framed s (drain_pending h e s) [Fpending; Fchans].
Proof. unfold drain_pending. fr_solve. Qed.
#[export] Instance fr_answer tx e s : framed s (answer tx e s) [Fchans].
Proof. unfold answer. fr_solve. Qed.
#[export] Instance fr_rcv_detached a s : framed s (rcv_detached a s) [Fsnd; Frcv; Fchans; Frcvs; Fdlvs; Fout].
Proof. unfold rcv_detached. fr_solve. Qed.
#[export] Instance fr_handle_detach d s : framed s (fst (handle_detach d s)) [Flinks; Fnames; Frhandles; Fpending; Fsnd; Frcv; Fchans; Fsnds; Frcvs; Fdlvs; Fout].
Proof. unfold handle_detach. fr_solve. Qed.
#[export] Instance fr_dispatch act s : framed s (dispatch act s) [Fctl].
Proof. unfold dispatch. fr_solve. Qed.
Lemma fr_ses_handle_frame : forall p f s s' r, ses_handle_frame p f s = EOk (s', r) -> framed s s' [Fnin; Fowin; Fiwin; Flinks; Fnames; Frhandles; Fpending; Fsnd; Frcv; Fchans; Fsnds; Frcvs; Fdlvs; Fctl; Fout].
Proof. intros * H. unfold ses_handle_frame in H. fr_er H. Qed.
Ltac fr_know H ::= first
  [ match type of H with attach_remote_sender _ _ _ _ = _ => apply fr_attach_remote_sender in H end
  | match type of H with detach_receiver _ _ _ _ _ = _ => apply fr_detach_receiver in H end
  | match type of H with rcv_close _ _ _ = _ => apply fr_rcv_close in H end
  | match type of H with ses_detach_receiver _ _ _ = _ => apply fr_ses_detach_receiver in H end
  | match type of H with set_link_credit _ _ _ _ = _ => apply fr_set_link_credit in H end
  | match type of H with rcv_transfer _ _ _ _ = _ => apply fr_rcv_transfer in H end
  | match type of H with ses_handle_frame _ _ _ = _ => apply fr_ses_handle_frame in H end ].
Lemma fr_handle_attach : forall frm s s', handle_attach frm s = Some s' -> framed s s' [Flinks; Frhandles; Fchans; Fsnds].
Proof. intros * H. unfold handle_attach in H. fr_er H. Qed.
Ltac fr_know H ::= first
  [ match type of H with attach_remote_sender _ _ _ _ = _ => apply fr_attach_remote_sender in H end
  | match type of H with detach_receiver _ _ _ _ _ = _ => apply fr_detach_receiver in H end
  | match type of H with rcv_close _ _ _ = _ => apply fr_rcv_close in H end
  | match type of H with ses_detach_receiver _ _ _ = _ => apply fr_ses_detach_receiver in H end
  | match type of H with set_link_credit _ _ _ _ = _ => apply fr_set_link_credit in H end
  | match type of H with rcv_transfer _ _ _ _ = _ => apply fr_rcv_transfer in H end
  | match type of H with ses_handle_frame _ _ _ = _ => apply fr_ses_handle_frame in H end
  | match type of H with handle_attach _ _ = _ => apply fr_handle_attach in H end ].
#[export] Instance fr_on_attach frm s : framed s (on_attach frm s) [Flinks; Frhandles; Fchans; Fsnds; Frcvs; Fctl].
Proof. unfold on_attach. fr_solve. Qed.
#[export] Instance fr_ses_end  s : framed s (ses_end s) [Fending; Fclosed; Fchans; Fout].
Proof. unfold ses_end. fr_solve. Qed.
Lemma fr_control_ok : forall p edit k s s', control_ok p edit k s = EOk s' -> framed s s' [Fnin; Fowin; Fiwin; Flinks; Fnames; Frhandles; Fpending; Fchans; Fsnds; Frcvs; Fctl; Fout].
Proof. intros * H. unfold control_ok in H. fr_er H. Qed.
Ltac fr_know H ::= first
  [ match type of H with attach_remote_sender _ _ _ _ = _ => apply fr_attach_remote_sender in H end
  | match type of H with detach_receiver _ _ _ _ _ = _ => apply fr_detach_receiver in H end
  | match type of H with rcv_close _ _ _ = _ => apply fr_rcv_close in H end
  | match type of H with ses_detach_receiver _ _ _ = _ => apply fr_ses_detach_receiver in H end
  | match type of H with set_link_credit _ _ _ _ = _ => apply fr_set_link_credit in H end
  | match type of H with rcv_transfer _ _ _ _ = _ => apply fr_rcv_transfer in H end
  | match type of H with ses_handle_frame _ _ _ = _ => apply fr_ses_handle_frame in H end
  | match type of H with handle_attach _ _ = _ => apply fr_handle_attach in H end
  | match type of H with control_ok _ _ _ _ = _ => apply fr_control_ok in H end ].
Lemma fr_control_err : forall e k s s', control_err e k s = EOk s' -> framed s s' [Flinks; Fchans; Fsnds; Frcvs; Fctl; Fout].
Proof. intros * H. unfold control_err in H. fr_er H. Qed.
Ltac fr_know H ::= first
  [ match type of H with attach_remote_sender _ _ _ _ = _ => apply fr_attach_remote_sender in H end
  | match type of H with detach_receiver _ _ _ _ _ = _ => apply fr_detach_receiver in H end
  | match type of H with rcv_close _ _ _ = _ => apply fr_rcv_close in H end
  | match type of H with ses_detach_receiver _ _ _ = _ => apply fr_ses_detach_receiver in H end
  | match type of H with set_link_credit _ _ _ _ = _ => apply fr_set_link_credit in H end
  | match type of H with rcv_transfer _ _ _ _ = _ => apply fr_rcv_transfer in H end
  | match type of H with ses_handle_frame _ _ _ = _ => apply fr_ses_handle_frame in H end
  | match type of H with handle_attach _ _ = _ => apply fr_handle_attach in H end
  | match type of H with control_ok _ _ _ _ = _ => apply fr_control_ok in H end
  | match type of H with control_err _ _ _ = _ => apply fr_control_err in H end ].

(** ** What a function posts

    [posted s s' K]: between [s] and [s'] the frames posted are of the kinds [K]. *)
Inductive fkind : Type :=
| KindOpen | KindBegin | KindAttach | KindFlow | KindEcho | KindTransfer | KindDisposition
| KindDetach | KindEnd | KindClose | KindEmpty.
Scheme Equality for fkind.
Definition kind_of (f : frame) : fkind :=
  match f with
  | FOpen _ => KindOpen | FBegin _ => KindBegin | FAttach _ => KindAttach
  | FFlow f => if flow_echo f then KindEcho else KindFlow
  | FTransfer _ => KindTransfer | FDisposition _ => KindDisposition | FDetach _ => KindDetach
  | FEnd _ => KindEnd | FClose _ => KindClose | FEmpty => KindEmpty
  end.
Definition memk (k : fkind) (K : list fkind) : bool := existsb (fkind_beq k) K.
Class posted (s s' : ses) (K : list fkind) : Prop :=
  get_posted : exists fs, s_out s' = s_out s ++ fs /\ Forall (fun f => memk (kind_of f) K = true) fs.

Lemma po_refl : forall K s, posted s s K.
Proof. intros K s. exists []. rewrite app_nil_r. auto. Qed.
Lemma po_framed : forall M K s s', framed s s' M -> memf Fout M = false -> posted s s' K.
Proof.
  intros M K s s' H Hm. exists []. rewrite app_nil_r. split; [exact (H Fout Hm) | constructor].
Qed.
Lemma po_trans : forall K s s1 s2, posted s s1 K -> posted s1 s2 K -> posted s s2 K.
Proof.
  intros K s s1 s2 [f1 [E1 H1]] [f2 [E2 H2]]. exists (f1 ++ f2). rewrite E2, E1, app_assoc.
  split; [reflexivity | apply Forall_app; auto].
Qed.
Lemma memk_in : forall k K, memk k K = true <-> In k K.
Proof.
  intros k K. unfold memk. rewrite existsb_exists. split.
  - intros [x [Hx E]]. apply internal_fkind_dec_bl in E. subst. exact Hx.
  - intros H. exists k. split; [exact H | apply internal_fkind_dec_lb; reflexivity].
Qed.
Lemma po_weaken : forall k K s s',
  forallb (fun x => memk x K) k = true -> posted s s' k -> posted s s' K.
Proof.
  intros k K s s' Hk [fs [E H]]. exists fs. split; [exact E|].
  eapply Forall_impl; [|exact H]. cbn beta. intros f Hf. rewrite forallb_forall in Hk.
  apply Hk. apply memk_in. exact Hf.
Qed.
#[export] Instance po_post f s : posted s (post f s) [kind_of f].
Proof.
  exists [f]. split; [reflexivity | constructor; [|constructor]].
  apply memk_in. left. reflexivity.
Qed.
Lemma po_post_all : forall K l s,
  Forall (fun f => memk (kind_of f) K = true) l -> posted s (post_all l s) K.
Proof.
  intros K l s H. exists l. split; [|exact H].
  unfold post_all. revert s. clear H. induction l as [|f l IH]; intros s; cbn [fold_left].
  - rewrite app_nil_r. reflexivity.
  - rewrite IH. unfold post. st_cbn. rewrite <- app_assoc. reflexivity.
Qed.

Lemma more_frames_kind : forall fuel max h fmt b,
  Forall (fun f => memk (kind_of f) [KindTransfer] = true) (more_frames fuel max h fmt b).
Proof.
  induction fuel as [|fuel IH]; intros max h fmt b; cbn [more_frames]; [constructor|].
  destruct b; [constructor|]. constructor; [reflexivity | apply IH].
Qed.
Lemma transfer_frames_kind : forall mfs h id tag body st fmt,
  Forall (fun f => memk (kind_of f) [KindTransfer] = true) (transfer_frames mfs h id tag body st fmt).
Proof.
  intros. unfold transfer_frames. fr_break.
  - constructor; [reflexivity | apply more_frames_kind].
  - constructor; [reflexivity | constructor].
Qed.
#[export] Instance po_transfers mfs h id tag body st fmt s :
  posted s (post_all (transfer_frames mfs h id tag body st fmt) s) [KindTransfer].
Proof. apply po_post_all, transfer_frames_kind. Qed.

Ltac po_one :=
  first [ eapply po_framed; [typeclasses eauto | reflexivity]
        | eapply po_weaken; [|typeclasses eauto]; reflexivity ].
Ltac po_chain :=
  lazymatch goal with
  | |- posted ?s ?s _ => apply po_refl
  | |- posted ?s ?t ?K =>
      first
      [ match goal with
        | H : posted s t ?k |- _ => exact (po_weaken k K s t eq_refl H)
        | H : framed s t ?m |- _ => exact (po_framed m K s t H eq_refl)
        | H : posted ?u t ?k |- _ =>
            apply (po_trans K s u t); [ po_chain | exact (po_weaken k K u t eq_refl H) ]
        | H : framed ?u t ?m |- _ =>
            apply (po_trans K s u t); [ po_chain | exact (po_framed m K u t H eq_refl) ]
        end
      | let x := lazymatch t with
                 | snd (?g ?x) => x
                 | fst (?g ?x) => x
                 | fail_link _ ?x _ => x
                 | settle_one _ _ ?x _ => x
                 | ?g ?x => x
                 end in
        lazymatch type of x with ses => idtac end;
        apply (po_trans K s x t); [ po_chain | po_one ]
      | po_one ]
  end.
Ltac po_know H := fail.
Ltac po_knows :=
  repeat match goal with
         | E : _ = EOk _ |- _ => progress po_know E
         | E : _ = EOk _ |- _ => progress fr_know E
         | E : _ = Some _ |- _ => progress fr_know E
         end.
Ltac po_solve :=
  fr_small; repeat (fr_break; fr_small); try discriminate; po_knows; repeat fr_pair; po_chain.
Ltac po_er H :=
  cbv beta iota zeta delta [new_chan insert_link cond_wait ebind emap] in H; cbn [fst snd] in H;
  repeat (fr_break_in H; cbn [fst snd] in H; try discriminate H);
  po_knows;
  repeat fr_pair;
  try discriminate H; try solve [po_chain];
  first [apply EOk_inj in H | apply Some_inj in H];
  try (apply (f_equal fst) in H; cbn [fst] in H); subst; po_chain.

#[export] Instance po_dlv_settle i st s : posted s (dlv_settle i st s) [KindDisposition].
Proof. unfold dlv_settle. po_solve. Qed.
#[export] Instance po_dlv_update i st s : posted s (dlv_update i st s) [KindDisposition].
Proof. unfold dlv_update. po_solve. Qed.
#[export] Instance po_dlv_drop i s : posted s (dlv_drop i s) [KindDisposition].
Proof. unfold dlv_drop. po_solve. Qed.
#[export] Instance po_drop_dlvs l s : posted s (drop_dlvs l s) [KindDisposition].
Proof.
  unfold drop_dlvs. revert s. induction l as [|x l IH]; intros s; cbn [fold_left]; [apply po_refl|].
  eapply po_trans; [|apply IH]. po_solve.
Qed.
#[export] Instance po_attach_local_sender frm s : posted s (snd (attach_local_sender frm s)) [KindAttach].
Proof. unfold attach_local_sender. po_solve. Qed.
Lemma po_attach_remote_sender : forall frm r a s s', attach_remote_sender frm r a s = EOk s' -> posted s s' [KindAttach].
Proof. intros * H. unfold attach_remote_sender in H. po_er H. Qed.
Ltac po_know H ::= first
  [ match type of H with attach_remote_sender _ _ _ _ = _ => apply po_attach_remote_sender in H end ].
#[export] Instance po_detach_sender id c e tx s : posted s (detach_sender id c e tx s) [KindDetach].
Proof. unfold detach_sender. po_solve. Qed.
#[export] Instance po_detach_unconfirmed frm a e s : posted s (detach_unconfirmed frm a e s) [KindAttach; KindDetach].
Proof. unfold detach_unconfirmed. po_solve. Qed.
#[export] Instance po_attach_local_receiver frm s : posted s (snd (attach_local_receiver frm s)) [KindAttach].
Proof. unfold attach_local_receiver. po_solve. Qed.
#[export] Instance po_confirm_receiver a r s : posted s (confirm_receiver a r s) [KindAttach].
Proof. unfold confirm_receiver. po_solve. Qed.
Lemma po_detach_receiver : forall id c e tx s s', detach_receiver id c e tx s = EOk s' -> posted s s' [KindAttach; KindDetach].
Proof. intros * H. unfold detach_receiver in H. po_er H. Qed.
Ltac po_know H ::= first
  [ match type of H with attach_remote_sender _ _ _ _ = _ => apply po_attach_remote_sender in H end
  | match type of H with detach_receiver _ _ _ _ _ = _ => apply po_detach_receiver in H end ].
#[export] Instance po_snd_close a e s : posted s (snd_close a e s) [KindDetach].
Proof. unfold snd_close. po_solve. Qed.
Lemma po_rcv_close : forall a e s s', rcv_close a e s = EOk s' -> posted s s' [KindAttach; KindDetach].
Proof. intros * H. unfold rcv_close in H. po_er H. Qed.
Ltac po_know H ::= first
  [ match type of H with attach_remote_sender _ _ _ _ = _ => apply po_attach_remote_sender in H end
  | match type of H with detach_receiver _ _ _ _ _ = _ => apply po_detach_receiver in H end
  | match type of H with rcv_close _ _ _ = _ => apply po_rcv_close in H end ].
Lemma po_ses_detach_receiver : forall h e s s', ses_detach_receiver h e s = EOk s' -> posted s s' [KindAttach; KindDetach].
Proof. intros * H. unfold ses_detach_receiver in H. po_er H. Qed.
Ltac po_know H ::= first
  [ match type of H with attach_remote_sender _ _ _ _ = _ => apply po_attach_remote_sender in H end
  | match type of H with detach_receiver _ _ _ _ _ = _ => apply po_detach_receiver in H end
  | match type of H with rcv_close _ _ _ = _ => apply po_rcv_close in H end
  | match type of H with ses_detach_receiver _ _ _ = _ => apply po_ses_detach_receiver in H end ].
#[export] Instance po_ses_detach_sender h e s : posted s (ses_detach_sender h e s) [KindDetach].
Proof. unfold ses_detach_sender. po_solve. Qed.
#[export] Instance po_handle_flow f o s : posted s (handle_flow f o s) [KindFlow].
Proof. unfold handle_flow. po_solve. Qed.
#[export] Instance po_rcv_link_flow h dc c s : posted s (rcv_link_flow h dc c s) [KindFlow].
Proof. unfold rcv_link_flow. po_solve. Qed.
Lemma po_set_link_credit : forall p a c s s', set_link_credit p a c s = EOk s' -> posted s s' [KindFlow].
Proof. intros * H. unfold set_link_credit in H. po_er H. Qed.
Ltac po_know H ::= first
  [ match type of H with attach_remote_sender _ _ _ _ = _ => apply po_attach_remote_sender in H end
  | match type of H with detach_receiver _ _ _ _ _ = _ => apply po_detach_receiver in H end
  | match type of H with rcv_close _ _ _ = _ => apply po_rcv_close in H end
  | match type of H with ses_detach_receiver _ _ _ = _ => apply po_ses_detach_receiver in H end
  | match type of H with set_link_credit _ _ _ _ = _ => apply po_set_link_credit in H end ].
#[export] Instance po_transmit t tk l tag s : posted s (transmit t tk l tag s) [KindTransfer].
Proof. unfold transmit. po_solve. Qed.
#[export] Instance po_session_loop t tk l tag s : posted s (session_loop t tk l tag s) [KindTransfer].
Proof. unfold session_loop. po_solve. Qed.
#[export] Instance po_link_loop t tk l tag s : posted s (link_loop t tk l tag s) [KindTransfer].
Proof. unfold link_loop. po_solve. Qed.
#[export] Instance po_poll_send t s : posted s (poll_send t s) [KindTransfer].
Proof. unfold poll_send. po_solve. Qed.
Lemma po_rcv_transfer : forall p tr a s s' r, rcv_transfer p tr a s = EOk (s', r) -> posted s s' [KindAttach; KindDetach].
Proof. intros * H. unfold rcv_transfer in H. po_er H. Qed.
Ltac po_know H ::= first
  [ match type of H with attach_remote_sender _ _ _ _ = _ => apply po_attach_remote_sender in H end
  | match type of H with detach_receiver _ _ _ _ _ = _ => apply po_detach_receiver in H end
  | match type of H with rcv_close _ _ _ = _ => apply po_rcv_close in H end
  | match type of H with ses_detach_receiver _ _ _ = _ => apply po_ses_detach_receiver in H end
  | match type of H with set_link_credit _ _ _ _ = _ => apply po_set_link_credit in H end
  | match type of H with rcv_transfer _ _ _ _ = _ => apply po_rcv_transfer in H end ].
#[export] Instance po_rcv_detached a s : posted s (rcv_detached a s) [KindDisposition].
Proof. unfold rcv_detached. po_solve. Qed.
#[export] Instance po_handle_detach d s : posted s (fst (handle_detach d s)) [KindDetach; KindDisposition].
Proof. unfold handle_detach. po_solve. Qed.
Lemma po_ses_handle_frame : forall p f s s' r, ses_handle_frame p f s = EOk (s', r) -> posted s s' [KindAttach; KindFlow; KindDisposition; KindDetach].
Proof. intros * H. unfold ses_handle_frame in H. po_er H. Qed.
Ltac po_know H ::= first
  [ match type of H with attach_remote_sender _ _ _ _ = _ => apply po_attach_remote_sender in H end
  | match type of H with detach_receiver _ _ _ _ _ = _ => apply po_detach_receiver in H end
  | match type of H with rcv_close _ _ _ = _ => apply po_rcv_close in H end
  | match type of H with ses_detach_receiver _ _ _ = _ => apply po_ses_detach_receiver in H end
  | match type of H with set_link_credit _ _ _ _ = _ => apply po_set_link_credit in H end
  | match type of H with rcv_transfer _ _ _ _ = _ => apply po_rcv_transfer in H end
  | match type of H with ses_handle_frame _ _ _ = _ => apply po_ses_handle_frame in H end ].
#[export] Instance po_ses_end  s : posted s (ses_end s) [KindEnd].
Proof. unfold ses_end. po_solve. Qed.
Lemma po_control_ok : forall p edit k s s', control_ok p edit k s = EOk s' -> posted s s' [KindAttach; KindFlow].
Proof. intros * H. unfold control_ok in H. po_er H. Qed.
Ltac po_know H ::= first
  [ match type of H with attach_remote_sender _ _ _ _ = _ => apply po_attach_remote_sender in H end
  | match type of H with detach_receiver _ _ _ _ _ = _ => apply po_detach_receiver in H end
  | match type of H with rcv_close _ _ _ = _ => apply po_rcv_close in H end
  | match type of H with ses_detach_receiver _ _ _ = _ => apply po_ses_detach_receiver in H end
  | match type of H with set_link_credit _ _ _ _ = _ => apply po_set_link_credit in H end
  | match type of H with rcv_transfer _ _ _ _ = _ => apply po_rcv_transfer in H end
  | match type of H with ses_handle_frame _ _ _ = _ => apply po_ses_handle_frame in H end
  | match type of H with control_ok _ _ _ _ = _ => apply po_control_ok in H end ].
Lemma po_control_err : forall e k s s', control_err e k s = EOk s' -> posted s s' [KindAttach; KindDetach].
Proof. intros * H. unfold control_err in H. po_er H. Qed.
Ltac po_know H ::= first
  [ match type of H with attach_remote_sender _ _ _ _ = _ => apply po_attach_remote_sender in H end
  | match type of H with detach_receiver _ _ _ _ _ = _ => apply po_detach_receiver in H end
  | match type of H with rcv_close _ _ _ = _ => apply po_rcv_close in H end
  | match type of H with ses_detach_receiver _ _ _ = _ => apply po_ses_detach_receiver in H end
  | match type of H with set_link_credit _ _ _ _ = _ => apply po_set_link_credit in H end
  | match type of H with rcv_transfer _ _ _ _ = _ => apply po_rcv_transfer in H end
  | match type of H with ses_handle_frame _ _ _ = _ => apply po_ses_handle_frame in H end
  | match type of H with control_ok _ _ _ _ = _ => apply po_control_ok in H end
  | match type of H with control_err _ _ _ = _ => apply po_control_err in H end ].
