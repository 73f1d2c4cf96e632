(** * What does not depend on the futures

    Generated by tools/gen_same.py.  [with_futures gt gw s] is the session [s] with
    other futures of sends and waits.  Functions that do not touch futures give
    the same result with them. *)

From Verif Require Export SessionFrame.
Import ListNotations.

Definition with_futures (gt : list stask -> list stask) (gw : list wtask -> list wtask) (s : ses) : ses :=
  set_s_tasks (gt (s_tasks s)) (set_s_waits (gw (s_waits s)) s).

Lemma wf_id gt gw s : s_id (with_futures gt gw s) = s_id s.
Proof. reflexivity. Qed.
Lemma wf_set_id gt gw v s : set_s_id v (with_futures gt gw s) = with_futures gt gw (set_s_id v s).
Proof. reflexivity. Qed.
Lemma wf_local gt gw s : s_local (with_futures gt gw s) = s_local s.
Proof. reflexivity. Qed.
Lemma wf_set_local gt gw v s : set_s_local v (with_futures gt gw s) = with_futures gt gw (set_s_local v s).
Proof. reflexivity. Qed.
Lemma wf_ended gt gw s : s_ended (with_futures gt gw s) = s_ended s.
Proof. reflexivity. Qed.
Lemma wf_set_ended gt gw v s : set_s_ended v (with_futures gt gw s) = with_futures gt gw (set_s_ended v s).
Proof. reflexivity. Qed.
Lemma wf_ending gt gw s : s_ending (with_futures gt gw s) = s_ending s.
Proof. reflexivity. Qed.
Lemma wf_set_ending gt gw v s : set_s_ending v (with_futures gt gw s) = with_futures gt gw (set_s_ending v s).
Proof. reflexivity. Qed.
Lemma wf_rchan gt gw s : s_rchan (with_futures gt gw s) = s_rchan s.
Proof. reflexivity. Qed.
Lemma wf_set_rchan gt gw v s : set_s_rchan v (with_futures gt gw s) = with_futures gt gw (set_s_rchan v s).
Proof. reflexivity. Qed.
Lemma wf_mfs gt gw s : s_mfs (with_futures gt gw s) = s_mfs s.
Proof. reflexivity. Qed.
Lemma wf_set_mfs gt gw v s : set_s_mfs v (with_futures gt gw s) = with_futures gt gw (set_s_mfs v s).
Proof. reflexivity. Qed.
Lemma wf_nout gt gw s : s_nout (with_futures gt gw s) = s_nout s.
Proof. reflexivity. Qed.
Lemma wf_set_nout gt gw v s : set_s_nout v (with_futures gt gw s) = with_futures gt gw (set_s_nout v s).
Proof. reflexivity. Qed.
Lemma wf_nin gt gw s : s_nin (with_futures gt gw s) = s_nin s.
Proof. reflexivity. Qed.
Lemma wf_set_nin gt gw v s : set_s_nin v (with_futures gt gw s) = with_futures gt gw (set_s_nin v s).
Proof. reflexivity. Qed.
Lemma wf_owin gt gw s : s_owin (with_futures gt gw s) = s_owin s.
Proof. reflexivity. Qed.
Lemma wf_set_owin gt gw v s : set_s_owin v (with_futures gt gw s) = with_futures gt gw (set_s_owin v s).
Proof. reflexivity. Qed.
Lemma wf_iwin gt gw s : s_iwin (with_futures gt gw s) = s_iwin s.
Proof. reflexivity. Qed.
Lemma wf_set_iwin gt gw v s : set_s_iwin v (with_futures gt gw s) = with_futures gt gw (set_s_iwin v s).
Proof. reflexivity. Qed.
Lemma wf_links gt gw s : s_links (with_futures gt gw s) = s_links s.
Proof. reflexivity. Qed.
Lemma wf_set_links gt gw v s : set_s_links v (with_futures gt gw s) = with_futures gt gw (set_s_links v s).
Proof. reflexivity. Qed.
Lemma wf_names gt gw s : s_names (with_futures gt gw s) = s_names s.
Proof. reflexivity. Qed.
Lemma wf_set_names gt gw v s : set_s_names v (with_futures gt gw s) = with_futures gt gw (set_s_names v s).
Proof. reflexivity. Qed.
Lemma wf_rhandles gt gw s : s_rhandles (with_futures gt gw s) = s_rhandles s.
Proof. reflexivity. Qed.
Lemma wf_set_rhandles gt gw v s : set_s_rhandles v (with_futures gt gw s) = with_futures gt gw (set_s_rhandles v s).
Proof. reflexivity. Qed.
Lemma wf_error gt gw s : s_error (with_futures gt gw s) = s_error s.
Proof. reflexivity. Qed.
Lemma wf_set_error gt gw v s : set_s_error v (with_futures gt gw s) = with_futures gt gw (set_s_error v s).
Proof. reflexivity. Qed.
Lemma wf_closed gt gw s : s_closed (with_futures gt gw s) = s_closed s.
Proof. reflexivity. Qed.
Lemma wf_set_closed gt gw v s : set_s_closed v (with_futures gt gw s) = with_futures gt gw (set_s_closed v s).
Proof. reflexivity. Qed.
Lemma wf_pending gt gw s : s_pending (with_futures gt gw s) = s_pending s.
Proof. reflexivity. Qed.
Lemma wf_set_pending gt gw v s : set_s_pending v (with_futures gt gw s) = with_futures gt gw (set_s_pending v s).
Proof. reflexivity. Qed.
Lemma wf_snd gt gw s : s_snd (with_futures gt gw s) = s_snd s.
Proof. reflexivity. Qed.
Lemma wf_set_snd gt gw v s : set_s_snd v (with_futures gt gw s) = with_futures gt gw (set_s_snd v s).
Proof. reflexivity. Qed.
Lemma wf_rcv gt gw s : s_rcv (with_futures gt gw s) = s_rcv s.
Proof. reflexivity. Qed.
Lemma wf_set_rcv gt gw v s : set_s_rcv v (with_futures gt gw s) = with_futures gt gw (set_s_rcv v s).
Proof. reflexivity. Qed.
Lemma wf_chans gt gw s : s_chans (with_futures gt gw s) = s_chans s.
Proof. reflexivity. Qed.
Lemma wf_set_chans gt gw v s : set_s_chans v (with_futures gt gw s) = with_futures gt gw (set_s_chans v s).
Proof. reflexivity. Qed.
Lemma wf_snds gt gw s : s_snds (with_futures gt gw s) = s_snds s.
Proof. reflexivity. Qed.
Lemma wf_set_snds gt gw v s : set_s_snds v (with_futures gt gw s) = with_futures gt gw (set_s_snds v s).
Proof. reflexivity. Qed.
Lemma wf_rcvs gt gw s : s_rcvs (with_futures gt gw s) = s_rcvs s.
Proof. reflexivity. Qed.
Lemma wf_set_rcvs gt gw v s : set_s_rcvs v (with_futures gt gw s) = with_futures gt gw (set_s_rcvs v s).
Proof. reflexivity. Qed.
Lemma wf_dlvs gt gw s : s_dlvs (with_futures gt gw s) = s_dlvs s.
Proof. reflexivity. Qed.
Lemma wf_set_dlvs gt gw v s : set_s_dlvs v (with_futures gt gw s) = with_futures gt gw (set_s_dlvs v s).
Proof. reflexivity. Qed.
Lemma wf_ctl gt gw s : s_ctl (with_futures gt gw s) = s_ctl s.
Proof. reflexivity. Qed.
Lemma wf_set_ctl gt gw v s : set_s_ctl v (with_futures gt gw s) = with_futures gt gw (set_s_ctl v s).
Proof. reflexivity. Qed.
Lemma wf_out gt gw s : s_out (with_futures gt gw s) = s_out s.
Proof. reflexivity. Qed.
Lemma wf_set_out gt gw v s : set_s_out v (with_futures gt gw s) = with_futures gt gw (set_s_out v s).
Proof. reflexivity. Qed.
Lemma wf_tasks gt gw s : s_tasks (with_futures gt gw s) = gt (s_tasks s).
Proof. reflexivity. Qed.
Lemma wf_waits gt gw s : s_waits (with_futures gt gw s) = gw (s_waits s).
Proof. reflexivity. Qed.
#[export] Hint Rewrite wf_id wf_set_id wf_local wf_set_local wf_ended wf_set_ended wf_ending wf_set_ending wf_rchan wf_set_rchan wf_mfs wf_set_mfs wf_nout wf_set_nout wf_nin wf_set_nin wf_owin wf_set_owin wf_iwin wf_set_iwin wf_links wf_set_links wf_names wf_set_names wf_rhandles wf_set_rhandles wf_error wf_set_error wf_closed wf_set_closed wf_pending wf_set_pending wf_snd wf_set_snd wf_rcv wf_set_rcv wf_chans wf_set_chans wf_snds wf_set_snds wf_rcvs wf_set_rcvs wf_dlvs wf_set_dlvs wf_ctl wf_set_ctl wf_out wf_set_out wf_tasks wf_waits : wf.

(** In a pair, an option and a result. *)
Definition on_fst {A} (f : ses -> ses) (x : ses * A) : ses * A := let '(s, a) := x in (f s, a).
Definition on_snd {A} (f : ses -> ses) (x : A * ses) : A * ses := let '(a, s) := x in (a, f s).
Ltac wf_small :=
  cbv beta iota zeta delta [new_chan insert_link cond_wait new_remote_sender unsettled get_all_links];
  cbn [fst snd on_fst on_snd ebind emap option_map].
Ltac wf_break :=
  match goal with
  | |- context [match ?x with _ => _ end] =>
      lazymatch x with context [match _ with _ => _ end] => fail | context [with_futures] => fail | _ => destruct x end
  | |- context [ebind (emap _ ?x) _] => destruct x
  | |- context [emap _ (ebind ?x _)] => destruct x
  | |- context [emap _ ?x] => lazymatch x with context [with_futures] => fail | ebind _ _ => fail | _ => destruct x end
  | |- context [option_map _ ?x] => lazymatch x with context [with_futures] => fail | _ => destruct x end
  end.
Ltac wf_go := wf_small; repeat (autorewrite with wf; wf_small; try reflexivity; wf_break; wf_small); autorewrite with wf; try reflexivity.

Lemma wf_post f gt gw s : post f (with_futures gt gw s) = with_futures gt gw (post f s).
Proof. unfold post. wf_go. Qed.
#[export] Hint Rewrite wf_post : wf.
Lemma wf_post_all l gt gw s : post_all l (with_futures gt gw s) = with_futures gt gw (post_all l s).
Proof.
  unfold post_all. revert s. induction l as [|x l IH]; intros s; cbn [fold_left]; [reflexivity|].
  rewrite <- IH. f_equal; wf_go.
Qed.
#[export] Hint Rewrite wf_post_all : wf.
Lemma wf_upd_snd a f gt gw s : upd_snd a f (with_futures gt gw s) = with_futures gt gw (upd_snd a f s).
Proof. unfold upd_snd. wf_go. Qed.
#[export] Hint Rewrite wf_upd_snd : wf.
Lemma wf_upd_rcv a f gt gw s : upd_rcv a f (with_futures gt gw s) = with_futures gt gw (upd_rcv a f s).
Proof. unfold upd_rcv. wf_go. Qed.
#[export] Hint Rewrite wf_upd_rcv : wf.
Lemma wf_upd_dlv a f gt gw s : upd_dlv a f (with_futures gt gw s) = with_futures gt gw (upd_dlv a f s).
Proof. unfold upd_dlv. wf_go. Qed.
#[export] Hint Rewrite wf_upd_dlv : wf.
Lemma wf_fire c v gt gw s : fire c v (with_futures gt gw s) = with_futures gt gw (fire c v s).
Proof. unfold fire. wf_go. Qed.
#[export] Hint Rewrite wf_fire : wf.
Lemma wf_drop_tx c gt gw s : drop_tx c (with_futures gt gw s) = with_futures gt gw (drop_tx c s).
Proof. unfold drop_tx. wf_go. Qed.
#[export] Hint Rewrite wf_drop_tx : wf.
Lemma wf_fire_opt c v gt gw s : fire_opt c v (with_futures gt gw s) = with_futures gt gw (fire_opt c v s).
Proof. unfold fire_opt. wf_go. Qed.
#[export] Hint Rewrite wf_fire_opt : wf.
Lemma wf_drop_opt c gt gw s : drop_opt c (with_futures gt gw s) = with_futures gt gw (drop_opt c s).
Proof. unfold drop_opt. wf_go. Qed.
#[export] Hint Rewrite wf_drop_opt : wf.
Lemma wf_fire_all l v gt gw s : fire_all l v (with_futures gt gw s) = with_futures gt gw (fire_all l v s).
Proof.
  unfold fire_all. revert s. induction l as [|x l IH]; intros s; cbn [fold_left]; [reflexivity|].
  rewrite <- IH. f_equal; wf_go.
Qed.
#[export] Hint Rewrite wf_fire_all : wf.
Lemma wf_control k gt gw s : control k (with_futures gt gw s) = with_futures gt gw (control k s).
Proof. unfold control. wf_go. Qed.
#[export] Hint Rewrite wf_control : wf.
Lemma wf_notify_lock_snd a gt gw s : notify_lock_snd a (with_futures gt gw s) = with_futures gt gw (notify_lock_snd a s).
Proof. unfold notify_lock_snd. wf_go. Qed.
#[export] Hint Rewrite wf_notify_lock_snd : wf.
Lemma wf_snd_remote_detached a e gt gw s : snd_remote_detached a e (with_futures gt gw s) = with_futures gt gw (snd_remote_detached a e s).
Proof. unfold snd_remote_detached. wf_go. Qed.
#[export] Hint Rewrite wf_snd_remote_detached : wf.
Lemma wf_drop_established_snd a gt gw s : drop_established_snd a (with_futures gt gw s) = with_futures gt gw (drop_established_snd a s).
Proof. unfold drop_established_snd. wf_go. Qed.
#[export] Hint Rewrite wf_drop_established_snd : wf.
Lemma wf_apply_flow f a gt gw s : apply_flow f a (with_futures gt gw s) = with_futures gt gw (apply_flow f a s).
Proof. unfold apply_flow. wf_go. Qed.
#[export] Hint Rewrite wf_apply_flow : wf.
Lemma wf_rcv_remote_detached a e gt gw s : rcv_remote_detached a e (with_futures gt gw s) = with_futures gt gw (rcv_remote_detached a e s).
Proof. unfold rcv_remote_detached. wf_go. Qed.
#[export] Hint Rewrite wf_rcv_remote_detached : wf.
Lemma wf_drop_established_rcv a gt gw s : drop_established_rcv a (with_futures gt gw s) = with_futures gt gw (drop_established_rcv a s).
Proof. unfold drop_established_rcv. wf_go. Qed.
#[export] Hint Rewrite wf_drop_established_rcv : wf.
Lemma wf_drop_link l gt gw s : drop_link l (with_futures gt gw s) = with_futures gt gw (drop_link l s).
Proof. unfold drop_link. wf_go. Qed.
#[export] Hint Rewrite wf_drop_link : wf.
Lemma wf_put_link k l gt gw s : put_link k l (with_futures gt gw s) = with_futures gt gw (put_link k l s).
Proof. unfold put_link. wf_go. Qed.
#[export] Hint Rewrite wf_put_link : wf.
Lemma wf_remove_link k gt gw s : remove_link k (with_futures gt gw s) = with_futures gt gw (remove_link k s).
Proof. unfold remove_link. wf_go. Qed.
#[export] Hint Rewrite wf_remove_link : wf.
Lemma wf_set_unsettled b m gt gw s : set_unsettled b m (with_futures gt gw s) = with_futures gt gw (set_unsettled b m s).
Proof. unfold set_unsettled. wf_go. Qed.
#[export] Hint Rewrite wf_set_unsettled : wf.
Lemma wf_put_unsettled b id d gt gw s : put_unsettled b id d (with_futures gt gw s) = with_futures gt gw (put_unsettled b id d s).
Proof. unfold put_unsettled. wf_go. Qed.
#[export] Hint Rewrite wf_put_unsettled : wf.
Lemma wf_del_unsettled b id gt gw s : del_unsettled b id (with_futures gt gw s) = with_futures gt gw (del_unsettled b id s).
Proof. unfold del_unsettled. wf_go. Qed.
#[export] Hint Rewrite wf_del_unsettled : wf.
Lemma wf_new_rcv id h tag settled gt gw s : new_rcv id h tag settled (with_futures gt gw s) = on_snd (with_futures gt gw) (new_rcv id h tag settled s).
Proof. unfold new_rcv. wf_go. Qed.
#[export] Hint Rewrite wf_new_rcv : wf.
Lemma wf_dlv_settle i st gt gw s : dlv_settle i st (with_futures gt gw s) = with_futures gt gw (dlv_settle i st s).
Proof. unfold dlv_settle. wf_go. Qed.
#[export] Hint Rewrite wf_dlv_settle : wf.
Lemma wf_dlv_update i st gt gw s : dlv_update i st (with_futures gt gw s) = with_futures gt gw (dlv_update i st s).
Proof. unfold dlv_update. wf_go. Qed.
#[export] Hint Rewrite wf_dlv_update : wf.
Lemma wf_dlv_drop i gt gw s : dlv_drop i (with_futures gt gw s) = with_futures gt gw (dlv_drop i s).
Proof. unfold dlv_drop. wf_go. Qed.
#[export] Hint Rewrite wf_dlv_drop : wf.
Lemma wf_drop_dlvs l gt gw s : drop_dlvs l (with_futures gt gw s) = with_futures gt gw (drop_dlvs l s).
Proof.
  unfold drop_dlvs. revert s. induction l as [|x l IH]; intros s; cbn [fold_left]; [reflexivity|].
  rewrite <- IH. f_equal; wf_go.
Qed.
#[export] Hint Rewrite wf_drop_dlvs : wf.
Lemma wf_fail_all l gt gw s : fail_all l (with_futures gt gw s) = with_futures gt gw (fail_all l s).
Proof.
  unfold fail_all. revert s. induction l as [|x l IH]; intros s; cbn [fold_left]; [reflexivity|].
  rewrite <- IH. f_equal; wf_go.
Qed.
#[export] Hint Rewrite wf_fail_all : wf.
Lemma wf_fail_link e gt gw s x : fail_link e (with_futures gt gw s) x = with_futures gt gw (fail_link e s x).
Proof. unfold fail_link. wf_go. Qed.
#[export] Hint Rewrite wf_fail_link : wf.
Lemma wf_fail_links e l gt gw s : fail_links e l (with_futures gt gw s) = with_futures gt gw (fail_links e l s).
Proof.
  unfold fail_links. revert s. induction l as [|x l IH]; intros s; cbn [fold_left]; [reflexivity|].
  rewrite <- IH. f_equal; wf_go.
Qed.
#[export] Hint Rewrite wf_fail_links : wf.
Lemma wf_drop_links l gt gw s : drop_links l (with_futures gt gw s) = with_futures gt gw (drop_links l s).
Proof.
  unfold drop_links. revert s. induction l as [|x l IH]; intros s; cbn [fold_left]; [reflexivity|].
  rewrite <- IH. f_equal; wf_go.
Qed.
#[export] Hint Rewrite wf_drop_links : wf.
Lemma wf_ses_set_error e gt gw s : ses_set_error e (with_futures gt gw s) = with_futures gt gw (ses_set_error e s).
Proof. unfold ses_set_error. wf_go. Qed.
#[export] Hint Rewrite wf_ses_set_error : wf.
Lemma wf_attach_local_sender frm gt gw s : attach_local_sender frm (with_futures gt gw s) = on_snd (with_futures gt gw) (attach_local_sender frm s).
Proof. unfold attach_local_sender. wf_go. Qed.
#[export] Hint Rewrite wf_attach_local_sender : wf.
Lemma wf_attach_remote_sender frm r a gt gw s : attach_remote_sender frm r a (with_futures gt gw s) = emap (with_futures gt gw) (attach_remote_sender frm r a s).
Proof. unfold attach_remote_sender. wf_go. Qed.
#[export] Hint Rewrite wf_attach_remote_sender : wf.
Lemma wf_detach_sender id c e tx gt gw s : detach_sender id c e tx (with_futures gt gw s) = with_futures gt gw (detach_sender id c e tx s).
Proof. unfold detach_sender. wf_go. Qed.
#[export] Hint Rewrite wf_detach_sender : wf.
Lemma wf_detach_unconfirmed frm a e gt gw s : detach_unconfirmed frm a e (with_futures gt gw s) = with_futures gt gw (detach_unconfirmed frm a e s).
Proof. unfold detach_unconfirmed. wf_go. Qed.
#[export] Hint Rewrite wf_detach_unconfirmed : wf.
Lemma wf_attach_remote_receiver frm gt gw s : attach_remote_receiver frm (with_futures gt gw s) = on_snd (with_futures gt gw) (attach_remote_receiver frm s).
Proof. unfold attach_remote_receiver. wf_go. Qed.
#[export] Hint Rewrite wf_attach_remote_receiver : wf.
Lemma wf_attach_local_receiver frm gt gw s : attach_local_receiver frm (with_futures gt gw s) = on_snd (with_futures gt gw) (attach_local_receiver frm s).
Proof. unfold attach_local_receiver. wf_go. Qed.
#[export] Hint Rewrite wf_attach_local_receiver : wf.
Lemma wf_confirm_receiver a r gt gw s : confirm_receiver a r (with_futures gt gw s) = with_futures gt gw (confirm_receiver a r s).
Proof. unfold confirm_receiver. wf_go. Qed.
#[export] Hint Rewrite wf_confirm_receiver : wf.
Lemma wf_detach_receiver id c e tx gt gw s : detach_receiver id c e tx (with_futures gt gw s) = emap (with_futures gt gw) (detach_receiver id c e tx s).
Proof. unfold detach_receiver. wf_go. Qed.
#[export] Hint Rewrite wf_detach_receiver : wf.
Lemma wf_snd_close a e gt gw s : snd_close a e (with_futures gt gw s) = with_futures gt gw (snd_close a e s).
Proof. unfold snd_close. wf_go. Qed.
#[export] Hint Rewrite wf_snd_close : wf.
Lemma wf_rcv_close a e gt gw s : rcv_close a e (with_futures gt gw s) = emap (with_futures gt gw) (rcv_close a e s).
Proof. unfold rcv_close. wf_go. Qed.
#[export] Hint Rewrite wf_rcv_close : wf.
Lemma wf_ses_detach_receiver h e gt gw s : ses_detach_receiver h e (with_futures gt gw s) = emap (with_futures gt gw) (ses_detach_receiver h e s).
Proof. unfold ses_detach_receiver. wf_go. Qed.
#[export] Hint Rewrite wf_ses_detach_receiver : wf.
Lemma wf_ses_detach_sender h e gt gw s : ses_detach_sender h e (with_futures gt gw s) = with_futures gt gw (ses_detach_sender h e s).
Proof. unfold ses_detach_sender. wf_go. Qed.
#[export] Hint Rewrite wf_ses_detach_sender : wf.
Lemma wf_handle_flow f o gt gw s : handle_flow f o (with_futures gt gw s) = with_futures gt gw (handle_flow f o s).
Proof. unfold handle_flow. wf_go. Qed.
#[export] Hint Rewrite wf_handle_flow : wf.
Lemma wf_rcv_link_flow h dc c gt gw s : rcv_link_flow h dc c (with_futures gt gw s) = with_futures gt gw (rcv_link_flow h dc c s).
Proof. unfold rcv_link_flow. wf_go. Qed.
#[export] Hint Rewrite wf_rcv_link_flow : wf.
Lemma wf_set_link_credit p a c gt gw s : set_link_credit p a c (with_futures gt gw s) = emap (with_futures gt gw) (set_link_credit p a c s).
Proof. unfold set_link_credit. wf_go. Qed.
#[export] Hint Rewrite wf_set_link_credit : wf.
Lemma wf_settle_one disp b gt gw s x : settle_one disp b (with_futures gt gw s) x = with_futures gt gw (settle_one disp b s x).
Proof. unfold settle_one. wf_go. Qed.
#[export] Hint Rewrite wf_settle_one : wf.
Lemma wf_settle_all disp b l gt gw s : settle_all disp b l (with_futures gt gw s) = with_futures gt gw (settle_all disp b l s).
Proof.
  unfold settle_all. revert s. induction l as [|x l IH]; intros s; cbn [fold_left]; [reflexivity|].
  rewrite <- IH. f_equal; wf_go.
Qed.
#[export] Hint Rewrite wf_settle_all : wf.
Lemma wf_settle_deliveries disp gt gw s : settle_deliveries disp (with_futures gt gw s) = with_futures gt gw (settle_deliveries disp s).
Proof. unfold settle_deliveries. wf_go. Qed.
#[export] Hint Rewrite wf_settle_deliveries : wf.
Lemma wf_rcv_transfer p tr a gt gw s : rcv_transfer p tr a (with_futures gt gw s) = emap (on_fst (with_futures gt gw)) (rcv_transfer p tr a s).
Proof. unfold rcv_transfer. wf_go. Qed.
#[export] Hint Rewrite wf_rcv_transfer : wf.
Lemma wf_fail_unsettled b h e gt gw s : fail_unsettled b h e (with_futures gt gw s) = with_futures gt gw (fail_unsettled b h e s).
Proof. unfold fail_unsettled. wf_go. Qed.
#[export] Hint Rewrite wf_fail_unsettled : wf.
Lemma wf_drain_pending h e gt gw s : drain_pending h e (with_futures gt gw s) = with_futures gt gw (drain_pending h e s).
Proof. unfold drain_pending. wf_go. Qed.
#[export] Hint Rewrite wf_drain_pending : wf.
Lemma wf_answer tx e gt gw s : answer tx e (with_futures gt gw s) = with_futures gt gw (answer tx e s).
Proof. unfold answer. wf_go. Qed.
#[export] Hint Rewrite wf_answer : wf.
Lemma wf_rcv_detached a gt gw s : rcv_detached a (with_futures gt gw s) = with_futures gt gw (rcv_detached a s).
Proof. unfold rcv_detached. wf_go. Qed.
#[export] Hint Rewrite wf_rcv_detached : wf.
Lemma wf_handle_detach d gt gw s : handle_detach d (with_futures gt gw s) = on_fst (with_futures gt gw) (handle_detach d s).
Proof. unfold handle_detach. wf_go. Qed.
#[export] Hint Rewrite wf_handle_detach : wf.
Lemma wf_dispatch act gt gw s : dispatch act (with_futures gt gw s) = with_futures gt gw (dispatch act s).
Proof. unfold dispatch. wf_go. Qed.
#[export] Hint Rewrite wf_dispatch : wf.
Lemma wf_ses_handle_frame p f gt gw s : ses_handle_frame p f (with_futures gt gw s) = emap (on_fst (with_futures gt gw)) (ses_handle_frame p f s).
Proof. unfold ses_handle_frame. wf_go. Qed.
#[export] Hint Rewrite wf_ses_handle_frame : wf.
Lemma wf_handle_attach frm gt gw s : handle_attach frm (with_futures gt gw s) = option_map (with_futures gt gw) (handle_attach frm s).
Proof. unfold handle_attach. wf_go. Qed.
#[export] Hint Rewrite wf_handle_attach : wf.
Lemma wf_on_attach frm gt gw s : on_attach frm (with_futures gt gw s) = with_futures gt gw (on_attach frm s).
Proof. unfold on_attach. wf_go. Qed.
#[export] Hint Rewrite wf_on_attach : wf.
Lemma wf_ses_end  gt gw s : ses_end (with_futures gt gw s) = with_futures gt gw (ses_end s).
Proof. unfold ses_end. wf_go. Qed.
#[export] Hint Rewrite wf_ses_end : wf.
Lemma wf_control_ok p edit k gt gw s : control_ok p edit k (with_futures gt gw s) = emap (with_futures gt gw) (control_ok p edit k s).
Proof. unfold control_ok. wf_go. Qed.
#[export] Hint Rewrite wf_control_ok : wf.
Lemma wf_control_err e k gt gw s : control_err e k (with_futures gt gw s) = emap (with_futures gt gw) (control_err e k s).
Proof. unfold control_err. wf_go. Qed.
#[export] Hint Rewrite wf_control_err : wf.
