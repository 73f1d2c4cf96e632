(** * The reserved handles, through every function

    Generated by tools/gen_rel.py. *)

From Verif Require Export Reserve.

#[export] Instance rsv_rel_attach_local_sender frm s : stable rsv_rel s (snd (attach_local_sender frm s)).
Proof. unfold attach_local_sender. st_solve. Qed.
#[export] Instance rsv_rel_attach_remote_receiver frm s : stable rsv_rel s (snd (attach_remote_receiver frm s)).
Proof. unfold attach_remote_receiver. st_solve. Qed.
#[export] Instance rsv_rel_attach_local_receiver frm s : stable rsv_rel s (snd (attach_local_receiver frm s)).
Proof. unfold attach_local_receiver. st_solve. Qed.
#[export] Instance rsv_rel_snd_close a e s : stable rsv_rel s (snd_close a e s).
Proof. unfold snd_close. st_solve. Qed.
#[export] Instance rsv_rel_rcv_close a e s : stable_er rsv_rel (fun x => x) s (rcv_close a e s).
Proof. intros x H. change (stable rsv_rel s x). unfold rcv_close in H. st_er H. Qed.
#[export] Instance rsv_rel_ses_detach_receiver h e s : stable_er rsv_rel (fun x => x) s (ses_detach_receiver h e s).
Proof. intros x H. change (stable rsv_rel s x). unfold ses_detach_receiver in H. st_er H. Qed.
#[export] Instance rsv_rel_ses_detach_sender h e s : stable rsv_rel s (ses_detach_sender h e s).
Proof. unfold ses_detach_sender. st_solve. Qed.
#[export] Instance rsv_rel_rcv_transfer p tr a s : stable_er rsv_rel fst s (rcv_transfer p tr a s).
Proof. intros [x r] H. change (stable rsv_rel s x). unfold rcv_transfer in H. st_er H. Qed.
#[export] Instance rsv_rel_on_attach frm s : stable rsv_rel s (on_attach frm s).
Proof. unfold on_attach. st_solve. Qed.

#[export] Instance kp_rel_detach_sender i0 id c e tx s : stable (kp_rel i0) s (detach_sender id c e tx s).
Proof. unfold detach_sender. st_solve. Qed.
#[export] Instance kp_rel_detach_receiver i0 id c e tx s : stable_er (kp_rel i0) (fun x => x) s (detach_receiver id c e tx s).
Proof. intros x H. change (stable (kp_rel i0) s x). unfold detach_receiver in H. st_er H. Qed.
#[export] Instance kp_rel_snd_close i0 a e s : stable (kp_rel i0) s (snd_close a e s).
Proof. unfold snd_close. st_solve. Qed.
#[export] Instance kp_rel_rcv_close i0 a e s : stable_er (kp_rel i0) (fun x => x) s (rcv_close a e s).
Proof. intros x H. change (stable (kp_rel i0) s x). unfold rcv_close in H. st_er H. Qed.
#[export] Instance kp_rel_ses_detach_receiver i0 h e s : stable_er (kp_rel i0) (fun x => x) s (ses_detach_receiver h e s).
Proof. intros x H. change (stable (kp_rel i0) s x). unfold ses_detach_receiver in H. st_er H. Qed.
#[export] Instance kp_rel_ses_detach_sender i0 h e s : stable (kp_rel i0) s (ses_detach_sender h e s).
Proof. unfold ses_detach_sender. st_solve. Qed.
#[export] Instance kp_rel_rcv_transfer i0 p tr a s : stable_er (kp_rel i0) fst s (rcv_transfer p tr a s).
Proof. intros [x r] H. change (stable (kp_rel i0) s x). unfold rcv_transfer in H. st_er H. Qed.
#[export] Instance kp_rel_dispatch i0 act s : stable (kp_rel i0) s (dispatch act s).
Proof. unfold dispatch. st_solve. Qed.
#[export] Instance kp_rel_ses_handle_frame i0 p f s : stable_er (kp_rel i0) fst s (ses_handle_frame p f s).
Proof. intros [x r] H. change (stable (kp_rel i0) s x). unfold ses_handle_frame in H. st_er H. Qed.
#[export] Instance kp_rel_on_attach i0 frm s : stable (kp_rel i0) s (on_attach frm s).
Proof. unfold on_attach. st_solve. Qed.
#[export] Instance kp_rel_control_ok i0 p edit k s : stable_er (kp_rel i0) (fun x => x) s (control_ok p edit k s).
Proof. intros x H. change (stable (kp_rel i0) s x). unfold control_ok in H. st_er H. Qed.
#[export] Instance kp_rel_control_err i0 e k s : stable_er (kp_rel i0) (fun x => x) s (control_err e k s).
Proof. intros x H. change (stable (kp_rel i0) s x). unfold control_err in H. st_er H. Qed.


#[export] Instance nsn_rel_notify_lock_snd a s : stable nsn_rel s (notify_lock_snd a s).
Proof. unfold notify_lock_snd. st_solve. Qed.
#[export] Instance nsn_rel_snd_remote_detached a e s : stable nsn_rel s (snd_remote_detached a e s).
Proof. unfold snd_remote_detached. st_solve. Qed.
#[export] Instance nsn_rel_drop_established_snd a s : stable nsn_rel s (drop_established_snd a s).
Proof. unfold drop_established_snd. st_solve. Qed.
#[export] Instance nsn_rel_apply_flow f a s : stable nsn_rel s (apply_flow f a s).
Proof. unfold apply_flow. st_solve. Qed.
#[export] Instance nsn_rel_drop_link l s : stable nsn_rel s (drop_link l s).
Proof. unfold drop_link. st_solve. Qed.
#[export] Instance nsn_rel_put_link k l s : stable nsn_rel s (put_link k l s).
Proof. unfold put_link. st_solve. Qed.
#[export] Instance nsn_rel_remove_link k s : stable nsn_rel s (remove_link k s).
Proof. unfold remove_link. st_solve. Qed.
#[export] Instance nsn_rel_fail_link e s x : stable nsn_rel s (fail_link e s x).
Proof. unfold fail_link. st_solve. Qed.
#[export] Instance nsn_rel_fail_links e l s : stable nsn_rel s (fail_links e l s).
Proof.
  unfold fail_links. revert s. induction l as [|x l IH]; intros s; cbn [fold_left]; [apply stable_refl; exact _|].
  eapply stable_trans; [exact _| |apply IH]. st_solve.
Qed.
#[export] Instance nsn_rel_drop_links l s : stable nsn_rel s (drop_links l s).
Proof.
  unfold drop_links. revert s. induction l as [|x l IH]; intros s; cbn [fold_left]; [apply stable_refl; exact _|].
  eapply stable_trans; [exact _| |apply IH]. st_solve.
Qed.
#[export] Instance nsn_rel_ses_set_error e s : stable nsn_rel s (ses_set_error e s).
Proof. unfold ses_set_error. st_solve. Qed.
#[export] Instance nsn_rel_attach_remote_sender frm r a s : stable_er nsn_rel (fun x => x) s (attach_remote_sender frm r a s).
Proof. intros x H. change (stable nsn_rel s x). unfold attach_remote_sender in H. st_er H. Qed.
#[export] Instance nsn_rel_detach_sender id c e tx s : stable nsn_rel s (detach_sender id c e tx s).
Proof. unfold detach_sender. st_solve. Qed.
#[export] Instance nsn_rel_detach_unconfirmed frm a e s : stable nsn_rel s (detach_unconfirmed frm a e s).
Proof. unfold detach_unconfirmed. st_solve. Qed.
#[export] Instance nsn_rel_confirm_receiver a r s : stable nsn_rel s (confirm_receiver a r s).
Proof. unfold confirm_receiver. st_solve. Qed.
#[export] Instance nsn_rel_detach_receiver id c e tx s : stable_er nsn_rel (fun x => x) s (detach_receiver id c e tx s).
Proof. intros x H. change (stable nsn_rel s x). unfold detach_receiver in H. st_er H. Qed.
#[export] Instance nsn_rel_snd_close a e s : stable nsn_rel s (snd_close a e s).
Proof. unfold snd_close. st_solve. Qed.
#[export] Instance nsn_rel_rcv_close a e s : stable_er nsn_rel (fun x => x) s (rcv_close a e s).
Proof. intros x H. change (stable nsn_rel s x). unfold rcv_close in H. st_er H. Qed.
#[export] Instance nsn_rel_ses_detach_receiver h e s : stable_er nsn_rel (fun x => x) s (ses_detach_receiver h e s).
Proof. intros x H. change (stable nsn_rel s x). unfold ses_detach_receiver in H. st_er H. Qed.
#[export] Instance nsn_rel_ses_detach_sender h e s : stable nsn_rel s (ses_detach_sender h e s).
Proof. unfold ses_detach_sender. st_solve. Qed.
#[export] Instance nsn_rel_handle_flow f o s : stable nsn_rel s (handle_flow f o s).
Proof. unfold handle_flow. st_solve. Qed.
#[export] Instance nsn_rel_link_loop t tk l tag s : stable nsn_rel s (link_loop t tk l tag s).
Proof. unfold link_loop. st_solve. Qed.
#[export] Instance nsn_rel_poll_send t s : stable nsn_rel s (poll_send t s).
Proof. unfold poll_send. st_solve. Qed.
#[export] Instance nsn_rel_rcv_transfer p tr a s : stable_er nsn_rel fst s (rcv_transfer p tr a s).
Proof. intros [x r] H. change (stable nsn_rel s x). unfold rcv_transfer in H. st_er H. Qed.
#[export] Instance nsn_rel_handle_detach d s : stable nsn_rel s (fst (handle_detach d s)).
Proof. unfold handle_detach. st_solve. Qed.
#[export] Instance nsn_rel_ses_handle_frame p f s : stable_er nsn_rel fst s (ses_handle_frame p f s).
Proof. intros [x r] H. change (stable nsn_rel s x). unfold ses_handle_frame in H. st_er H. Qed.
#[export] Instance nsn_rel_control_ok p edit k s : stable_er nsn_rel (fun x => x) s (control_ok p edit k s).
Proof. intros x H. change (stable nsn_rel s x). unfold control_ok in H. st_er H. Qed.
#[export] Instance nsn_rel_control_err e k s : stable_er nsn_rel (fun x => x) s (control_err e k s).
Proof. intros x H. change (stable nsn_rel s x). unfold control_err in H. st_er H. Qed.


#[export] Instance op_rel_snd_remote_detached a e s : stable op_rel s (snd_remote_detached a e s).
Proof. unfold snd_remote_detached. st_solve. Qed.
#[export] Instance op_rel_apply_flow f a s : stable op_rel s (apply_flow f a s).
Proof. unfold apply_flow. st_solve. Qed.
#[export] Instance op_rel_put_unsettled b id d s : stable op_rel s (put_unsettled b id d s).
Proof. unfold put_unsettled. st_solve. Qed.
#[export] Instance op_rel_del_unsettled b id s : stable op_rel s (del_unsettled b id s).
Proof. unfold del_unsettled. st_solve. Qed.
#[export] Instance op_rel_new_rcv id h tag settled s : stable op_rel s (snd (new_rcv id h tag settled s)).
Proof. unfold new_rcv. st_solve. Qed.
#[export] Instance op_rel_dlv_drop i s : stable op_rel s (dlv_drop i s).
Proof. unfold dlv_drop. st_solve. Qed.
#[export] Instance op_rel_drop_dlvs l s : stable op_rel s (drop_dlvs l s).
Proof.
  unfold drop_dlvs. revert s. induction l as [|x l IH]; intros s; cbn [fold_left]; [apply stable_refl; exact _|].
  eapply stable_trans; [exact _| |apply IH]. st_solve.
Qed.
#[export] Instance op_rel_poll_wait w s : stable op_rel s (poll_wait w s).
Proof. unfold poll_wait. st_solve. Qed.
#[export] Instance op_rel_fail_all l s : stable op_rel s (fail_all l s).
Proof.
  unfold fail_all. revert s. induction l as [|x l IH]; intros s; cbn [fold_left]; [apply stable_refl; exact _|].
  eapply stable_trans; [exact _| |apply IH]. st_solve.
Qed.
#[export] Instance op_rel_fail_link e s x : stable op_rel s (fail_link e s x).
Proof. unfold fail_link. st_solve. Qed.
#[export] Instance op_rel_fail_links e l s : stable op_rel s (fail_links e l s).
Proof.
  unfold fail_links. revert s. induction l as [|x l IH]; intros s; cbn [fold_left]; [apply stable_refl; exact _|].
  eapply stable_trans; [exact _| |apply IH]. st_solve.
Qed.
#[export] Instance op_rel_drop_links l s : stable op_rel s (drop_links l s).
Proof.
  unfold drop_links. revert s. induction l as [|x l IH]; intros s; cbn [fold_left]; [apply stable_refl; exact _|].
  eapply stable_trans; [exact _| |apply IH]. st_solve.
Qed.
#[export] Instance op_rel_ses_set_error e s : stable op_rel s (ses_set_error e s).
Proof. unfold ses_set_error. st_solve. Qed.
#[export] Instance op_rel_attach_remote_sender frm r a s : stable_er op_rel (fun x => x) s (attach_remote_sender frm r a s).
Proof. intros x H. change (stable op_rel s x). unfold attach_remote_sender in H. st_er H. Qed.
#[export] Instance op_rel_detach_sender id c e tx s : stable op_rel s (detach_sender id c e tx s).
Proof. unfold detach_sender. st_solve. Qed.
#[export] Instance op_rel_detach_unconfirmed frm a e s : stable op_rel s (detach_unconfirmed frm a e s).
Proof. unfold detach_unconfirmed. st_solve. Qed.
#[export] Instance op_rel_attach_remote_receiver frm s : stable op_rel s (snd (attach_remote_receiver frm s)).
Proof. unfold attach_remote_receiver. st_solve. Qed.
#[export] Instance op_rel_confirm_receiver a r s : stable op_rel s (confirm_receiver a r s).
Proof. unfold confirm_receiver. st_solve. Qed.
#[export] Instance op_rel_detach_receiver id c e tx s : stable_er op_rel (fun x => x) s (detach_receiver id c e tx s).
Proof. intros x H. change (stable op_rel s x). unfold detach_receiver in H. st_er H. Qed.
#[export] Instance op_rel_snd_close a e s : stable op_rel s (snd_close a e s).
Proof. unfold snd_close. st_solve. Qed.
#[export] Instance op_rel_rcv_close a e s : stable_er op_rel (fun x => x) s (rcv_close a e s).
Proof. intros x H. change (stable op_rel s x). unfold rcv_close in H. st_er H. Qed.
#[export] Instance op_rel_ses_detach_receiver h e s : stable_er op_rel (fun x => x) s (ses_detach_receiver h e s).
Proof. intros x H. change (stable op_rel s x). unfold ses_detach_receiver in H. st_er H. Qed.
#[export] Instance op_rel_ses_detach_sender h e s : stable op_rel s (ses_detach_sender h e s).
Proof. unfold ses_detach_sender. st_solve. Qed.
#[export] Instance op_rel_handle_flow f o s : stable op_rel s (handle_flow f o s).
Proof. unfold handle_flow. st_solve. Qed.
#[export] Instance op_rel_transmit t tk l tag s : stable op_rel s (transmit t tk l tag s).
Proof. unfold transmit. st_solve. Qed.
#[export] Instance op_rel_session_loop t tk l tag s : stable op_rel s (session_loop t tk l tag s).
Proof. unfold session_loop. st_solve. Qed.
#[export] Instance op_rel_link_loop t tk l tag s : stable op_rel s (link_loop t tk l tag s).
Proof. unfold link_loop. st_solve. Qed.
#[export] Instance op_rel_poll_send t s : stable op_rel s (poll_send t s).
Proof. unfold poll_send. st_solve. Qed.
#[export] Instance op_rel_settle_one disp b s x : stable op_rel s (settle_one disp b s x).
Proof. unfold settle_one. st_solve. Qed.
#[export] Instance op_rel_settle_all disp b l s : stable op_rel s (settle_all disp b l s).
Proof.
  unfold settle_all. revert s. induction l as [|x l IH]; intros s; cbn [fold_left]; [apply stable_refl; exact _|].
  eapply stable_trans; [exact _| |apply IH]. st_solve.
Qed.
#[export] Instance op_rel_settle_deliveries disp s : stable op_rel s (settle_deliveries disp s).
Proof. unfold settle_deliveries. st_solve. Qed.
#[export] Instance op_rel_rcv_transfer p tr a s : stable_er op_rel fst s (rcv_transfer p tr a s).
Proof. intros [x r] H. change (stable op_rel s x). unfold rcv_transfer in H. st_er H. Qed.
#[export] Instance op_rel_fail_unsettled b h e s : stable op_rel s (fail_unsettled b h e s).
Proof. unfold fail_unsettled. st_solve. Qed.
#[export] Instance op_rel_drain_pending h e s : stable op_rel s (drain_pending h e s).
Proof. unfold drain_pending. st_solve. Qed.
#[export] Instance op_rel_answer tx e s : stable op_rel s (answer tx e s).
Proof. unfold answer. st_solve. Qed.
#[export] Instance op_rel_rcv_detached a s : stable op_rel s (rcv_detached a s).
Proof. unfold rcv_detached. st_solve. Qed.
#[export] Instance op_rel_handle_detach d s : stable op_rel s (fst (handle_detach d s)).
Proof. unfold handle_detach. st_solve. Qed.
#[export] Instance op_rel_ses_handle_frame p f s : stable_er op_rel fst s (ses_handle_frame p f s).
Proof. intros [x r] H. change (stable op_rel s x). unfold ses_handle_frame in H. st_er H. Qed.
#[export] Instance op_rel_handle_attach frm s : stable_opt op_rel s (handle_attach frm s).
Proof. intros x H. change (stable op_rel s x). unfold handle_attach in H. st_er H. Qed.
#[export] Instance op_rel_on_attach frm s : stable op_rel s (on_attach frm s).
Proof. unfold on_attach. st_solve. Qed.
#[export] Instance op_rel_ses_end  s : stable op_rel s (ses_end s).
Proof. unfold ses_end. st_solve. Qed.
#[export] Instance op_rel_control_ok p edit k s : stable_er op_rel (fun x => x) s (control_ok p edit k s).
Proof. intros x H. change (stable op_rel s x). unfold control_ok in H. st_er H. Qed.
#[export] Instance op_rel_control_err e k s : stable_er op_rel (fun x => x) s (control_err e k s).
Proof. intros x H. change (stable op_rel s x). unfold control_err in H. st_er H. Qed.
