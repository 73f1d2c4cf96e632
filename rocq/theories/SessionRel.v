(** * What the links keep, through every function

    Generated by tools/gen_rel.py. *)

From Verif Require Export Rel.

(** ** Sender links *)

#[export] Instance keeps_snds_drop_established_snd a s : stable keeps_snds s (drop_established_snd a s).
Proof. unfold drop_established_snd. st_solve. Qed.
#[export] Instance keeps_snds_drop_link l s : stable keeps_snds s (drop_link l s).
Proof. unfold drop_link. st_solve. Qed.
#[export] Instance keeps_snds_put_link k l s : stable keeps_snds s (put_link k l s).
Proof. unfold put_link. st_solve. Qed.
#[export] Instance keeps_snds_remove_link k s : stable keeps_snds s (remove_link k s).
Proof. unfold remove_link. st_solve. Qed.
#[export] Instance keeps_snds_fail_link e s x : stable keeps_snds s (fail_link e s x).
Proof. unfold fail_link. st_solve. Qed.
#[export] Instance keeps_snds_fail_links e l s : stable keeps_snds s (fail_links e l s).
Proof.
  unfold fail_links. revert s. induction l as [|x l IH]; intros s; cbn [fold_left]; [apply stable_refl; exact _|].
  eapply stable_trans; [exact _| |apply IH]. st_solve.
Qed.
#[export] Instance keeps_snds_drop_links l s : stable keeps_snds s (drop_links l s).
Proof.
  unfold drop_links. revert s. induction l as [|x l IH]; intros s; cbn [fold_left]; [apply stable_refl; exact _|].
  eapply stable_trans; [exact _| |apply IH]. st_solve.
Qed.
#[export] Instance keeps_snds_ses_set_error e s : stable keeps_snds s (ses_set_error e s).
Proof. unfold ses_set_error. st_solve. Qed.
#[export] Instance keeps_snds_attach_remote_sender frm r a s : stable_er keeps_snds (fun x => x) s (attach_remote_sender frm r a s).
Proof. intros x H. change (stable keeps_snds s x). unfold attach_remote_sender in H. st_er H. Qed.
#[export] Instance keeps_snds_detach_sender id c e tx s : stable keeps_snds s (detach_sender id c e tx s).
Proof. unfold detach_sender. st_solve. Qed.
#[export] Instance keeps_snds_detach_unconfirmed frm a e s : stable keeps_snds s (detach_unconfirmed frm a e s).
Proof. unfold detach_unconfirmed. st_solve. Qed.
#[export] Instance keeps_snds_confirm_receiver a r s : stable keeps_snds s (confirm_receiver a r s).
Proof. unfold confirm_receiver. st_solve. Qed.
#[export] Instance keeps_snds_detach_receiver id c e tx s : stable_er keeps_snds (fun x => x) s (detach_receiver id c e tx s).
Proof. intros x H. change (stable keeps_snds s x). unfold detach_receiver in H. st_er H. Qed.
#[export] Instance keeps_snds_snd_close a e s : stable keeps_snds s (snd_close a e s).
Proof. unfold snd_close. st_solve. Qed.
#[export] Instance keeps_snds_rcv_close a e s : stable_er keeps_snds (fun x => x) s (rcv_close a e s).
Proof. intros x H. change (stable keeps_snds s x). unfold rcv_close in H. st_er H. Qed.
#[export] Instance keeps_snds_ses_detach_receiver h e s : stable_er keeps_snds (fun x => x) s (ses_detach_receiver h e s).
Proof. intros x H. change (stable keeps_snds s x). unfold ses_detach_receiver in H. st_er H. Qed.
#[export] Instance keeps_snds_ses_detach_sender h e s : stable keeps_snds s (ses_detach_sender h e s).
Proof. unfold ses_detach_sender. st_solve. Qed.
#[export] Instance keeps_snds_rcv_transfer p tr a s : stable_er keeps_snds fst s (rcv_transfer p tr a s).
Proof. intros [x r] H. change (stable keeps_snds s x). unfold rcv_transfer in H. st_er H. Qed.
#[export] Instance keeps_snds_handle_detach d s : stable keeps_snds s (fst (handle_detach d s)).
Proof. unfold handle_detach. st_solve. Qed.
#[export] Instance keeps_snds_ses_handle_frame p f s : stable_er keeps_snds fst s (ses_handle_frame p f s).
Proof. intros [x r] H. change (stable keeps_snds s x). unfold ses_handle_frame in H. st_er H. Qed.
#[export] Instance keeps_snds_handle_attach frm s : stable_opt keeps_snds s (handle_attach frm s).
Proof. intros x H. change (stable keeps_snds s x). unfold handle_attach in H. st_er H. Qed.
#[export] Instance keeps_snds_on_attach frm s : stable keeps_snds s (on_attach frm s).
Proof. unfold on_attach. st_solve. Qed.
#[export] Instance keeps_snds_control_err e k s : stable_er keeps_snds (fun x => x) s (control_err e k s).
Proof. intros x H. change (stable keeps_snds s x). unfold control_err in H. st_er H. Qed.


(** ** Receiver links *)

#[export] Instance keeps_rcvs_drop_established_rcv a s : stable keeps_rcvs s (drop_established_rcv a s).
Proof. unfold drop_established_rcv. st_solve. Qed.
#[export] Instance keeps_rcvs_drop_link l s : stable keeps_rcvs s (drop_link l s).
Proof. unfold drop_link. st_solve. Qed.
#[export] Instance keeps_rcvs_put_link k l s : stable keeps_rcvs s (put_link k l s).
Proof. unfold put_link. st_solve. Qed.
#[export] Instance keeps_rcvs_remove_link k s : stable keeps_rcvs s (remove_link k s).
Proof. unfold remove_link. st_solve. Qed.
#[export] Instance keeps_rcvs_fail_link e s x : stable keeps_rcvs s (fail_link e s x).
Proof. unfold fail_link. st_solve. Qed.
#[export] Instance keeps_rcvs_fail_links e l s : stable keeps_rcvs s (fail_links e l s).
Proof.
  unfold fail_links. revert s. induction l as [|x l IH]; intros s; cbn [fold_left]; [apply stable_refl; exact _|].
  eapply stable_trans; [exact _| |apply IH]. st_solve.
Qed.
#[export] Instance keeps_rcvs_drop_links l s : stable keeps_rcvs s (drop_links l s).
Proof.
  unfold drop_links. revert s. induction l as [|x l IH]; intros s; cbn [fold_left]; [apply stable_refl; exact _|].
  eapply stable_trans; [exact _| |apply IH]. st_solve.
Qed.
#[export] Instance keeps_rcvs_ses_set_error e s : stable keeps_rcvs s (ses_set_error e s).
Proof. unfold ses_set_error. st_solve. Qed.
#[export] Instance keeps_rcvs_attach_remote_sender frm r a s : stable_er keeps_rcvs (fun x => x) s (attach_remote_sender frm r a s).
Proof. intros x H. change (stable keeps_rcvs s x). unfold attach_remote_sender in H. st_er H. Qed.
#[export] Instance keeps_rcvs_detach_sender id c e tx s : stable keeps_rcvs s (detach_sender id c e tx s).
Proof. unfold detach_sender. st_solve. Qed.
#[export] Instance keeps_rcvs_detach_unconfirmed frm a e s : stable keeps_rcvs s (detach_unconfirmed frm a e s).
Proof. unfold detach_unconfirmed. st_solve. Qed.
#[export] Instance keeps_rcvs_attach_remote_receiver frm s : stable keeps_rcvs s (snd (attach_remote_receiver frm s)).
Proof. unfold attach_remote_receiver. st_solve. Qed.
#[export] Instance keeps_rcvs_attach_local_receiver frm s : stable keeps_rcvs s (snd (attach_local_receiver frm s)).
Proof. unfold attach_local_receiver. st_solve. Qed.
#[export] Instance keeps_rcvs_confirm_receiver a r s : stable keeps_rcvs s (confirm_receiver a r s).
Proof. unfold confirm_receiver. st_solve. Qed.
#[export] Instance keeps_rcvs_detach_receiver id c e tx s : stable_er keeps_rcvs (fun x => x) s (detach_receiver id c e tx s).
Proof. intros x H. change (stable keeps_rcvs s x). unfold detach_receiver in H. st_er H. Qed.
#[export] Instance keeps_rcvs_snd_close a e s : stable keeps_rcvs s (snd_close a e s).
Proof. unfold snd_close. st_solve. Qed.
#[export] Instance keeps_rcvs_rcv_close a e s : stable_er keeps_rcvs (fun x => x) s (rcv_close a e s).
Proof. intros x H. change (stable keeps_rcvs s x). unfold rcv_close in H. st_er H. Qed.
#[export] Instance keeps_rcvs_ses_detach_receiver h e s : stable_er keeps_rcvs (fun x => x) s (ses_detach_receiver h e s).
Proof. intros x H. change (stable keeps_rcvs s x). unfold ses_detach_receiver in H. st_er H. Qed.
#[export] Instance keeps_rcvs_ses_detach_sender h e s : stable keeps_rcvs s (ses_detach_sender h e s).
Proof. unfold ses_detach_sender. st_solve. Qed.
#[export] Instance keeps_rcvs_on_attach frm s : stable keeps_rcvs s (on_attach frm s).
Proof. unfold on_attach. st_solve. Qed.
#[export] Instance keeps_rcvs_control_err e k s : stable_er keeps_rcvs (fun x => x) s (control_err e k s).
Proof. intros x H. change (stable keeps_rcvs s x). unfold control_err in H. st_er H. Qed.


(** ** Identities *)

#[export] Instance keeps_objs_notify_lock_snd a s : stable keeps_objs s (notify_lock_snd a s).
Proof. unfold notify_lock_snd. st_solve. Qed.
#[export] Instance keeps_objs_snd_remote_detached a e s : stable keeps_objs s (snd_remote_detached a e s).
Proof. unfold snd_remote_detached. st_solve. Qed.
#[export] Instance keeps_objs_drop_established_snd a s : stable keeps_objs s (drop_established_snd a s).
Proof. unfold drop_established_snd. st_solve. Qed.
#[export] Instance keeps_objs_apply_flow f a s : stable keeps_objs s (apply_flow f a s).
Proof. unfold apply_flow. st_solve. Qed.
#[export] Instance keeps_objs_drop_link l s : stable keeps_objs s (drop_link l s).
Proof. unfold drop_link. st_solve. Qed.
#[export] Instance keeps_objs_put_link k l s : stable keeps_objs s (put_link k l s).
Proof. unfold put_link. st_solve. Qed.
#[export] Instance keeps_objs_remove_link k s : stable keeps_objs s (remove_link k s).
Proof. unfold remove_link. st_solve. Qed.
#[export] Instance keeps_objs_new_rcv id h tag settled s : stable keeps_objs s (snd (new_rcv id h tag settled s)).
Proof. unfold new_rcv. st_solve. Qed.
#[export] Instance keeps_objs_dlv_settle i st s : stable keeps_objs s (dlv_settle i st s).
Proof. unfold dlv_settle. st_solve. Qed.
#[export] Instance keeps_objs_dlv_drop i s : stable keeps_objs s (dlv_drop i s).
Proof. unfold dlv_drop. st_solve. Qed.
#[export] Instance keeps_objs_drop_dlvs l s : stable keeps_objs s (drop_dlvs l s).
Proof.
  unfold drop_dlvs. revert s. induction l as [|x l IH]; intros s; cbn [fold_left]; [apply stable_refl; exact _|].
  eapply stable_trans; [exact _| |apply IH]. st_solve.
Qed.
#[export] Instance keeps_objs_poll_wait w s : stable keeps_objs s (poll_wait w s).
Proof. unfold poll_wait. st_solve. Qed.
#[export] Instance keeps_objs_fail_link e s x : stable keeps_objs s (fail_link e s x).
Proof. unfold fail_link. st_solve. Qed.
#[export] Instance keeps_objs_fail_links e l s : stable keeps_objs s (fail_links e l s).
Proof.
  unfold fail_links. revert s. induction l as [|x l IH]; intros s; cbn [fold_left]; [apply stable_refl; exact _|].
  eapply stable_trans; [exact _| |apply IH]. st_solve.
Qed.
#[export] Instance keeps_objs_drop_links l s : stable keeps_objs s (drop_links l s).
Proof.
  unfold drop_links. revert s. induction l as [|x l IH]; intros s; cbn [fold_left]; [apply stable_refl; exact _|].
  eapply stable_trans; [exact _| |apply IH]. st_solve.
Qed.
#[export] Instance keeps_objs_ses_set_error e s : stable keeps_objs s (ses_set_error e s).
Proof. unfold ses_set_error. st_solve. Qed.
#[export] Instance keeps_objs_attach_remote_sender frm r a s : stable_er keeps_objs (fun x => x) s (attach_remote_sender frm r a s).
Proof. intros x H. change (stable keeps_objs s x). unfold attach_remote_sender in H. st_er H. Qed.
#[export] Instance keeps_objs_detach_sender id c e tx s : stable keeps_objs s (detach_sender id c e tx s).
Proof. unfold detach_sender. st_solve. Qed.
#[export] Instance keeps_objs_detach_unconfirmed frm a e s : stable keeps_objs s (detach_unconfirmed frm a e s).
Proof. unfold detach_unconfirmed. st_solve. Qed.
#[export] Instance keeps_objs_confirm_receiver a r s : stable keeps_objs s (confirm_receiver a r s).
Proof. unfold confirm_receiver. st_solve. Qed.
#[export] Instance keeps_objs_detach_receiver id c e tx s : stable_er keeps_objs (fun x => x) s (detach_receiver id c e tx s).
Proof. intros x H. change (stable keeps_objs s x). unfold detach_receiver in H. st_er H. Qed.
#[export] Instance keeps_objs_snd_close a e s : stable keeps_objs s (snd_close a e s).
Proof. unfold snd_close. st_solve. Qed.
#[export] Instance keeps_objs_rcv_close a e s : stable_er keeps_objs (fun x => x) s (rcv_close a e s).
Proof. intros x H. change (stable keeps_objs s x). unfold rcv_close in H. st_er H. Qed.
#[export] Instance keeps_objs_ses_detach_receiver h e s : stable_er keeps_objs (fun x => x) s (ses_detach_receiver h e s).
Proof. intros x H. change (stable keeps_objs s x). unfold ses_detach_receiver in H. st_er H. Qed.
#[export] Instance keeps_objs_ses_detach_sender h e s : stable keeps_objs s (ses_detach_sender h e s).
Proof. unfold ses_detach_sender. st_solve. Qed.
#[export] Instance keeps_objs_handle_flow f o s : stable keeps_objs s (handle_flow f o s).
Proof. unfold handle_flow. st_solve. Qed.
#[export] Instance keeps_objs_transmit t tk l tag s : stable keeps_objs s (transmit t tk l tag s).
Proof. unfold transmit. st_solve. Qed.
#[export] Instance keeps_objs_session_loop t tk l tag s : stable keeps_objs s (session_loop t tk l tag s).
Proof. unfold session_loop. st_solve. Qed.
#[export] Instance keeps_objs_link_loop t tk l tag s : stable keeps_objs s (link_loop t tk l tag s).
Proof. unfold link_loop. st_solve. Qed.
#[export] Instance keeps_objs_poll_send t s : stable keeps_objs s (poll_send t s).
Proof. unfold poll_send. st_solve. Qed.
#[export] Instance keeps_objs_rcv_transfer p tr a s : stable_er keeps_objs fst s (rcv_transfer p tr a s).
Proof. intros [x r] H. change (stable keeps_objs s x). unfold rcv_transfer in H. st_er H. Qed.
#[export] Instance keeps_objs_rcv_detached a s : stable keeps_objs s (rcv_detached a s).
Proof. unfold rcv_detached. st_solve. Qed.
#[export] Instance keeps_objs_handle_detach d s : stable keeps_objs s (fst (handle_detach d s)).
Proof. unfold handle_detach. st_solve. Qed.
#[export] Instance keeps_objs_ses_handle_frame p f s : stable_er keeps_objs fst s (ses_handle_frame p f s).
Proof. intros [x r] H. change (stable keeps_objs s x). unfold ses_handle_frame in H. st_er H. Qed.
#[export] Instance keeps_objs_handle_attach frm s : stable_opt keeps_objs s (handle_attach frm s).
Proof. intros x H. change (stable keeps_objs s x). unfold handle_attach in H. st_er H. Qed.
#[export] Instance keeps_objs_on_attach frm s : stable keeps_objs s (on_attach frm s).
Proof. unfold on_attach. st_solve. Qed.
#[export] Instance keeps_objs_control_ok p edit k s : stable_er keeps_objs (fun x => x) s (control_ok p edit k s).
Proof. intros x H. change (stable keeps_objs s x). unfold control_ok in H. st_er H. Qed.
#[export] Instance keeps_objs_control_err e k s : stable_er keeps_objs (fun x => x) s (control_err e k s).
Proof. intros x H. change (stable keeps_objs s x). unfold control_err in H. st_er H. Qed.


(** ** Tag counters *)

#[export] Instance keeps_tags_notify_lock_snd a s : stable keeps_tags s (notify_lock_snd a s).
Proof. unfold notify_lock_snd. st_solve. Qed.
#[export] Instance keeps_tags_snd_remote_detached a e s : stable keeps_tags s (snd_remote_detached a e s).
Proof. unfold snd_remote_detached. st_solve. Qed.
#[export] Instance keeps_tags_drop_established_snd a s : stable keeps_tags s (drop_established_snd a s).
Proof. unfold drop_established_snd. st_solve. Qed.
#[export] Instance keeps_tags_apply_flow f a s : stable keeps_tags s (apply_flow f a s).
Proof. unfold apply_flow. st_solve. Qed.
#[export] Instance keeps_tags_drop_link l s : stable keeps_tags s (drop_link l s).
Proof. unfold drop_link. st_solve. Qed.
#[export] Instance keeps_tags_put_link k l s : stable keeps_tags s (put_link k l s).
Proof. unfold put_link. st_solve. Qed.
#[export] Instance keeps_tags_remove_link k s : stable keeps_tags s (remove_link k s).
Proof. unfold remove_link. st_solve. Qed.
#[export] Instance keeps_tags_fail_link e s x : stable keeps_tags s (fail_link e s x).
Proof. unfold fail_link. st_solve. Qed.
#[export] Instance keeps_tags_fail_links e l s : stable keeps_tags s (fail_links e l s).
Proof.
  unfold fail_links. revert s. induction l as [|x l IH]; intros s; cbn [fold_left]; [apply stable_refl; exact _|].
  eapply stable_trans; [exact _| |apply IH]. st_solve.
Qed.
#[export] Instance keeps_tags_drop_links l s : stable keeps_tags s (drop_links l s).
Proof.
  unfold drop_links. revert s. induction l as [|x l IH]; intros s; cbn [fold_left]; [apply stable_refl; exact _|].
  eapply stable_trans; [exact _| |apply IH]. st_solve.
Qed.
#[export] Instance keeps_tags_ses_set_error e s : stable keeps_tags s (ses_set_error e s).
Proof. unfold ses_set_error. st_solve. Qed.
#[export] Instance keeps_tags_attach_remote_sender frm r a s : stable_er keeps_tags (fun x => x) s (attach_remote_sender frm r a s).
Proof. intros x H. change (stable keeps_tags s x). unfold attach_remote_sender in H. st_er H. Qed.
#[export] Instance keeps_tags_detach_sender id c e tx s : stable keeps_tags s (detach_sender id c e tx s).
Proof. unfold detach_sender. st_solve. Qed.
#[export] Instance keeps_tags_detach_unconfirmed frm a e s : stable keeps_tags s (detach_unconfirmed frm a e s).
Proof. unfold detach_unconfirmed. st_solve. Qed.
#[export] Instance keeps_tags_confirm_receiver a r s : stable keeps_tags s (confirm_receiver a r s).
Proof. unfold confirm_receiver. st_solve. Qed.
#[export] Instance keeps_tags_detach_receiver id c e tx s : stable_er keeps_tags (fun x => x) s (detach_receiver id c e tx s).
Proof. intros x H. change (stable keeps_tags s x). unfold detach_receiver in H. st_er H. Qed.
#[export] Instance keeps_tags_snd_close a e s : stable keeps_tags s (snd_close a e s).
Proof. unfold snd_close. st_solve. Qed.
#[export] Instance keeps_tags_rcv_close a e s : stable_er keeps_tags (fun x => x) s (rcv_close a e s).
Proof. intros x H. change (stable keeps_tags s x). unfold rcv_close in H. st_er H. Qed.
#[export] Instance keeps_tags_ses_detach_receiver h e s : stable_er keeps_tags (fun x => x) s (ses_detach_receiver h e s).
Proof. intros x H. change (stable keeps_tags s x). unfold ses_detach_receiver in H. st_er H. Qed.
#[export] Instance keeps_tags_ses_detach_sender h e s : stable keeps_tags s (ses_detach_sender h e s).
Proof. unfold ses_detach_sender. st_solve. Qed.
#[export] Instance keeps_tags_handle_flow f o s : stable keeps_tags s (handle_flow f o s).
Proof. unfold handle_flow. st_solve. Qed.
#[export] Instance keeps_tags_link_loop t tk l tag s : stable keeps_tags s (link_loop t tk l tag s).
Proof. unfold link_loop. st_solve. Qed.
#[export] Instance keeps_tags_rcv_transfer p tr a s : stable_er keeps_tags fst s (rcv_transfer p tr a s).
Proof. intros [x r] H. change (stable keeps_tags s x). unfold rcv_transfer in H. st_er H. Qed.
#[export] Instance keeps_tags_handle_detach d s : stable keeps_tags s (fst (handle_detach d s)).
Proof. unfold handle_detach. st_solve. Qed.
#[export] Instance keeps_tags_ses_handle_frame p f s : stable_er keeps_tags fst s (ses_handle_frame p f s).
Proof. intros [x r] H. change (stable keeps_tags s x). unfold ses_handle_frame in H. st_er H. Qed.
#[export] Instance keeps_tags_handle_attach frm s : stable_opt keeps_tags s (handle_attach frm s).
Proof. intros x H. change (stable keeps_tags s x). unfold handle_attach in H. st_er H. Qed.
#[export] Instance keeps_tags_on_attach frm s : stable keeps_tags s (on_attach frm s).
Proof. unfold on_attach. st_solve. Qed.
#[export] Instance keeps_tags_control_ok p edit k s : stable_er keeps_tags (fun x => x) s (control_ok p edit k s).
Proof. intros x H. change (stable keeps_tags s x). unfold control_ok in H. st_er H. Qed.
#[export] Instance keeps_tags_control_err e k s : stable_er keeps_tags (fun x => x) s (control_err e k s).
Proof. intros x H. change (stable keeps_tags s x). unfold control_err in H. st_er H. Qed.
