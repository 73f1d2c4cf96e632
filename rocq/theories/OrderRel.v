(** * The queue of a sender link, through every function

    Generated by tools/gen_rel.py. *)

From Verif Require Export Order.

#[export] Instance pnd_rel_notify_lock_snd a s : stable pnd_rel s (notify_lock_snd a s).
Proof. unfold notify_lock_snd. st_solve. Qed.
#[export] Instance pnd_rel_snd_remote_detached a e s : stable pnd_rel s (snd_remote_detached a e s).
Proof. unfold snd_remote_detached. st_solve. Qed.
#[export] Instance pnd_rel_drop_established_snd a s : stable pnd_rel s (drop_established_snd a s).
Proof. unfold drop_established_snd. st_solve. Qed.
#[export] Instance pnd_rel_apply_flow f a s : stable pnd_rel s (apply_flow f a s).
Proof. unfold apply_flow. st_solve. Qed.
#[export] Instance pnd_rel_drop_link l s : stable pnd_rel s (drop_link l s).
Proof. unfold drop_link. st_solve. Qed.
#[export] Instance pnd_rel_put_link k l s : stable pnd_rel s (put_link k l s).
Proof. unfold put_link. st_solve. Qed.
#[export] Instance pnd_rel_remove_link k s : stable pnd_rel s (remove_link k s).
Proof. unfold remove_link. st_solve. Qed.
#[export] Instance pnd_rel_fail_link e s x : stable pnd_rel s (fail_link e s x).
Proof. unfold fail_link. st_solve. Qed.
#[export] Instance pnd_rel_fail_links e l s : stable pnd_rel s (fail_links e l s).
Proof.
  unfold fail_links. revert s. induction l as [|x l IH]; intros s; cbn [fold_left]; [apply stable_refl; exact _|].
  eapply stable_trans; [exact _| |apply IH]. st_solve.
Qed.
#[export] Instance pnd_rel_drop_links l s : stable pnd_rel s (drop_links l s).
Proof.
  unfold drop_links. revert s. induction l as [|x l IH]; intros s; cbn [fold_left]; [apply stable_refl; exact _|].
  eapply stable_trans; [exact _| |apply IH]. st_solve.
Qed.
#[export] Instance pnd_rel_ses_set_error e s : stable pnd_rel s (ses_set_error e s).
Proof. unfold ses_set_error. st_solve. Qed.
#[export] Instance pnd_rel_attach_remote_sender frm r a s : stable_er pnd_rel (fun x => x) s (attach_remote_sender frm r a s).
Proof. intros x H. change (stable pnd_rel s x). unfold attach_remote_sender in H. st_er H. Qed.
#[export] Instance pnd_rel_detach_sender id c e tx s : stable pnd_rel s (detach_sender id c e tx s).
Proof. unfold detach_sender. st_solve. Qed.
#[export] Instance pnd_rel_detach_unconfirmed frm a e s : stable pnd_rel s (detach_unconfirmed frm a e s).
Proof. unfold detach_unconfirmed. st_solve. Qed.
#[export] Instance pnd_rel_confirm_receiver a r s : stable pnd_rel s (confirm_receiver a r s).
Proof. unfold confirm_receiver. st_solve. Qed.
#[export] Instance pnd_rel_detach_receiver id c e tx s : stable_er pnd_rel (fun x => x) s (detach_receiver id c e tx s).
Proof. intros x H. change (stable pnd_rel s x). unfold detach_receiver in H. st_er H. Qed.
#[export] Instance pnd_rel_snd_close a e s : stable pnd_rel s (snd_close a e s).
Proof. unfold snd_close. st_solve. Qed.
#[export] Instance pnd_rel_rcv_close a e s : stable_er pnd_rel (fun x => x) s (rcv_close a e s).
Proof. intros x H. change (stable pnd_rel s x). unfold rcv_close in H. st_er H. Qed.
#[export] Instance pnd_rel_ses_detach_receiver h e s : stable_er pnd_rel (fun x => x) s (ses_detach_receiver h e s).
Proof. intros x H. change (stable pnd_rel s x). unfold ses_detach_receiver in H. st_er H. Qed.
#[export] Instance pnd_rel_ses_detach_sender h e s : stable pnd_rel s (ses_detach_sender h e s).
Proof. unfold ses_detach_sender. st_solve. Qed.
#[export] Instance pnd_rel_handle_flow f o s : stable pnd_rel s (handle_flow f o s).
Proof. unfold handle_flow. st_solve. Qed.
#[export] Instance pnd_rel_rcv_transfer p tr a s : stable_er pnd_rel fst s (rcv_transfer p tr a s).
Proof. intros [x r] H. change (stable pnd_rel s x). unfold rcv_transfer in H. st_er H. Qed.
#[export] Instance pnd_rel_handle_detach d s : stable pnd_rel s (fst (handle_detach d s)).
Proof. unfold handle_detach. st_solve. Qed.
#[export] Instance pnd_rel_ses_handle_frame p f s : stable_er pnd_rel fst s (ses_handle_frame p f s).
Proof. intros [x r] H. change (stable pnd_rel s x). unfold ses_handle_frame in H. st_er H. Qed.
#[export] Instance pnd_rel_handle_attach frm s : stable_opt pnd_rel s (handle_attach frm s).
Proof. intros x H. change (stable pnd_rel s x). unfold handle_attach in H. st_er H. Qed.
#[export] Instance pnd_rel_on_attach frm s : stable pnd_rel s (on_attach frm s).
Proof. unfold on_attach. st_solve. Qed.
#[export] Instance pnd_rel_control_ok p edit k s : stable_er pnd_rel (fun x => x) s (control_ok p edit k s).
Proof. intros x H. change (stable pnd_rel s x). unfold control_ok in H. st_er H. Qed.
#[export] Instance pnd_rel_control_err e k s : stable_er pnd_rel (fun x => x) s (control_err e k s).
Proof. intros x H. change (stable pnd_rel s x). unfold control_err in H. st_er H. Qed.
