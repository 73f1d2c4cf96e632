(** * No channel gets to a new place, through every function

    Generated by tools/gen_rel.py. *)

From Verif Require Export One.

#[export] Instance shr_rel_notify_lock_snd a s : stable shr_rel s (notify_lock_snd a s).
Proof. unfold notify_lock_snd. st_solve. Qed.
#[export] Instance shr_rel_snd_remote_detached a e s : stable shr_rel s (snd_remote_detached a e s).
Proof. unfold snd_remote_detached. st_solve. Qed.
#[export] Instance shr_rel_drop_established_snd a s : stable shr_rel s (drop_established_snd a s).
Proof. unfold drop_established_snd. st_solve. Qed.
#[export] Instance shr_rel_apply_flow f a s : stable shr_rel s (apply_flow f a s).
Proof. unfold apply_flow. st_solve. Qed.
#[export] Instance shr_rel_drop_link l s : stable shr_rel s (drop_link l s).
Proof. unfold drop_link. st_solve. Qed.
#[export] Instance shr_rel_remove_link k s : stable shr_rel s (remove_link k s).
Proof. unfold remove_link. st_solve. Qed.
#[export] Instance shr_rel_new_rcv id h tag settled s : stable shr_rel s (snd (new_rcv id h tag settled s)).
Proof. unfold new_rcv. st_solve. Qed.
#[export] Instance shr_rel_dlv_drop i s : stable shr_rel s (dlv_drop i s).
Proof. unfold dlv_drop. st_solve. Qed.
#[export] Instance shr_rel_drop_dlvs l s : stable shr_rel s (drop_dlvs l s).
Proof.
  unfold drop_dlvs. revert s. induction l as [|x l IH]; intros s; cbn [fold_left]; [apply stable_refl; exact _|].
  eapply stable_trans; [exact _| |apply IH]. st_solve.
Qed.
#[export] Instance shr_rel_fail_link e s x : stable shr_rel s (fail_link e s x).
Proof. unfold fail_link. st_solve. Qed.
#[export] Instance shr_rel_fail_links e l s : stable shr_rel s (fail_links e l s).
Proof.
  unfold fail_links. revert s. induction l as [|x l IH]; intros s; cbn [fold_left]; [apply stable_refl; exact _|].
  eapply stable_trans; [exact _| |apply IH]. st_solve.
Qed.
#[export] Instance shr_rel_drop_links l s : stable shr_rel s (drop_links l s).
Proof.
  unfold drop_links. revert s. induction l as [|x l IH]; intros s; cbn [fold_left]; [apply stable_refl; exact _|].
  eapply stable_trans; [exact _| |apply IH]. st_solve.
Qed.
#[export] Instance shr_rel_ses_set_error e s : stable shr_rel s (ses_set_error e s).
Proof. unfold ses_set_error. st_solve. Qed.
#[export] Instance shr_rel_attach_remote_sender frm r a s : stable_er shr_rel (fun x => x) s (attach_remote_sender frm r a s).
Proof. intros x H. change (stable shr_rel s x). unfold attach_remote_sender in H. st_er H. Qed.
#[export] Instance shr_rel_detach_unconfirmed frm a e s : stable shr_rel s (detach_unconfirmed frm a e s).
Proof. unfold detach_unconfirmed. st_solve. Qed.
#[export] Instance shr_rel_attach_remote_receiver frm s : stable shr_rel s (snd (attach_remote_receiver frm s)).
Proof. unfold attach_remote_receiver. st_solve. Qed.
#[export] Instance shr_rel_confirm_receiver a r s : stable shr_rel s (confirm_receiver a r s).
Proof. unfold confirm_receiver. st_solve. Qed.
#[export] Instance shr_rel_handle_flow f o s : stable shr_rel s (handle_flow f o s).
Proof. unfold handle_flow. st_solve. Qed.
#[export] Instance shr_rel_transmit t tk l tag s : stable shr_rel s (transmit t tk l tag s).
Proof. unfold transmit. st_solve. Qed.
#[export] Instance shr_rel_settle_all disp b l s : stable shr_rel s (settle_all disp b l s).
Proof.
  unfold settle_all. revert s. induction l as [|x l IH]; intros s; cbn [fold_left]; [apply stable_refl; exact _|].
  eapply stable_trans; [exact _| |apply IH]. st_solve.
Qed.
#[export] Instance shr_rel_settle_deliveries disp s : stable shr_rel s (settle_deliveries disp s).
Proof. unfold settle_deliveries. st_solve. Qed.
#[export] Instance shr_rel_answer tx e s : stable shr_rel s (answer tx e s).
Proof. unfold answer. st_solve. Qed.
#[export] Instance shr_rel_rcv_detached a s : stable shr_rel s (rcv_detached a s).
Proof. unfold rcv_detached. st_solve. Qed.
#[export] Instance shr_rel_handle_detach d s : stable shr_rel s (fst (handle_detach d s)).
Proof. unfold handle_detach. st_solve. Qed.
#[export] Instance shr_rel_handle_attach frm s : stable_opt shr_rel s (handle_attach frm s).
Proof. intros x H. change (stable shr_rel s x). unfold handle_attach in H. st_er H. Qed.
#[export] Instance shr_rel_on_attach frm s : stable shr_rel s (on_attach frm s).
Proof. unfold on_attach. st_solve. Qed.
#[export] Instance shr_rel_control_ok p edit k s : stable_er shr_rel (fun x => x) s (control_ok p edit k s).
Proof. intros x H. change (stable shr_rel s x). unfold control_ok in H. st_er H. Qed.
