(** * A receiver link that leaves its slot is closed, through every function

    Generated by tools/gen_rel.py. *)

From Verif Require Export OwnedRcv.

#[export] Instance rown_rel_attach_local_sender frm s : stable rown_rel s (snd (attach_local_sender frm s)).
Proof. unfold attach_local_sender. st_solve. Qed.
#[export] Instance rown_rel_attach_remote_sender frm r a s : stable_er rown_rel (fun x => x) s (attach_remote_sender frm r a s).
Proof. intros x H. change (stable rown_rel s x). unfold attach_remote_sender in H. st_er H. Qed.
#[export] Instance rown_rel_detach_sender id c e tx s : stable rown_rel s (detach_sender id c e tx s).
Proof. unfold detach_sender. st_solve. Qed.
#[export] Instance rown_rel_detach_unconfirmed frm a e s : stable rown_rel s (detach_unconfirmed frm a e s).
Proof. unfold detach_unconfirmed. st_solve. Qed.
#[export] Instance rown_rel_attach_remote_receiver frm s : stable rown_rel s (snd (attach_remote_receiver frm s)).
Proof. unfold attach_remote_receiver. st_solve. Qed.
#[export] Instance rown_rel_attach_local_receiver frm s : stable rown_rel s (snd (attach_local_receiver frm s)).
Proof. unfold attach_local_receiver. st_solve. Qed.
#[export] Instance rown_rel_confirm_receiver a r s : stable rown_rel s (confirm_receiver a r s).
Proof. unfold confirm_receiver. st_solve. Qed.
#[export] Instance rown_rel_detach_receiver id c e tx s : stable_er rown_rel (fun x => x) s (detach_receiver id c e tx s).
Proof. intros x H. change (stable rown_rel s x). unfold detach_receiver in H. st_er H. Qed.
#[export] Instance rown_rel_snd_close a e s : stable rown_rel s (snd_close a e s).
Proof. unfold snd_close. st_solve. Qed.
#[export] Instance rown_rel_rcv_close a e s : stable_er rown_rel (fun x => x) s (rcv_close a e s).
Proof. intros x H. change (stable rown_rel s x). unfold rcv_close in H. st_er H. Qed.
#[export] Instance rown_rel_ses_detach_receiver h e s : stable_er rown_rel (fun x => x) s (ses_detach_receiver h e s).
Proof. intros x H. change (stable rown_rel s x). unfold ses_detach_receiver in H. st_er H. Qed.
#[export] Instance rown_rel_ses_detach_sender h e s : stable rown_rel s (ses_detach_sender h e s).
Proof. unfold ses_detach_sender. st_solve. Qed.
#[export] Instance rown_rel_set_link_credit p a c s : stable_er rown_rel (fun x => x) s (set_link_credit p a c s).
Proof. intros x H. change (stable rown_rel s x). unfold set_link_credit in H. st_er H. Qed.
#[export] Instance rown_rel_rcv_transfer p tr a s : stable_er rown_rel fst s (rcv_transfer p tr a s).
Proof. intros [x r] H. change (stable rown_rel s x). unfold rcv_transfer in H. st_er H. Qed.
#[export] Instance rown_rel_rcv_detached a s : stable rown_rel s (rcv_detached a s).
Proof. unfold rcv_detached. st_solve. Qed.
#[export] Instance rown_rel_handle_detach d s : stable rown_rel s (fst (handle_detach d s)).
Proof. unfold handle_detach. st_solve. Qed.
#[export] Instance rown_rel_ses_handle_frame p f s : stable_er rown_rel fst s (ses_handle_frame p f s).
Proof. intros [x r] H. change (stable rown_rel s x). unfold ses_handle_frame in H. st_er H. Qed.
#[export] Instance rown_rel_on_attach frm s : stable rown_rel s (on_attach frm s).
Proof. unfold on_attach. st_solve. Qed.
#[export] Instance rown_rel_control_ok p edit k s : stable_er rown_rel (fun x => x) s (control_ok p edit k s).
Proof. intros x H. change (stable rown_rel s x). unfold control_ok in H. st_er H. Qed.
#[export] Instance rown_rel_control_err e k s : stable_er rown_rel (fun x => x) s (control_err e k s).
Proof. intros x H. change (stable rown_rel s x). unfold control_err in H. st_er H. Qed.

#[export] Instance rch_rel_rcv_remote_detached a e s : stable rch_rel s (rcv_remote_detached a e s).
Proof. unfold rcv_remote_detached. st_solve. Qed.
#[export] Instance rch_rel_drop_established_rcv a s : stable rch_rel s (drop_established_rcv a s).
Proof. unfold drop_established_rcv. st_solve. Qed.
#[export] Instance rch_rel_drop_link l s : stable rch_rel s (drop_link l s).
Proof. unfold drop_link. st_solve. Qed.
#[export] Instance rch_rel_put_link k l s : stable rch_rel s (put_link k l s).
Proof. unfold put_link. st_solve. Qed.
#[export] Instance rch_rel_remove_link k s : stable rch_rel s (remove_link k s).
Proof. unfold remove_link. st_solve. Qed.
#[export] Instance rch_rel_fail_link e s x : stable rch_rel s (fail_link e s x).
Proof. unfold fail_link. st_solve. Qed.
#[export] Instance rch_rel_fail_links e l s : stable rch_rel s (fail_links e l s).
Proof.
  unfold fail_links. revert s. induction l as [|x l IH]; intros s; cbn [fold_left]; [apply stable_refl; exact _|].
  eapply stable_trans; [exact _| |apply IH]. st_solve.
Qed.
#[export] Instance rch_rel_drop_links l s : stable rch_rel s (drop_links l s).
Proof.
  unfold drop_links. revert s. induction l as [|x l IH]; intros s; cbn [fold_left]; [apply stable_refl; exact _|].
  eapply stable_trans; [exact _| |apply IH]. st_solve.
Qed.
#[export] Instance rch_rel_ses_set_error e s : stable rch_rel s (ses_set_error e s).
Proof. unfold ses_set_error. st_solve. Qed.
#[export] Instance rch_rel_attach_remote_sender frm r a s : stable_er rch_rel (fun x => x) s (attach_remote_sender frm r a s).
Proof. intros x H. change (stable rch_rel s x). unfold attach_remote_sender in H. st_er H. Qed.
#[export] Instance rch_rel_detach_sender id c e tx s : stable rch_rel s (detach_sender id c e tx s).
Proof. unfold detach_sender. st_solve. Qed.
#[export] Instance rch_rel_detach_unconfirmed frm a e s : stable rch_rel s (detach_unconfirmed frm a e s).
Proof. unfold detach_unconfirmed. st_solve. Qed.
#[export] Instance rch_rel_attach_remote_receiver frm s : stable rch_rel s (snd (attach_remote_receiver frm s)).
Proof. unfold attach_remote_receiver. st_solve. Qed.
#[export] Instance rch_rel_attach_local_receiver frm s : stable rch_rel s (snd (attach_local_receiver frm s)).
Proof. unfold attach_local_receiver. st_solve. Qed.
#[export] Instance rch_rel_confirm_receiver a r s : stable rch_rel s (confirm_receiver a r s).
Proof. unfold confirm_receiver. st_solve. Qed.
#[export] Instance rch_rel_detach_receiver id c e tx s : stable_er rch_rel (fun x => x) s (detach_receiver id c e tx s).
Proof. intros x H. change (stable rch_rel s x). unfold detach_receiver in H. st_er H. Qed.
#[export] Instance rch_rel_snd_close a e s : stable rch_rel s (snd_close a e s).
Proof. unfold snd_close. st_solve. Qed.
#[export] Instance rch_rel_rcv_close a e s : stable_er rch_rel (fun x => x) s (rcv_close a e s).
Proof. intros x H. change (stable rch_rel s x). unfold rcv_close in H. st_er H. Qed.
#[export] Instance rch_rel_ses_detach_receiver h e s : stable_er rch_rel (fun x => x) s (ses_detach_receiver h e s).
Proof. intros x H. change (stable rch_rel s x). unfold ses_detach_receiver in H. st_er H. Qed.
#[export] Instance rch_rel_ses_detach_sender h e s : stable rch_rel s (ses_detach_sender h e s).
Proof. unfold ses_detach_sender. st_solve. Qed.
#[export] Instance rch_rel_set_link_credit p a c s : stable_er rch_rel (fun x => x) s (set_link_credit p a c s).
Proof. intros x H. change (stable rch_rel s x). unfold set_link_credit in H. st_er H. Qed.
#[export] Instance rch_rel_rcv_transfer p tr a s : stable_er rch_rel fst s (rcv_transfer p tr a s).
Proof. intros [x r] H. change (stable rch_rel s x). unfold rcv_transfer in H. st_er H. Qed.
#[export] Instance rch_rel_rcv_detached a s : stable rch_rel s (rcv_detached a s).
Proof. unfold rcv_detached. st_solve. Qed.
#[export] Instance rch_rel_handle_detach d s : stable rch_rel s (fst (handle_detach d s)).
Proof. unfold handle_detach. st_solve. Qed.
#[export] Instance rch_rel_ses_handle_frame p f s : stable_er rch_rel fst s (ses_handle_frame p f s).
Proof. intros [x r] H. change (stable rch_rel s x). unfold ses_handle_frame in H. st_er H. Qed.
#[export] Instance rch_rel_on_attach frm s : stable rch_rel s (on_attach frm s).
Proof. unfold on_attach. st_solve. Qed.
#[export] Instance rch_rel_control_ok p edit k s : stable_er rch_rel (fun x => x) s (control_ok p edit k s).
Proof. intros x H. change (stable rch_rel s x). unfold control_ok in H. st_er H. Qed.
#[export] Instance rch_rel_control_err e k s : stable_er rch_rel (fun x => x) s (control_err e k s).
Proof. intros x H. change (stable rch_rel s x). unfold control_err in H. st_er H. Qed.
