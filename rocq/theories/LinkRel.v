(** * The slots, through every function

    Generated by tools/gen_rel.py. *)

From Verif Require Export LinkProofs.

(** ** What the slots hold *)

#[export] Instance lk_rel_drop_established_snd a s : stable lk_rel s (drop_established_snd a s).
Proof. unfold drop_established_snd. st_solve. Qed.
#[export] Instance lk_rel_apply_flow f a s : stable lk_rel s (apply_flow f a s).
Proof. unfold apply_flow. st_solve. Qed.
#[export] Instance lk_rel_attach_local_sender frm s : stable lk_rel s (snd (attach_local_sender frm s)).
Proof. unfold attach_local_sender. st_solve. Qed.
#[export] Instance lk_rel_detach_sender id c e tx s : stable lk_rel s (detach_sender id c e tx s).
Proof. unfold detach_sender. st_solve. Qed.
#[export] Instance lk_rel_detach_unconfirmed frm a e s : stable lk_rel s (detach_unconfirmed frm a e s).
Proof. unfold detach_unconfirmed. st_solve. Qed.
#[export] Instance lk_rel_snd_close a e s : stable lk_rel s (snd_close a e s).
Proof. unfold snd_close. st_solve. Qed.
#[export] Instance lk_rel_ses_detach_receiver h e s : stable_er lk_rel (fun x => x) s (ses_detach_receiver h e s).
Proof. intros x H. change (stable lk_rel s x). unfold ses_detach_receiver in H. st_er H. Qed.
#[export] Instance lk_rel_ses_detach_sender h e s : stable lk_rel s (ses_detach_sender h e s).
Proof. unfold ses_detach_sender. st_solve. Qed.
#[export] Instance lk_rel_handle_flow f o s : stable lk_rel s (handle_flow f o s).
Proof. unfold handle_flow. st_solve. Qed.
#[export] Instance lk_rel_set_link_credit p a c s : stable_er lk_rel (fun x => x) s (set_link_credit p a c s).
Proof. intros x H. change (stable lk_rel s x). unfold set_link_credit in H. st_er H. Qed.
#[export] Instance lk_rel_link_loop t tk l tag s : stable lk_rel s (link_loop t tk l tag s).
Proof. unfold link_loop. st_solve. Qed.
#[export] Instance lk_rel_poll_send t s : stable lk_rel s (poll_send t s).
Proof. unfold poll_send. st_solve. Qed.
#[export] Instance lk_rel_rcv_transfer p tr a s : stable_er lk_rel fst s (rcv_transfer p tr a s).
Proof. intros [x r] H. change (stable lk_rel s x). unfold rcv_transfer in H. st_er H. Qed.
#[export] Instance lk_rel_ses_handle_frame p f s : stable_er lk_rel fst s (ses_handle_frame p f s).
Proof. intros [x r] H. change (stable lk_rel s x). unfold ses_handle_frame in H. st_er H. Qed.
#[export] Instance lk_rel_control_ok p edit k s : stable_er lk_rel (fun x => x) s (control_ok p edit k s).
Proof. intros x H. change (stable lk_rel s x). unfold control_ok in H. st_er H. Qed.
#[export] Instance lk_rel_control_err e k s : stable_er lk_rel (fun x => x) s (control_err e k s).
Proof. intros x H. change (stable lk_rel s x). unfold control_err in H. st_er H. Qed.


(** ** Links that no slot holds *)

#[export] Instance uh_rel_drop_established_rcv a s : stable uh_rel s (drop_established_rcv a s).
Proof. unfold drop_established_rcv. st_solve. Qed.
#[export] Instance uh_rel_fail_link e s x : stable uh_rel s (fail_link e s x).
Proof. unfold fail_link. st_solve. Qed.
#[export] Instance uh_rel_fail_links e l s : stable uh_rel s (fail_links e l s).
Proof.
  unfold fail_links. revert s. induction l as [|x l IH]; intros s; cbn [fold_left]; [apply stable_refl; exact _|].
  eapply stable_trans; [exact _| |apply IH]. st_solve.
Qed.
#[export] Instance uh_rel_drop_links l s : stable uh_rel s (drop_links l s).
Proof.
  unfold drop_links. revert s. induction l as [|x l IH]; intros s; cbn [fold_left]; [apply stable_refl; exact _|].
  eapply stable_trans; [exact _| |apply IH]. st_solve.
Qed.
#[export] Instance uh_rel_ses_set_error e s : stable uh_rel s (ses_set_error e s).
Proof. unfold ses_set_error. st_solve. Qed.
#[export] Instance uh_rel_attach_local_sender frm s : stable uh_rel s (snd (attach_local_sender frm s)).
Proof. unfold attach_local_sender. st_solve. Qed.
#[export] Instance uh_rel_attach_remote_sender frm r a s : stable_er uh_rel (fun x => x) s (attach_remote_sender frm r a s).
Proof. intros x H. change (stable uh_rel s x). unfold attach_remote_sender in H. st_er H. Qed.
#[export] Instance uh_rel_detach_sender id c e tx s : stable uh_rel s (detach_sender id c e tx s).
Proof. unfold detach_sender. st_solve. Qed.
#[export] Instance uh_rel_detach_unconfirmed frm a e s : stable uh_rel s (detach_unconfirmed frm a e s).
Proof. unfold detach_unconfirmed. st_solve. Qed.
#[export] Instance uh_rel_detach_receiver id c e tx s : stable_er uh_rel (fun x => x) s (detach_receiver id c e tx s).
Proof. intros x H. change (stable uh_rel s x). unfold detach_receiver in H. st_er H. Qed.
#[export] Instance uh_rel_snd_close a e s : stable uh_rel s (snd_close a e s).
Proof. unfold snd_close. st_solve. Qed.
#[export] Instance uh_rel_rcv_close a e s : stable_er uh_rel (fun x => x) s (rcv_close a e s).
Proof. intros x H. change (stable uh_rel s x). unfold rcv_close in H. st_er H. Qed.
#[export] Instance uh_rel_ses_detach_receiver h e s : stable_er uh_rel (fun x => x) s (ses_detach_receiver h e s).
Proof. intros x H. change (stable uh_rel s x). unfold ses_detach_receiver in H. st_er H. Qed.
#[export] Instance uh_rel_ses_detach_sender h e s : stable uh_rel s (ses_detach_sender h e s).
Proof. unfold ses_detach_sender. st_solve. Qed.
#[export] Instance uh_rel_set_link_credit p a c s : stable_er uh_rel (fun x => x) s (set_link_credit p a c s).
Proof. intros x H. change (stable uh_rel s x). unfold set_link_credit in H. st_er H. Qed.
#[export] Instance uh_rel_rcv_transfer p tr a s : stable_er uh_rel fst s (rcv_transfer p tr a s).
Proof. intros [x r] H. change (stable uh_rel s x). unfold rcv_transfer in H. st_er H. Qed.
#[export] Instance uh_rel_rcv_detached a s : stable uh_rel s (rcv_detached a s).
Proof. unfold rcv_detached. st_solve. Qed.
#[export] Instance uh_rel_handle_detach d s : stable uh_rel s (fst (handle_detach d s)).
Proof. unfold handle_detach. st_solve. Qed.
#[export] Instance uh_rel_ses_handle_frame p f s : stable_er uh_rel fst s (ses_handle_frame p f s).
Proof. intros [x r] H. change (stable uh_rel s x). unfold ses_handle_frame in H. st_er H. Qed.
#[export] Instance uh_rel_on_attach frm s : stable uh_rel s (on_attach frm s).
Proof. unfold on_attach. st_solve. Qed.
#[export] Instance uh_rel_control_ok p edit k s : stable_er uh_rel (fun x => x) s (control_ok p edit k s).
Proof. intros x H. change (stable uh_rel s x). unfold control_ok in H. st_er H. Qed.
#[export] Instance uh_rel_control_err e k s : stable_er uh_rel (fun x => x) s (control_err e k s).
Proof. intros x H. change (stable uh_rel s x). unfold control_err in H. st_er H. Qed.


(** ** The number of slots *)

#[export] Instance len_rel_ses_set_error e s : stable len_rel s (ses_set_error e s).
Proof. unfold ses_set_error. st_solve. Qed.
#[export] Instance len_rel_attach_remote_sender frm r a s : stable_er len_rel (fun x => x) s (attach_remote_sender frm r a s).
Proof. intros x H. change (stable len_rel s x). unfold attach_remote_sender in H. st_er H. Qed.
#[export] Instance len_rel_detach_sender id c e tx s : stable len_rel s (detach_sender id c e tx s).
Proof. unfold detach_sender. st_solve. Qed.
#[export] Instance len_rel_detach_unconfirmed frm a e s : stable len_rel s (detach_unconfirmed frm a e s).
Proof. unfold detach_unconfirmed. st_solve. Qed.
#[export] Instance len_rel_confirm_receiver a r s : stable len_rel s (confirm_receiver a r s).
Proof. unfold confirm_receiver. st_solve. Qed.
#[export] Instance len_rel_detach_receiver id c e tx s : stable_er len_rel (fun x => x) s (detach_receiver id c e tx s).
Proof. intros x H. change (stable len_rel s x). unfold detach_receiver in H. st_er H. Qed.
#[export] Instance len_rel_snd_close a e s : stable len_rel s (snd_close a e s).
Proof. unfold snd_close. st_solve. Qed.
#[export] Instance len_rel_rcv_close a e s : stable_er len_rel (fun x => x) s (rcv_close a e s).
Proof. intros x H. change (stable len_rel s x). unfold rcv_close in H. st_er H. Qed.
#[export] Instance len_rel_ses_detach_receiver h e s : stable_er len_rel (fun x => x) s (ses_detach_receiver h e s).
Proof. intros x H. change (stable len_rel s x). unfold ses_detach_receiver in H. st_er H. Qed.
#[export] Instance len_rel_ses_detach_sender h e s : stable len_rel s (ses_detach_sender h e s).
Proof. unfold ses_detach_sender. st_solve. Qed.
#[export] Instance len_rel_rcv_transfer p tr a s : stable_er len_rel fst s (rcv_transfer p tr a s).
Proof. intros [x r] H. change (stable len_rel s x). unfold rcv_transfer in H. st_er H. Qed.
#[export] Instance len_rel_handle_detach d s : stable len_rel s (fst (handle_detach d s)).
Proof. unfold handle_detach. st_solve. Qed.
#[export] Instance len_rel_ses_handle_frame p f s : stable_er len_rel fst s (ses_handle_frame p f s).
Proof. intros [x r] H. change (stable len_rel s x). unfold ses_handle_frame in H. st_er H. Qed.
#[export] Instance len_rel_handle_attach frm s : stable_opt len_rel s (handle_attach frm s).
Proof. intros x H. change (stable len_rel s x). unfold handle_attach in H. st_er H. Qed.
#[export] Instance len_rel_control_ok p edit k s : stable_er len_rel (fun x => x) s (control_ok p edit k s).
Proof. intros x H. change (stable len_rel s x). unfold control_ok in H. st_er H. Qed.
#[export] Instance len_rel_control_err e k s : stable_er len_rel (fun x => x) s (control_err e k s).
Proof. intros x H. change (stable len_rel s x). unfold control_err in H. st_er H. Qed.
