(** * What only the connection does to a session, through every function

    Generated by tools/gen_rel.py. *)

From Verif Require Export Wire.

#[export] Instance wire_rel_dlv_settle i st s : stable wire_rel s (dlv_settle i st s).
Proof. unfold dlv_settle. st_solve. Qed.
#[export] Instance wire_rel_dlv_update i st s : stable wire_rel s (dlv_update i st s).
Proof. unfold dlv_update. st_solve. Qed.
#[export] Instance wire_rel_dlv_drop i s : stable wire_rel s (dlv_drop i s).
Proof. unfold dlv_drop. st_solve. Qed.
#[export] Instance wire_rel_drop_dlvs l s : stable wire_rel s (drop_dlvs l s).
Proof.
  unfold drop_dlvs. revert s. induction l as [|x l IH]; intros s; cbn [fold_left]; [apply stable_refl; exact _|].
  eapply stable_trans; [exact _| |apply IH]. st_solve.
Qed.
#[export] Instance wire_rel_attach_local_sender frm s : stable wire_rel s (snd (attach_local_sender frm s)).
Proof. unfold attach_local_sender. st_solve. Qed.
#[export] Instance wire_rel_attach_remote_sender frm r a s : stable_er wire_rel (fun x => x) s (attach_remote_sender frm r a s).
Proof. intros x H. change (stable wire_rel s x). unfold attach_remote_sender in H. st_er H. Qed.
#[export] Instance wire_rel_detach_sender id c e tx s : stable wire_rel s (detach_sender id c e tx s).
Proof. unfold detach_sender. st_solve. Qed.
#[export] Instance wire_rel_detach_unconfirmed frm a e s : stable wire_rel s (detach_unconfirmed frm a e s).
Proof. unfold detach_unconfirmed. st_solve. Qed.
#[export] Instance wire_rel_attach_local_receiver frm s : stable wire_rel s (snd (attach_local_receiver frm s)).
Proof. unfold attach_local_receiver. st_solve. Qed.
#[export] Instance wire_rel_confirm_receiver a r s : stable wire_rel s (confirm_receiver a r s).
Proof. unfold confirm_receiver. st_solve. Qed.
#[export] Instance wire_rel_detach_receiver id c e tx s : stable_er wire_rel (fun x => x) s (detach_receiver id c e tx s).
Proof. intros x H. change (stable wire_rel s x). unfold detach_receiver in H. st_er H. Qed.
#[export] Instance wire_rel_snd_close a e s : stable wire_rel s (snd_close a e s).
Proof. unfold snd_close. st_solve. Qed.
#[export] Instance wire_rel_rcv_close a e s : stable_er wire_rel (fun x => x) s (rcv_close a e s).
Proof. intros x H. change (stable wire_rel s x). unfold rcv_close in H. st_er H. Qed.
#[export] Instance wire_rel_ses_detach_receiver h e s : stable_er wire_rel (fun x => x) s (ses_detach_receiver h e s).
Proof. intros x H. change (stable wire_rel s x). unfold ses_detach_receiver in H. st_er H. Qed.
#[export] Instance wire_rel_ses_detach_sender h e s : stable wire_rel s (ses_detach_sender h e s).
Proof. unfold ses_detach_sender. st_solve. Qed.
#[export] Instance wire_rel_handle_flow f o s : stable wire_rel s (handle_flow f o s).
Proof. unfold handle_flow. st_solve. Qed.
#[export] Instance wire_rel_rcv_link_flow h dc c s : stable wire_rel s (rcv_link_flow h dc c s).
Proof. unfold rcv_link_flow. st_solve. Qed.
#[export] Instance wire_rel_set_link_credit p a c s : stable_er wire_rel (fun x => x) s (set_link_credit p a c s).
Proof. intros x H. change (stable wire_rel s x). unfold set_link_credit in H. st_er H. Qed.
#[export] Instance wire_rel_session_loop t tk l tag s : stable wire_rel s (session_loop t tk l tag s).
Proof. unfold session_loop. st_solve. Qed.
#[export] Instance wire_rel_link_loop t tk l tag s : stable wire_rel s (link_loop t tk l tag s).
Proof. unfold link_loop. st_solve. Qed.
#[export] Instance wire_rel_poll_send t s : stable wire_rel s (poll_send t s).
Proof. unfold poll_send. st_solve. Qed.
#[export] Instance wire_rel_rcv_transfer p tr a s : stable_er wire_rel fst s (rcv_transfer p tr a s).
Proof. intros [x r] H. change (stable wire_rel s x). unfold rcv_transfer in H. st_er H. Qed.
#[export] Instance wire_rel_rcv_detached a s : stable wire_rel s (rcv_detached a s).
Proof. unfold rcv_detached. st_solve. Qed.
#[export] Instance wire_rel_handle_detach d s : stable wire_rel s (fst (handle_detach d s)).
Proof. unfold handle_detach. st_solve. Qed.
#[export] Instance wire_rel_ses_handle_frame p f s : stable_er wire_rel fst s (ses_handle_frame p f s).
Proof. intros [x r] H. change (stable wire_rel s x). unfold ses_handle_frame in H. st_er H. Qed.
#[export] Instance wire_rel_control_ok p edit k s : stable_er wire_rel (fun x => x) s (control_ok p edit k s).
Proof. intros x H. change (stable wire_rel s x). unfold control_ok in H. st_er H. Qed.
#[export] Instance wire_rel_control_err e k s : stable_er wire_rel (fun x => x) s (control_err e k s).
Proof. intros x H. change (stable wire_rel s x). unfold control_err in H. st_er H. Qed.
