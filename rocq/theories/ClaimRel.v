(** * The slots of links and of futures, through every function

    Generated by tools/gen_rel.py. *)

From Verif Require Export Claim.

#[export] Instance clm_rel_snd_remote_detached a e s : stable clm_rel s (snd_remote_detached a e s).
Proof. unfold snd_remote_detached. st_solve. Qed.
#[export] Instance clm_rel_apply_flow f a s : stable clm_rel s (apply_flow f a s).
Proof. unfold apply_flow. st_solve. Qed.
#[export] Instance clm_rel_rcv_remote_detached a e s : stable clm_rel s (rcv_remote_detached a e s).
Proof. unfold rcv_remote_detached. st_solve. Qed.
#[export] Instance clm_rel_put_unsettled b id d s : stable clm_rel s (put_unsettled b id d s).
Proof. unfold put_unsettled. st_solve. Qed.
#[export] Instance clm_rel_del_unsettled b id s : stable clm_rel s (del_unsettled b id s).
Proof. unfold del_unsettled. st_solve. Qed.
#[export] Instance clm_rel_new_rcv id h tag settled s : stable clm_rel s (snd (new_rcv id h tag settled s)).
Proof. unfold new_rcv. st_solve. Qed.
#[export] Instance clm_rel_dlv_drop i s : stable clm_rel s (dlv_drop i s).
Proof. unfold dlv_drop. st_solve. Qed.
#[export] Instance clm_rel_drop_dlvs l s : stable clm_rel s (drop_dlvs l s).
Proof.
  unfold drop_dlvs. revert s. induction l as [|x l IH]; intros s; cbn [fold_left]; [apply stable_refl; exact _|].
  eapply stable_trans; [exact _| |apply IH]. st_solve.
Qed.
#[export] Instance clm_rel_poll_wait w s : stable clm_rel s (poll_wait w s).
Proof. unfold poll_wait. st_solve. Qed.
#[export] Instance clm_rel_fail_all l s : stable clm_rel s (fail_all l s).
Proof.
  unfold fail_all. revert s. induction l as [|x l IH]; intros s; cbn [fold_left]; [apply stable_refl; exact _|].
  eapply stable_trans; [exact _| |apply IH]. st_solve.
Qed.
#[export] Instance clm_rel_fail_link e s x : stable clm_rel s (fail_link e s x).
Proof. unfold fail_link. st_solve. Qed.
#[export] Instance clm_rel_fail_links e l s : stable clm_rel s (fail_links e l s).
Proof.
  unfold fail_links. revert s. induction l as [|x l IH]; intros s; cbn [fold_left]; [apply stable_refl; exact _|].
  eapply stable_trans; [exact _| |apply IH]. st_solve.
Qed.
#[export] Instance clm_rel_drop_links l s : stable clm_rel s (drop_links l s).
Proof.
  unfold drop_links. revert s. induction l as [|x l IH]; intros s; cbn [fold_left]; [apply stable_refl; exact _|].
  eapply stable_trans; [exact _| |apply IH]. st_solve.
Qed.
#[export] Instance clm_rel_ses_set_error e s : stable clm_rel s (ses_set_error e s).
Proof. unfold ses_set_error. st_solve. Qed.
#[export] Instance clm_rel_detach_unconfirmed frm a e s : stable clm_rel s (detach_unconfirmed frm a e s).
Proof. unfold detach_unconfirmed. st_solve. Qed.
#[export] Instance clm_rel_handle_flow f o s : stable clm_rel s (handle_flow f o s).
Proof. unfold handle_flow. st_solve. Qed.
#[export] Instance clm_rel_set_link_credit p a c s : stable_er clm_rel (fun x => x) s (set_link_credit p a c s).
Proof. intros x H. change (stable clm_rel s x). unfold set_link_credit in H. st_er H. Qed.
#[export] Instance clm_rel_transmit t tk l tag s : stable clm_rel s (transmit t tk l tag s).
Proof. unfold transmit. st_solve. Qed.
#[export] Instance clm_rel_session_loop t tk l tag s : stable clm_rel s (session_loop t tk l tag s).
Proof. unfold session_loop. st_solve. Qed.
#[export] Instance clm_rel_link_loop t tk l tag s : stable clm_rel s (link_loop t tk l tag s).
Proof. unfold link_loop. st_solve. Qed.
#[export] Instance clm_rel_poll_send t s : stable clm_rel s (poll_send t s).
Proof. unfold poll_send. st_solve. Qed.
#[export] Instance clm_rel_settle_one disp b s x : stable clm_rel s (settle_one disp b s x).
Proof. unfold settle_one. st_solve. Qed.
#[export] Instance clm_rel_settle_all disp b l s : stable clm_rel s (settle_all disp b l s).
Proof.
  unfold settle_all. revert s. induction l as [|x l IH]; intros s; cbn [fold_left]; [apply stable_refl; exact _|].
  eapply stable_trans; [exact _| |apply IH]. st_solve.
Qed.
#[export] Instance clm_rel_settle_deliveries disp s : stable clm_rel s (settle_deliveries disp s).
Proof. unfold settle_deliveries. st_solve. Qed.
#[export] Instance clm_rel_rcv_transfer p tr a s : stable_er clm_rel fst s (rcv_transfer p tr a s).
Proof. intros [x r] H. change (stable clm_rel s x). unfold rcv_transfer in H. st_er H. Qed.
#[export] Instance clm_rel_fail_unsettled b h e s : stable clm_rel s (fail_unsettled b h e s).
Proof. unfold fail_unsettled. st_solve. Qed.
#[export] Instance clm_rel_drain_pending h e s : stable clm_rel s (drain_pending h e s).
Proof. unfold drain_pending. st_solve. Qed.
#[export] Instance clm_rel_answer tx e s : stable clm_rel s (answer tx e s).
Proof. unfold answer. st_solve. Qed.
#[export] Instance clm_rel_rcv_detached a s : stable clm_rel s (rcv_detached a s).
Proof. unfold rcv_detached. st_solve. Qed.
#[export] Instance clm_rel_ses_end  s : stable clm_rel s (ses_end s).
Proof. unfold ses_end. st_solve. Qed.
#[export] Instance clm_rel_control_err e k s : stable_er clm_rel (fun x => x) s (control_err e k s).
Proof. intros x H. change (stable clm_rel s x). unfold control_err in H. st_er H. Qed.

#[export] Instance kas_rel_detach_sender id c e tx s : stable kas_rel s (detach_sender id c e tx s).
Proof. unfold detach_sender. st_solve. Qed.
#[export] Instance kas_rel_detach_receiver id c e tx s : stable_er kas_rel (fun x => x) s (detach_receiver id c e tx s).
Proof. intros x H. change (stable kas_rel s x). unfold detach_receiver in H. st_er H. Qed.
#[export] Instance kas_rel_snd_close a e s : stable kas_rel s (snd_close a e s).
Proof. unfold snd_close. st_solve. Qed.
#[export] Instance kas_rel_rcv_close a e s : stable_er kas_rel (fun x => x) s (rcv_close a e s).
Proof. intros x H. change (stable kas_rel s x). unfold rcv_close in H. st_er H. Qed.
#[export] Instance kas_rel_ses_detach_receiver h e s : stable_er kas_rel (fun x => x) s (ses_detach_receiver h e s).
Proof. intros x H. change (stable kas_rel s x). unfold ses_detach_receiver in H. st_er H. Qed.
#[export] Instance kas_rel_ses_detach_sender h e s : stable kas_rel s (ses_detach_sender h e s).
Proof. unfold ses_detach_sender. st_solve. Qed.
#[export] Instance kas_rel_rcv_transfer p tr a s : stable_er kas_rel fst s (rcv_transfer p tr a s).
Proof. intros [x r] H. change (stable kas_rel s x). unfold rcv_transfer in H. st_er H. Qed.
#[export] Instance kas_rel_ses_handle_frame p f s : stable_er kas_rel fst s (ses_handle_frame p f s).
Proof. intros [x r] H. change (stable kas_rel s x). unfold ses_handle_frame in H. st_er H. Qed.
#[export] Instance kas_rel_control_ok p edit k s : stable_er kas_rel (fun x => x) s (control_ok p edit k s).
Proof. intros x H. change (stable kas_rel s x). unfold control_ok in H. st_er H. Qed.
#[export] Instance kas_rel_control_err e k s : stable_er kas_rel (fun x => x) s (control_err e k s).
Proof. intros x H. change (stable kas_rel s x). unfold control_err in H. st_er H. Qed.
