(** * Attach and detach frames in turn, through every function

    Generated by tools/gen_rel.py. *)

From Verif Require Export Turn.

#[export] Instance tn_rel_rcv_remote_detached a e s : stable tn_rel s (rcv_remote_detached a e s).
Proof. unfold rcv_remote_detached. st_solve. Qed.
#[export] Instance tn_rel_drop_established_rcv a s : stable tn_rel s (drop_established_rcv a s).
Proof. unfold drop_established_rcv. st_solve. Qed.
#[export] Instance tn_rel_drop_link l s : stable tn_rel s (drop_link l s).
Proof. unfold drop_link. st_solve. Qed.
#[export] Instance tn_rel_dlv_settle i st s : stable tn_rel s (dlv_settle i st s).
Proof. unfold dlv_settle. st_solve. Qed.
#[export] Instance tn_rel_dlv_update i st s : stable tn_rel s (dlv_update i st s).
Proof. unfold dlv_update. st_solve. Qed.
#[export] Instance tn_rel_dlv_drop i s : stable tn_rel s (dlv_drop i s).
Proof. unfold dlv_drop. st_solve. Qed.
#[export] Instance tn_rel_drop_dlvs l s : stable tn_rel s (drop_dlvs l s).
Proof.
  unfold drop_dlvs. revert s. induction l as [|x l IH]; intros s; cbn [fold_left]; [apply stable_refl; exact _|].
  eapply stable_trans; [exact _| |apply IH]. st_solve.
Qed.
#[export] Instance tn_rel_fail_link e s x : stable tn_rel s (fail_link e s x).
Proof. unfold fail_link. st_solve. Qed.
#[export] Instance tn_rel_fail_links e l s : stable tn_rel s (fail_links e l s).
Proof.
  unfold fail_links. revert s. induction l as [|x l IH]; intros s; cbn [fold_left]; [apply stable_refl; exact _|].
  eapply stable_trans; [exact _| |apply IH]. st_solve.
Qed.
#[export] Instance tn_rel_drop_links l s : stable tn_rel s (drop_links l s).
Proof.
  unfold drop_links. revert s. induction l as [|x l IH]; intros s; cbn [fold_left]; [apply stable_refl; exact _|].
  eapply stable_trans; [exact _| |apply IH]. st_solve.
Qed.
#[export] Instance tn_rel_snd_close a e s : stable tn_rel s (snd_close a e s).
Proof. unfold snd_close. st_solve. Qed.
#[export] Instance tn_rel_rcv_close a e s : stable_er tn_rel (fun x => x) s (rcv_close a e s).
Proof. intros x H. change (stable tn_rel s x). unfold rcv_close in H. st_er H. Qed.
#[export] Instance tn_rel_ses_detach_receiver h e s : stable_er tn_rel (fun x => x) s (ses_detach_receiver h e s).
Proof. intros x H. change (stable tn_rel s x). unfold ses_detach_receiver in H. st_er H. Qed.
#[export] Instance tn_rel_ses_detach_sender h e s : stable tn_rel s (ses_detach_sender h e s).
Proof. unfold ses_detach_sender. st_solve. Qed.
#[export] Instance tn_rel_handle_flow f o s : stable tn_rel s (handle_flow f o s).
Proof. unfold handle_flow. st_solve. Qed.
#[export] Instance tn_rel_rcv_link_flow h dc c s : stable tn_rel s (rcv_link_flow h dc c s).
Proof. unfold rcv_link_flow. st_solve. Qed.
#[export] Instance tn_rel_set_link_credit p a c s : stable_er tn_rel (fun x => x) s (set_link_credit p a c s).
Proof. intros x H. change (stable tn_rel s x). unfold set_link_credit in H. st_er H. Qed.
#[export] Instance tn_rel_session_loop t tk l tag s : stable tn_rel s (session_loop t tk l tag s).
Proof. unfold session_loop. st_solve. Qed.
#[export] Instance tn_rel_link_loop t tk l tag s : stable tn_rel s (link_loop t tk l tag s).
Proof. unfold link_loop. st_solve. Qed.
#[export] Instance tn_rel_poll_send t s : stable tn_rel s (poll_send t s).
Proof. unfold poll_send. st_solve. Qed.
#[export] Instance tn_rel_rcv_transfer p tr a s : stable_er tn_rel fst s (rcv_transfer p tr a s).
Proof. intros [x r] H. change (stable tn_rel s x). unfold rcv_transfer in H. st_er H. Qed.
#[export] Instance tn_rel_rcv_detached a s : stable tn_rel s (rcv_detached a s).
Proof. unfold rcv_detached. st_solve. Qed.
#[export] Instance tn_rel_ses_end  s : stable tn_rel s (ses_end s).
Proof. unfold ses_end. st_solve. Qed.


#[export] Instance ra_rel_detach_sender id c e tx s : stable ra_rel s (detach_sender id c e tx s).
Proof. unfold detach_sender. st_solve. Qed.
#[export] Instance ra_rel_detach_receiver id c e tx s : stable_er ra_rel (fun x => x) s (detach_receiver id c e tx s).
Proof. intros x H. change (stable ra_rel s x). unfold detach_receiver in H. st_er H. Qed.
#[export] Instance ra_rel_snd_close a e s : stable ra_rel s (snd_close a e s).
Proof. unfold snd_close. st_solve. Qed.
#[export] Instance ra_rel_rcv_close a e s : stable_er ra_rel (fun x => x) s (rcv_close a e s).
Proof. intros x H. change (stable ra_rel s x). unfold rcv_close in H. st_er H. Qed.
#[export] Instance ra_rel_ses_detach_receiver h e s : stable_er ra_rel (fun x => x) s (ses_detach_receiver h e s).
Proof. intros x H. change (stable ra_rel s x). unfold ses_detach_receiver in H. st_er H. Qed.
#[export] Instance ra_rel_ses_detach_sender h e s : stable ra_rel s (ses_detach_sender h e s).
Proof. unfold ses_detach_sender. st_solve. Qed.
#[export] Instance ra_rel_rcv_transfer p tr a s : stable_er ra_rel fst s (rcv_transfer p tr a s).
Proof. intros [x r] H. change (stable ra_rel s x). unfold rcv_transfer in H. st_er H. Qed.
#[export] Instance ra_rel_ses_handle_frame p f s : stable_er ra_rel fst s (ses_handle_frame p f s).
Proof. intros [x r] H. change (stable ra_rel s x). unfold ses_handle_frame in H. st_er H. Qed.
#[export] Instance ra_rel_control_err e k s : stable_er ra_rel (fun x => x) s (control_err e k s).
Proof. intros x H. change (stable ra_rel s x). unfold control_err in H. st_er H. Qed.
