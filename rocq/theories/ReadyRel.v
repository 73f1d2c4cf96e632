(** * The waiters of a sender link, through every function

    Generated by tools/gen_rel.py. *)

From Verif Require Export Ready.

(** ** Waiters for credit *)

#[export] Instance crd_rel_notify_lock_snd a s : stable crd_rel s (notify_lock_snd a s).
Proof. unfold notify_lock_snd. st_solve. Qed.
#[export] Instance crd_rel_snd_remote_detached a e s : stable crd_rel s (snd_remote_detached a e s).
Proof. unfold snd_remote_detached. st_solve. Qed.
#[export] Instance crd_rel_drop_established_snd a s : stable crd_rel s (drop_established_snd a s).
Proof. unfold drop_established_snd. st_solve. Qed.
#[export] Instance crd_rel_drop_link l s : stable crd_rel s (drop_link l s).
Proof. unfold drop_link. st_solve. Qed.
#[export] Instance crd_rel_put_link k l s : stable crd_rel s (put_link k l s).
Proof. unfold put_link. st_solve. Qed.
#[export] Instance crd_rel_remove_link k s : stable crd_rel s (remove_link k s).
Proof. unfold remove_link. st_solve. Qed.
#[export] Instance crd_rel_fail_link e s x : stable crd_rel s (fail_link e s x).
Proof. unfold fail_link. st_solve. Qed.
#[export] Instance crd_rel_fail_links e l s : stable crd_rel s (fail_links e l s).
Proof.
  unfold fail_links. revert s. induction l as [|x l IH]; intros s; cbn [fold_left]; [apply stable_refl; exact _|].
  eapply stable_trans; [exact _| |apply IH]. st_solve.
Qed.
#[export] Instance crd_rel_drop_links l s : stable crd_rel s (drop_links l s).
Proof.
  unfold drop_links. revert s. induction l as [|x l IH]; intros s; cbn [fold_left]; [apply stable_refl; exact _|].
  eapply stable_trans; [exact _| |apply IH]. st_solve.
Qed.
#[export] Instance crd_rel_ses_set_error e s : stable crd_rel s (ses_set_error e s).
Proof. unfold ses_set_error. st_solve. Qed.
#[export] Instance crd_rel_attach_remote_sender frm r a s : stable_er crd_rel (fun x => x) s (attach_remote_sender frm r a s).
Proof. intros x H. change (stable crd_rel s x). unfold attach_remote_sender in H. st_er H. Qed.
#[export] Instance crd_rel_detach_sender id c e tx s : stable crd_rel s (detach_sender id c e tx s).
Proof. unfold detach_sender. st_solve. Qed.
#[export] Instance crd_rel_detach_unconfirmed frm a e s : stable crd_rel s (detach_unconfirmed frm a e s).
Proof. unfold detach_unconfirmed. st_solve. Qed.
#[export] Instance crd_rel_confirm_receiver a r s : stable crd_rel s (confirm_receiver a r s).
Proof. unfold confirm_receiver. st_solve. Qed.
#[export] Instance crd_rel_detach_receiver id c e tx s : stable_er crd_rel (fun x => x) s (detach_receiver id c e tx s).
Proof. intros x H. change (stable crd_rel s x). unfold detach_receiver in H. st_er H. Qed.
#[export] Instance crd_rel_snd_close a e s : stable crd_rel s (snd_close a e s).
Proof. unfold snd_close. st_solve. Qed.
#[export] Instance crd_rel_rcv_close a e s : stable_er crd_rel (fun x => x) s (rcv_close a e s).
Proof. intros x H. change (stable crd_rel s x). unfold rcv_close in H. st_er H. Qed.
#[export] Instance crd_rel_ses_detach_receiver h e s : stable_er crd_rel (fun x => x) s (ses_detach_receiver h e s).
Proof. intros x H. change (stable crd_rel s x). unfold ses_detach_receiver in H. st_er H. Qed.
#[export] Instance crd_rel_ses_detach_sender h e s : stable crd_rel s (ses_detach_sender h e s).
Proof. unfold ses_detach_sender. st_solve. Qed.
#[export] Instance crd_rel_handle_flow f o s : stable crd_rel s (handle_flow f o s).
Proof. unfold handle_flow. st_solve. Qed.
#[export] Instance crd_rel_link_loop t tk l tag s : stable crd_rel s (link_loop t tk l tag s).
Proof. unfold link_loop. st_solve. Qed.
#[export] Instance crd_rel_poll_send t s : stable crd_rel s (poll_send t s).
Proof. unfold poll_send. st_solve. Qed.
#[export] Instance crd_rel_rcv_transfer p tr a s : stable_er crd_rel fst s (rcv_transfer p tr a s).
Proof. intros [x r] H. change (stable crd_rel s x). unfold rcv_transfer in H. st_er H. Qed.
#[export] Instance crd_rel_handle_detach d s : stable crd_rel s (fst (handle_detach d s)).
Proof. unfold handle_detach. st_solve. Qed.
#[export] Instance crd_rel_ses_handle_frame p f s : stable_er crd_rel fst s (ses_handle_frame p f s).
Proof. intros [x r] H. change (stable crd_rel s x). unfold ses_handle_frame in H. st_er H. Qed.
#[export] Instance crd_rel_handle_attach frm s : stable_opt crd_rel s (handle_attach frm s).
Proof. intros x H. change (stable crd_rel s x). unfold handle_attach in H. st_er H. Qed.
#[export] Instance crd_rel_on_attach frm s : stable crd_rel s (on_attach frm s).
Proof. unfold on_attach. st_solve. Qed.
#[export] Instance crd_rel_control_ok p edit k s : stable_er crd_rel (fun x => x) s (control_ok p edit k s).
Proof. intros x H. change (stable crd_rel s x). unfold control_ok in H. st_er H. Qed.
#[export] Instance crd_rel_control_err e k s : stable_er crd_rel (fun x => x) s (control_err e k s).
Proof. intros x H. change (stable crd_rel s x). unfold control_err in H. st_er H. Qed.


(** ** Closed links *)

#[export] Instance stl_rel_apply_flow f a s : stable stl_rel s (apply_flow f a s).
Proof. unfold apply_flow. st_solve. Qed.
#[export] Instance stl_rel_drop_link l s : stable stl_rel s (drop_link l s).
Proof. unfold drop_link. st_solve. Qed.
#[export] Instance stl_rel_put_link k l s : stable stl_rel s (put_link k l s).
Proof. unfold put_link. st_solve. Qed.
#[export] Instance stl_rel_remove_link k s : stable stl_rel s (remove_link k s).
Proof. unfold remove_link. st_solve. Qed.
#[export] Instance stl_rel_fail_link e s x : stable stl_rel s (fail_link e s x).
Proof. unfold fail_link. st_solve. Qed.
#[export] Instance stl_rel_fail_links e l s : stable stl_rel s (fail_links e l s).
Proof.
  unfold fail_links. revert s. induction l as [|x l IH]; intros s; cbn [fold_left]; [apply stable_refl; exact _|].
  eapply stable_trans; [exact _| |apply IH]. st_solve.
Qed.
#[export] Instance stl_rel_drop_links l s : stable stl_rel s (drop_links l s).
Proof.
  unfold drop_links. revert s. induction l as [|x l IH]; intros s; cbn [fold_left]; [apply stable_refl; exact _|].
  eapply stable_trans; [exact _| |apply IH]. st_solve.
Qed.
#[export] Instance stl_rel_ses_set_error e s : stable stl_rel s (ses_set_error e s).
Proof. unfold ses_set_error. st_solve. Qed.
#[export] Instance stl_rel_attach_remote_sender frm r a s : stable_er stl_rel (fun x => x) s (attach_remote_sender frm r a s).
Proof. intros x H. change (stable stl_rel s x). unfold attach_remote_sender in H. st_er H. Qed.
#[export] Instance stl_rel_detach_sender id c e tx s : stable stl_rel s (detach_sender id c e tx s).
Proof. unfold detach_sender. st_solve. Qed.
#[export] Instance stl_rel_detach_unconfirmed frm a e s : stable stl_rel s (detach_unconfirmed frm a e s).
Proof. unfold detach_unconfirmed. st_solve. Qed.
#[export] Instance stl_rel_confirm_receiver a r s : stable stl_rel s (confirm_receiver a r s).
Proof. unfold confirm_receiver. st_solve. Qed.
#[export] Instance stl_rel_detach_receiver id c e tx s : stable_er stl_rel (fun x => x) s (detach_receiver id c e tx s).
Proof. intros x H. change (stable stl_rel s x). unfold detach_receiver in H. st_er H. Qed.
#[export] Instance stl_rel_rcv_close a e s : stable_er stl_rel (fun x => x) s (rcv_close a e s).
Proof. intros x H. change (stable stl_rel s x). unfold rcv_close in H. st_er H. Qed.
#[export] Instance stl_rel_ses_detach_receiver h e s : stable_er stl_rel (fun x => x) s (ses_detach_receiver h e s).
Proof. intros x H. change (stable stl_rel s x). unfold ses_detach_receiver in H. st_er H. Qed.
#[export] Instance stl_rel_ses_detach_sender h e s : stable stl_rel s (ses_detach_sender h e s).
Proof. unfold ses_detach_sender. st_solve. Qed.
#[export] Instance stl_rel_handle_flow f o s : stable stl_rel s (handle_flow f o s).
Proof. unfold handle_flow. st_solve. Qed.
#[export] Instance stl_rel_link_loop t tk l tag s : stable stl_rel s (link_loop t tk l tag s).
Proof. unfold link_loop. st_solve. Qed.
#[export] Instance stl_rel_poll_send t s : stable stl_rel s (poll_send t s).
Proof. unfold poll_send. st_solve. Qed.
#[export] Instance stl_rel_rcv_transfer p tr a s : stable_er stl_rel fst s (rcv_transfer p tr a s).
Proof. intros [x r] H. change (stable stl_rel s x). unfold rcv_transfer in H. st_er H. Qed.
#[export] Instance stl_rel_handle_detach d s : stable stl_rel s (fst (handle_detach d s)).
Proof. unfold handle_detach. st_solve. Qed.
#[export] Instance stl_rel_ses_handle_frame p f s : stable_er stl_rel fst s (ses_handle_frame p f s).
Proof. intros [x r] H. change (stable stl_rel s x). unfold ses_handle_frame in H. st_er H. Qed.
#[export] Instance stl_rel_handle_attach frm s : stable_opt stl_rel s (handle_attach frm s).
Proof. intros x H. change (stable stl_rel s x). unfold handle_attach in H. st_er H. Qed.
#[export] Instance stl_rel_on_attach frm s : stable stl_rel s (on_attach frm s).
Proof. unfold on_attach. st_solve. Qed.
#[export] Instance stl_rel_control_ok p edit k s : stable_er stl_rel (fun x => x) s (control_ok p edit k s).
Proof. intros x H. change (stable stl_rel s x). unfold control_ok in H. st_er H. Qed.

#[export] Instance stl_rel_snd_close a e s : stable stl_rel s (snd_close a e s).
Proof.
  unfold snd_close. destruct (nth_error (s_snds s) a) as [l|]; [|apply stable_refl; exact _].
  destruct (sn_closed l); [apply stable_refl; exact _|]. cbv beta iota zeta delta [new_chan].
  eapply stable_trans; [exact _|apply (stl_lock a (set_sn_closed true) s); reflexivity|]. st_chain.
Qed.
#[export] Instance stl_rel_control_err e k s : stable_er stl_rel (fun x => x) s (control_err e k s).
Proof. intros x H. change (stable stl_rel s x). unfold control_err in H. st_er H. Qed.
