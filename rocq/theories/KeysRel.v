(** * The keys of the maps of unsettled deliveries, through every function

    Generated by tools/gen_rel.py. *)

From Verif Require Export Keys.

#[export] Instance keys_rel_new_rcv id h tag settled s : stable keys_rel s (snd (new_rcv id h tag settled s)).
Proof. unfold new_rcv. st_solve. Qed.
#[export] Instance keys_rel_dlv_drop i s : stable keys_rel s (dlv_drop i s).
Proof. unfold dlv_drop. st_solve. Qed.
#[export] Instance keys_rel_drop_dlvs l s : stable keys_rel s (drop_dlvs l s).
Proof.
  unfold drop_dlvs. revert s. induction l as [|x l IH]; intros s; cbn [fold_left]; [apply stable_refl; exact _|].
  eapply stable_trans; [exact _| |apply IH]. st_solve.
Qed.
#[export] Instance keys_rel_poll_wait w s : stable keys_rel s (poll_wait w s).
Proof. unfold poll_wait. st_solve. Qed.
#[export] Instance keys_rel_ses_set_error e s : stable keys_rel s (ses_set_error e s).
Proof. unfold ses_set_error. st_solve. Qed.
#[export] Instance keys_rel_transmit t tk l tag s : stable keys_rel s (transmit t tk l tag s).
Proof. unfold transmit. st_solve. Qed.
#[export] Instance keys_rel_session_loop t tk l tag s : stable keys_rel s (session_loop t tk l tag s).
Proof. unfold session_loop. st_solve. Qed.
#[export] Instance keys_rel_link_loop t tk l tag s : stable keys_rel s (link_loop t tk l tag s).
Proof. unfold link_loop. st_solve. Qed.
#[export] Instance keys_rel_poll_send t s : stable keys_rel s (poll_send t s).
Proof. unfold poll_send. st_solve. Qed.
#[export] Instance keys_rel_settle_all disp b l s : stable keys_rel s (settle_all disp b l s).
Proof.
  unfold settle_all. revert s. induction l as [|x l IH]; intros s; cbn [fold_left]; [apply stable_refl; exact _|].
  eapply stable_trans; [exact _| |apply IH]. st_solve.
Qed.
#[export] Instance keys_rel_settle_deliveries disp s : stable keys_rel s (settle_deliveries disp s).
Proof. unfold settle_deliveries. st_solve. Qed.
#[export] Instance keys_rel_rcv_transfer p tr a s : stable_er keys_rel fst s (rcv_transfer p tr a s).
Proof. intros [x r] H. change (stable keys_rel s x). unfold rcv_transfer in H. st_er H. Qed.
#[export] Instance keys_rel_rcv_detached a s : stable keys_rel s (rcv_detached a s).
Proof. unfold rcv_detached. st_solve. Qed.
#[export] Instance keys_rel_handle_detach d s : stable keys_rel s (fst (handle_detach d s)).
Proof. unfold handle_detach. st_solve. Qed.
#[export] Instance keys_rel_ses_handle_frame p f s : stable_er keys_rel fst s (ses_handle_frame p f s).
Proof. intros [x r] H. change (stable keys_rel s x). unfold ses_handle_frame in H. st_er H. Qed.
