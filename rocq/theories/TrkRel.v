(** * The entries of the deliveries that are held, through every function

    Generated by tools/gen_rel.py. *)

From Verif Require Export Trk.

#[export] Instance trk_rel_dlv_settle i st s : stable trk_rel s (dlv_settle i st s).
Proof. unfold dlv_settle. st_solve. Qed.
#[export] Instance trk_rel_drop_dlvs l s : stable trk_rel s (drop_dlvs l s).
Proof.
  unfold drop_dlvs. revert s. induction l as [|x l IH]; intros s; cbn [fold_left]; [apply stable_refl; exact _|].
  eapply stable_trans; [exact _| |apply IH]. st_solve.
Qed.
#[export] Instance trk_rel_session_loop t tk l tag s : stable trk_rel s (session_loop t tk l tag s).
Proof. unfold session_loop. st_solve. Qed.
#[export] Instance trk_rel_link_loop t tk l tag s : stable trk_rel s (link_loop t tk l tag s).
Proof. unfold link_loop. st_solve. Qed.
#[export] Instance trk_rel_poll_send t s : stable trk_rel s (poll_send t s).
Proof. unfold poll_send. st_solve. Qed.
#[export] Instance trk_rel_settle_all disp b l s : stable trk_rel s (settle_all disp b l s).
Proof.
  unfold settle_all. revert s. induction l as [|x l IH]; intros s; cbn [fold_left]; [apply stable_refl; exact _|].
  eapply stable_trans; [exact _| |apply IH]. st_solve.
Qed.
#[export] Instance trk_rel_settle_deliveries disp s : stable trk_rel s (settle_deliveries disp s).
Proof. unfold settle_deliveries. st_solve. Qed.
#[export] Instance trk_rel_rcv_transfer p tr a s : stable_er trk_rel fst s (rcv_transfer p tr a s).
Proof. intros [x r] H. change (stable trk_rel s x). unfold rcv_transfer in H. st_er H. Qed.
#[export] Instance trk_rel_rcv_detached a s : stable trk_rel s (rcv_detached a s).
Proof. unfold rcv_detached. st_solve. Qed.
#[export] Instance trk_rel_handle_detach d s : stable trk_rel s (fst (handle_detach d s)).
Proof. unfold handle_detach. st_solve. Qed.
#[export] Instance trk_rel_ses_handle_frame p f s : stable_er trk_rel fst s (ses_handle_frame p f s).
Proof. intros [x r] H. change (stable trk_rel s x). unfold ses_handle_frame in H. st_er H. Qed.
