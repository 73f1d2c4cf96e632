(** * What flow frames tell about the session, through every function

    Generated by tools/gen_rel.py. *)

From Verif Require Export FlowState.

#[export] Instance fst_rel_dlv_settle i st s : stable fst_rel s (dlv_settle i st s).
Proof. unfold dlv_settle. st_solve. Qed.
#[export] Instance fst_rel_dlv_update i st s : stable fst_rel s (dlv_update i st s).
Proof. unfold dlv_update. st_solve. Qed.
#[export] Instance fst_rel_dlv_drop i s : stable fst_rel s (dlv_drop i s).
Proof. unfold dlv_drop. st_solve. Qed.
#[export] Instance fst_rel_drop_dlvs l s : stable fst_rel s (drop_dlvs l s).
Proof.
  unfold drop_dlvs. revert s. induction l as [|x l IH]; intros s; cbn [fold_left]; [apply stable_refl; exact _|].
  eapply stable_trans; [exact _| |apply IH]. st_solve.
Qed.
#[export] Instance fst_rel_attach_local_sender frm s : stable fst_rel s (snd (attach_local_sender frm s)).
Proof. unfold attach_local_sender. st_solve. Qed.
#[export] Instance fst_rel_attach_remote_sender frm r a s : stable_er fst_rel (fun x => x) s (attach_remote_sender frm r a s).
Proof. intros x H. change (stable fst_rel s x). unfold attach_remote_sender in H. st_er H. Qed.
#[export] Instance fst_rel_detach_sender id c e tx s : stable fst_rel s (detach_sender id c e tx s).
Proof. unfold detach_sender. st_solve. Qed.
#[export] Instance fst_rel_detach_unconfirmed frm a e s : stable fst_rel s (detach_unconfirmed frm a e s).
Proof. unfold detach_unconfirmed. st_solve. Qed.
#[export] Instance fst_rel_attach_local_receiver frm s : stable fst_rel s (snd (attach_local_receiver frm s)).
Proof. unfold attach_local_receiver. st_solve. Qed.
#[export] Instance fst_rel_confirm_receiver a r s : stable fst_rel s (confirm_receiver a r s).
Proof. unfold confirm_receiver. st_solve. Qed.
#[export] Instance fst_rel_detach_receiver id c e tx s : stable_er fst_rel (fun x => x) s (detach_receiver id c e tx s).
Proof. intros x H. change (stable fst_rel s x). unfold detach_receiver in H. st_er H. Qed.
#[export] Instance fst_rel_snd_close a e s : stable fst_rel s (snd_close a e s).
Proof. unfold snd_close. st_solve. Qed.
#[export] Instance fst_rel_rcv_close a e s : stable_er fst_rel (fun x => x) s (rcv_close a e s).
Proof. intros x H. change (stable fst_rel s x). unfold rcv_close in H. st_er H. Qed.
#[export] Instance fst_rel_ses_detach_receiver h e s : stable_er fst_rel (fun x => x) s (ses_detach_receiver h e s).
Proof. intros x H. change (stable fst_rel s x). unfold ses_detach_receiver in H. st_er H. Qed.
#[export] Instance fst_rel_ses_detach_sender h e s : stable fst_rel s (ses_detach_sender h e s).
Proof. unfold ses_detach_sender. st_solve. Qed.
#[export] Instance fst_rel_set_link_credit p a c s : stable_er fst_rel (fun x => x) s (set_link_credit p a c s).
Proof. intros x H. change (stable fst_rel s x). unfold set_link_credit in H. st_er H. Qed.
#[export] Instance fst_rel_rcv_transfer p tr a s : stable_er fst_rel fst s (rcv_transfer p tr a s).
Proof. intros [x r] H. change (stable fst_rel s x). unfold rcv_transfer in H. st_er H. Qed.
#[export] Instance fst_rel_rcv_detached a s : stable fst_rel s (rcv_detached a s).
Proof. unfold rcv_detached. st_solve. Qed.
#[export] Instance fst_rel_handle_detach d s : stable fst_rel s (fst (handle_detach d s)).
Proof. unfold handle_detach. st_solve. Qed.
#[export] Instance fst_rel_ses_end  s : stable fst_rel s (ses_end s).
Proof. unfold ses_end. st_solve. Qed.
#[export] Instance fst_rel_control_err e k s : stable_er fst_rel (fun x => x) s (control_err e k s).
Proof. intros x H. change (stable fst_rel s x). unfold control_err in H. st_er H. Qed.
