(** * The queue of the session, through every function

    Generated by tools/gen_rel.py. *)

From Verif Require Export Window.

#[export] Instance win_rel_ses_set_error e s : stable win_rel s (ses_set_error e s).
Proof. unfold ses_set_error. st_solve. Qed.
#[export] Instance win_rel_transmit t tk l tag s : stable win_rel s (transmit t tk l tag s).
Proof. unfold transmit. st_solve. Qed.
#[export] Instance win_rel_handle_detach d s : stable win_rel s (fst (handle_detach d s)).
Proof. unfold handle_detach. st_solve. Qed.
#[export] Instance win_rel_ses_handle_frame p f s : stable_er win_rel fst s (ses_handle_frame p f s).
Proof. intros [x r] H. change (stable win_rel s x). unfold ses_handle_frame in H. st_er H. Qed.
#[export] Instance win_rel_control_ok p edit k s : stable_er win_rel (fun x => x) s (control_ok p edit k s).
Proof. intros x H. change (stable win_rel s x). unfold control_ok in H. st_er H. Qed.
