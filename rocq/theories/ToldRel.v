(** * No function but the dispatcher tells the service of a transfer

    Generated by tools/gen_rel.py. *)

From Verif Require Export Told.

#[export] Instance ktr_rel_detach_sender id c e tx s : stable ktr_rel s (detach_sender id c e tx s).
Proof. unfold detach_sender. st_solve. Qed.
#[export] Instance ktr_rel_detach_receiver id c e tx s : stable_er ktr_rel (fun x => x) s (detach_receiver id c e tx s).
Proof. intros x H. change (stable ktr_rel s x). unfold detach_receiver in H. st_er H. Qed.
#[export] Instance ktr_rel_snd_close a e s : stable ktr_rel s (snd_close a e s).
Proof. unfold snd_close. st_solve. Qed.
#[export] Instance ktr_rel_rcv_close a e s : stable_er ktr_rel (fun x => x) s (rcv_close a e s).
Proof. intros x H. change (stable ktr_rel s x). unfold rcv_close in H. st_er H. Qed.
#[export] Instance ktr_rel_ses_detach_receiver h e s : stable_er ktr_rel (fun x => x) s (ses_detach_receiver h e s).
Proof. intros x H. change (stable ktr_rel s x). unfold ses_detach_receiver in H. st_er H. Qed.
#[export] Instance ktr_rel_ses_detach_sender h e s : stable ktr_rel s (ses_detach_sender h e s).
Proof. unfold ses_detach_sender. st_solve. Qed.
#[export] Instance ktr_rel_rcv_transfer p tr a s : stable_er ktr_rel fst s (rcv_transfer p tr a s).
Proof. intros [x r] H. change (stable ktr_rel s x). unfold rcv_transfer in H. st_er H. Qed.
#[export] Instance ktr_rel_ses_handle_frame p f s : stable_er ktr_rel fst s (ses_handle_frame p f s).
Proof. intros [x r] H. change (stable ktr_rel s x). unfold ses_handle_frame in H. st_er H. Qed.
#[export] Instance ktr_rel_control_ok p edit k s : stable_er ktr_rel (fun x => x) s (control_ok p edit k s).
Proof. intros x H. change (stable ktr_rel s x). unfold control_ok in H. st_er H. Qed.
#[export] Instance ktr_rel_control_err e k s : stable_er ktr_rel (fun x => x) s (control_err e k s).
Proof. intros x H. change (stable ktr_rel s x). unfold control_err in H. st_er H. Qed.
