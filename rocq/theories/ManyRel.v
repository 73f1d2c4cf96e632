(** * Handles below the number of links, through every function

    Generated by tools/gen_rel.py. *)

From Verif Require Export Many.

#[export] Instance mk_rel_notify_lock_snd n0 a s : stable (mk_rel n0) s (notify_lock_snd a s).
Proof. unfold notify_lock_snd. st_solve. Qed.
#[export] Instance mk_rel_snd_remote_detached n0 a e s : stable (mk_rel n0) s (snd_remote_detached a e s).
Proof. unfold snd_remote_detached. st_solve. Qed.
#[export] Instance mk_rel_drop_established_snd n0 a s : stable (mk_rel n0) s (drop_established_snd a s).
Proof. unfold drop_established_snd. st_solve. Qed.
#[export] Instance mk_rel_apply_flow n0 f a s : stable (mk_rel n0) s (apply_flow f a s).
Proof. unfold apply_flow. st_solve. Qed.
#[export] Instance mk_rel_rcv_remote_detached n0 a e s : stable (mk_rel n0) s (rcv_remote_detached a e s).
Proof. unfold rcv_remote_detached. st_solve. Qed.
#[export] Instance mk_rel_drop_established_rcv n0 a s : stable (mk_rel n0) s (drop_established_rcv a s).
Proof. unfold drop_established_rcv. st_solve. Qed.
#[export] Instance mk_rel_drop_link n0 l s : stable (mk_rel n0) s (drop_link l s).
Proof. unfold drop_link. st_solve. Qed.
#[export] Instance mk_rel_put_link n0 k l s : stable (mk_rel n0) s (put_link k l s).
Proof. unfold put_link. st_solve. Qed.
#[export] Instance mk_rel_remove_link n0 k s : stable (mk_rel n0) s (remove_link k s).
Proof. unfold remove_link. st_solve. Qed.
#[export] Instance mk_rel_dlv_settle n0 i st s : stable (mk_rel n0) s (dlv_settle i st s).
Proof. unfold dlv_settle. st_solve. Qed.
#[export] Instance mk_rel_dlv_update n0 i st s : stable (mk_rel n0) s (dlv_update i st s).
Proof. unfold dlv_update. st_solve. Qed.
#[export] Instance mk_rel_dlv_drop n0 i s : stable (mk_rel n0) s (dlv_drop i s).
Proof. unfold dlv_drop. st_solve. Qed.
#[export] Instance mk_rel_drop_dlvs n0 l s : stable (mk_rel n0) s (drop_dlvs l s).
Proof.
  unfold drop_dlvs. revert s. induction l as [|x l IH]; intros s; cbn [fold_left]; [apply stable_refl; exact _|].
  eapply stable_trans; [exact _| |apply IH]. st_solve.
Qed.
#[export] Instance mk_rel_fail_link n0 e s x : stable (mk_rel n0) s (fail_link e s x).
Proof. unfold fail_link. st_solve. Qed.
#[export] Instance mk_rel_fail_links n0 e l s : stable (mk_rel n0) s (fail_links e l s).
Proof.
  unfold fail_links. revert s. induction l as [|x l IH]; intros s; cbn [fold_left]; [apply stable_refl; exact _|].
  eapply stable_trans; [exact _| |apply IH]. st_solve.
Qed.
#[export] Instance mk_rel_drop_links n0 l s : stable (mk_rel n0) s (drop_links l s).
Proof.
  unfold drop_links. revert s. induction l as [|x l IH]; intros s; cbn [fold_left]; [apply stable_refl; exact _|].
  eapply stable_trans; [exact _| |apply IH]. st_solve.
Qed.
#[export] Instance mk_rel_ses_set_error n0 e s : stable (mk_rel n0) s (ses_set_error e s).
Proof. unfold ses_set_error. st_solve. Qed.
#[export] Instance mk_rel_attach_remote_sender n0 frm r a s : stable_er (mk_rel n0) (fun x => x) s (attach_remote_sender frm r a s).
Proof.
  intros x H. change (stable (mk_rel n0) s x). unfold attach_remote_sender in H.
  destruct (nth_error (s_snds s) a) as [l|] eqn:E; [|st_er H]. cbv zeta in H.
  intros M. assert (L : sn_id l < n0) by exact (proj1 (proj2 (proj2 M)) _ _ E). revert M. change (stable (mk_rel n0) s x).
  match type of H with context [slab_get (s_links ?y) _] => assert (Q : stable (mk_rel n0) s y) by st_solve; set (z := y) in * end.
  destruct (slab_get (s_links z) (sn_id l)); [|discriminate H]. apply EOk_inj in H. subst x.
  eapply stable_trans; [exact _ | exact Q|]. eapply stable_trans; [exact _ | | apply mk_post_attach; intros _; cbn [set_max_size set_handle attach_handle];
    eapply N.le_lt_trans; [apply u32_le | exact L]]. st_solve.
Qed.
#[export] Instance mk_rel_detach_sender n0 id c e tx s : stable (mk_rel n0) s (detach_sender id c e tx s).
Proof. unfold detach_sender. st_solve. Qed.
#[export] Instance mk_rel_detach_unconfirmed n0 frm a e s : stable (mk_rel n0) s (detach_unconfirmed frm a e s).
Proof.
  unfold detach_unconfirmed. destruct (nth_error (s_snds s) a) as [l|] eqn:E; [|st_solve]. cbv zeta.
  match goal with |- context [post (FAttach ?x) s] => assert (Q : stable (mk_rel n0) s (post (FAttach x) s)) end.
  { apply mk_post_attach. intros M. cbn [attach_handle]. eapply N.le_lt_trans; [apply u32_le | exact (proj1 (proj2 (proj2 M)) _ _ E)]. }
  eapply stable_trans; [exact _ | exact Q | st_solve].
Qed.
#[export] Instance mk_rel_detach_receiver n0 id c e tx s : stable_er (mk_rel n0) (fun x => x) s (detach_receiver id c e tx s).
Proof.
  intros x H. change (stable (mk_rel n0) s x). unfold detach_receiver in H.
  destruct (slab_get (s_links s) id) as [lk|] eqn:E; [destruct lk as [| | | |inner| | |]|]; try discriminate H; try solve [st_er H].
  apply EOk_inj in H. subst x.
  assert (Q : stable (mk_rel n0) s (match inner with
               | Some (a, source) =>
                   match nth_error (s_rcvs s) a with
                   | Some l =>
                       post (FAttach (mk_attach (rc_name l) id RoleReceiver SenderMixed
                                        ReceiverFirst source None None false (Some 0) None None
                                        None None)) s
                   | None => s end
               | None => s end)).
  { destruct inner as [[a src]|]; [|st_solve]. destruct (nth_error (s_rcvs s) a) as [l|]; [|st_solve].
    apply mk_post_attach. intros M. cbn [attach_handle]. exact (MK_slot _ _ _ _ M E). }
  eapply stable_trans; [exact _ | exact Q | st_solve].
Qed.
#[export] Instance mk_rel_snd_close n0 a e s : stable (mk_rel n0) s (snd_close a e s).
Proof. unfold snd_close. st_solve. Qed.
#[export] Instance mk_rel_rcv_close n0 a e s : stable_er (mk_rel n0) (fun x => x) s (rcv_close a e s).
Proof. intros x H. change (stable (mk_rel n0) s x). unfold rcv_close in H. st_er H. Qed.
#[export] Instance mk_rel_ses_detach_receiver n0 h e s : stable_er (mk_rel n0) (fun x => x) s (ses_detach_receiver h e s).
Proof. intros x H. change (stable (mk_rel n0) s x). unfold ses_detach_receiver in H. st_er H. Qed.
#[export] Instance mk_rel_ses_detach_sender n0 h e s : stable (mk_rel n0) s (ses_detach_sender h e s).
Proof. unfold ses_detach_sender. st_solve. Qed.
#[export] Instance mk_rel_handle_flow n0 f o s : stable (mk_rel n0) s (handle_flow f o s).
Proof. unfold handle_flow. st_solve. Qed.
#[export] Instance mk_rel_rcv_link_flow n0 h dc c s : stable (mk_rel n0) s (rcv_link_flow h dc c s).
Proof. unfold rcv_link_flow. st_solve. Qed.
#[export] Instance mk_rel_set_link_credit n0 p a c s : stable_er (mk_rel n0) (fun x => x) s (set_link_credit p a c s).
Proof. intros x H. change (stable (mk_rel n0) s x). unfold set_link_credit in H. st_er H. Qed.
#[export] Instance mk_rel_session_loop n0 t tk l tag s : stable (mk_rel n0) s (session_loop t tk l tag s).
Proof. unfold session_loop. st_solve. Qed.
#[export] Instance mk_rel_link_loop n0 t tk l tag s : stable (mk_rel n0) s (link_loop t tk l tag s).
Proof. unfold link_loop. st_solve. Qed.
#[export] Instance mk_rel_poll_send n0 t s : stable (mk_rel n0) s (poll_send t s).
Proof. unfold poll_send. st_solve. Qed.
#[export] Instance mk_rel_rcv_transfer n0 p tr a s : stable_er (mk_rel n0) fst s (rcv_transfer p tr a s).
Proof. intros [x r] H. change (stable (mk_rel n0) s x). unfold rcv_transfer in H. st_er H. Qed.
#[export] Instance mk_rel_rcv_detached n0 a s : stable (mk_rel n0) s (rcv_detached a s).
Proof. unfold rcv_detached. st_solve. Qed.
#[export] Instance mk_rel_handle_detach n0 d s : stable (mk_rel n0) s (fst (handle_detach d s)).
Proof. unfold handle_detach. st_solve. Qed.
#[export] Instance mk_rel_ses_handle_frame n0 p f s : stable_er (mk_rel n0) fst s (ses_handle_frame p f s).
Proof. intros [x r] H. change (stable (mk_rel n0) s x). unfold ses_handle_frame in H. st_er H. Qed.
#[export] Instance mk_rel_handle_attach n0 frm s : stable_opt (mk_rel n0) s (handle_attach frm s).
Proof.
  intros x H. change (stable (mk_rel n0) s x). unfold handle_attach in H.
  destruct (name_get (attach_name frm) (s_names s)) as [i|]; [|discriminate]. apply Some_inj in H. subst x.
  destruct (slab_get (s_links s) i) as [lk|] eqn:E; [|st_solve]. destruct lk as [| |tx| | |[[a tx]|]| |]; try st_solve.
  cbv zeta. intros M. assert (L := MK_slot _ _ _ _ M E). revert M.
  change (stable (mk_rel n0) s (let y := set_s_rhandles (map_put (attach_handle frm) i (s_rhandles s)) s in
    let z := set_s_snds (s_snds y ++ [snd_new i (attach_name frm) (attach_handle frm) (or_default 0 (attach_initial_delivery_count frm))
      (option_map clamp_u32 (attach_max_message_size frm))]) y in
    let u := set_s_links (slab_set i (SEstablished (length (s_snds s))) (s_links z)) z in fire_opt tx (VSender (length (s_snds s))) u)). cbv zeta.
  match goal with |- stable _ _ (fire_opt _ _ ?u) => match u with set_s_links _ ?z => match z with set_s_snds _ ?y =>
    assert (Q1 : stable (mk_rel n0) s y) by st_solve; assert (Q2 : stable (mk_rel n0) y z) by (apply mk_add_snd; exact L);
    assert (Q3 : stable (mk_rel n0) z u) by apply mk_set; assert (Q4 : stable (mk_rel n0) u (fire_opt tx (VSender (length (s_snds s))) u)) by st_solve end end end.
  exact (fun M => Q4 (Q3 (Q2 (Q1 M)))).
Qed.
#[export] Instance mk_rel_ses_end n0  s : stable (mk_rel n0) s (ses_end s).
Proof. unfold ses_end. st_solve. Qed.
#[export] Instance mk_rel_control_err n0 e k s : stable_er (mk_rel n0) (fun x => x) s (control_err e k s).
Proof. intros x H. change (stable (mk_rel n0) s x). unfold control_err in H. st_er H. Qed.
