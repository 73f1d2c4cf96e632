(** * What a session holds and sends has a faithful wire form *)

From Coq Require Import Strings.String ZifyBool ZifyNat ZifyN.
From Verif Require Import Base EngineProofs Spec SpecProtocol SpecFraming SpecLegal SessionFrame SendProofs.

Definition u32 := unsigned 32.
Definition legal_rlink (l : rlink) : Prop :=
  text (rc_name l) /\ u32 (rc_handle l) /\ u32 (rc_credit l) /\ u32 (rc_dc l) /\ unsigned 64 (rc_max l).
Definition legal_slot (o : option link) : Prop :=
  match o with Some (ROpening (Some (_, src))) => optional legal_source src | _ => True end.
Definition legal_ctl (k : ctl) : Prop :=
  match k with
  | KAttachSender frm r _ | KAttachReceiver frm r _ => legal_attach frm /\ legal_attach r
  | KFlow f _ => legal_flow f
  | KAttached r _ => legal_attach r
  | _ => True
  end.
Record LS (s : ses) : Prop := mk_LS {
  ls_out : Forall legal_frame (s_out s);
  ls_snds : Forall (fun l => optional (unsigned 64) (sn_max l)) (s_snds s);
  ls_rcvs : Forall legal_rlink (s_rcvs s);
  ls_nout : u32 (s_nout s);
  ls_nin : u32 (s_nin s);
  ls_iwin : u32 (s_iwin s);
  ls_links : Forall legal_slot (sl_items (s_links s));
  ls_dlvs : Forall (fun d => u32 (dl_id d)) (s_dlvs s);
  ls_ctl : Forall (optional legal_ctl) (s_ctl s);
  ls_tasks : Forall (fun k => legal_payload (tk_body k) /\ optional u32 (tk_format k)) (s_tasks s)
}.
Lemma LS_framed M s s' : framed s s' M ->
  forallb (fun f => negb (memf f M)) [Fout; Fsnds; Frcvs; Fnout; Fnin; Fiwin; Flinks; Fdlvs; Fctl; Ftasks] = true ->
  LS s -> LS s'.
Proof.
  intros F B L. cbn [forallb] in B. repeat rewrite Bool.andb_true_iff in B.
  destruct B as (B1 & B2 & B3 & B4 & B5 & B6 & B7 & B8 & B9 & B10 & _).
  apply Bool.negb_true_iff in B1, B2, B3, B4, B5, B6, B7, B8, B9, B10.
  destruct L. constructor.
  - rewrite (get_out _ _ _ B1); assumption.
  - rewrite (get_snds _ _ _ B2); assumption.
  - rewrite (get_rcvs _ _ _ B3); assumption.
  - rewrite (get_nout _ _ _ B4); assumption.
  - rewrite (get_nin _ _ _ B5); assumption.
  - rewrite (get_iwin _ _ _ B6); assumption.
  - rewrite (get_links _ _ _ B7); assumption.
  - rewrite (get_dlvs _ _ _ B8); assumption.
  - rewrite (get_ctl _ _ _ B9); assumption.
  - rewrite (get_tasks _ _ _ B10); assumption.
Qed.

Lemma two32_eq : two32 = 2 ^ 32.
Proof. reflexivity. Qed.
Lemma u32_mod n : u32 (n mod two32).
Proof. unfold u32, unsigned. rewrite <- two32_eq. apply N.mod_lt. discriminate. Qed.
Lemma u32_as n : u32 (as_u32 n). Proof. apply u32_mod. Qed.
Lemma u32_wadd a b : u32 (wadd a b). Proof. apply u32_mod. Qed.
Lemma u32_wsub a b : u32 (wsub a b). Proof. apply u32_mod. Qed.
Lemma u32_checked p a b c : checked_add p a b = EOk c -> u32 c.
Proof.
  unfold checked_add. destruct (N.ltb_spec (a + b) two32) as [L|G]; intros H.
  - apply EOk_inj in H. subst c. exact L.
  - destruct p; [discriminate H|]. apply EOk_inj in H. subst c. apply u32_wadd.
Qed.
Lemma u32_clamp n : optional (unsigned 64) n -> optional (unsigned 64) (option_map clamp_u32 n).
Proof.
  destruct n as [n|]; [|exact (fun H => H)]. intros _. cbn. unfold clamp_u32, unsigned.
  destruct (N.ltb_spec n two32) as [L|]; [|reflexivity]. eapply N.lt_trans; [exact L|reflexivity].
Qed.
Lemma u32_or0 o : optional u32 o -> u32 (or_default 0 o).
Proof. destruct o; [exact (fun H => H)|]. intros _. reflexivity. Qed.
Lemma Forall_at A (P : A -> Prop) l i x : Forall P l -> nth_error l i = Some x -> P x.
Proof. intros F E. rewrite Forall_forall in F. exact (F _ (nth_error_In _ _ E)). Qed.
Lemma Forall_set_nth A (P : A -> Prop) l i x : Forall P l -> P x -> Forall P (set_nth i x l).
Proof.
  revert i. induction l as [|y l IH]; intros [|i] F Px; cbn [set_nth]; auto; inversion F; subst; constructor; auto.
Qed.
Lemma Forall_snoc A (P : A -> Prop) l x : Forall P l -> P x -> Forall P (l ++ [x]).
Proof. intros F Px. apply Forall_app. auto. Qed.

(** ** The primitives *)
Ltac ls_field := intros L; destruct L; constructor; assumption.
Lemma LS_out v s : LS s -> Forall legal_frame v -> LS (set_s_out v s).
Proof. intros [] H; constructor; assumption. Qed.
Lemma LS_snds v s : LS s -> Forall (fun l => optional (unsigned 64) (sn_max l)) v -> LS (set_s_snds v s).
Proof. intros [] H; constructor; assumption. Qed.
Lemma LS_rcvs v s : LS s -> Forall legal_rlink v -> LS (set_s_rcvs v s).
Proof. intros [] H; constructor; assumption. Qed.
Lemma LS_nout v s : LS s -> u32 v -> LS (set_s_nout v s).
Proof. intros [] H; constructor; assumption. Qed.
Lemma LS_nin v s : LS s -> u32 v -> LS (set_s_nin v s).
Proof. intros [] H; constructor; assumption. Qed.
Lemma LS_iwin v s : LS s -> u32 v -> LS (set_s_iwin v s).
Proof. intros [] H; constructor; assumption. Qed.
Lemma LS_links v s : LS s -> Forall legal_slot (sl_items v) -> LS (set_s_links v s).
Proof. intros [] H; constructor; assumption. Qed.
Lemma LS_dlvs v s : LS s -> Forall (fun d => u32 (dl_id d)) v -> LS (set_s_dlvs v s).
Proof. intros [] H; constructor; assumption. Qed.
Lemma LS_ctl v s : LS s -> Forall (optional legal_ctl) v -> LS (set_s_ctl v s).
Proof. intros [] H; constructor; assumption. Qed.
Lemma LS_tasks v s : LS s -> Forall (fun k => legal_payload (tk_body k) /\ optional u32 (tk_format k)) v -> LS (set_s_tasks v s).
Proof. intros [] H; constructor; assumption. Qed.

Lemma LS_post f s : LS s -> legal_frame f -> LS (post f s).
Proof. intros L H. apply LS_out; [exact L|]. apply Forall_snoc; [apply L|exact H]. Qed.
Lemma LS_post_all l s : LS s -> Forall legal_frame l -> LS (post_all l s).
Proof.
  unfold post_all. revert s. induction l as [|f l IH]; intros s L F; [exact L|]. inversion F; subst. apply IH; [|assumption].
  apply LS_post; assumption.
Qed.
Lemma LS_control k s : LS s -> legal_ctl k -> LS (control k s).
Proof. intros L H. apply LS_ctl; [exact L|]. apply Forall_snoc; [apply L|exact H]. Qed.
Lemma LS_upd_snd a f s : LS s -> (forall l, nth_error (s_snds s) a = Some l -> optional (unsigned 64) (sn_max l) -> optional (unsigned 64) (sn_max (f l))) -> LS (upd_snd a f s).
Proof.
  intros L H. unfold upd_snd. destruct (nth_error (s_snds s) a) as [l|] eqn:E; [|exact L]. apply LS_snds; [exact L|].
  apply Forall_set_nth; [apply L|]. apply H; [reflexivity|]. exact (Forall_at _ _ _ _ _ (ls_snds _ L) E).
Qed.
Lemma LS_upd_rcv a f s : LS s -> (forall l, nth_error (s_rcvs s) a = Some l -> legal_rlink l -> legal_rlink (f l)) -> LS (upd_rcv a f s).
Proof.
  intros L H. unfold upd_rcv. destruct (nth_error (s_rcvs s) a) as [l|] eqn:E; [|exact L]. apply LS_rcvs; [exact L|].
  apply Forall_set_nth; [apply L|]. apply H; [reflexivity|]. exact (Forall_at _ _ _ _ _ (ls_rcvs _ L) E).
Qed.
Lemma LS_upd_dlv a f s : LS s -> (forall d, dl_id (f d) = dl_id d) -> LS (upd_dlv a f s).
Proof.
  intros L H. unfold upd_dlv. destruct (nth_error (s_dlvs s) a) as [d|] eqn:E; [|exact L]. apply LS_dlvs; [exact L|].
  apply Forall_set_nth; [apply L|]. rewrite H. exact (Forall_at _ _ _ _ _ (ls_dlvs _ L) E).
Qed.
Lemma LS_upd_task a f s : LS s -> (forall k, tk_body (f k) = tk_body k /\ tk_format (f k) = tk_format k) -> LS (upd_task a f s).
Proof.
  intros L H. unfold upd_task. destruct (nth_error (s_tasks s) a) as [k|] eqn:E; [|exact L]. apply LS_tasks; [exact L|].
  apply Forall_set_nth; [apply L|]. destruct (H k) as [-> ->]. exact (Forall_at _ _ _ _ _ (ls_tasks _ L) E).
Qed.

(** ** The functions *)
Ltac ls_break :=
  match goal with
  | |- LS (match ?x with _ => _ end) => destruct x eqn:?
  | |- LS (let '(_, _) := ?x in _) => destruct x eqn:?
  end.
Ltac ls_prim := fail.
Ltac ls_one := first
  [ assumption
  | eapply LS_framed; [typeclasses eauto | reflexivity | ]
  | ls_prim
  | apply LS_upd_snd; [|intros ? _ ?; st_cbn; assumption]
  | apply LS_upd_dlv; [|intros ?; reflexivity]
  | apply LS_upd_task; [|intros ?; st_cbn; auto]
  | ls_break ].
Ltac ls := repeat (cbv zeta; ls_one).

Lemma LS_notify a s : LS s -> LS (notify_lock_snd a s).
Proof. intros L. unfold notify_lock_snd. ls. Qed.
Ltac ls_prim ::= first [apply LS_notify].
Lemma LS_snd_detached a e s : LS s -> LS (snd_remote_detached a e s).
Proof. intros L. unfold snd_remote_detached. ls. Qed.
Lemma LS_drop_snd a s : LS s -> LS (drop_established_snd a s).
Proof. intros L. unfold drop_established_snd. ls. Qed.
Lemma LS_apply_flow f a s : LS s -> LS (apply_flow f a s).
Proof. intros L. unfold apply_flow. ls. Qed.
Lemma rl_wake l : legal_rlink l -> legal_rlink (rcv_wake l).
Proof. intros H. unfold rcv_wake. destruct (rc_waker l); exact H. Qed.
Lemma LS_rcv_detached a e s : LS s -> LS (rcv_remote_detached a e s).
Proof. intros L. apply LS_upd_rcv; [exact L|]. intros l _ H. apply rl_wake. exact H. Qed.
Lemma LS_drop_rcv a s : LS s -> LS (drop_established_rcv a s).
Proof. intros L. apply LS_upd_rcv; [exact L|]. intros l _ H. exact H. Qed.
Ltac ls_prim ::= first [apply LS_notify | apply LS_snd_detached | apply LS_drop_snd | apply LS_apply_flow | apply LS_rcv_detached | apply LS_drop_rcv].
Lemma LS_drop_link l s : LS s -> LS (drop_link l s).
Proof. intros L. unfold drop_link. ls. Qed.
Lemma slot_get s k l : Forall legal_slot (sl_items s) -> slab_get s k = Some l -> legal_slot (Some l).
Proof.
  intros F E. unfold slab_get in E. destruct (nth_error (sl_items s) (N.to_nat k)) as [[l'|]|] eqn:E'; try discriminate E.
  apply Some_inj in E. subst l'. exact (Forall_at _ _ _ _ _ F E').
Qed.
Lemma slots_set k l s : Forall legal_slot (sl_items s) -> legal_slot (Some l) -> Forall legal_slot (sl_items (slab_set k l s)).
Proof. intros F H. unfold slab_set. destruct (slab_get s k); [|exact F]. apply Forall_set_nth; assumption. Qed.
Lemma slots_remove k s : Forall legal_slot (sl_items s) -> Forall legal_slot (sl_items (slab_remove k s)).
Proof. intros F. unfold slab_remove. destruct (slab_get s k); [|exact F]. apply Forall_set_nth; [assumption|exact I]. Qed.
Lemma slots_insert l s : Forall legal_slot (sl_items s) -> legal_slot (Some l) -> Forall legal_slot (sl_items (slab_insert l s)).
Proof. intros F H. unfold slab_insert. destruct (sl_free s); [apply Forall_snoc|apply Forall_set_nth]; assumption. Qed.
Lemma LS_put_link k l s : LS s -> legal_slot (Some l) -> LS (put_link k l s).
Proof.
  intros L H. unfold put_link. ls_break; [|exact L]. apply LS_drop_link. apply LS_links; [exact L|]. apply slots_set; [apply L|exact H].
Qed.
Lemma LS_remove_link k s : LS s -> LS (remove_link k s).
Proof.
  intros L. unfold remove_link. ls_break; [|exact L]. apply LS_drop_link. apply LS_links; [exact L|]. apply slots_remove. apply L.
Qed.
Lemma LS_insert_link l s : LS s -> legal_slot (Some l) -> LS (snd (insert_link l s)).
Proof. intros L H. unfold insert_link. cbn [snd]. apply LS_links; [exact L|]. apply slots_insert; [apply L|exact H]. Qed.

Lemma legal_disp d b st : u32 (dl_id d) -> legal_delivery_state st -> legal_frame (disp_of d b st).
Proof. intros H H'. cbn [disp_of legal_frame]. split; [exact H|]. split; [exact I|exact H']. Qed.
Lemma legal_internal : legal_delivery_state (DSRejected (mk_rejected (Some internal_error))).
Proof. cbn. unfold legal_rejected, legal_error. cbn [optional rejected_error internal_error err_condition err_description err_info legal_condition]. split; [split|split]; try exact I; try reflexivity. cbn. intuition discriminate. Qed.
Lemma LS_settle i st s : LS s -> legal_delivery_state st -> LS (dlv_settle i st s).
Proof.
  intros L H. unfold dlv_settle. destruct (nth_error (s_dlvs s) i) as [d|] eqn:E; [|exact L]. ls_break; [exact L|].
  apply LS_post; [|apply legal_disp; [exact (Forall_at _ _ _ _ _ (ls_dlvs _ L) E)|exact H]]. ls.
Qed.
Lemma LS_update i st s : LS s -> legal_delivery_state st -> LS (dlv_update i st s).
Proof.
  intros L H. unfold dlv_update. destruct (nth_error (s_dlvs s) i) as [d|] eqn:E; [|exact L]. ls_break; [exact L|].
  apply LS_post; [exact L|]. apply legal_disp; [exact (Forall_at _ _ _ _ _ (ls_dlvs _ L) E)|exact H].
Qed.
Lemma LS_drop i s : LS s -> LS (dlv_drop i s).
Proof.
  intros L. unfold dlv_drop. destruct (nth_error (s_dlvs s) i) as [d|] eqn:E; [|exact L]. ls_break; [exact L|]. cbv zeta.
  assert (U : LS (upd_dlv i (set_dl_alive false) s)) by ls.
  ls_break; [|exact U]. ls_break; [ls|].
  apply LS_post; [ls|]. apply legal_disp; [exact (Forall_at _ _ _ _ _ (ls_dlvs _ L) E)|exact legal_internal].
Qed.
Lemma LS_drop_dlvs ds s : LS s -> LS (drop_dlvs ds s).
Proof. unfold drop_dlvs. revert s. induction ds as [|d ds IH]; intros s L; [exact L|]. apply IH. apply LS_drop. exact L. Qed.
Lemma LS_poll_wait w s : LS s -> LS (poll_wait w s).
Proof.
  intros L. unfold poll_wait. cbv zeta.
  destruct (nth_error (s_waits s) w) as [t|]; [|exact L]. destruct (nth_error (s_dlvs s) (wk_dlv t)) as [d|]; [|exact L].
  ls.
Qed.
Lemma LS_fail_links e ls0 s : LS s -> LS (fail_links e ls0 s).
Proof.
  unfold fail_links. revert s. induction ls0 as [|l ls0 IH]; intros s L; [exact L|]. apply IH. unfold fail_link. ls.
Qed.
Lemma LS_drop_links ls0 s : LS s -> LS (drop_links ls0 s).
Proof. unfold drop_links. revert s. induction ls0 as [|l ls0 IH]; intros s L; [exact L|]. apply IH. apply LS_drop_link. exact L. Qed.
Lemma LS_set_error e s : LS s -> LS (ses_set_error e s).
Proof.
  intros L. unfold ses_set_error. cbv zeta. 
  do 4 (eapply LS_framed; [typeclasses eauto | reflexivity | ]).
  apply LS_drop_links. apply LS_links; [|constructor]. apply LS_fail_links. ls.
Qed.
Lemma la_handle h frm : legal_attach frm -> u32 h -> legal_attach (set_handle h frm).
Proof. unfold legal_attach. cbn. intuition. Qed.
Lemma la_max m frm : legal_attach frm -> optional (unsigned 64) m -> legal_attach (set_max_size m frm).
Proof. unfold legal_attach. cbn. intuition. Qed.
Lemma ld_frame h b e : u32 h -> optional legal_error e -> legal_frame (detach_frame h b e).
Proof. intros H H'. split; assumption. Qed.
Lemma LS_attach_local_sender frm s : LS s -> legal_attach frm -> LS (snd (attach_local_sender frm s)).
Proof.
  intros L A. unfold attach_local_sender, new_chan, insert_link. cbn [snd]. apply LS_post; [|apply la_handle; [exact A|apply u32_as]].
  eapply LS_framed; [typeclasses eauto | reflexivity | ].
  apply LS_links; [ls|]. apply slots_insert; [exact (ls_links _ L)|exact I].
Qed.
Lemma rl_new h rh frm : u32 h -> legal_attach frm -> legal_rlink (rcv_new h rh frm).
Proof.
  intros H A. unfold legal_rlink. cbn. split; [apply A|]. split; [exact H|]. split; [reflexivity|]. split; [|reflexivity].
  apply u32_or0. unfold legal_attach in A. intuition.
Qed.
Lemma LS_attach_local_receiver frm s : LS s -> legal_attach frm -> LS (snd (attach_local_receiver frm s)).
Proof.
  intros L A. unfold attach_local_receiver, new_chan. cbn [snd fst]. cbv zeta. apply LS_post; [|apply la_handle; [exact A|apply u32_as]].
  eapply LS_framed; [typeclasses eauto | reflexivity | ]. apply LS_insert_link; [|exact I].
  apply LS_rcvs; [ls|]. apply Forall_snoc; [exact (ls_rcvs _ L)|]. apply rl_new; [apply u32_as|exact A].
Qed.
Lemma LS_attach_remote_sender frm r a s s' : LS s -> legal_attach r -> attach_remote_sender frm r a s = EOk s' -> LS s'.
Proof.
  intros L A H. unfold attach_remote_sender in H. destruct (nth_error (s_snds s) a) as [l|] eqn:E; [|apply EOk_inj in H; subst; exact L].
  cbv zeta in H. match type of H with context [slab_get (s_links ?y) _] => assert (Q : LS y) by ls; set (z := y) in * end.
  destruct (slab_get (s_links z) (sn_id l)); [|discriminate H]. apply EOk_inj in H. subst s'.
  apply LS_post; [apply LS_put_link; [exact Q|exact I]|]. cbn [legal_frame]. apply la_max; [apply la_handle; [exact A|apply u32_as]|].
  exact (Forall_at _ _ _ _ _ (ls_snds _ L) E).
Qed.
Lemma LS_detach_sender id c e tx s : LS s -> u32 id -> optional legal_error e -> LS (detach_sender id c e tx s).
Proof.
  intros L U O. unfold detach_sender. destruct (slab_get (s_links s) id) as [[]|]; try solve [ls].
  - cbv zeta. apply LS_control; [|exact I]. apply LS_post; [|apply ld_frame; assumption]. apply LS_put_link; [exact L|exact I].
  - apply LS_post; [|apply ld_frame; assumption]. apply LS_put_link; [exact L|exact I].
Qed.
Lemma LS_unconfirmed frm a e s : LS s -> legal_attach frm -> optional legal_error e -> LS (detach_unconfirmed frm a e s).
Proof.
  intros L A O. unfold detach_unconfirmed. destruct (nth_error (s_snds s) a) as [l|]; [|exact L]. cbv zeta. apply LS_remove_link.
  apply LS_post; [|apply ld_frame; [apply u32_as|exact O]]. apply LS_post; [exact L|]. unfold legal_frame, legal_attach. cbn.
  intuition; try apply A. apply u32_as.
Qed.
Lemma LS_attach_remote_receiver frm s : LS s -> legal_attach frm ->
  LS (snd (attach_remote_receiver frm s)) /\ legal_attach (fst (fst (attach_remote_receiver frm s))).
Proof.
  intros L A. unfold attach_remote_receiver. cbn [snd fst]. cbv zeta. split.
  - eapply LS_framed; [typeclasses eauto | reflexivity | ]. apply LS_insert_link; [|unfold legal_attach in A; cbn; intuition].
    apply LS_rcvs; [ls|]. apply Forall_snoc; [exact (ls_rcvs _ L)|]. apply rl_new; [apply u32_as|exact A].
  - unfold legal_attach in *. cbn. intuition. apply u32_as. reflexivity.
Qed.
Lemma LS_confirm a r s : LS s -> legal_attach r -> LS (confirm_receiver a r s).
Proof.
  intros L A. unfold confirm_receiver. destruct (nth_error (s_rcvs s) a) as [l|] eqn:E; [|exact L]. cbv zeta.
  pose proof (Forall_at _ _ _ _ _ (ls_rcvs _ L) E) as R.
  destruct (slab_get (s_links s) (rc_handle l)) as [[| | | |[[a' src]|]| | |]|]; try exact L.
  apply LS_post; [apply LS_put_link; [exact L|exact I]|]. cbn [legal_frame]. apply la_max; [exact A|].
  destruct (rc_max l =? 0); [exact I|]. apply R.
Qed.
Lemma LS_detach_receiver id c e tx s s' : LS s -> u32 id -> optional legal_error e -> detach_receiver id c e tx s = EOk s' -> LS s'.
Proof.
  intros L U O H. unfold detach_receiver in H. destruct (slab_get (s_links s) id) as [[]|] eqn:E; try discriminate H;
    apply EOk_inj in H; subst s'; try solve [ls].
  - cbv zeta. apply LS_remove_link. eapply LS_framed; [typeclasses eauto | reflexivity | ]. apply LS_post; [|apply ld_frame; assumption].
    match goal with |- LS (match ?x with _ => _ end) => destruct x as [[a src]|] end; [|exact L].
    destruct (nth_error (s_rcvs s) a) as [l|] eqn:El; [|exact L]. apply LS_post; [exact L|].
    pose proof (Forall_at _ _ _ _ _ (ls_rcvs _ L) El) as R. pose proof (slot_get _ _ _ (ls_links _ L) E) as S.
    unfold legal_frame, legal_attach. cbn. intuition. apply R. reflexivity.
  - apply LS_control; [|exact I]. apply LS_post; [|apply ld_frame; assumption]. apply LS_put_link; [exact L|exact I].
  - apply LS_remove_link. ls.
Qed.
Lemma LS_snd_close a e s : LS s -> optional legal_error e -> LS (snd_close a e s).
Proof.
  intros L O. unfold snd_close. destruct (nth_error (s_snds s) a) as [l|]; [|exact L]. ls_break; [exact L|]. unfold new_chan. cbv zeta.
  apply LS_detach_sender; [ls|apply u32_as|exact O].
Qed.
Lemma LS_rcv_close a e s s' : LS s -> optional legal_error e -> rcv_close a e s = EOk s' -> LS s'.
Proof.
  intros L O H. unfold rcv_close in H. destruct (nth_error (s_rcvs s) a) as [l|] eqn:E; [|apply EOk_inj in H; subst; exact L].
  pose proof (Forall_at _ _ _ _ _ (ls_rcvs _ L) E) as R. unfold new_chan in H. cbv zeta in H.
  match type of H with ebind ?m _ = _ => destruct m as [s1|] eqn:E1; cbn [ebind] in H; [|discriminate H] end.
  apply EOk_inj in H. subst s'.
  assert (L1 : LS s1). { destruct (rc_closed l). apply EOk_inj in E1. subst. ls. eapply LS_detach_receiver; [| | |exact E1]; [ls|apply R|exact O]. }
  apply LS_upd_rcv; [exact L1|]. intros x _ X. apply rl_wake. exact X.
Qed.
Lemma LS_handle_flow f o s : LS s -> legal_flow f -> LS (handle_flow f o s).
Proof.
  intros L F. unfold handle_flow. cbv zeta.
  match goal with |- LS (match o with Some a => apply_flow f a ?y | None => _ end) => assert (Q : LS y); [|destruct o; [apply LS_apply_flow|]; exact Q] end.
  match goal with |- LS (if _ then post ?g ?y else _) => assert (Q : LS y) end.
  { eapply LS_framed; [typeclasses eauto | reflexivity | ]. eapply LS_framed; [typeclasses eauto | reflexivity | ].
    apply LS_iwin; [|apply u32_wsub]. eapply LS_framed; [typeclasses eauto | reflexivity | ].
    apply LS_nin; [exact L|]. unfold legal_flow in F. apply F. }
  destruct (flow_echo f); [|exact Q]. apply LS_post; [exact Q|].
  unfold legal_frame, legal_flow. cbn [flow_next_incoming_id flow_incoming_window flow_next_outgoing_id flow_outgoing_window flow_handle
    flow_delivery_count flow_link_credit flow_available flow_properties optional].
  split; [|split; [reflexivity|split; [apply Q|split; [apply Q|auto]]]]. 
  match goal with |- optional _ (if ?b then _ else _) => destruct b end; [apply Q|exact I].
Qed.
Lemma LS_link_flow h dc c s : LS s -> u32 h -> u32 dc -> u32 c -> LS (rcv_link_flow h dc c s).
Proof.
  intros L H D C. unfold rcv_link_flow. apply LS_post; [exact L|]. unfold legal_frame, legal_flow. 
  cbn [flow_next_incoming_id flow_incoming_window flow_next_outgoing_id flow_outgoing_window flow_handle
    flow_delivery_count flow_link_credit flow_available flow_properties optional].
  split; [apply L|split; [reflexivity|split; [apply L|split; [apply L|auto]]]].
Qed.
Lemma LS_set_credit p a n s s' : LS s -> u32 n -> set_link_credit p a n s = EOk s' -> LS s'.
Proof.
  intros L U H. unfold set_link_credit in H. destruct (nth_error (s_rcvs s) a) as [l|] eqn:E; [|apply EOk_inj in H; subst; exact L].
  pose proof (Forall_at _ _ _ _ _ (ls_rcvs _ L) E) as R.
  destruct (checked_add p (rc_credit l) n) as [c|] eqn:Ec; cbn [ebind] in H; [|discriminate H]. apply EOk_inj in H. subst s'.
  apply LS_link_flow; [|apply R|apply R|exact U]. apply LS_upd_rcv; [exact L|]. intros x _ X. unfold legal_rlink in *. st_cbn.
  apply u32_checked in Ec. intuition.
Qed.
Lemma legal_more fuel max h fmt body : u32 h -> optional u32 fmt -> Forall legal_frame (more_frames fuel max h fmt body).
Proof.
  intros H F. revert body. induction fuel as [|fuel IH]; intros [|c body]; cbn [more_frames]; try constructor; [|apply IH].
  split; [|constructor]. unfold legal_transfer. cbn. auto.
Qed.
Lemma legal_frames mfs h id tag body settled fmt : u32 h -> u32 id -> legal_payload body -> optional u32 fmt ->
  Forall legal_frame (transfer_frames mfs h id tag body settled fmt).
Proof.
  intros H I0 [B B'] F. unfold transfer_frames. cbv zeta.
  set (fm := match fmt with Some _ => fmt | None => _ end).
  assert (FM : optional u32 fm). { unfold fm. destruct fmt; [exact F|]. destruct body; [exact I|exact B']. }
  assert (ST : optional legal_delivery_state (if settled then Some (DSAccepted mk_accepted) else None)) by (destruct settled; exact I).
  destruct (chunk_size mfs <? tb_size body).
  - constructor; [|apply legal_more; assumption]. split; [|constructor]. unfold legal_transfer. cbn. auto.
  - constructor; [|constructor]. split; [|exact B]. unfold legal_transfer. cbn. auto.
Qed.
Lemma LS_transmit t tk l tag s : LS s -> legal_payload (tk_body tk) -> optional u32 (tk_format tk) -> LS (transmit t tk l tag s).
Proof.
  intros L B F. unfold transmit. cbv zeta.
  apply LS_upd_task; [|intros ?; st_cbn; auto].
  match goal with |- LS (set_s_dlvs _ (post_all ?fs ?y)) => assert (Q : LS y) end.
  { ls_break; [|eapply LS_framed; [typeclasses eauto | reflexivity | ]];
    (apply LS_nout; [|apply u32_wadd]; apply LS_iwin; [exact L|]; pose proof (ls_iwin _ L) as W; unfold u32, unsigned in *; lia). }
  assert (Q' : u32 (s_nout (set_s_iwin (s_iwin s - 1) s))) by exact (ls_nout _ L).
  match goal with |- LS (set_s_dlvs _ ?z) => assert (Z : LS z) end.
  { apply LS_post_all; [exact Q|]. apply legal_frames; [apply u32_as|exact Q'|exact B|exact F]. }
  apply LS_dlvs; [exact Z|]. apply Forall_snoc; [apply Z|exact Q'].
Qed.
Lemma LS_session_loop t tk l tag s : LS s -> legal_payload (tk_body tk) -> optional u32 (tk_format tk) -> LS (session_loop t tk l tag s).
Proof. intros L B F. unfold session_loop. ls_break; [unfold new_chan; ls|apply LS_transmit; assumption]. Qed.
Lemma LS_link_loop t tk l tag s : LS s -> legal_payload (tk_body tk) -> optional u32 (tk_format tk) -> LS (link_loop t tk l tag s).
Proof. intros L B F. unfold link_loop. ls_break; [unfold new_chan; ls|cbv zeta; apply LS_session_loop; [ls|assumption|assumption]]. Qed.
Lemma LS_poll_send t s : LS s -> LS (poll_send t s).
Proof.
  intros L. unfold poll_send. cbv zeta. destruct (nth_error (s_tasks s) t) as [tk|] eqn:E; [|exact L].
  destruct (nth_error (s_snds s) (tk_link tk)) as [l|]; [|exact L].
  destruct (Forall_at _ _ _ _ _ (ls_tasks _ L) E) as [B F].
  destruct (tk_st tk); try exact L.
  - ls_break; [ls|]. ls_break; [ls|]. match goal with |- LS (if ?b then _ else _) => destruct b end; [ls|].
    ls_break; apply LS_link_loop; try assumption. ls.
  - repeat ls_break; try solve [ls]; apply LS_link_loop; assumption.
  - repeat ls_break; try solve [ls]; apply LS_session_loop; assumption.
Qed.
Definition legal_action (act : action) : Prop :=
  match act with
  | AAttachSender _ frm r | AAttachReceiver _ frm r => legal_attach frm /\ legal_attach r
  | AFlow _ f => legal_flow f
  | _ => True
  end.
Lemma LS_settle_one d b s n : LS s -> LS (settle_one d b s n).
Proof. intros L. eapply LS_framed; [typeclasses eauto | | exact L]; reflexivity. Qed.
Lemma LS_settle_deliveries d s : LS s -> LS (settle_deliveries d s).
Proof. intros L. eapply LS_framed; [typeclasses eauto | | exact L]; reflexivity. Qed.
Lemma LS_new_rcv id h tag b s : LS s -> u32 id -> LS (snd (new_rcv id h tag b s)).
Proof.
  intros L U. unfold new_rcv. cbv zeta. cbn [snd].
  match goal with |- LS (set_s_dlvs _ ?z) => assert (Z : LS z) by ls end.
  apply LS_dlvs; [exact Z|]. apply Forall_snoc; [apply Z|exact U].
Qed.
Lemma legal_link_err c d : optional text d -> legal_error (link_err c d).
Proof. intros H. split; [exact I|]. split; [exact H|exact I]. Qed.
Ltac ls_rcv := apply LS_upd_rcv; [|let H := fresh in intros ? _ H; first [exact H | apply rl_wake; exact H]].
Lemma LS_rcv_transfer p tr a s s' act : LS s -> legal_frame (FTransfer tr) -> rcv_transfer p tr a s = EOk (s', act) -> LS s' /\ legal_action act.
Proof.
  intros L T H. unfold rcv_transfer in H. cbv zeta in H. destruct (nth_error (s_rcvs s) a) as [l|] eqn:E.
  2:{ apply EOk_inj in H. apply pair_equal_spec in H as [<- <-]. split; [exact L|exact I]. }
  pose proof (Forall_at _ _ _ _ _ (ls_rcvs _ L) E) as R.
  assert (CL : forall e z, LS z -> legal_error e -> ebind (rcv_close a (Some e) z) (fun s => EOk (s, ANone)) = EOk (s', act) -> LS s' /\ legal_action act).
  { intros e z Lz Le X. destruct (rcv_close a (Some e) z) as [z'|] eqn:Ez; cbn [ebind] in X; [|discriminate X]. apply EOk_inj in X.
    apply pair_equal_spec in X as [<- <-]. split; [eapply LS_rcv_close; [exact Lz| |exact Ez]; exact Le|exact I]. }
  destruct (rc_credit l =? 0). { eapply CL; [| |exact H]; [exact L|apply legal_link_err; exact I]. }
  set (s0 := if transfer_more (tr_head tr) then s else _) in H.
  assert (L0 : LS s0). { unfold s0. destruct (transfer_more (tr_head tr)); [exact L|]. apply LS_upd_rcv; [exact L|]. intros x _ X.
    unfold legal_rlink in *. st_cbn. unfold u32, unsigned in *. intuition lia. }
  destruct (rc_partial l) as [body|].
  - match type of H with (if ?b then _ else _) = _ => destruct b end. { eapply CL; [| |exact H]; [exact L0|apply legal_link_err; reflexivity]. }
    match type of H with match ?b with _ => _ end = _ => destruct b as [body'|] end. 2:{ eapply CL; [| |exact H]; [exact L0|apply legal_link_err; exact I]. }
    destruct (transfer_more (tr_head tr)).
    + apply EOk_inj in H. apply pair_equal_spec in H as [<- <-]. split; [|exact I]. ls_rcv. exact L0.
    + destruct (checked_add p (rc_dc l) 1) as [dc|] eqn:Ed; cbn [ebind] in H; [|discriminate H]. apply u32_checked in Ed.
      match type of H with context [upd_rcv a (fun l0 => set_rc_dc dc (@?f l0)) s0] => set (s1 := upd_rcv a (fun l0 => set_rc_dc dc (f l0)) s0) in H end.
      assert (L1 : LS s1). { apply LS_upd_rcv; [exact L0|]. intros x _ X. unfold legal_rlink in *. st_cbn. intuition. }
      destruct (rev (rc_queue l)) as [|[d first] prev]. { eapply CL; [| |exact H]; [exact L1|apply legal_link_err; reflexivity]. }
      apply EOk_inj in H. apply pair_equal_spec in H as [<- <-]. split; [|exact I].
      match goal with |- LS (if ?b then _ else _) => destruct b end; repeat ls_rcv; exact L1.
  - destruct (transfer_delivery_id (tr_head tr)) as [id|] eqn:Ei. 2:{ eapply CL; [| |exact H]; [exact L0|apply legal_link_err; reflexivity]. }
    assert (U : u32 id). { destruct T as [T _]. unfold legal_transfer in T. rewrite Ei in T. apply T. }
    destruct (transfer_more (tr_head tr)).
    + match type of H with context [new_rcv ?i ?h ?t ?b ?z] => destruct (new_rcv i h t b z) as [d s2] eqn:E2; assert (L2 : LS (snd (new_rcv i h t b z))) end.
      { apply LS_new_rcv; [|exact U]. ls_rcv. exact L0. }
      rewrite E2 in L2. cbn [snd] in L2. apply EOk_inj in H. apply pair_equal_spec in H as [<- <-]. split; [|exact I]. ls_rcv. exact L2.
    + destruct (checked_add p (rc_dc l) 1) as [dc|] eqn:Ed; cbn [ebind] in H; [|discriminate H]. apply u32_checked in Ed.
      match type of H with context [new_rcv ?i ?h ?t ?b ?z] => destruct (new_rcv i h t b z) as [d s2] eqn:E2; assert (L2 : LS (snd (new_rcv i h t b z))) end.
      { apply LS_new_rcv; [|exact U]. apply LS_upd_rcv; [exact L0|]. intros x _ X. unfold legal_rlink in *. st_cbn. intuition. }
      rewrite E2 in L2. cbn [snd] in L2. apply EOk_inj in H. apply pair_equal_spec in H as [<- <-]. split; [|exact I].
      match goal with |- LS (if ?b then _ else _) => destruct b end; repeat ls_rcv; exact L2.
Qed.
Lemma LS_detached a s : LS s -> LS (rcv_detached a s).
Proof.
  intros L. unfold rcv_detached. destruct (nth_error (s_rcvs s) a) as [l|]; [|exact L]. cbv zeta. apply LS_drop_dlvs. ls_rcv. exact L.
Qed.
Lemma LS_handle_detach d s : LS s -> legal_detach d -> LS (fst (handle_detach d s)) /\ legal_action (snd (handle_detach d s)).
Proof.
  intros L D. unfold handle_detach. cbv zeta.
  match goal with |- LS (fst (match ?i with _ => _ end)) /\ _ => destruct i as [idx|] end; [|split; [exact L|exact I]].
  assert (RM : forall z, LS z -> LS (set_s_rhandles (map_del (detach_handle d) (s_rhandles z)) (remove_link idx z))).
  { intros z Lz. eapply LS_framed; [typeclasses eauto | reflexivity | ]. apply LS_remove_link. exact Lz. }
  destruct (slab_get (s_links s) idx) as [[]|]; cbn [fst snd]; try (split; [|exact I]); try exact L; try (apply RM; unfold answer; ls).
  - destruct (nth_error (s_snds s) a) as [l|]; cbn [fst snd]; (split; [|exact I]); [|exact L]. apply RM. apply LS_post; [|apply ld_frame; [apply u32_as|apply D]].
    apply LS_snd_detached. ls.
  - match goal with |- LS (fst (match ?i with _ => _ end)) /\ _ => destruct i as [[a tx]|] end; cbn [fst snd]; (split; [|exact I]); apply RM; [|exact L].
    eapply LS_framed; [typeclasses eauto | reflexivity | ]. apply LS_detached. exact L.
  - destruct (nth_error (s_rcvs s) a) as [l|] eqn:E; cbn [fst snd]; (split; [|exact I]); [|exact L].
    pose proof (Forall_at _ _ _ _ _ (ls_rcvs _ L) E) as R. apply RM. apply LS_rcv_detached.
    apply LS_post; [|apply ld_frame; [apply R|exact I]]. ls.
Qed.
Lemma LS_handle_frame p f s s' r : LS s -> legal_frame f -> ses_handle_frame p f s = EOk (s', r) ->
  LS s' /\ match r with inl act => legal_action act | inr _ => True end.
Proof.
  intros L F H. unfold ses_handle_frame in H. 
  assert (ID : forall x : action + perr, match x with inl act => legal_action act | inr _ => True end -> EOk (s, x) = EOk (s', r) ->
     LS s' /\ match r with inl act => legal_action act | inr _ => True end).
  { intros x X Y. apply EOk_inj in Y. apply pair_equal_spec in Y as [<- <-]. auto. }
  destruct (s_error s). { eapply ID; [|exact H]. exact I. }
  destruct f; try (eapply ID; [|exact H]; exact I).
  - cbn [legal_frame] in F. match type of H with match ?i with _ => _ end = _ => destruct i as [lk|] end.
    + assert (HF : forall f0, legal_flow f0 -> EOk (handle_flow f0 None s, @inl action perr ANone) = EOk (s', r) -> LS s' /\ match r with inl act => legal_action act | inr _ => True end).
      { intros f0 F0 Y. apply EOk_inj in Y. apply pair_equal_spec in Y as [<- <-]. split; [apply LS_handle_flow; assumption|exact I]. }
      destruct lk; try exact (HF _ F H). refine (ID _ _ H). exact F.
    + apply EOk_inj in H. apply pair_equal_spec in H as [<- <-]. split; [apply LS_handle_flow; assumption|exact I].
  - match type of H with match ?i with _ => _ end = _ => destruct i as [idx|] end; [|eapply ID; [|exact H]; exact I].
    match type of H with match ?i with _ => _ end = _ => destruct i as [[]|] end; try (eapply ID; [|exact H]; exact I).
    match type of H with emap _ ?m = _ => destruct m as [[s1 act]|] eqn:E1; cbn [emap] in H; [|discriminate H] end.
    apply EOk_inj in H. apply pair_equal_spec in H as [<- <-]. eapply LS_rcv_transfer; [exact L|exact F|exact E1].
  - apply EOk_inj in H. apply pair_equal_spec in H as [<- <-]. split; [apply LS_settle_deliveries; exact L|exact I].
  - cbn [legal_frame] in F. pose proof (LS_handle_detach _ _ L F) as Q. destruct (handle_detach _ s) as [s1 act]. apply EOk_inj in H. apply pair_equal_spec in H as [<- <-]. exact Q.
Qed.
Lemma LS_dispatch act s : LS s -> legal_action act -> LS (dispatch act s).
Proof. intros L A. unfold dispatch. destruct act; try exact L; apply LS_control; try exact L; exact A. Qed.
Lemma LS_handle_attach frm s s' : LS s -> legal_attach frm -> handle_attach frm s = Some s' -> LS s'.
Proof.
  intros L A H. unfold handle_attach in H. destruct (name_get (attach_name frm) (s_names s)) as [i|]; [|discriminate H]. apply Some_inj in H. subst s'.
  destruct (slab_get (s_links s) i) as [[]|]; try exact L.
  - cbv zeta. eapply LS_framed; [typeclasses eauto | reflexivity | ]. apply LS_links; [|apply slots_set; [exact (ls_links _ L)|exact I]].
    apply LS_snds; [ls|]. apply Forall_snoc; [exact (ls_snds _ L)|]. cbn. apply u32_clamp. unfold legal_attach in A. intuition.
  - match goal with |- LS (match ?i with _ => _ end) => destruct i as [[a tx]|] end; [|exact L]. cbv zeta.
    eapply LS_framed; [typeclasses eauto | reflexivity | ]. apply LS_links; [ls|]. apply slots_set; [exact (ls_links _ L)|exact I].
Qed.
Lemma LS_on_attach frm s : LS s -> legal_attach frm -> LS (on_attach frm s).
Proof.
  intros L A. unfold on_attach. destruct (s_error s); [exact L|]. destruct (handle_attach frm s) as [s'|] eqn:E.
  { eapply LS_handle_attach; [exact L|exact A|exact E]. }
  destruct (attach_role frm).
  - pose proof (LS_attach_remote_receiver frm s L A) as [Q1 Q2]. destruct (attach_remote_receiver frm s) as [[r a] s1]. cbn [fst snd] in Q1, Q2.
    apply LS_dispatch; [exact Q1|]. split; assumption.
  - unfold new_remote_sender, insert_link. cbv zeta. apply LS_dispatch.
    + apply LS_snds; [apply LS_links; [exact L|apply slots_insert; [apply L|exact I]]|]. apply Forall_snoc; [exact (ls_snds _ L)|].
      cbn. apply u32_clamp. unfold legal_attach in A. intuition.
    + split; [exact A|]. unfold legal_attach in *. cbn. intuition. apply u32_as. apply u32_or0. assumption.
Qed.
Lemma LS_control_ok p edit k s s' : LS s -> legal_ctl k -> (forall r, legal_attach r -> legal_attach (edit r)) ->
  control_ok p edit k s = EOk s' -> LS s'.
Proof.
  intros L K E H. unfold control_ok in H. destruct k; try (apply EOk_inj in H; subst s'; first [exact L | idtac]).
  - eapply LS_attach_remote_sender; [exact L| |exact H]. apply E. apply K.
  - apply LS_control; [exact L|]. apply E. apply K.
  - apply LS_handle_flow; [exact L|exact K].
  - eapply LS_set_credit; [| |exact H]; [|reflexivity]. apply LS_confirm; [exact L|exact K].
Qed.
Lemma LS_control_err e k s s' : LS s -> legal_ctl k -> legal_error e -> control_err e k s = EOk s' -> LS s'.
Proof.
  intros L K E H. unfold control_err in H. destruct k; try (apply EOk_inj in H; subst s'; first [exact L | idtac]);
    try (eapply LS_rcv_close; [| |exact H]; [exact L|exact E]); try (apply LS_snd_close; [exact L|exact E]).
  apply LS_unconfirmed; [exact L|apply K|exact E].
Qed.
Lemma LS_step p e s s' os : LS s -> legal_event e -> step p e s = EOk (s', os) -> LS s'.
Proof.
  intros L E H. destruct e; cbn [legal_event] in E; cbn [step] in H; unfold noobs in H.
  all: try (apply EOk_inj in H; apply pair_equal_spec in H as [<- <-]).
  - destruct (ses_handle_frame p f s) as [[s1 r]|] eqn:E1; cbn [ebind] in H; [|discriminate H]. apply EOk_inj in H. apply pair_equal_spec in H as [<- <-].
    destruct (LS_handle_frame _ _ _ _ _ L E E1) as [L1 A]. destruct r; [apply LS_dispatch; assumption|exact L1].
  - apply LS_on_attach; assumption.
  - apply LS_set_error. exact L.
  - unfold ses_end, cond_wait, new_chan. ls_break; [exact L|]. cbv zeta.
    match goal with |- context [s_closed ?z] => assert (Z : LS z) end.
    { ls_break; [exact L|]. eapply LS_framed; [typeclasses eauto | reflexivity | ]. apply LS_post; [exact L|]. exact I. }
    set (z := if s_ending s then s else _) in *. clearbody z. destruct (cd_lock (s_closed z)); ls.
  - apply LS_attach_local_sender; assumption.
  - apply LS_attach_local_receiver; assumption.
  - unfold ses_detach_sender, new_chan. apply LS_detach_sender; [ls|apply E|apply E].
  - unfold ses_detach_receiver, new_chan in H. match type of H with emap _ ?m = _ => destruct m as [s1|] eqn:E1; cbn [emap] in H; [|discriminate H] end.
    apply EOk_inj in H. apply pair_equal_spec in H as [<- <-]. eapply LS_detach_receiver; [| | |exact E1]; [ls|apply E|apply E].
  - destruct (nth_error (s_snds s) a); apply EOk_inj in H; apply pair_equal_spec in H as [<- <-]; [|exact L].
    apply LS_tasks; [exact L|]. apply Forall_snoc; [apply L|exact E].
  - apply LS_poll_send. exact L.
  - apply LS_upd_task; [exact L|]. intros k. destruct (tk_st k); auto.
  - apply LS_snd_close; assumption.
  - unfold cond_wait, new_chan in H. destruct (nth_error (s_snds s) a) as [l|]; [|apply EOk_inj in H; apply pair_equal_spec in H as [<- <-]; exact L].
    destruct (cd_lock (sn_on_close l)); apply EOk_inj in H; apply pair_equal_spec in H as [<- <-]; ls.
  - unfold cond_wait, new_chan in H. destruct (nth_error (s_snds s) a) as [l|]; [|apply EOk_inj in H; apply pair_equal_spec in H as [<- <-]; exact L].
    destruct (cd_lock (sn_on_credit l)); apply EOk_inj in H; apply pair_equal_spec in H as [<- <-]; ls.
  - apply LS_upd_snd; [exact L|]. intros l _ _. exact E.
  - destruct (nth_error (s_dlvs s) d); apply EOk_inj in H; apply pair_equal_spec in H as [<- <-]; ls.
  - apply LS_poll_wait. exact L.
  - ls.
  - apply LS_settle; assumption.
  - apply LS_update; assumption.
  - apply LS_drop. exact L.
  - destruct (nth_error (s_rcvs s) a) as [l|] eqn:El; [|apply EOk_inj in H; apply pair_equal_spec in H as [<- <-]; exact L].
    destruct (poll_recv t l) as [r l'] eqn:Er. apply EOk_inj in H. apply pair_equal_spec in H as [<- <-].
    apply LS_upd_rcv; [exact L|]. intros x _ _. pose proof (Forall_at _ _ _ _ _ (ls_rcvs _ L) El) as R.
    unfold poll_recv in Er. destruct (rc_partial l), (rc_queue l) as [|[d tr] [|y q]]; try destruct (rc_closed l); try destruct (rc_error l);
      apply pair_equal_spec in Er as [<- <-]; exact R.
  - destruct (nth_error (s_rcvs s) a) as [l|] eqn:El; [|apply EOk_inj in H; apply pair_equal_spec in H as [<- <-]; exact L].
    destruct (get_delivery l) as [r l'] eqn:Er. apply EOk_inj in H. apply pair_equal_spec in H as [<- <-].
    apply LS_upd_rcv; [exact L|]. intros x _ _. pose proof (Forall_at _ _ _ _ _ (ls_rcvs _ L) El) as R.
    unfold get_delivery in Er. destruct (rc_queue l); [|destruct (match rc_partial l with None => _ | Some _ => _ end)];
      apply pair_equal_spec in Er as [<- <-]; exact R.
  - match type of H with emap _ ?m = _ => destruct m as [s1|] eqn:E1; cbn [emap] in H; [|discriminate H] end.
    apply EOk_inj in H. apply pair_equal_spec in H as [<- <-]. eapply LS_set_credit; [exact L|exact E|exact E1].
  - apply LS_upd_rcv; [exact L|]. intros x _ X. unfold legal_rlink in *. st_cbn. intuition.
  - match type of H with emap _ ?m = _ => destruct m as [s1|] eqn:E1; cbn [emap] in H; [|discriminate H] end.
    apply EOk_inj in H. apply pair_equal_spec in H as [<- <-]. eapply LS_rcv_close; [exact L|exact E|exact E1].
  - apply LS_post; assumption.
  - destruct (nth_error (s_rcvs s) a) as [l|]; [|apply EOk_inj in H; apply pair_equal_spec in H as [<- <-]; exact L].
    destruct (existsb _ _); apply EOk_inj in H; apply pair_equal_spec in H as [<- <-]; [exact L|]. apply LS_drop_dlvs. ls_rcv. exact L.
  - destruct (nth_error (s_ctl s) i) as [[k|]|] eqn:Ek; try (apply EOk_inj in H; apply pair_equal_spec in H as [<- <-]; exact L).
    match type of H with emap _ ?m = _ => destruct m as [s1|] eqn:E1; cbn [emap] in H; [|discriminate H] end.
    apply EOk_inj in H. apply pair_equal_spec in H as [<- <-]. eapply LS_control_ok; [| |exact E|exact E1].
    + apply LS_ctl; [exact L|]. apply Forall_set_nth; [apply L|exact I].
    + exact (Forall_at _ _ _ _ _ (ls_ctl _ L) Ek).
  - destruct (nth_error (s_ctl s) i) as [[k|]|] eqn:Ek; try (apply EOk_inj in H; apply pair_equal_spec in H as [<- <-]; exact L).
    match type of H with emap _ ?m = _ => destruct m as [s1|] eqn:E1; cbn [emap] in H; [|discriminate H] end.
    apply EOk_inj in H. apply pair_equal_spec in H as [<- <-]. eapply LS_control_err; [| |exact E|exact E1].
    + apply LS_ctl; [exact L|]. apply Forall_set_nth; [apply L|exact I].
    + exact (Forall_at _ _ _ _ _ (ls_ctl _ L) Ek).
Qed.
Lemma LS_run p evs s s' os : LS s -> Forall legal_event evs -> run p evs s = EOk (s', os) -> LS s'.
Proof.
  revert s os. induction evs as [|e evs IH]; intros s os L F H; cbn [run] in H.
  - apply EOk_inj in H. apply pair_equal_spec in H as [<- _]. exact L.
  - inversion F; subst. destruct (step p e s) as [[s1 o1]|] eqn:E1; cbn [ebind] in H; [|discriminate H].
    destruct (run p evs s1) as [[s2 o2]|] eqn:E2; cbn [ebind] in H; [|discriminate H]. apply EOk_inj in H. apply pair_equal_spec in H as [<- _].
    eapply IH; [|eassumption|exact E2]. eapply LS_step; [exact L|eassumption|exact E1].
Qed.
Lemma LS_new id local rc mfs b : legal_begin b -> LS (ses_new id local rc mfs b).
Proof.
  intros B. unfold legal_begin in B. constructor; cbn; try constructor; try apply B; reflexivity.
Qed.
