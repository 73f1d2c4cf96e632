(** * Sending: the deliveries on the wire *)

From Verif Require Export SpecSession SessionRel.
From Coq Require Import ZifyBool ZifyNat ZifyN.

Ltac step_er H :=
  cbv beta iota zeta delta [new_chan insert_link cond_wait ebind emap noobs] in H; cbn [fst snd] in H;
  repeat (fr_break_in H; cbn [fst snd] in H; try discriminate H);
  st_goal_knows;
  repeat fr_pair;
  try discriminate H; try solve [st_chain];
  apply EOk_inj in H; apply (f_equal fst) in H; cbn [fst] in H; subst; st_chain.

Ltac st_get := match goal with |- ?R ?s ?t => change (stable R s t); st_chain end.

(** ** The fields an event may touch *)
Definition ev_fields (e : ev) : list fld :=
  match e with
  | EvFrame _ => [Fnin; Fowin; Fiwin; Flinks; Fnames; Frhandles; Fpending; Fsnd; Frcv; Fchans;
                  Fsnds; Frcvs; Fdlvs; Fctl; Fout]
  | EvAttach _ => [Flinks; Frhandles; Fchans; Fsnds; Frcvs; Fctl]
  | EvFail _ => [Fended; Flinks; Fnames; Ferror; Fclosed; Fpending; Fsnd; Frcv; Fchans; Fsnds; Frcvs]
  | EvEnd => [Fending; Fclosed; Fchans; Fout]
  | EvAttachSender _ => [Flinks; Fnames; Fchans; Fout]
  | EvAttachReceiver _ => [Flinks; Fnames; Fchans; Frcvs; Fout]
  | EvDetachSender _ _ | EvDetachReceiver _ _ | EvCloseSender _ _ | EvCloseReceiver _ _
  | EvCtlErr _ _ => [Flinks; Fchans; Fsnds; Frcvs; Fctl; Fout]
  | EvSend _ _ _ _ _ | EvCancelSend _ => [Ftasks]
  | EvPollSend _ => [Fnout; Fiwin; Fpending; Fsnd; Frcv; Fchans; Fsnds; Fdlvs; Ftasks; Fout]
  | EvOnClose _ | EvOnCredit _ => [Fchans; Fsnds]
  | EvSenderMax _ _ => [Fsnds]
  | EvWait _ | EvCancelWait _ => [Fwaits]
  | EvPollWait _ => [Fsnd; Frcv; Fchans; Fdlvs; Fwaits]
  | EvSettle _ _ => [Fdlvs; Fout]
  | EvUpdate _ _ | EvDisposition _ => [Fout]
  | EvDrop _ => [Fsnd; Frcv; Fchans; Fdlvs; Fout]
  | EvRecv _ _ | EvGet _ | EvReceiverMax _ _ => [Frcvs]
  | EvCredit _ _ => [Frcvs; Fout]
  | EvFreeReceiver _ => [Fsnd; Frcv; Fchans; Frcvs; Fdlvs; Fout]
  | EvCtlOk _ _ => [Fnin; Fowin; Fiwin; Flinks; Fnames; Frhandles; Fpending; Fchans; Fsnds;
                    Frcvs; Fctl; Fout]
  end.
Ltac step_fr H :=
  cbv beta iota zeta delta [new_chan insert_link cond_wait ebind emap noobs] in H; cbn [fst snd] in H;
  repeat (fr_break_in H; cbn [fst snd] in H; try discriminate H);
  fr_knows;
  repeat fr_pair;
  try discriminate H; try solve [fr_chain];
  apply EOk_inj in H; apply (f_equal fst) in H; cbn [fst] in H; subst; fr_chain.
Lemma step_framed : forall p e s s' os, step p e s = EOk (s', os) -> framed s s' (ev_fields e).
Proof. intros p e s s' os H. destruct e; cbn [step] in H; cbn [ev_fields]; try solve [step_fr H]. Qed.

Lemma step_keeps_objs : forall p e s s' os, step p e s = EOk (s', os) -> stable keeps_objs s s'.
Proof. intros p e s s' os H. destruct e; cbn [step] in H; try solve [step_er H]. Qed.

(** ** What is posted *)
Definition quiet : list fkind := [KindAttach; KindFlow; KindDisposition; KindDetach; KindEnd].
Ltac step_po H :=
  cbv beta iota zeta delta [new_chan insert_link cond_wait ebind emap noobs] in H; cbn [fst snd] in H;
  repeat (fr_break_in H; cbn [fst snd] in H; try discriminate H);
  po_knows;
  repeat fr_pair;
  try discriminate H; try solve [po_chain];
  apply EOk_inj in H; apply (f_equal fst) in H; cbn [fst] in H; subst; po_chain.
Lemma step_posts : forall p e s s' os, step p e s = EOk (s', os) ->
  posted s s' (match e with EvPollSend _ => [KindTransfer] | _ => quiet end).
Proof. intros p e s s' os H. destruct e; cbn [step] in H; cbv iota; try solve [step_po H]. Qed.

Lemma transfers_app : forall a b, transfers (a ++ b) = transfers a ++ transfers b.
Proof. intros. apply flat_map_app. Qed.
Lemma transfers_map : forall ts, transfers (map FTransfer ts) = ts.
Proof. unfold transfers. induction ts as [|t ts IH]; cbn; [reflexivity|]. f_equal. exact IH. Qed.
Lemma transfers_quiet : forall fs,
  Forall (fun f => memk (kind_of f) quiet = true) fs -> transfers fs = [].
Proof.
  unfold transfers. induction 1 as [|f fs Hf _ IH]; [reflexivity|].
  cbn [flat_map]. rewrite IH, app_nil_r. destruct f; try reflexivity. discriminate Hf.
Qed.
Lemma step_transfers_quiet : forall p e s s' os, step p e s = EOk (s', os) ->
  (forall t, e <> EvPollSend t) -> transfers (s_out s') = transfers (s_out s).
Proof.
  intros p e s s' os H Ne. apply step_posts in H.
  assert (Q : posted s s' quiet) by (destruct e; try exact H; elim (Ne t); reflexivity).
  destruct Q as [fs [E F]]. rewrite E, transfers_app, (transfers_quiet _ F), app_nil_r. reflexivity.
Qed.

(** ** One poll of a send *)
Inductive begins (tk : stask) (l : slink) (tag : bytes) (s : ses) : ses -> Prop :=
| begins_given : tk_st tk = TNew -> tk_tag tk = Some tag -> begins tk l tag s s
| begins_auto : tk_st tk = TNew -> tk_tag tk = None -> tag = be 4 (sn_tag l) ->
    begins tk l tag s (upd_snd (tk_link tk) (fun l => set_sn_tag (wadd (sn_tag l) 1) l) s)
| begins_again c : tk_st tk = TLink tag c -> begins tk l tag s s.

Inductive polled (t : nat) (s : ses) : ses -> Prop :=
| polled_same : polled t s s
| polled_fail tk l e :
    nth_error (s_tasks s) t = Some tk -> nth_error (s_snds s) (tk_link tk) = Some l -> (forall r, tk_st tk <> TDone r) ->
    polled t s (upd_task t (set_tk_st (TDone (inr e))) s)
| polled_link tk l tag s0 :
    nth_error (s_tasks s) t = Some tk -> nth_error (s_snds s) (tk_link tk) = Some l ->
    begins tk l tag s s0 -> polled t s (link_loop t tk l tag s0)
| polled_sess tk l tag c :
    nth_error (s_tasks s) t = Some tk -> nth_error (s_snds s) (tk_link tk) = Some l ->
    tk_st tk = TSess tag c -> polled t s (session_loop t tk l tag s).

Lemma poll_send_polled : forall t s, polled t s (poll_send t s).
Proof.
  intros t s. unfold poll_send.
  destruct (nth_error (s_tasks s) t) as [tk|] eqn:Et; [|apply polled_same].
  destruct (nth_error (s_snds s) (tk_link tk)) as [l|] eqn:El; [|apply polled_same].
  cbv zeta.
  assert (F : forall e, (forall r, tk_st tk <> TDone r) ->
                polled t s (upd_task t (set_tk_st (TDone (inr e))) s))
    by (intros; eapply polled_fail; eauto).
  destruct (tk_st tk) as [|tag c|tag c|r|] eqn:Est; try apply polled_same.
  - destruct (sn_error l); [apply F; discriminate|].
    destruct (sn_closed l); [apply F; discriminate|].
    destruct (match sn_max l with Some m => m <? tb_size (tk_body tk) | None => false end);
      [apply F; discriminate|].
    destruct (tk_tag tk) as [tag|] eqn:Eg.
    + eapply polled_link; eauto. apply begins_given; auto.
    + eapply polled_link; eauto. apply begins_auto; auto.
  - destruct (nth_error (s_chans s) c) as [[|[]|]|]; try apply polled_same; try (apply F; discriminate);
      eapply polled_link; eauto; eapply begins_again; eauto.
  - destruct (nth_error (s_chans s) c) as [[|[]|]|]; try apply polled_same; try (apply F; discriminate);
      eapply polled_sess; eauto.
Qed.

(** ** The frames of one delivery *)
Definition more_ts (fuel : nat) (max : N) (handle : N) (format : option N) (body : bytes)
  : list transfer_t := transfers (more_frames fuel max handle format body).
Lemma more_frames_ts : forall fuel max h fmt b,
  more_frames fuel max h fmt b = map FTransfer (more_ts fuel max h fmt b).
Proof.
  unfold more_ts. induction fuel as [|fuel IH]; intros; cbn [more_frames]; [reflexivity|].
  destruct b; [reflexivity|]. cbn [transfers flat_map app map]. f_equal. apply IH.
Qed.

Lemma chunk_pos : forall m, 0 < chunk_size m.
Proof.
  intros m. unfold chunk_size. destruct (N.ltb_spec 2048 m); [lia|].
  destruct (N.eqb_spec m 0); [reflexivity | lia].
Qed.

Lemma more_ts_spec : forall fuel max h fmt b, 0 < max -> (length b <= fuel)%nat ->
  let ts := more_ts fuel max h fmt b in
  concat (map body_of ts) = b
  /\ (b <> [] -> ts <> [])
  /\ map says_more ts = match ts with [] => [] | _ => repeat true (length ts - 1) ++ [false] end
  /\ Forall (fun t => transfer_handle (tr_head t) = h) ts
  /\ Forall (fun t => transfer_delivery_id (tr_head t) = None
                      /\ transfer_delivery_tag (tr_head t) = None) ts.
Proof.
  cbv zeta. unfold more_ts. induction fuel as [|fuel IH]; intros max h fmt b Hm Hl.
  - destruct b; [|cbn in Hl; lia]. cbn. repeat split; auto.
  - destruct b as [|x b]; [cbn; repeat split; auto|].
    cbn [more_frames]. cbn [transfers flat_map app].
    change (flat_map (fun f => match f with FTransfer t => [t] | _ => [] end)) with transfers.
    set (n := N.to_nat (N.min max (blen (x :: b)))).
    assert (Hn : (1 <= n)%nat).
    { unfold n, blen. cbn [length]. lia. }
    set (rest := skipn n (x :: b)).
    destruct (IH max h fmt rest Hm) as (C & Ne & M & H & I).
    { unfold rest. rewrite skipn_length. cbn [length] in *. lia. }
    refine (conj _ (conj _ (conj _ (conj _ _)))).
    + cbn [map concat body_of tr_body tb_enc]. rewrite C. apply firstn_skipn.
    + discriminate.
    + cbn [map says_more tr_head transfer_more length]. rewrite M.
      destruct rest eqn:Er.
      * destruct fuel; cbn; reflexivity.
      * assert (Ht := Ne ltac:(discriminate)).
        match goal with |- context [transfers ?x] => destruct (transfers x) as [|t ts] end; [congruence|].
        cbn [length]. rewrite !Nat.sub_succ, !Nat.sub_0_r. reflexivity.
    + constructor; [reflexivity | exact H].
    + constructor; [split; reflexivity | exact I].
Qed.

Definition delivery_ts (mfs h id : N) tag body st fmt : list transfer_t :=
  transfers (transfer_frames mfs h id tag body st fmt).
Lemma transfer_frames_ts : forall mfs h id tag body st fmt,
  transfer_frames mfs h id tag body st fmt = map FTransfer (delivery_ts mfs h id tag body st fmt).
Proof.
  intros. unfold delivery_ts, transfer_frames. cbv zeta.
  destruct (chunk_size mfs <? tb_size body); [|reflexivity].
  cbn [transfers flat_map app map].
  change (flat_map (fun f => match f with FTransfer t => [t] | _ => [] end)) with transfers.
  f_equal. apply more_frames_ts.
Qed.

Lemma delivery_ts_one : forall mfs h id tag body st fmt, honest body ->
  one_delivery h id tag st (tb_enc body) (delivery_ts mfs h id tag body st fmt).
Proof.
  intros mfs h id tag body st fmt Hh. unfold delivery_ts, transfer_frames. cbv zeta.
  destruct (N.ltb_spec (chunk_size mfs) (tb_size body)) as [L|L].
  - cbn [transfers flat_map app].
    change (flat_map (fun f => match f with FTransfer t => [t] | _ => [] end)) with transfers.
    rewrite Hh in L. set (n := N.to_nat (N.min (chunk_size mfs) (blen (tb_enc body)))).
    assert (Hm := chunk_pos mfs).
    match goal with |- context [more_frames ?f ?m ?h ?fm ?b] =>
      destruct (more_ts_spec f m h fm b Hm) as (C & Ne & M & H & I) end.
    { rewrite skipn_length. lia. }
    unfold more_ts in *.
    refine (conj _ (conj _ (conj _ _))).
    + cbn [map concat body_of tr_body tb_enc]. rewrite C. apply firstn_skipn.
    + cbn [map says_more tr_head transfer_more length]. rewrite M.
      match goal with |- context [transfers ?x] => destruct (transfers x) as [|t ts] eqn:Ets end.
      * elim Ne; [|reflexivity]. intros E. apply (f_equal (@length _)) in E.
        rewrite skipn_length in E. unfold n, blen in *. cbn [length] in E. lia.
      * cbn [length]. rewrite !Nat.sub_succ, !Nat.sub_0_r. reflexivity.
    + constructor; [reflexivity | exact H].
    + do 2 eexists. split; [reflexivity|]. repeat split; auto.
  - cbn [transfers flat_map app]. refine (conj _ (conj _ (conj _ _))).
    + cbn [map concat body_of tr_body]. apply app_nil_r.
    + reflexivity.
    + repeat constructor.
    + do 2 eexists. split; [reflexivity|]. repeat split; auto.
Qed.

(** ** Every transfer on the wire belongs to a completed send *)

Lemma upd_task_cases : forall t f s i k, nth_error (s_tasks (upd_task t f s)) i = Some k ->
  exists k0, nth_error (s_tasks s) i = Some k0 /\ (k = if Nat.eqb t i then f k0 else k0).
Proof.
  intros t f s i k H. rewrite nth_upd_task in H. destruct (Nat.eqb_spec t i) as [->|].
  - destruct (nth_error (s_tasks s) i); [|discriminate]. injection H as <-. eauto.
  - eauto.
Qed.

(** What a send future keeps; a completed one stays as it is. *)
Definition tk_ids (k : stask) := (tk_link k, tk_tag k, tk_body k, tk_settled k, tk_format k).
Definition keeps_tasks (s s' : ses) : Prop :=
  forall t k, nth_error (s_tasks s) t = Some k ->
    exists k', nth_error (s_tasks s') t = Some k' /\ tk_ids k' = tk_ids k
               /\ ((exists r, tk_st k = TDone r) -> k' = k)
               /\ (tk_took k = true -> tk_took k' = true).
Lemma keeps_tasks_refl : forall s s', s_tasks s' = s_tasks s -> keeps_tasks s s'.
Proof. intros s s' H t k E. exists k. rewrite H. auto. Qed.
Lemma keeps_tasks_trans : forall s s1 s2, keeps_tasks s s1 -> keeps_tasks s1 s2 -> keeps_tasks s s2.
Proof.
  intros s s1 s2 H1 H2 t k E. apply H1 in E as (k1 & E1 & I1 & D1 & T1).
  apply H2 in E1 as (k2 & E2 & I2 & D2 & T2). exists k2.
  refine (conj E2 (conj _ (conj _ _))); [congruence| |auto].
  intros Hd. assert (k1 = k) by auto. subst k1. auto.
Qed.
Lemma keeps_upd_task : forall t f s k,
  nth_error (s_tasks s) t = Some k ->
  tk_ids (f k) = tk_ids k -> (forall r, tk_st k <> TDone r) ->
  (tk_took k = true -> tk_took (f k) = true) -> keeps_tasks s (upd_task t f s).
Proof.
  intros t f s k E I D T u k' E'. rewrite nth_upd_task. destruct (Nat.eqb_spec t u) as [->|].
  - rewrite E in E'. injection E' as <-. rewrite E. exists (f k).
    refine (conj eq_refl (conj I (conj _ T))). intros [r Hr]. elim (D r Hr).
  - exists k'. auto.
Qed.
Lemma begins_active : forall tk l tag s s0, begins tk l tag s s0 -> forall r, tk_st tk <> TDone r.
Proof. intros tk l tag s s0 H. destruct H; congruence. Qed.
Lemma begins_tasks : forall tk l tag s s0, begins tk l tag s s0 -> s_tasks s0 = s_tasks s.
Proof. intros tk l tag s s0 H. destruct H; frw; reflexivity. Qed.
Lemma keeps_then_upd : forall t f s s1 k,
  s_tasks s1 = s_tasks s -> nth_error (s_tasks s) t = Some k ->
  tk_ids (f k) = tk_ids k -> (forall r, tk_st k <> TDone r) ->
  (tk_took k = true -> tk_took (f k) = true) -> keeps_tasks s (upd_task t f s1).
Proof.
  intros t f s s1 k H E. intros. eapply keeps_tasks_trans; [apply keeps_tasks_refl; exact H|].
  eapply keeps_upd_task with (k := k); auto. rewrite H. exact E.
Qed.
Lemma keeps_session_loop : forall t tk l tag s k,
  nth_error (s_tasks s) t = Some k -> (forall r, tk_st k <> TDone r) ->
  keeps_tasks s (session_loop t tk l tag s).
Proof.
  intros t tk l tag s k E D. unfold session_loop, transmit. cbv beta iota zeta delta [new_chan].
  destruct (s_iwin s =? 0); apply (keeps_then_upd _ _ _ _ k); auto.
  frw. destruct (tk_settled tk); frw; reflexivity.
Qed.
Lemma keeps_link_loop : forall t tk l tag s k,
  nth_error (s_tasks s) t = Some k -> (forall r, tk_st k <> TDone r) ->
  keeps_tasks s (link_loop t tk l tag s).
Proof.
  intros t tk l tag s k E D. unfold link_loop. cbv beta iota zeta delta [new_chan].
  destruct (_ || _).
  - apply (keeps_then_upd _ _ _ _ k); auto. frw. reflexivity.
  - match goal with |- keeps_tasks s (session_loop t tk l tag (upd_task t _ ?s1)) => set (s1' := s1) end.
    assert (E1 : s_tasks s1' = s_tasks s) by (unfold s1'; frw; reflexivity).
    eapply keeps_tasks_trans; [apply (keeps_then_upd t (set_tk_took true) s s1' k); auto|].
    eapply keeps_session_loop.
    + rewrite nth_upd_task, Nat.eqb_refl, E1, E. reflexivity.
    + exact D.
Qed.
Lemma step_keeps_tasks : forall p e s s' os, step p e s = EOk (s', os) -> keeps_tasks s s'.
Proof.
  intros p e s s' os H. assert (F := step_framed _ _ _ _ _ H).
  destruct e; try solve [apply keeps_tasks_refl; exact (F Ftasks eq_refl)]; clear F; cbn [step] in H.
  - destruct (nth_error (s_snds s) a) eqn:?; apply EOk_inj in H;
      apply (f_equal fst) in H; cbn [fst] in H; subst s'; [|apply keeps_tasks_refl; reflexivity].
    intros t k E. exists k. st_cbn. auto using nth_app_old.
  - apply EOk_inj in H. apply (f_equal fst) in H; cbn [fst] in H; subst s'.
    destruct (poll_send_polled t s) as [|tk l e Et El D|tk l tag s0 Et El B|tk l tag c Et El Es].
    + apply keeps_tasks_refl; reflexivity.
    + eapply keeps_upd_task; eauto.
    + eapply keeps_tasks_trans; [apply keeps_tasks_refl; eapply begins_tasks; exact B|].
      eapply keeps_link_loop; [rewrite (begins_tasks _ _ _ _ _ B); exact Et|].
      eapply begins_active; exact B.
    + eapply keeps_session_loop; [exact Et|]. congruence.
  - apply EOk_inj in H. apply (f_equal fst) in H; cbn [fst] in H; subst s'.
    intros u k E. rewrite nth_upd_task. destruct (Nat.eqb_spec t u) as [->|]; [|exists k; auto].
    rewrite E. cbn [option_map]. eexists; split; [reflexivity|].
    destruct (tk_st k) eqn:Ek; st_cbn; repeat split; auto; intros [r Hr]; congruence.
Qed.

Lemma post_all_out : forall fs s, s_out (post_all fs s) = s_out s ++ fs.
Proof.
  unfold post_all. induction fs as [|f fs IH]; intros s; cbn [fold_left].
  - rewrite app_nil_r. reflexivity.
  - rewrite IH. unfold post. st_cbn. rewrite <- app_assoc. reflexivity.
Qed.
Lemma transmit_effect : forall t tk l tag s,
  s_out (transmit t tk l tag s)
  = s_out s ++ map FTransfer (delivery_ts (s_mfs s) (as_u32 (sn_id l)) (s_nout s) tag (tk_body tk)
                                (tk_settled tk) (tk_format tk))
  /\ s_nout (transmit t tk l tag s) = wadd (s_nout s) 1
  /\ s_dlvs (transmit t tk l tag s) = s_dlvs s ++ [mk_dlv (s_nout s) tag true (tk_settled tk) false true]
  /\ s_iwin (transmit t tk l tag s) = s_iwin s - 1
  /\ s_tasks (transmit t tk l tag s)
     = s_tasks (upd_task t (set_tk_st (TDone (inl (length (s_dlvs s))))) s).
Proof.
  intros t tk l tag s. unfold transmit. cbv zeta.
  match goal with |- context [post_all ?f ?x] => set (fs := f); set (s1 := x) end.
  assert (F : framed s s1 [Fiwin; Fnout; Fsnd; Frcv; Fchans]).
  { unfold s1. destruct (tk_settled tk); fr_chain. }
  assert (O : s_out (post_all fs s1) = s_out s ++ fs).
  { rewrite <- (get_out _ _ _ (H := F)) by reflexivity.
    apply post_all_out. }
  assert (N1 : s_nout s1 = wadd (s_nout s) 1) by (unfold s1; destruct (tk_settled tk); frw; reflexivity).
  assert (I1 : s_iwin s1 = s_iwin s - 1) by (unfold s1; destruct (tk_settled tk); frw; reflexivity).
  assert (D1 : s_dlvs (post_all fs s1) = s_dlvs s) by (frw; apply (F Fdlvs eq_refl)).
  refine (conj _ (conj _ (conj _ (conj _ _)))).
  - frw. st_cbn. rewrite O. f_equal. unfold fs. rewrite <- transfer_frames_ts.
    frw. reflexivity.
  - frw. st_cbn. frw. exact N1.
  - frw. st_cbn. frw. rewrite (F Fdlvs eq_refl : s_dlvs s1 = s_dlvs s). reflexivity.
  - frw. st_cbn. frw. exact I1.
  - rewrite D1. unfold upd_task. st_cbn. replace (s_tasks (post_all fs s1)) with (s_tasks s).
    + destruct (nth_error (s_tasks s) t); [reflexivity|]. st_cbn. frw. apply (F Ftasks eq_refl).
    + frw. symmetry. apply (F Ftasks eq_refl).
Qed.

(** The tag a waiting send was given. *)
Definition tag_kept (k : stask) : Prop :=
  forall x, tk_tag k = Some x ->
    match tk_st k with TLink tag _ | TSess tag _ => tag = x | _ => True end.

Definition wire_inv (s : ses) (order : list nat) : Prop :=
  NoDup order
  /\ s_nout s = (N.of_nat (length order) + 1) mod two32
  /\ (forall t tk, nth_error (s_tasks s) t = Some tk ->
        tag_kept tk /\ (exists l, nth_error (s_snds s) (tk_link tk) = Some l)
        /\ forall i, tk_st tk = TDone (inl i) -> In t order)
  /\ exists gs,
      transfers (s_out s) = concat gs
      /\ length gs = length order
      /\ forall k t g, nth_error order k = Some t -> nth_error gs k = Some g ->
           exists tk l i d, nth_error (s_tasks s) t = Some tk /\ tk_st tk = TDone (inl i)
             /\ nth_error (s_snds s) (tk_link tk) = Some l /\ nth_error (s_dlvs s) i = Some d
             /\ dl_id d = (N.of_nat k + 1) mod two32 /\ dl_sender d = true
             /\ (forall x, tk_tag tk = Some x -> dl_tag d = x)
             /\ g = delivery_ts (s_mfs s) (as_u32 (sn_id l)) (dl_id d) (dl_tag d) (tk_body tk)
                      (tk_settled tk) (tk_format tk).

Lemma wire_init : forall id local rc mfs b, wire_inv (ses_new id local rc mfs b) [].
Proof.
  intros. unfold wire_inv. refine (conj _ (conj _ (conj _ _))).
  - constructor.
  - reflexivity.
  - intros [|t] tk H; discriminate.
  - exists []. refine (conj eq_refl (conj eq_refl _)). intros [|k] t g H; discriminate.
Qed.

(** Steps that send nothing. *)
Lemma wire_quiet : forall s s' order,
  wire_inv s order -> keeps_objs s s' -> keeps_tasks s s' ->
  s_nout s' = s_nout s -> s_mfs s' = s_mfs s -> transfers (s_out s') = transfers (s_out s) ->
  (forall t k', nth_error (s_tasks s') t = Some k' ->
     (exists k, nth_error (s_tasks s) t = Some k /\ tk_ids k' = tk_ids k
        /\ (k' = k \/ (tag_kept k -> tag_kept k')) /\ (k' = k \/ forall i, tk_st k' <> TDone (inl i)))
     \/ (tk_st k' = TNew /\ exists l, nth_error (s_snds s) (tk_link k') = Some l)) ->
  wire_inv s' order.
Proof.
  intros s s' order (ND & Nn & Ti & gs & C & L & G) [Ks Kd] Kt Hn Hm Ho Ht.
  refine (conj ND (conj _ (conj _ _))).
  - congruence.
  - intros t tk E. destruct (Ht _ _ E) as [(k & E0 & I & T & D)|[En [l El]]].
    + destruct (Ti _ _ E0) as (Tk & [l El] & Io).
      refine (conj _ (conj _ _)).
      * destruct T as [->|T]; auto.
      * apply Ks in El as (l' & El' & _). exists l'. unfold tk_ids in I.
        replace (tk_link tk) with (tk_link k) by congruence. exact El'.
      * intros i Ei. destruct D as [->|D]; [eauto|]. elim (D i Ei).
    + refine (conj _ (conj _ _)).
      * intros x _. rewrite En. exact I.
      * apply Ks in El as (l' & El' & _). eauto.
      * intros i Ei. congruence.
  - exists gs. refine (conj _ (conj L _)); [congruence|].
    intros k t g Ek Eg. destruct (G _ _ _ Ek Eg) as (tk & l & i & d & Et & Es & El & Ed & Hi & Hsd & Hx & Hg).
    apply Kt in Et as (tk' & Et' & _ & D & _). assert (tk' = tk) by eauto. subst tk'.
    apply Ks in El as (l' & El' & Il). apply Kd in Ed as (d' & Ed' & Id).
    unfold snd_ids in Il. unfold dlv_ids in Id.
    assert (Ei : dl_id d' = dl_id d) by congruence. assert (Eg' : dl_tag d' = dl_tag d) by congruence.
    assert (Es' : dl_sender d' = dl_sender d) by congruence.
    assert (El2 : sn_id l' = sn_id l) by congruence.
    exists tk, l', i, d'. rewrite Ei, Eg', El2, Es', Hm.
    refine (conj Et' (conj Es (conj El' (conj Ed' (conj Hi (conj Hsd (conj Hx Hg))))))).
Qed.

(** A step that sends. *)
Lemma wire_transmit : forall t tk0 tk l tag s order,
  wire_inv s order ->
  nth_error (s_tasks s) t = Some tk -> nth_error (s_snds s) (tk_link tk) = Some l ->
  tk_ids tk0 = tk_ids tk -> (forall r, tk_st tk <> TDone r) ->
  (forall x, tk_tag tk = Some x -> tag = x) ->
  wire_inv (transmit t tk0 l tag s) (order ++ [t]).
Proof.
  intros t tk0 tk l tag s order (ND & Nn & Ti & gs & C & L & G) Et El Iid Act Htag.
  destruct (transmit_effect t tk0 l tag s) as (O & No & D & _ & T).
  set (s' := transmit t tk0 l tag s) in *.
  assert (Ks : keeps_objs s s') by (unfold s'; apply get_stable).
  assert (Kt : keeps_tasks s s').
  { eapply keeps_tasks_trans; [|apply keeps_tasks_refl; exact T].
    eapply keeps_upd_task; eauto. }
  assert (Em : s_mfs s' = s_mfs s) by (unfold s'; frw; reflexivity).
  destruct Ks as [Ks Kd].
  assert (Nin : ~ In t order).
  { intros Hin. apply In_nth_error in Hin as [k Hk].
    destruct (nth_error gs k) as [g|] eqn:Eg.
    - destruct (G _ _ _ Hk Eg) as (tk' & _ & i & _ & E1 & E2 & _). rewrite Et in E1.
      injection E1 as <-. elim (Act _ E2).
    - apply nth_error_None in Eg. apply nth_lt in Hk. lia. }
  refine (conj _ (conj _ (conj _ _))).
  - apply NoDup_snoc; auto.
  - rewrite No, Nn, app_length. cbn [length]. unfold wadd. rewrite N.add_mod_idemp_l by discriminate.
    f_equal. lia.
  - intros u k Eu. rewrite T in Eu. apply upd_task_cases in Eu as (k0 & Eu0 & ->).
    destruct (Ti _ _ Eu0) as (Tk & [l0 El0] & Io).
    assert (X : exists l', nth_error (s_snds s') (tk_link k0) = Some l')
      by (apply Ks in El0 as (l' & El' & _); eauto).
    destruct (Nat.eqb_spec t u) as [->|Hne].
    + refine (conj _ (conj X _)).
      * intros x _. st_cbn. exact I.
      * intros i _. apply in_or_app. right. left. reflexivity.
    + refine (conj Tk (conj X _)). intros i Ei. apply in_or_app. left. eauto.
  - exists (gs ++ [delivery_ts (s_mfs s) (as_u32 (sn_id l)) (s_nout s) tag (tk_body tk0)
                     (tk_settled tk0) (tk_format tk0)]).
    refine (conj _ (conj _ _)).
    + rewrite O, transfers_app, transfers_map, C, concat_app. cbn [concat]. rewrite app_nil_r. reflexivity.
    + rewrite !app_length. cbn [length]. lia.
    + intros k u g Ek Eg. apply nth_snoc in Ek as [Ek|[-> ->]].
      * assert (Eg' : nth_error gs k = Some g).
        { apply nth_lt in Ek. rewrite nth_error_app1 in Eg by lia. exact Eg. }
        destruct (G _ _ _ Ek Eg') as (tk' & l' & i & d & E1 & E2 & E3 & E4 & Hi & Hsd & Hx & Hg).
        apply Kt in E1 as (tk2 & E1' & _ & Dn & _). assert (tk2 = tk') by eauto. subst tk2.
        apply Ks in E3 as (l2 & E3' & Il). apply Kd in E4 as (d2 & E4' & Id).
        unfold snd_ids in Il. unfold dlv_ids in Id.
        assert (Ei : dl_id d2 = dl_id d) by congruence. assert (Et' : dl_tag d2 = dl_tag d) by congruence.
        assert (Es' : dl_sender d2 = dl_sender d) by congruence.
        assert (El2 : sn_id l2 = sn_id l') by congruence.
        exists tk', l2, i, d2. rewrite Ei, Et', El2, Es', Em.
        refine (conj E1' (conj E2 (conj E3' (conj E4' (conj Hi (conj Hsd (conj Hx Hg))))))).
      * rewrite <- L, nth_end in Eg. injection Eg as <-.
        apply Ks in El as (l2 & El' & Il). unfold snd_ids in Il.
        assert (El2 : sn_id l2 = sn_id l) by congruence. unfold tk_ids in Iid.
        exists (set_tk_st (TDone (inl (length (s_dlvs s)))) tk), l2, (length (s_dlvs s)),
          (mk_dlv (s_nout s) tag true (tk_settled tk0) false true).
        refine (conj _ (conj eq_refl (conj El' (conj _ (conj Nn (conj eq_refl (conj Htag _))))))).
        -- rewrite T, nth_upd_task, Nat.eqb_refl, Et. reflexivity.
        -- rewrite D. apply nth_end.
        -- st_cbn. rewrite Em, El2. f_equal; congruence.
Qed.

Lemma wire_session_loop : forall t tk0 tk l tag s order,
  wire_inv s order ->
  nth_error (s_tasks s) t = Some tk -> nth_error (s_snds s) (tk_link tk) = Some l ->
  tk_ids tk0 = tk_ids tk -> (forall r, tk_st tk <> TDone r) ->
  (forall x, tk_tag tk = Some x -> tag = x) ->
  exists order', wire_inv (session_loop t tk0 l tag s) order'.
Proof.
  intros t tk0 tk l tag s order W Et El Iid Act Htag. unfold session_loop.
  destruct (s_iwin s =? 0); [|eexists; eapply wire_transmit; eauto].
  cbv beta iota zeta delta [new_chan]. exists order. apply (wire_quiet s); try reflexivity; auto.
  - st_get.
  - apply (keeps_then_upd _ _ _ _ tk); auto.
  - frw. reflexivity.
  - frw. reflexivity.
  - frw. reflexivity.
  - intros u k' E. apply upd_task_cases in E as (k0 & E0 & ->). left. exists k0.
    refine (conj E0 _). destruct (Nat.eqb_spec t u) as [->|]; [|auto].
    frw_in E0. rewrite Et in E0. injection E0 as <-.
    refine (conj eq_refl (conj _ _)); right.
    + intros _ x Hx. st_cbn. apply Htag. exact Hx.
    + st_cbn. discriminate.
Qed.
Lemma begins_objs : forall tk l tag s s0, begins tk l tag s s0 -> keeps_objs s s0.
Proof. intros tk l tag s s0 H. destruct H; st_get. Qed.
Lemma begins_tag : forall tk l tag s s0, begins tk l tag s s0 -> tag_kept tk ->
  forall x, tk_tag tk = Some x -> tag = x.
Proof.
  intros tk l tag s s0 H K x Hx. destruct H; try congruence. specialize (K x Hx). rewrite H in K. exact K.
Qed.
Lemma begins_framed : forall tk l tag s s0, begins tk l tag s s0 -> framed s s0 [Fsnds].
Proof. intros tk l tag s s0 H. destruct H; fr_chain. Qed.

Lemma wire_step : forall p e s s' os order, wire_inv s order -> step p e s = EOk (s', os) ->
  exists order', wire_inv s' order'.
Proof.
  intros p e s s' os order W H.
  assert (F := step_framed _ _ _ _ _ H). assert (Ks := step_keeps_objs _ _ _ _ _ H).
  assert (Kt := step_keeps_tasks _ _ _ _ _ H). assert (Q := step_transfers_quiet _ _ _ _ _ H).
  destruct e;
    try solve [ exists order; apply (wire_quiet s); auto;
                [ apply (F Fnout eq_refl) | apply (F Fmfs eq_refl) | apply Q; discriminate
                | intros t' k' E; rewrite (F Ftasks eq_refl : s_tasks s' = s_tasks s) in E;
                  left; exists k'; auto ] ].
  - (* send *)
    exists order. apply (wire_quiet s); auto;
      [ apply (F Fnout eq_refl) | apply (F Fmfs eq_refl) | apply Q; discriminate|].
    intros u k' E. cbn [step] in H. destruct (nth_error (s_snds s) a) eqn:Ea; apply EOk_inj in H;
      apply (f_equal fst) in H; cbn [fst] in H; subst s'; [|left; exists k'; auto].
    st_cbn_in E. apply nth_snoc in E as [E|[-> ->]]; [left; exists k'; auto|].
    right. st_cbn. eauto.
  - (* poll *)
    clear Q Kt Ks. cbn [step] in H. apply EOk_inj in H. apply (f_equal fst) in H; cbn [fst] in H; subst s'.
    assert (W0 := W). destruct W as (_ & _ & Ti & _).
    destruct (poll_send_polled t s) as [|tk l e Et El D|tk l tag s0 Et El B|tk l tag c Et El Es].
    + eauto.
    + exists order. apply (wire_quiet s); auto; try (frw; reflexivity).
      * st_get.
      * eapply keeps_upd_task; eauto.
      * intros u k' E. apply upd_task_cases in E as (k0 & E0 & ->). left. exists k0.
        refine (conj E0 _). destruct (Nat.eqb_spec t u) as [->|]; [|auto].
        refine (conj eq_refl (conj _ _)); right.
        -- intros _ x Hx. exact I.
        -- st_cbn. discriminate.
    + destruct (Ti _ _ Et) as (Tk & _ & _). assert (A := begins_active _ _ _ _ _ B).
      assert (Ht := begins_tasks _ _ _ _ _ B). assert (Hx := begins_tag _ _ _ _ _ B Tk).
      assert (Fb := begins_framed _ _ _ _ _ B). assert (Kb := begins_objs _ _ _ _ _ B).
      assert (W1 : wire_inv s0 order).
      { apply (wire_quiet s); auto.
        - apply keeps_tasks_refl. exact Ht.
        - apply (Fb Fnout eq_refl).
        - apply (Fb Fmfs eq_refl).
        - rewrite (Fb Fout eq_refl : s_out s0 = s_out s). reflexivity.
        - intros u k' E. rewrite Ht in E. left. exists k'. auto. }
      rewrite <- Ht in Et. unfold link_loop. cbv beta iota zeta delta [new_chan]. destruct (_ || _).
      * exists order. apply (wire_quiet s0); auto; try (frw; reflexivity).
        -- st_get.
        -- apply (keeps_then_upd _ _ _ _ tk); auto. frw. reflexivity.
        -- intros u k' E. apply upd_task_cases in E as (k0 & E0 & ->). left. exists k0. frw_in E0.
           refine (conj E0 _). destruct (Nat.eqb_spec t u) as [->|]; [|auto].
           rewrite Et in E0. injection E0 as <-.
           refine (conj eq_refl (conj _ _)); right.
           ++ intros _ x Hx'. st_cbn. apply Hx. exact Hx'.
           ++ st_cbn. discriminate.
      * match goal with |- context [upd_task t (set_tk_took true) ?x] => set (s1 := x) end.
        set (s2 := upd_task t (set_tk_took true) s1).
        assert (Et1 : s_tasks s1 = s_tasks s0) by (unfold s1; frw; reflexivity).
        assert (W2 : wire_inv s2 order).
        { apply (wire_quiet s0); auto; try (unfold s2, s1; frw; reflexivity).
          - unfold s2, s1. st_get.
          - unfold s2. apply (keeps_then_upd _ _ _ _ tk); auto.
          - intros u k' E. apply upd_task_cases in E as (k0 & E0 & ->). left. exists k0.
            rewrite Et1 in E0. refine (conj E0 _).
            destruct (Nat.eqb_spec t u) as [->|]; [|auto].
            rewrite Et in E0. injection E0 as <-.
            refine (conj eq_refl (conj _ _)); right.
            + intros K x Hx'. st_cbn. exact (K x Hx').
            + st_cbn. intros i Hi. elim (A (inl i) Hi). }
        destruct Kb as [Kb _]. apply Kb in El as (l1 & El1 & I1).
        assert (K2 : keeps_objs s0 s2) by (unfold s2, s1; st_get).
        destruct K2 as [K2 _]. apply K2 in El1 as (l2 & El2 & I2).
        assert (Hl : session_loop t tk l tag s2 = session_loop t tk l2 tag s2).
        { unfold snd_ids in I1, I2. assert (Ei : sn_id l2 = sn_id l) by congruence.
          unfold session_loop, transmit. rewrite Ei. reflexivity. }
        rewrite Hl. eapply (wire_session_loop t tk (set_tk_took true tk)); eauto.
        unfold s2. rewrite nth_upd_task, Nat.eqb_refl, Et1, Et. reflexivity.
    + destruct (Ti _ _ Et) as (Tk & _ & _).
      eapply (wire_session_loop t tk tk); eauto; [congruence|].
      intros x Hx. specialize (Tk x Hx). rewrite Es in Tk. exact Tk.
  - (* cancel *)
    exists order. apply (wire_quiet s); auto;
      [ apply (F Fnout eq_refl) | apply (F Fmfs eq_refl) | apply Q; discriminate|].
    cbn [step] in H. apply EOk_inj in H. apply (f_equal fst) in H; cbn [fst] in H; subst s'.
    intros u k' E. apply upd_task_cases in E as (k0 & E0 & ->). left. exists k0.
    refine (conj E0 _). destruct (Nat.eqb_spec t u) as [->|]; [|auto].
    destruct (tk_st k0) eqn:Ek; auto;
      refine (conj eq_refl (conj _ _)); right; try (st_cbn; discriminate);
      intros _ x Hx; exact I.
Qed.

Lemma run_ind : forall (P : ses -> Prop) p,
  (forall e s s' os, P s -> step p e s = EOk (s', os) -> P s') ->
  forall evs s s' os, P s -> run p evs s = EOk (s', os) -> P s'.
Proof.
  intros P p Hs. induction evs as [|e evs IH]; intros s s' os Hp H; cbn [run] in H.
  - apply EOk_inj in H. congruence.
  - destruct (step p e s) as [[s1 o1]|] eqn:E1; [|discriminate]. cbn [ebind] in H.
    destruct (run p evs s1) as [[s2 o2]|] eqn:E2; [|discriminate]. cbn [ebind] in H.
    apply EOk_inj in H. assert (s' = s2) by congruence. subst s'. eauto.
Qed.

Lemma wire_reachable : forall p s, reachable p s -> exists order, wire_inv s order.
Proof.
  intros p s (id & local & rc & mfs & b & evs & os & H).
  refine (run_ind (fun s => exists order, wire_inv s order) p _ evs _ _ _ _ H).
  - intros e s1 s2 os' [order W] E. eapply wire_step; eauto.
  - exists []. apply wire_init.
Qed.
