(** * Who waits for credit is woken through the queue of its link only: every event *)

From Coq Require Import Lia ZifyBool ZifyNat ZifyN.
From Verif Require Export Asleep.
Import ListNotations.

Section Q.
Context (a c : nat).
Notation qt := (qt_rel a c).
#[local] Instance qt_upd b f s : stable shr_rel s (upd_snd b f s) -> stable qt s (upd_snd b f s).
Proof. intros K. apply qt_eq; [frw; reflexivity|exact K]. Qed.
#[local] Instance qt_rcv_insert l s : no_tx l -> stable qt s (set_s_links (slab_insert l (s_links s)) s).
Proof. intros N. apply qt_eq; [reflexivity|exact _]. Qed.
#[local] Instance qt_slot k l s : no_tx l -> stable qt s (set_s_links (slab_set k l (s_links s)) s).
Proof. intros N. apply qt_eq; [reflexivity|exact _]. Qed.
#[local] Instance qt_add_new id nm h dc m s : stable qt s (set_s_snds (s_snds s ++ [snd_new id nm h dc m]) s).
Proof. apply qt_eq; [reflexivity|exact _]. Qed.
#[local] Instance qt_add_with id frm s : stable qt s (set_s_snds (s_snds s ++ [snd_with id frm]) s).
Proof. apply qt_eq; [reflexivity|exact _]. Qed.
Lemma qt_fail_unsettled_keys b h e s : NoDup (keys (unsettled b s)) -> stable qt s (fail_unsettled b h e s).
Proof.
  intros Nd. apply qt_shr; [exact _|]. intros O W. unfold fail_unsettled, waits_on. cbv zeta. frw. rewrite fail_all_other; [exact W|].
  intros k d I T. apply filter_In in I as [I _]. apply map_in_get in I; [|exact Nd]. exact (entry_else _ _ _ _ _ _ O I T).
Qed.
#[local] Instance qt_attach_remote_sender frm r b s : stable_er qt (fun x => x) s (attach_remote_sender frm r b s).
Proof. intros x H. change (stable qt s x). unfold attach_remote_sender in H. st_er H. Qed.
#[local] Instance qt_detach_unconfirmed frm b e s : stable qt s (detach_unconfirmed frm b e s).
Proof. unfold detach_unconfirmed. st_solve. Qed.
#[local] Instance qt_confirm_receiver b r s : stable qt s (confirm_receiver b r s).
Proof. unfold confirm_receiver. st_solve. Qed.
Lemma qt_detach_sender id cl e tx s : tx <> c -> stable qt s (detach_sender id cl e tx s).
Proof.
  intros N. unfold detach_sender. cbv zeta. assert (X := fun k s => qt_put_tx a c k (SClosing (Some tx)) tx s eq_refl N).
  assert (Y := fun v s => qt_fire a c tx v s N).
  destruct (slab_get (s_links s) id) as [[]|]; try apply Y; (eapply stable_trans; [exact _|apply X|]); st_chain.
Qed.
Lemma qt_detach_receiver id cl e tx s s' : tx <> c -> detach_receiver id cl e tx s = EOk s' -> stable qt s s'.
Proof.
  intros N. unfold detach_receiver. cbv zeta. assert (X := fun k s => qt_put_tx a c k (RClosing (Some tx)) tx s eq_refl N).
  assert (Y := fun v s => qt_fire a c tx v s N).
  destruct (slab_get (s_links s) id) as [l|]; [destruct l as [| | | |inner| | |]|]; try discriminate; intros H; apply EOk_inj in H; subst s'; try apply Y.
  - eapply stable_trans; [exact _| |exact _]. eapply stable_trans; [exact _| |apply Y]. destruct inner as [[b src]|]; [destruct (nth_error (s_rcvs s) b)|]; st_chain.
  - eapply stable_trans; [exact _|apply X|]. st_chain.
  - eapply stable_trans; [exact _|apply Y|exact _].
Qed.
#[local] Instance qt_attach_local_sender frm s : stable qt s (snd (attach_local_sender frm s)).
Proof.
  unfold attach_local_sender, insert_link, new_chan. cbv zeta. cbn [snd]. apply qt_new. intros N. set (s1 := set_s_chans _ s).
  eapply stable_trans; [exact _| |st_one]. eapply stable_trans; [exact _| |st_one].
  apply (qt_add a c _ _ _ _ (add_insert (SOpening (Some (length (s_chans s)))) (length (s_chans s)) s1 eq_refl) N). intros _ W; exact W.
Qed.
#[local] Instance qt_attach_local_receiver frm s : stable qt s (snd (attach_local_receiver frm s)).
Proof.
  unfold attach_local_receiver, insert_link, new_chan. cbv zeta. cbn [snd]. apply qt_new. intros N. set (s1 := set_s_chans _ s).
  set (s2 := set_s_rcvs _ s1). apply stable_trans with (s1 := s2); [exact _|unfold s2; st_chain|].
  eapply stable_trans; [exact _| |st_one]. eapply stable_trans; [exact _| |st_one].
  apply (qt_add a c _ _ _ _ (add_insert (ROpeningLocal (Some (length (s_rcvs s), length (s_chans s)))) (length (s_chans s)) s2 eq_refl) N). intros _ W; exact W.
Qed.
#[local] Instance qt_snd_close b e s : stable qt s (snd_close b e s).
Proof.
  unfold snd_close. destruct (nth_error (s_snds s) b) as [l|]; [|apply stable_refl; exact _].
  destruct (sn_closed l); [apply stable_refl; exact _|]. cbv zeta. unfold new_chan.
  set (s1 := notify_lock_snd b _). apply stable_trans with (s1 := s1); [exact _|unfold s1; st_chain|].
  apply qt_new. intros N. apply qt_detach_sender. exact N.
Qed.
#[local] Instance qt_rcv_close b e s : stable_er qt (fun x => x) s (rcv_close b e s).
Proof.
  intros x H. change (stable qt s x). unfold rcv_close in H. destruct (nth_error (s_rcvs s) b) as [l|]; [|apply EOk_inj in H; subst x; apply stable_refl; exact _].
  cbv beta iota zeta delta [new_chan] in H. apply qt_new. intros N. destruct (rc_closed l).
  - cbn [ebind] in H. apply EOk_inj in H. subst x. eapply stable_trans; [exact _|apply qt_fire; exact N|st_chain].
  - destruct (detach_receiver _ _ _ _ _) as [s1|] eqn:E; [|discriminate]. apply (qt_detach_receiver _ _ _ _ _ _ N) in E. cbn [ebind] in H.
    apply EOk_inj in H. subst x. eapply stable_trans; [exact _|exact E|st_chain].
Qed.
#[local] Instance qt_no_pending s : stable qt s (set_s_pending [] (fire_all (map fst (s_pending s)) VOk s)).
Proof.
  apply qt_shr; [st_chain|]. intros O W. unfold waits_on. st_cbn. rewrite fire_all_other; [exact W|].
  intros I. apply in_map_iff in I as ([c' h'] & E & I). cbn in E. subst c'. discriminate (O (PSes h') I).
Qed.
Lemma qt_handle_flow f o s : o <> Some a -> stable qt s (handle_flow f o s).
Proof.
  intros N. unfold handle_flow. cbv zeta. match goal with |- context [flow_echo f] => idtac end.
  match goal with |- context [set_s_pending [] (fire_all _ VOk ?x)] => set (s1 := x) end.
  apply stable_trans with (s1 := s1); [exact _|unfold s1; st_chain|]. clearbody s1.
  set (s2 := set_s_pending [] _). apply stable_trans with (s1 := s2); [exact _|exact (qt_no_pending s1)|]. clearbody s2.
  set (s3 := if flow_echo f then _ else s2). apply stable_trans with (s1 := s3); [exact _|unfold s3; destruct (flow_echo f); st_chain|]. clearbody s3.
  destruct o as [b|]; [|apply stable_refl; exact _]. apply qt_apply_flow. congruence.
Qed.
#[local] Instance qt_set_link_credit p b n s : stable_er qt (fun x => x) s (set_link_credit p b n s).
Proof. intros x H. change (stable qt s x). unfold set_link_credit in H. st_er H. Qed.
#[local] Instance qt_transmit t tk l tag s : stable qt s (transmit t tk l tag s).
Proof. unfold transmit. st_solve. Qed.
#[local] Instance qt_session_loop t tk l tag s : stable qt s (session_loop t tk l tag s).
Proof.
  unfold session_loop. destruct (s_iwin s =? 0); [|exact _]. unfold new_chan. apply qt_new. intros N.
  eapply stable_trans; [exact _| |st_one]. apply (qt_add a c _ _ _ _ (add_pending (as_u32 (sn_id l)) _ _) N). intros _ W; exact W.
Qed.
#[local] Instance qt_link_loop t tk l tag s : stable qt s (link_loop t tk l tag s).
Proof.
  unfold link_loop. match goal with |- context [if ?b then _ else _] => destruct b end; [|st_chain]. unfold new_chan. apply qt_new. intros N.
  eapply stable_trans; [exact _| |st_one]. apply (qt_add a c _ _ _ _ (add_push (tk_link tk) _ _) N). intros _ W. unfold waits_on in *. frw. exact W.
Qed.
#[local] Instance qt_poll_send t s : stable qt s (poll_send t s).
Proof. unfold poll_send. st_solve. Qed.
#[local] Instance qt_rcv_transfer p tr b s : stable_er qt fst s (rcv_transfer p tr b s).
Proof. intros [x r] H. change (stable qt s x). unfold rcv_transfer in H. st_er H. Qed.
Lemma qt_given s s' : (only_there a c s -> stable qt s s') -> stable qt s s'.
Proof. intros H O W. exact (H O O W). Qed.
#[local] Instance qt_dispatch act s : stable qt s (dispatch act s).
Proof. unfold dispatch. destruct act; unfold control; st_chain. Qed.
#[local] Instance qt_removed k m s : stable qt s (set_s_rhandles m (remove_link k s)).
Proof. eapply stable_trans; [exact _|apply qt_remove_link|]. st_chain. Qed.
Lemma qt_answer tx e s : tx <> Some c -> stable qt s (answer tx e s).
Proof. apply qt_fire_opt. Qed.
Lemma qt_handle_detach d s : (forall b, NoDup (keys (unsettled b s))) -> ~ named (EvFrame (FDetach d)) (inl a) s ->
  stable qt s (fst (handle_detach d s)).
Proof.
  intros Nd N. cbn [named] in N. unfold handle_detach. cbv zeta.
  assert (W : forall k, match map_get (detach_handle d) (s_rhandles s) with Some i => Some i | None =>
     match slab_get (s_links s) (detach_handle d) with Some _ => Some (detach_handle d) | None => None end end = Some k -> ~ at_slot k (inl a) s).
  { intros k. destruct (map_get _ _); [intros [= ->]; exact N|]. destruct (slab_get (s_links s) (detach_handle d)); [intros [= <-]; exact N|discriminate]. }
  destruct (match map_get (detach_handle d) (s_rhandles s) with Some i => _ | None => _ end) as [k|]; [|apply stable_refl; exact _].
  specialize (W k eq_refl). clear N. destruct (slab_get (s_links s) k) as [l|] eqn:G; [|apply stable_refl; exact _].
  apply qt_given. intros O. assert (T := slot_else _ _ _ _ _ O G).
  destruct l as [b| |tx|tx|it|it|b|tx]; cbn [tx_of fst] in *.
  - destruct (nth_error (s_snds s) b) as [l|] eqn:E; [|apply stable_refl; exact _]. cbn [fst].
    assert (NA : b <> a) by (intros ->; apply W; eexists; split; [exact G|reflexivity]).
    set (s1 := drain_pending _ _ _). apply stable_trans with (s1 := s1); [exact _|unfold s1; st_chain|].
    assert (U : unsettled true s1 = unsettled true s) by (unfold s1, unsettled; frw; reflexivity). clearbody s1.
    eapply stable_trans; [exact _|apply (qt_fail_unsettled_keys true); rewrite U; apply Nd|].
    eapply stable_trans; [exact _|apply qt_snd_remote_detached; exact NA|].
    eapply stable_trans; [exact _| |apply qt_removed]. st_chain.
  - apply qt_removed.
  - eapply stable_trans; [exact _|apply qt_fire_opt; exact T|apply qt_removed].
  - eapply stable_trans; [exact _|apply qt_answer; exact T|apply qt_removed].
  - apply stable_refl; exact _.
  - destruct it as [[b tx]|]; cbn [fst]; [|apply qt_removed].
    eapply stable_trans; [exact _|apply qt_rcv_detached|]. eapply stable_trans; [exact _|apply qt_fire|apply qt_removed].
    intros ->. apply T. reflexivity.
  - destruct (nth_error (s_rcvs s) b) as [l|] eqn:E; [|apply stable_refl; exact _]. cbn [fst].
    eapply stable_trans; [exact _|apply (qt_fail_unsettled_keys false); apply Nd|].
    eapply stable_trans; [exact _| |apply qt_removed]. st_chain.
  - eapply stable_trans; [exact _|apply qt_answer; exact T|apply qt_removed].
Qed.
Lemma qt_handle_frame p f s s' act : (forall b, NoDup (keys (unsettled b s))) -> ~ named (EvFrame f) (inl a) s ->
  ses_handle_frame p f s = EOk (s', act) -> stable qt s s'.
Proof.
  intros Nd N. unfold ses_handle_frame. destruct (s_error s); [intros Q; apply EOk_inj, pair_equal_spec in Q as [<- _]; apply stable_refl; exact _|].
  destruct f as [?|?|?|flow|tr|disp|d|?|?|]; try (intros Q; apply EOk_inj, pair_equal_spec in Q as [<- _]; st_chain; fail).
  - destruct (match flow_handle flow with Some _ => _ | None => _ end) as [[]|];
      intros Q; apply EOk_inj, pair_equal_spec in Q as [<- _]; try (apply stable_refl; exact _); apply qt_handle_flow; discriminate.
  - destruct (map_get _ _) as [k|] eqn:M; [|intros Q; apply EOk_inj, pair_equal_spec in Q as [<- _]; apply stable_refl; exact _].
    destruct (slab_get (s_links s) k) as [l|] eqn:G; [|intros Q; apply EOk_inj, pair_equal_spec in Q as [<- _]; apply stable_refl; exact _].
    destruct l; try (intros Q; apply EOk_inj, pair_equal_spec in Q as [<- _]; apply stable_refl; exact _).
    destruct (rcv_transfer p tr _ s) as [[s1 act1]|] eqn:R; [|discriminate]. cbn [emap].
    intros Q; apply EOk_inj, pair_equal_spec in Q as [<- _]. exact (qt_rcv_transfer _ _ _ _ _ R).
  - destruct (handle_detach d s) as [s1 act1] eqn:D. intros Q; apply EOk_inj, pair_equal_spec in Q as [<- _].
    apply (f_equal fst) in D. cbn [fst] in D. subst s1. apply qt_handle_detach; assumption.
Qed.
Lemma qt_on_attach frm s : stable qt s (on_attach frm s).
Proof.
  unfold on_attach. destruct (s_error s); [apply stable_refl; exact _|].
  unfold handle_attach. destruct (name_get (attach_name frm) (s_names s)) as [k|].
  - destruct (slab_get (s_links s) k) as [l|] eqn:G; [|apply stable_refl; exact _].
    apply qt_given. intros O. assert (T := slot_else _ _ _ _ _ O G).
    destruct l as [| |tx| | |[[b tx]|]| |]; try (apply stable_refl; exact _); cbv zeta; cbn [tx_of] in T.
    + eapply stable_trans; [exact _| |apply qt_fire_opt; exact T]. st_chain.
    + eapply stable_trans; [exact _| |apply qt_fire; intros ->; apply T; reflexivity]. st_chain.
  - destruct (attach_role frm).
    + unfold attach_remote_receiver, insert_link. cbv beta iota zeta. cbn [snd]. st_chain.
    + unfold new_remote_sender, insert_link. cbv beta iota zeta. st_chain.
Qed.
Lemma qt_control_ok p edit k s s' : inl a <> ctl_link k -> control_ok p edit k s = EOk s' -> stable qt s s'.
Proof.
  intros N. destruct k; cbn [control_ok ctl_link] in *; try (intros Q; apply EOk_inj in Q as <-; unfold control; st_chain; fail).
  - intros Q. exact (qt_attach_remote_sender _ _ _ _ _ Q).
  - intros Q. apply EOk_inj in Q as <-. apply qt_handle_flow. congruence.
  - intros Q. eapply stable_trans; [exact _|apply qt_confirm_receiver|exact (qt_set_link_credit _ _ _ _ _ Q)].
Qed.
Lemma qt_control_err e k s s' : control_err e k s = EOk s' -> stable qt s s'.
Proof.
  destruct k; cbn [control_err]; try (intros Q; apply EOk_inj in Q as <-; st_chain; fail); intros Q; exact (qt_rcv_close _ _ _ _ Q).
Qed.
Lemma qt_ses_end s : stable qt s (ses_end s).
Proof.
  unfold ses_end. destruct (s_ended s); [apply stable_refl; exact _|]. cbv zeta.
  set (s1 := if s_ending s then s else _). apply stable_trans with (s1 := s1); [exact _|unfold s1; destruct (s_ending s); st_chain|].
  clearbody s1. cbv beta iota delta [cond_wait new_chan]. apply qt_new. intros N. set (s2 := set_s_chans _ s1).
  assert (X : forall s3 v, s_closed s3 = s_closed s1 ->
            (forall c, In c (cd_wait v) -> In c (cd_wait (s_closed s1)) \/ c = length (s_chans s1)) ->
            stable (add_rel PEnd (length (s_chans s1))) s3 (set_s_closed v s3)).
  { intros s3 v E V. split; [auto|]. intros pl x P. destruct pl; cbn [at_place] in *; unfold unsettled in *; try (left; exact P).
    rewrite E. st_cbn_in P. destruct (V x P) as [V1| ->]; auto. }
  destruct (cd_lock (s_closed s1)).
  - eapply stable_trans; [exact _|apply qt_fire; exact N|]. eapply (qt_add a c); [apply X; [frw; reflexivity|auto]|exact N|intros _ V; exact V].
  - eapply (qt_add a c); [apply X; [reflexivity|]|exact N|intros _ V; exact V]. cbn [cd_wait]. intros x H. apply in_app_or in H as [H|[->|[]]]; auto.
Qed.
Lemma qt_poll_wait w s : stable qt s (poll_wait w s).
Proof.
  assert (Keep : forall b id di r di' s1, map_get id (unsettled b s1) = Some di -> check_inner di = (r, di') ->
            stable qt s1 (set_unsettled b (map_upd id di' (unsettled b s1)) s1)).
  { intros b id di r di' s1 G Ck. apply qt_eq; [destruct b; reflexivity|]. apply shr_map. intros id' di0 x G' T. rewrite map_get_upd in G'.
    destruct (N.eqb_spec id' id) as [->|]; [|eauto]. rewrite G in G'. injection G' as <-. exists di.
    rewrite (check_inner_tx _ _ _ Ck) in T. auto. }
  unfold poll_wait. destruct (nth_error (s_waits s) w) as [t|]; [|apply stable_refl; exact _].
  destruct (nth_error (s_dlvs s) (wk_dlv t)) as [d|]; [|apply stable_refl; exact _]. cbv zeta.
  destruct (wk_st t) as [|cw|r|]; try (apply stable_refl; exact _).
  - destruct (dl_local d); [st_chain|]. destruct (map_get (dl_id d) (unsettled (dl_sender d) s)) as [di|] eqn:G; [|st_chain].
    destruct (check_inner di) as [[r|] di'] eqn:Ck.
    + eapply stable_trans; [exact _|eapply Keep; eauto|]. st_chain.
    + apply qt_given. intros O. assert (T := entry_else _ _ _ _ _ _ O G). unfold new_chan. apply qt_new. intros N. set (s1 := set_s_chans _ s).
      set (s2 := drop_opt (di_tx di) s1). apply stable_trans with (s1 := s2); [exact _|apply qt_drop_opt; exact T|].
      eapply stable_trans; [exact _| |st_one].
      apply (qt_add a c (PEntry (dl_sender d) (dl_id d)) (length (s_chans s))); [|exact N|intros _ V; destruct (dl_sender d); exact V].
      split; [destruct (dl_sender d); auto|]. intros pl x P.
      destruct pl as [| | | |b' id| |]; cbn [at_place] in *; try (left; destruct (dl_sender d); exact P).
      rewrite unsettled_set in P. destruct (Bool.eqb_spec b' (dl_sender d)) as [->|]; [|left; exact P].
      destruct P as (di0 & E & T'). rewrite map_get_upd in E. destruct (N.eqb_spec id (dl_id d)) as [->|]; [|left; eauto].
      right. match type of E with match ?x with _ => _ end = _ => destruct x; [|discriminate E] end. apply Some_inj in E. subst di0. cbn in T'. injection T' as <-. auto.
  - destruct (nth_error (s_chans s) cw) as [[]|]; try (apply stable_refl; exact _); [|st_chain].
    destruct (map_get (dl_id d) (unsettled (dl_sender d) s)) as [di|] eqn:G; [|st_chain].
    destruct (check_inner di) as [[r|] di'] eqn:Ck.
    + set (s1 := if di_settled di then _ else s). apply stable_trans with (s1 := s1); [exact _|unfold s1; destruct (di_settled di); st_chain|].
      eapply stable_trans; [exact _|eapply Keep; [|exact Ck]|st_chain].
      unfold s1. destruct (di_settled di); [|exact G]. destruct (dl_sender d); unfold unsettled in *; frw; exact G.
    + destruct (di_settled di); st_chain.
Qed.
Lemma qt_cond pl0 b (g : slink -> cond) set s l :
  (forall v l, sn_pending (set v l) = sn_pending l) ->
  (forall v l x, In x (cd_wait (sn_on_close (set v l))) ->
     In x (cd_wait (sn_on_close l)) \/ (PClose b = pl0 /\ g l = sn_on_close l /\ In x (cd_wait v))) ->
  (forall v l x, In x (cd_wait (sn_on_credit (set v l))) ->
     In x (cd_wait (sn_on_credit l)) \/ (PCredit b = pl0 /\ g l = sn_on_credit l /\ In x (cd_wait v))) ->
  nth_error (s_snds s) b = Some l ->
  stable qt s (upd_snd b (set (fst (cond_wait (g l) s))) (snd (cond_wait (g l) s))).
Proof.
  intros Hp H1 H2 El. cbv beta iota delta [cond_wait new_chan]. apply qt_new. intros N.
  assert (X : forall s1 v, s_snds s1 = s_snds s ->
     (forall x, In x (cd_wait v) -> In x (cd_wait (g l)) \/ x = length (s_chans s)) ->
     stable qt s1 (upd_snd b (set v) s1)).
  { intros s1 v E V. apply (qt_add a c pl0 (length (s_chans s))); [|exact N|intros _ W; unfold waits_on in *; frw; exact W].
    apply add_upd_snd. intros l2 x E2. assert (l2 = l) as -> by congruence.
    rewrite Hp. split; [auto|]. split; intros H; [apply H1 in H | apply H2 in H]; destruct H as [H|(<- & Eg & H)]; auto;
      destruct (V x H) as [V1|V1]; rewrite ?Eg in V1; auto. }
  destruct (cd_lock (g l)); cbn [fst snd].
  - eapply stable_trans; [exact _|apply qt_fire; exact N|apply X]; [frw; reflexivity|auto].
  - apply X; [frw; reflexivity|]. cbn [cd_wait]. intros x H. apply in_app_or in H as [H|[H|[]]]; auto.
Qed.
Lemma qt_step p e s s' os : (forall b, NoDup (keys (unsettled b s))) -> ~ named e (inl a) s -> step p e s = EOk (s', os) -> stable qt s s'.
Proof.
  intros Nd N. destruct e; unfold step, noobs;
    try (intros Q; apply EOk_inj, pair_equal_spec in Q as [<- _];
         first [apply qt_on_attach | apply qt_ses_end | apply qt_poll_wait | apply qt_poll_send | st_chain]; fail).
  - destruct (ses_handle_frame p f s) as [[s1 ra]|] eqn:F; [|discriminate]. cbn [ebind]. intros Q. apply EOk_inj, pair_equal_spec in Q as [<- _].
    apply (qt_handle_frame _ _ _ _ _ Nd N) in F. destruct ra; [eapply stable_trans; [exact _|exact F|apply qt_dispatch]|exact F].
  - exfalso. apply N. exact I.
  - unfold ses_detach_sender, new_chan. intros Q; apply EOk_inj, pair_equal_spec in Q as [<- _]. apply qt_new. apply qt_detach_sender.
  - unfold ses_detach_receiver, new_chan. destruct (detach_receiver _ _ _ _ _) as [s1|] eqn:D; [|discriminate].
    cbn [emap]. intros Q; apply EOk_inj, pair_equal_spec in Q as [<- _]. apply qt_new. intros Nc. exact (qt_detach_receiver _ _ _ _ _ _ Nc D).
  - destruct (nth_error (s_snds s) a0); intros Q; apply EOk_inj, pair_equal_spec in Q as [<- _]; st_chain.
  - destruct (nth_error (s_snds s) a0) as [l|] eqn:El; [|intros Q; apply EOk_inj, pair_equal_spec in Q as [<- _]; apply stable_refl; exact _].
    destruct (cond_wait (sn_on_close l) s) as [x s1] eqn:Ec. intros Q; apply EOk_inj, pair_equal_spec in Q as [<- _].
    assert (X := qt_cond (PClose a0) a0 sn_on_close set_sn_on_close s l). rewrite Ec in X. cbn [fst snd] in X. apply X; auto; intros; right; auto.
  - destruct (nth_error (s_snds s) a0) as [l|] eqn:El; [|intros Q; apply EOk_inj, pair_equal_spec in Q as [<- _]; apply stable_refl; exact _].
    destruct (cond_wait (sn_on_credit l) s) as [x s1] eqn:Ec. intros Q; apply EOk_inj, pair_equal_spec in Q as [<- _].
    assert (X := qt_cond (PCredit a0) a0 sn_on_credit set_sn_on_credit s l). rewrite Ec in X. cbn [fst snd] in X. apply X; auto; intros; right; auto.
  - destruct (nth_error (s_dlvs s) d); intros Q; apply EOk_inj, pair_equal_spec in Q as [<- _]; st_chain.
  - destruct (nth_error (s_rcvs s) a0) as [l|]; [destruct (poll_recv t l)|]; intros Q; apply EOk_inj, pair_equal_spec in Q as [<- _]; st_chain.
  - destruct (nth_error (s_rcvs s) a0) as [l|]; [destruct (get_delivery l)|]; intros Q; apply EOk_inj, pair_equal_spec in Q as [<- _]; st_chain.
  - destruct (set_link_credit p a0 n s) as [s1|] eqn:C; [|discriminate].
    cbn [emap]. intros Q; apply EOk_inj, pair_equal_spec in Q as [<- _]. exact (qt_set_link_credit _ _ _ _ _ C).
  - destruct (rcv_close a0 e s) as [s1|] eqn:C; [|discriminate].
    cbn [emap]. intros Q; apply EOk_inj, pair_equal_spec in Q as [<- _]. exact (qt_rcv_close _ _ _ _ C).
  - destruct (nth_error (s_rcvs s) a0) as [l|]; [destruct (existsb _ _)|]; intros Q; apply EOk_inj, pair_equal_spec in Q as [<- _]; st_chain.
  - destruct (nth_error (s_ctl s) i) as [[k|]|] eqn:E; try (intros Q; apply EOk_inj, pair_equal_spec in Q as [<- _]; apply stable_refl; exact _).
    destruct (control_ok p edit k _) as [s1|] eqn:C; [|discriminate]. cbn [emap]. intros Q; apply EOk_inj, pair_equal_spec in Q as [<- _].
    eapply stable_trans; [exact _| |eapply qt_control_ok; [|exact C]]; [st_chain|]. intros Z. apply N. exists k. auto.
  - destruct (nth_error (s_ctl s) i) as [[k|]|] eqn:E; try (intros Q; apply EOk_inj, pair_equal_spec in Q as [<- _]; apply stable_refl; exact _).
    destruct (control_err e k _) as [s1|] eqn:C; [|discriminate]. cbn [emap]. intros Q; apply EOk_inj, pair_equal_spec in Q as [<- _].
    eapply stable_trans; [exact _| |eapply qt_control_err; exact C]. st_chain.
Qed.
End Q.
