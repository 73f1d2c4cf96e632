(** * Attach and detach frames in turn *)

From Coq Require Import ZifyBool ZifyNat ZifyN.
From Verif Require Export TurnRel AttachProofs LookupProofs OwnedRcv.
Import ListNotations.

(** ** A detach frame of the peer *)
Inductive detach_does (d : detach_t) (s s1 : ses) : Prop :=
| dd_nothing : s1 = s -> detach_does d s s1
| dd_removes k lk l : slab_get (s_links s) k = Some lk -> lk <> SOpeningRemote ->
    s_links s1 = slab_remove k (s_links s) -> s_error s1 = s_error s -> length (s_rcvs s1) = length (s_rcvs s) ->
    s_out s1 = s_out s ++ l ->
    (exists a l0, lk = SEstablished a /\ nth_error (s_snds s) a = Some l0 /\ l = [FDetach (mk_detach (as_u32 (sn_id l0)) true (detach_error d))])
    \/ (exists a l0, lk = REstablished a /\ nth_error (s_rcvs s) a = Some l0 /\ l = [FDetach (mk_detach (rc_handle l0) true None)])
    \/ (used (Some lk) = false /\ l = []) -> detach_does d s s1.
Lemma removed_links : forall k y x s, s_links y = s_links s -> slab_get (s_links s) k <> None ->
  s_links (set_s_rhandles x (remove_link k y)) = slab_remove k (s_links s).
Proof.
  intros k y x s L N. frw. unfold remove_link. rewrite L. destruct (slab_get (s_links s) k); [|congruence]. frw. st_cbn. congruence.
Qed.
Lemma removed_rcvs : forall k y x, length (s_rcvs (set_s_rhandles x (remove_link k y))) = length (s_rcvs y).
Proof. intros. st_cbn. apply remove_rcvs. Qed.
Lemma detach_at : forall d k lk s s1 act, slab_get (s_links s) k = Some lk -> ~ unattached_yet k s ->
  (let handle := detach_handle d in
   let e := detach_error d in
   let removed s := set_s_rhandles (map_del handle (s_rhandles s)) (remove_link k s) in
      match slab_get (s_links s) k with
      | None => (s, ANone)
      | Some (SOpening tx) => (removed (fire_opt tx (VErr (ELinkDetached e)) s), ANone)
      | Some (SEstablished a) =>
          match nth_error (s_snds s) a with
          | None => (s, ANone)
          | Some l =>
              let err := ELinkDetached e in
              let s := set_s_names (name_del (sn_name l) (s_names s)) s in
              let s := drain_pending (sn_rhandle l) err s in
              let s := fail_unsettled true (as_u32 (sn_id l)) err s in
              let s := snd_remote_detached a err s in
              let s := post (detach_frame (as_u32 (sn_id l)) true e) s in
              (removed s, ADetachSender a d)
          end
      | Some SOpeningRemote => (removed s, ANone)
      | Some (SClosing tx) => (removed (answer tx e s), ANone)
      | Some (ROpening _) => (s, ANone)
      | Some (ROpeningLocal item) =>
          match item with
          | Some (a, tx) =>
              (removed (fire tx (VErr (ELinkDetached e)) (rcv_detached a s)), ANone)
          | None => (removed s, ANone)
          end
      | Some (REstablished a) =>
          match nth_error (s_rcvs s) a with
          | None => (s, ANone)
          | Some l =>
              let s := fail_unsettled false (rc_handle l) (ELinkDetached e) s in
              let s := post (detach_frame (rc_handle l) true None) s in
              let s := rcv_remote_detached a e s in
              (removed s, ADetachReceiver a (mk_detach handle (detach_closed d) None))
          end
      | Some (RClosing tx) => (removed (answer tx e s), ANone)
      end) = (s1, act) -> detach_does d s s1.
Proof.
  intros d k lk s s1 act Ek Q E. cbv zeta in E. unfold unattached_yet in Q. rewrite Ek in Q, E.
  destruct lk; try (exfalso; exact (Q I)).
  - destruct (nth_error (s_snds s) a) as [l|] eqn:El; injection E as <- <-; [|apply dd_nothing; reflexivity].
    eapply dd_removes with (l := [_]); [exact Ek | discriminate | apply removed_links; [frw; reflexivity | congruence] | frw; reflexivity
      | rewrite removed_rcvs; frw; reflexivity | frw; unfold post; st_cbn; frw; reflexivity |]. left. eauto.
  - injection E as <- <-.
    eapply dd_removes with (l := []); [exact Ek | discriminate | apply removed_links; [frw; reflexivity | congruence] | frw; reflexivity
      | rewrite removed_rcvs; frw; reflexivity | frw; rewrite app_nil_r; reflexivity |]. right. right. split; reflexivity.
  - injection E as <- <-. apply dd_nothing; reflexivity.
  - destruct (nth_error (s_rcvs s) a) as [l|] eqn:El; injection E as <- <-; [|apply dd_nothing; reflexivity].
    eapply dd_removes with (l := [_]); [exact Ek | discriminate | apply removed_links; [frw; reflexivity | congruence] | frw; reflexivity
      | rewrite removed_rcvs; unfold rcv_remote_detached; rewrite upd_rcv_length; unfold post; st_cbn; frw; reflexivity
      | unfold rcv_remote_detached; frw; unfold post; st_cbn; frw; reflexivity |]. right. left. eauto.
  - injection E as <- <-.
    eapply dd_removes with (l := []); [exact Ek | discriminate | apply removed_links; [frw; reflexivity | congruence] | frw; reflexivity
      | rewrite removed_rcvs; frw; reflexivity | frw; rewrite app_nil_r; reflexivity |]. right. right. split; reflexivity.
Qed.
Lemma detach_cases : forall p d s s' os, step p (EvFrame (FDetach d)) s = EOk (s', os) -> proper (EvFrame (FDetach d)) s ->
  exists s1, detach_does d s s1 /\ s_links s' = s_links s1 /\ s_error s' = s_error s1 /\ s_rcvs s' = s_rcvs s1 /\ s_out s' = s_out s1.
Proof.
  intros p d s s' os H P. cbn [step] in H. unfold ses_handle_frame in H. destruct (s_error s) eqn:Er.
  { exists s. apply EOk_inj in H. apply (f_equal fst) in H. cbn [fst] in H. subst s'. split; [apply dd_nothing; reflexivity|]. cbn [dispatch]. auto. }
  destruct (handle_detach d s) as [s1 act] eqn:E. cbn [ebind] in H. apply EOk_inj in H. apply (f_equal fst) in H. cbn [fst] in H. subst s'.
  exists s1. split; [|destruct act; cbn [dispatch]; unfold control; st_cbn; auto].
  cbn [proper] in P. unfold handle_detach in E. cbv zeta in E.
  destruct (map_get (detach_handle d) (s_rhandles s)) as [k|] eqn:Eh.
  - destruct (slab_get (s_links s) k) as [lk|] eqn:Ek; [|injection E as <- <-; apply dd_nothing; reflexivity].
    eapply (detach_at d k lk s s1 act Ek); [exact (P k (or_introl Eh)) | cbv zeta; rewrite Ek; exact E].
  - destruct (slab_get (s_links s) (detach_handle d)) as [lk|] eqn:Ek; [|injection E as <- <-; apply dd_nothing; reflexivity].
    eapply (detach_at d (detach_handle d) lk s s1 act Ek); [exact (P _ (or_intror (conj Eh eq_refl)))|].
    cbv zeta. rewrite Ek in E |- *. exact E.
Qed.

(** ** The slots of sender links the service decides about *)
Lemma step_rsv2 : forall p e s s' os, step p e s = EOk (s', os) -> proper e s -> s_error s' = None ->
  stable rsv_rel s s' \/ exists j frm r a, ((exists edit, e = EvCtlOk j edit) \/ (exists x, e = EvCtlErr j x)) /\ pending_at j frm r a s.
Proof.
  intros p e s s' os H P Er. assert (D : (exists d, e = EvFrame (FDetach d)) \/ (exists x, e = EvFail x) \/ exists i, calm i e).
  { destruct e; try (right; right; exists 0%nat; exact I); [|right; left; eauto | right; right; exists (S i); cbn [calm]; lia ..].
    destruct f; try (right; right; exists 0%nat; exact I). left. eauto. }
  destruct D as [[d ->]|[[x ->]|[i C]]]; [left | exfalso | exact (step_rsv p e i s s' os H C)].
  - destruct (detach_cases p d s s' os H P) as (s1 & D & L & _). intros W. unfold rsv0. rewrite L.
    destruct D as [->|k lk l Ek N L1 _ _ _ _]; [auto|]. rewrite L1. split; [apply slab_remove_wf; exact W|].
    intros j Hj. rewrite slab_get_remove. destruct (N.eqb_spec k j) as [->|]; congruence.
  - cbn [step] in H. apply EOk_inj in H. apply (f_equal fst) in H. cbn [fst] in H. subst s'. revert Er. unfold ses_set_error. frw. st_cbn. discriminate.
Qed.
Definition PI (s : ses) : Prop :=
  pend_born s
  /\ (forall i frm r a l, pending_at i frm r a s -> nth_error (s_snds s) a = Some l -> slab_get (s_links s) (sn_id l) = Some SOpeningRemote)
  /\ (forall i frm r a l j frm' r' a' l', pending_at i frm r a s -> nth_error (s_snds s) a = Some l ->
        pending_at j frm' r' a' s -> nth_error (s_snds s) a' = Some l' -> i <> j -> sn_id l <> sn_id l').
Lemma done_gone : forall p e j frm r a s s' os, ((exists edit, e = EvCtlOk j edit) \/ (exists x, e = EvCtlErr j x)) -> pending_at j frm r a s ->
  step p e s = EOk (s', os) -> forall f r' b, ~ pending_at j f r' b s'.
Proof.
  intros p e j frm r a s s' os D P H f r' b Q. unfold pending_at in P. assert (X : ~ pending_at j f r' b (set_s_ctl (set_nth j None (s_ctl s)) s)).
  { unfold pending_at. st_cbn. rewrite nth_set_nth_eq; [discriminate|]. apply nth_error_Some. congruence. }
  apply X. destruct D as [[edit ->]|[x ->]]; cbn [step] in H; rewrite P in H; unfold noobs, emap in H.
  - match type of H with context [control_ok p edit ?k ?y] => destruct (control_ok p edit k y) as [z|] eqn:E; [|discriminate H] end.
    assert (R := kas_rel_control_ok p edit _ _ _ E). apply EOk_inj in H. apply (f_equal fst) in H. cbn [fst] in H. subst s'. exact (R _ _ _ _ Q).
  - match type of H with context [control_err ?x ?k ?y] => destruct (control_err x k y) as [z|] eqn:E; [|discriminate H] end.
    assert (R := kas_rel_control_err _ _ _ _ E). apply EOk_inj in H. apply (f_equal fst) in H. cbn [fst] in H. subst s'. exact (R _ _ _ _ Q).
Qed.
Lemma PI_step : forall p e s s' os, lk_inv [] s -> PI s -> step p e s = EOk (s', os) -> proper e s -> s_error s' = None -> PI s'.
Proof.
  intros p e s s' os LK (PB & SL & DI) H Pr Er. assert (K := step_keeps_objs _ _ _ _ _ H). assert (LK' := step_lk _ _ _ _ _ H LK).
  assert (Back : forall i frm r a l, pending_at i frm r a s' -> nth_error (s_snds s') a = Some l ->
    (pending_at i frm r a s /\ exists l0, nth_error (s_snds s) a = Some l0 /\ sn_id l0 = sn_id l)
    \/ (slab_get (s_links s) (sn_id l) = None /\ slab_get (s_links s') (sn_id l) = Some SOpeningRemote /\ i = length (s_ctl s))).
  { intros i frm r a l P El. destruct (step_kas p e s s' os H) as [[f ->]|R].
    - destruct (new_pending_id p f s s' os i frm r a l LK PB H P El) as [Po|(F & G & _ & _ & Q)]; [left; split; [exact Po | exact (objs_back s s' a l K (PB _ _ _ _ Po) El)] | right; auto].
    - left. assert (Po := R _ _ _ _ P). split; [exact Po | exact (objs_back s s' a l K (PB _ _ _ _ Po) El)]. }
  split; [eapply pend_born_step; eassumption|]. split.
  - intros i frm r a l P El. destruct (Back i frm r a l P El) as [(Po & l0 & E0 & I0)|(_ & G & _)]; [|exact G].
    assert (Ho := SL _ _ _ _ _ Po E0). rewrite I0 in Ho. destruct (step_rsv2 p e s s' os H Pr Er) as [R|(j & f & r' & b & D & Pj)].
    + destruct (R (proj1 LK)) as [_ R0]. apply R0. exact Ho.
    + assert (Nj : j <> i) by (intros ->; exact (done_gone _ _ _ _ _ _ _ _ _ D Pj H _ _ _ P)).
      rewrite (complete_slots p e j f r' b s s' os D Pj H (sn_id l)); [exact Ho|]. intros lb Eb Q. rewrite <- I0 in Q.
      exact (DI _ _ _ _ _ _ _ _ _ _ Pj Eb Po E0 Nj Q).
  - intros i frm r a l j frm' r' a' l' P El P' El' N Q.
    destruct (Back _ _ _ _ _ P El) as [(Po & l0 & E0 & I0)|(F & G & X)]; destruct (Back _ _ _ _ _ P' El') as [(Po' & l0' & E0' & I0')|(F' & G' & X')].
    + apply (DI _ _ _ _ _ _ _ _ _ _ Po E0 Po' E0' N). congruence.
    + assert (Ho := SL _ _ _ _ _ Po E0). congruence.
    + assert (Ho := SL _ _ _ _ _ Po' E0'). congruence.
    + congruence.
Qed.

(** ** The answers prepared for receiver links *)
Definition RI (s : ses) : Prop :=
  forall i k r a, rsp k = Some (r, a) -> nth_error (s_ctl s) i = Some (Some k) ->
    exists l, nth_error (s_rcvs s) a = Some l /\ attach_handle r = rc_handle l.
Lemma ra_dispatch : forall act s, (forall a frm r, act <> AAttachReceiver a frm r) -> stable ra_rel s (dispatch act s).
Proof.
  intros act s N. destruct act; cbn [dispatch]; try exact _; [apply stable_refl; exact _ | exfalso; exact (N _ _ _ eq_refl)].
Qed.
Lemma handle_frame_action2 : forall p f s s' act, ses_handle_frame p f s = EOk (s', inl act) -> forall a frm r, act <> AAttachReceiver a frm r.
Proof.
  intros p f s s' act H a frm r E. subst act. unfold ses_handle_frame in H. destruct (s_error s); [discriminate H|]. destruct f; try discriminate H.
  - repeat match type of H with context [match ?x with _ => _ end] => destruct x; try discriminate H end.
  - destruct (map_get _ _); [|discriminate H]. destruct (slab_get _ _) as [[]|]; try discriminate H.
    unfold rcv_transfer in H. cbv zeta in H.
    repeat match type of H with
    | context [rcv_close ?x ?y ?z] => destruct (rcv_close x y z); cbn [ebind emap] in H; try discriminate H
    | context [checked_add ?x ?y ?z] => destruct (checked_add x y z); cbn [ebind emap] in H; try discriminate H
    | context [match ?x with _ => _ end] => destruct x; cbn [ebind emap] in H; try discriminate H
    end.
  - assert (N : snd (handle_detach x s) <> AAttachReceiver a frm r).
    { unfold handle_detach. cbv zeta. repeat match goal with |- context [match ?x with _ => _ end] => destruct x; cbn [snd]; try discriminate end. }
    destruct (handle_detach x s) as [s1 act]. cbn [snd] in N. congruence.
Qed.
Lemma step_ra : forall p e s s' os, step p e s = EOk (s', os) ->
  stable ra_rel s s' \/ (exists frm, e = EvAttach frm)
  \/ exists i edit frm r a, e = EvCtlOk i edit /\ called i (KAttachReceiver frm r a) s.
Proof.
  intros p e s s' os H. destruct e; try (left; solve [cbn [step] in H; step_er H]); [left | right; left; eauto |].
  - cbn [step] in H. destruct (ses_handle_frame p f s) as [[s1 r]|] eqn:E; [|discriminate H]. cbn [ebind] in H. apply EOk_inj in H. apply (f_equal fst) in H. cbn [fst] in H. subst s'.
    assert (R := ra_rel_ses_handle_frame p f s _ E). cbn [fst] in R. destruct r as [act|]; [|exact R].
    eapply stable_trans; [exact _ | exact R |]. apply ra_dispatch. exact (handle_frame_action2 _ _ _ _ _ E).
  - cbn [step] in H. destruct (nth_error (s_ctl s) i) as [[k|]|] eqn:E; try (left; solve [step_er H]).
    destruct k; try (left; solve [unfold control_ok in H; step_er H]). right. right. unfold called. eauto 10.
Qed.
Lemma RI_step : forall p e s s' os, RI s -> step p e s = EOk (s', os) -> proper e s -> RI s'.
Proof.
  intros p e s s' os R H P. assert (K := step_rch _ _ _ _ _ H).
  assert (Old : forall r a, (exists l, nth_error (s_rcvs s) a = Some l /\ attach_handle r = rc_handle l) -> exists l, nth_error (s_rcvs s') a = Some l /\ attach_handle r = rc_handle l).
  { intros r a (l & El & E). destruct (K _ _ El) as (l' & El' & I). exists l'. split; [exact El'|]. unfold rcv_ids in I. congruence. }
  destruct (step_ra _ _ _ _ _ H) as [Q|[[frm ->]|(i & edit & frm & r & a & -> & C)]].
  - intros i k r a Er Ek. apply Old. exact (R i k r a Er (Q i k _ Er Ek)).
  - cbn [step] in H. apply EOk_inj in H. apply (f_equal fst) in H. cbn [fst] in H. subst s'. intros i k r a Er Ek.
    unfold on_attach in Ek, Old |- *. destruct (s_error s); [exact (R _ _ _ _ Er Ek)|].
    destruct (handle_attach frm s) as [s1|] eqn:Ha.
    { assert (Q : s_ctl s1 = s_ctl s). { unfold handle_attach in Ha. destruct (name_get _ _); [|discriminate Ha]. apply Some_inj in Ha. subst s1. repeat fr_break; frw; reflexivity. }
      rewrite Q in Ek. apply Old. exact (R _ _ _ _ Er Ek). }
    destruct (attach_role frm).
    + unfold attach_remote_receiver in Ek, Old |- *. cbn [insert_link fst snd] in Ek, Old |- *. unfold dispatch, control in *. st_cbn_in Ek.
      apply ctl_snoc in Ek as [Ek|[_ ->]]; [apply Old; exact (R _ _ _ _ Er Ek)|]. cbn [rsp] in Er. injection Er as <- <-. st_cbn.
      rewrite nth_error_app2, Nat.sub_diag by reflexivity. cbn [nth_error attach_handle]. eauto.
    + unfold new_remote_sender in Ek, Old |- *. cbn [insert_link fst snd] in Ek, Old |- *. unfold dispatch, control in *. st_cbn_in Ek.
      apply ctl_snoc in Ek as [Ek|[_ ->]]; [apply Old; exact (R _ _ _ _ Er Ek) | discriminate Er].
  - cbn [proper] in P. unfold called in C. intros j k r' a' Er Ek. apply Old. cbn [step] in H. rewrite C in H. cbn [control_ok noobs emap] in H.
    apply EOk_inj in H. apply (f_equal fst) in H. cbn [fst] in H. subst s'. unfold control in Ek. st_cbn_in Ek.
    apply ctl_snoc in Ek as [Ek|[_ ->]].
    + rewrite nth_set_nth in Ek. destruct (Nat.eqb i j); [destruct (nth_error (s_ctl s) i); discriminate Ek|]. exact (R _ _ _ _ Er Ek).
    + cbn [rsp] in Er. injection Er as <- <-. rewrite P. exact (R i (KAttachReceiver frm r a) r a eq_refl C).
Qed.

(** ** Every event *)
Lemma key_fits : forall s lk, slots_fit (set_s_links (slab_insert lk (s_links s)) s) -> slab_wf (s_links s) -> as_u32 (slab_key (s_links s)) = slab_key (s_links s).
Proof.
  intros s lk F W. unfold as_u32. apply N.mod_small. unfold slots_fit in F. st_cbn_in F.
  assert (G : slab_get (slab_insert lk (s_links s)) (slab_key (s_links s)) = Some lk) by (rewrite slab_get_insert by exact W; rewrite N.eqb_refl; reflexivity).
  apply slab_get_lt in G. lia.
Qed.
Lemma slot_fits : forall s k lk, slots_fit s -> slab_get (s_links s) k = Some lk -> as_u32 k = k.
Proof. intros s k lk F G. unfold as_u32. apply N.mod_small. unfold slots_fit in F. apply slab_get_lt in G. lia. Qed.
Lemma TJ_step : forall p e s s' os, lk_inv [] s -> slots_fit s -> slots_fit s' -> PI s -> RI s -> TJ s ->
  step p e s = EOk (s', os) -> proper e s -> s_error s' = None -> TJ s'.
Proof.
  intros p e s s' os LK F F' (PB & SL & DI) R J H P Er.
  assert (Q : forall x, stable tn_rel s x -> s' = x -> TJ s') by (intros x T ->; exact (proj2 (T Er) J)).
  destruct e; try solve [eapply Q; [|reflexivity]; cbn [step] in H; step_er H].
  - destruct (s_error s) as [e|] eqn:E0.
    { cbn [step] in H. unfold ses_handle_frame in H. rewrite E0 in H. eapply Q; [|reflexivity]. step_er H. }
    destruct f; try solve [eapply Q; [|reflexivity]; cbn [step] in H; unfold ses_handle_frame in H; rewrite E0 in H; step_er H].
    destruct (detach_cases p x s s' os H P) as (s1 & D & L & _ & RR & O).
    assert (J1 : TJ s1); [|revert J1; unfold TJ; rewrite L, RR, O; auto].
    destruct D as [->|k lk l Ek N L1 _ R1 O1 C]; [exact J|].
    eapply (TJ_move k None l s s1 J); [intros h; rewrite L1, slab_get_remove; reflexivity | exact O1 | lia | discriminate | ..];
      (destruct C as [(a & l0 & -> & El & ->)|[(a & l0 & -> & El & ->)|(U & ->)]]).
    all: try (destruct (proj1 (proj2 (proj2 LK)) _ _ Ek) as (l1 & El1 & I1); assert (l1 = l0) by congruence; subst l1; rewrite I1, (slot_fits _ _ _ F Ek)).
    all: try (destruct (proj1 (proj2 LK) F _ _ a Ek (holds_est a)) as (l1 & El1 & I1 & _); assert (l1 = l0) by congruence; subst l1; rewrite I1).
    all: try rewrite Ek; cbn [in_turn in_use used detach_handle]; rewrite ?self; auto; try (repeat constructor; fail).
  - cbn [step] in H. apply EOk_inj in H. apply (f_equal fst) in H. cbn [fst] in H. subst s'. revert F' Er Q.
    unfold on_attach. destruct (s_error s) eqn:E0; [intros _ _ _; exact J|]. destruct (handle_attach frm s) as [s1|] eqn:Ha.
    { intros _ _ Q. eapply Q; [|reflexivity]. exact (tn_rel_handle_attach frm s _ Ha). }
    intros _ _ _. destruct (attach_role frm).
    + unfold attach_remote_receiver. cbn [insert_link fst snd dispatch]. unfold control.
      eapply (TJ_move (slab_key (s_links s)) (Some (ROpening _)) [] s _ J).
      * intros h. st_cbn. rewrite slab_get_insert by exact (proj1 LK). reflexivity.
      * st_cbn. rewrite app_nil_r. reflexivity.
      * st_cbn. rewrite app_length. lia.
      * intros lk X. injection X as <-. cbn [sound]. st_cbn. rewrite app_length. cbn [length]. lia.
      * constructor.
      * exact I.
      * rewrite slab_key_free by exact (proj1 LK). reflexivity.
    + unfold new_remote_sender. cbn [insert_link fst snd dispatch]. unfold control.
      eapply (TJ_move (slab_key (s_links s)) (Some SOpeningRemote) [] s _ J).
      * intros h. st_cbn. rewrite slab_get_insert by exact (proj1 LK). reflexivity.
      * st_cbn. rewrite app_nil_r. reflexivity.
      * st_cbn. lia.
      * intros lk X. injection X as <-. exact I.
      * constructor.
      * exact I.
      * rewrite slab_key_free by exact (proj1 LK). reflexivity.
  - cbn [step] in H. apply EOk_inj in H. apply (f_equal fst) in H. cbn [fst] in H. subst s'. revert F'.
    unfold attach_local_sender. cbn [new_chan insert_link fst snd]. st_cbn. intros F'.
    assert (KF : as_u32 (slab_key (s_links s)) = slab_key (s_links s)) by (eapply key_fits; [exact F' | exact (proj1 LK)]).
    eapply (TJ_move (slab_key (s_links s)) (Some (SOpening _)) [FAttach _] s _ J).
    + intros h. unfold post. st_cbn. rewrite slab_get_insert by exact (proj1 LK). reflexivity.
    + unfold post. st_cbn. reflexivity.
    + unfold post. st_cbn. lia.
    + intros lk X. injection X as <-. exact I.
    + repeat constructor. exact KF.
    + rewrite slab_key_free by exact (proj1 LK). cbn [in_turn set_handle attach_handle used]. rewrite KF, self. auto.
    + cbn [in_use set_handle attach_handle]. rewrite KF, self. reflexivity.
  - cbn [step] in H. apply EOk_inj in H. apply (f_equal fst) in H. cbn [fst] in H. subst s'. revert F'.
    unfold attach_local_receiver. cbn [new_chan insert_link fst snd]. st_cbn. intros F'.
    assert (KF : as_u32 (slab_key (s_links s)) = slab_key (s_links s)) by (eapply key_fits; [exact F' | exact (proj1 LK)]).
    eapply (TJ_move (slab_key (s_links s)) (Some (ROpeningLocal _)) [FAttach _] s _ J).
    + intros h. unfold post. st_cbn. rewrite slab_get_insert by exact (proj1 LK). reflexivity.
    + unfold post. st_cbn. reflexivity.
    + unfold post. st_cbn. rewrite app_length. lia.
    + intros lk X. injection X as <-. exact I.
    + repeat constructor. exact KF.
    + rewrite slab_key_free by exact (proj1 LK). cbn [in_turn set_handle attach_handle used]. rewrite KF, self. auto.
    + cbn [in_use set_handle attach_handle]. rewrite KF, self. reflexivity.
  - cbn [step] in H. destruct (nth_error (s_ctl s) i) as [[k|]|] eqn:E; try (eapply Q; [|reflexivity]; solve [step_er H]).
    destruct k; try (eapply Q; [|reflexivity]; solve [unfold control_ok in H; step_er H]).
    + assert (Pe : pending_at i frm response a s) by exact E. cbn [control_ok] in H. unfold attach_remote_sender in H. cbv zeta in H.
      match type of H with context [nth_error (s_snds ?x) a] => change (s_snds x) with (s_snds s) in H end.
      destruct (nth_error (s_snds s) a) as [l|] eqn:El.
      2: { cbn in H. apply EOk_inj in H. apply (f_equal fst) in H. cbn [fst] in H. subst s'. exact J. }
      assert (Sl := SL _ _ _ _ _ Pe El).
      match type of H with context [put_link _ _ ?x] => set (s1 := x) in * end.
      assert (L1 : s_links s1 = s_links s) by (unfold s1; st_cbn; repeat fr_break; reflexivity).
      assert (R1 : s_rcvs s1 = s_rcvs s) by (unfold s1; st_cbn; repeat fr_break; reflexivity).
      assert (O1 : s_out s1 = s_out s) by (unfold s1; st_cbn; repeat fr_break; reflexivity).
      rewrite L1, Sl in H. unfold noobs, emap in H. apply EOk_inj in H. apply (f_equal fst) in H. cbn [fst] in H. subst s'.
      assert (KF := slot_fits _ _ _ F Sl).
      eapply (TJ_move (sn_id l) (Some (SEstablished a)) [FAttach _] s _ J).
      * intros h. frw. rewrite put_link_get by congruence. rewrite L1. reflexivity.
      * rewrite post_out. frw. rewrite O1. reflexivity.
      * unfold post. st_cbn. rewrite put_rcvs, R1. lia.
      * intros lk X. injection X as <-. exact I.
      * repeat constructor. exact KF.
      * rewrite Sl. cbn [in_turn set_max_size set_handle attach_handle used]. rewrite KF, self. auto.
      * rewrite Sl. cbn [in_use set_max_size set_handle attach_handle used]. rewrite KF, self. reflexivity.
    + cbn [control_ok] in H. assert (Hr := R i (KAttached response a) response a eq_refl E). destruct Hr as (l & El & Hh).
      match type of H with context [set_link_credit p a 50 ?x] => set (s1 := x) in * end.
      assert (J1 : TJ s1 /\ s_error s1 = s_error s).
      { unfold s1, confirm_receiver. match goal with |- context [nth_error (s_rcvs ?x) a] => change (s_rcvs x) with (s_rcvs s) end. rewrite El. cbv zeta.
        match goal with |- context [slab_get (s_links ?x)] => change (s_links x) with (s_links s) end.
        destruct (slab_get (s_links s) (rc_handle l)) as [lk|] eqn:Sl; [|split; [exact J | reflexivity]].
        destruct lk as [| | | |[[a' src]|]| | |]; try (split; [exact J | reflexivity]).
        split; [|frw; reflexivity].
        eapply (TJ_move (rc_handle l) (Some (REstablished a')) [FAttach _] s _ J).
        - intros h. frw. rewrite put_link_get by (st_cbn; congruence). reflexivity.
        - rewrite post_out. frw. reflexivity.
        - unfold post. st_cbn. rewrite put_rcvs. st_cbn. lia.
        - intros lk X. injection X as <-. exact I.
        - repeat constructor. exact Hh.
        - rewrite Sl. cbn [in_turn set_max_size attach_handle used]. rewrite Hh, self. auto.
        - rewrite Sl. cbn [in_use set_max_size attach_handle used]. rewrite Hh, self. reflexivity. }
      destruct J1 as [J1 E1]. clearbody s1. assert (T : stable tn_rel s1 s') by step_er H. exact (proj2 (T Er) J1).
  - cbn [step] in H. destruct (nth_error (s_ctl s) i) as [[k|]|] eqn:E; try (eapply Q; [|reflexivity]; solve [step_er H]).
    destruct k; try (eapply Q; [|reflexivity]; solve [unfold control_err in H; step_er H]).
    assert (Pe : pending_at i frm response a s) by exact E. cbn [control_err] in H. unfold detach_unconfirmed in H. cbv zeta in H.
    match type of H with context [nth_error (s_snds ?x) a] => change (s_snds x) with (s_snds s) in H end.
    destruct (nth_error (s_snds s) a) as [l|] eqn:El.
    2: { cbn in H. apply EOk_inj in H. apply (f_equal fst) in H. cbn [fst] in H. subst s'. exact J. }
    assert (Sl := SL _ _ _ _ _ Pe El). assert (KF := slot_fits _ _ _ F Sl).
    unfold noobs, emap in H. apply EOk_inj in H. apply (f_equal fst) in H. cbn [fst] in H. subst s'.
    eapply (TJ_move (sn_id l) None [FAttach _; FDetach _] s _ J).
    + intros h. rewrite remove_link_get. frw. reflexivity.
    + frw. rewrite !post_out, <- app_assoc. reflexivity.
    + rewrite remove_rcvs. unfold post. st_cbn. lia.
    + discriminate.
    + repeat constructor; exact KF.
    + rewrite Sl. cbn [in_turn attach_handle detach_handle used]. rewrite KF, self. auto.
    + rewrite Sl. cbn [in_use attach_handle detach_handle used]. rewrite KF, self. reflexivity.
Qed.
