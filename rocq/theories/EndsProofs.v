(** * Proofs: the two ends of a link *)

From Coq Require Import ZifyBool ZifyNat ZifyN.
From Verif Require Import Base BaseProofs.
From Verif Require Export SpecEnds.
From Verif Require Import HandleTheorems AttachProofs LookupProofs OwnedRcvRel.
Import ListNotations.

Lemma cut_clamp : forall n, clamp_u32 n = cut n.
Proof. intros n. unfold clamp_u32, cut, two32. change (2 ^ 32) with 4294967296. destruct (N.ltb_spec n 4294967296); lia. Qed.

Lemma run_ids : forall p evs s s' os a l, run p evs s = EOk (s', os) ->
  (nth_error (s_rcvs s) a = Some l -> exists l', nth_error (s_rcvs s') a = Some l' /\ rcv_ids l' = rcv_ids l).
Proof.
  intros p evs s s' os a l R. revert l.
  change ((fun x => forall l, nth_error (s_rcvs s) a = Some l -> exists l', nth_error (s_rcvs x) a = Some l' /\ rcv_ids l' = rcv_ids l) s').
  revert R. apply run_ind; [|eauto].
  intros e s1 s2 os1 K H l E. destruct (K l E) as (l1 & E1 & I1). destruct (step_rch _ _ _ _ _ H _ _ E1) as (l2 & E2 & I2).
  exists l2. split; congruence.
Qed.
Lemma run_snd_ids : forall p evs s s' os a l, run p evs s = EOk (s', os) ->
  (nth_error (s_snds s) a = Some l -> exists l', nth_error (s_snds s') a = Some l' /\ snd_ids l' = snd_ids l).
Proof.
  intros p evs s s' os a l R. revert l.
  change ((fun x => forall l, nth_error (s_snds s) a = Some l -> exists l', nth_error (s_snds x) a = Some l' /\ snd_ids l' = snd_ids l) s').
  revert R. apply run_ind; [|eauto].
  intros e s1 s2 os1 K H l E. destruct (K l E) as (l1 & E1 & I1). destruct (proj1 (step_keeps_objs _ _ _ _ _ H) _ _ E1) as (l2 & E2 & I2).
  exists l2. split; congruence.
Qed.

(** ** The side that asks *)
Lemma asking_facts : forall p e mine f s1 s3, asking p e mine f s1 s3 ->
  f = set_handle (as_u32 (slab_key (s_links s1))) mine
  /\ name_get (attach_name mine) (s_names s3) = Some (slab_key (s_links s1))
  /\ slab_get (s_links s3) (slab_key (s_links s1)) = Some (own_slot e s1)
  /\ s_error s3 = None
  /\ (forall mine', e = EvAttachReceiver mine' -> exists l, nth_error (s_rcvs s3) (length (s_rcvs s1)) = Some l
        /\ rcv_ids l = (as_u32 (slab_key (s_links s1)), as_u32 (slab_key (s_links s1)), attach_name mine)).
Proof.
  intros p e mine f s1 s3 (id & local & rc & mfs & b & evs1 & evs2 & s2 & os1 & os2 & os3 & R1 & D & Nn & H & O & R2 & T & Er & W).
  assert (Re : reachable p s1) by (exists id, local, rc, mfs, b, evs1, os1; exact R1).
  assert (Un : unknown (attach_name mine) s1).
  { eapply unknown_run; [apply unknown_start | exact Nn | exact R1 |]. intros x Hx. apply T. apply in_or_app. auto. }
  assert (A2 : attaching (attach_name mine) (next_future s1) (slab_key (s_links s1)) (own_slot e s1) s2).
  { eapply own_attaching; [exact Un | apply (lk_reachable p); exact Re | apply (fut_reachable p); exact Re | exact H |]. exists mine. auto. }
  assert (A3 : attaching (attach_name mine) (next_future s1) (slab_key (s_links s1)) (own_slot e s1) s3).
  { eapply attaching_run; [exact A2 | exact Nn | exact R2 |]. intros x Hx. apply T. apply in_or_app. auto. }
  destruct (attaching_slot _ _ _ _ _ A3 W) as [G Nm].
  assert (F : f = set_handle (as_u32 (slab_key (s_links s1))) mine).
  { assert (Q : s_out s2 = s_out s1 ++ [FAttach (set_handle (as_u32 (slab_key (s_links s1))) mine)]).
    { destruct D as [-> | ->]; cbn [step] in H; apply EOk_inj in H; apply (f_equal fst) in H; cbn [fst] in H; subst s2; reflexivity. }
    rewrite Q in O. apply app_inv_head in O. congruence. }
  split; [exact F|]. split; [exact Nm|]. split; [exact G|]. split; [exact Er|].
  intros mine' ->. destruct D as [D|D]; [discriminate D|]. injection D as ->. cbn [step] in H. apply EOk_inj in H. apply (f_equal fst) in H. cbn [fst] in H.
  assert (E2 : nth_error (s_rcvs s2) (length (s_rcvs s1)) = Some (rcv_new (as_u32 (slab_key (s_links s1))) (as_u32 (slab_key (s_links s1))) mine)).
  { subst s2. unfold attach_local_receiver, new_chan, insert_link. cbn [snd]. unfold post. st_cbn.
    rewrite nth_error_app2, Nat.sub_diag by reflexivity. reflexivity. }
  destruct (run_ids _ _ _ _ _ _ _ R2 E2) as (l & El & I). exists l. split; [exact El|]. rewrite I. reflexivity.
Qed.

(** ** The side that is asked *)
Lemma asked_facts : forall p f y t1 t3, was_asked p f y t1 t3 ->
  lk_inv [] t3 /\ slots_fit t3
  /\ (forall e t4 os, step p e t3 = EOk (t4, os) -> (forall g, e <> EvAttach g) -> opens_link e = false -> is_open y t4 -> finds_remote (attach_handle f) y t4)
  /\ match y with
     | LReceiver a => exists l h, nth_error (s_rcvs t3) a = Some l /\ rcv_ids l = (h, attach_handle f, attach_name f)
     | LSender a => exists l k, nth_error (s_snds t3) a = Some l /\ snd_ids l = (k, or_default [] (from_address f), attach_handle f)
     end.
Proof.
  intros p f y t1 t3 (id & local & rc & mfs & b & evs1 & evs2 & t2 & os1 & os2 & os3 & k & r & R1 & NW & H & A & Ey & Ct & R2 & U & Lo).
  assert (B : begins_link y f t1 t2
              /\ match y with
                 | LReceiver a => exists h, nth_error (s_rcvs t2) a = Some (rcv_new h (attach_handle f) f)
                 | LSender a => exists i, nth_error (s_snds t2) a = Some (snd_with i f)
                 end).
  { cbn [step] in H. apply EOk_inj in H. apply (f_equal fst) in H. cbn [fst] in H. subst t2. revert Ct. unfold on_attach.
    assert (NC : s_ctl t1 = s_ctl t1 ++ [Some k] -> False).
    { intros Q. apply (f_equal (@length _)) in Q. rewrite app_length in Q. cbn in Q. lia. }
    destruct (s_error t1); [intros Q; elim (NC Q)|].
    destruct (handle_attach f t1) as [t'|] eqn:Ha.
    { unfold handle_attach in Ha. destruct (name_get _ _); [|discriminate Ha]. apply Some_inj in Ha. subst t'.
      intros Q. exfalso. apply NC. rewrite <- Q. repeat fr_break; frw; reflexivity. }
    intros _. unfold new_link in Ey. destruct (attach_role f); subst y.
    - unfold attach_remote_receiver. cbn [insert_link fst snd]. unfold dispatch, control. st_cbn. split.
      + left. split; [reflexivity|]. st_cbn. rewrite app_length. cbn. lia.
      + eexists. rewrite nth_error_app2, Nat.sub_diag by reflexivity. reflexivity.
    - unfold new_remote_sender. cbn [insert_link fst snd]. unfold dispatch, control. st_cbn. split.
      + split; [reflexivity|]. st_cbn. rewrite app_length. cbn. lia.
      + eexists. rewrite nth_error_app2, Nat.sub_diag by reflexivity. reflexivity. }
  destruct B as [B N].
  assert (SL : lk_inv [] t3 /\ slots_fit t3) by (eapply hist_slots; eassumption).
  split; [exact (proj1 SL)|]. split; [exact (proj2 SL)|]. split.
  - intros e t4 os4 H4 NA NO O. eapply (by_remote p id local rc mfs b evs1 (evs2 ++ [e]) f y t1 t2 t4); try eassumption.
    + eapply run_app; [exact R2 | exact (run_one _ _ _ _ _ H4)].
    + intros g Hg. apply in_app_or in Hg as [Hg|[Hg|[]]]; [exact (U g Hg) | elim (NA g Hg)].
    + change (evs1 ++ EvAttach f :: evs2 ++ [e]) with (evs1 ++ (EvAttach f :: evs2) ++ [e]). rewrite app_assoc, opened_two.
      unfold links_opened at 2. cbn [filter]. rewrite NO. cbn. lia.
  - destruct y as [a|a].
    + destruct N as (i & N). destruct (run_snd_ids _ _ _ _ _ _ _ R2 N) as (l & El & I). exists l, i. split; [exact El|]. rewrite I.
      unfold snd_ids, snd_with, snd_new, from_address. cbn. destruct (attach_source f); reflexivity.
    + destruct N as (h & N). destruct (run_ids _ _ _ _ _ _ _ R2 N) as (l & El & I). exists l, h. split; [exact El|]. rewrite I. reflexivity.
Qed.

Lemma open_receiver_exact : forall p i edit r a l t t' os, called i (KAttached r a) t -> being_attached a t ->
  nth_error (s_rcvs t) a = Some l -> step p (EvCtlOk i edit) t = EOk (t', os) ->
  exists fl l', s_out t' = s_out t ++ [FAttach (set_max_size (if rc_max l =? 0 then None else Some (rc_max l)) r); FFlow fl]
    /\ nth_error (s_rcvs t') a = Some l' /\ rcv_ids l' = rcv_ids l /\ rc_max l' = rc_max l /\ rc_dc l' = rc_dc l
    /\ slab_get (s_links t') (rc_handle l) = Some (REstablished a).
Proof.
  intros p i edit r a l t t' os P (l0 & src & El0 & Cl & Sl) El H. rewrite El in El0. injection El0 as <-.
  unfold called in P. cbn [step] in H. rewrite P in H. cbn [control_ok] in H.
  match type of H with context [set_s_ctl ?x t] => set (t0 := set_s_ctl x t) in * end.
  assert (R1 : s_rcvs t0 = s_rcvs t) by reflexivity. assert (L1 : s_links t0 = s_links t) by reflexivity.
  unfold confirm_receiver in H. rewrite R1, El in H. cbv zeta in H. rewrite L1, Sl in H.
  assert (Pl : put_link (rc_handle l) (REstablished a) t0 = set_s_links (slab_set (rc_handle l) (REstablished a) (s_links t0)) t0).
  { unfold put_link. rewrite L1, Sl. reflexivity. }
  rewrite Pl in H. unfold set_link_credit in H.
  match type of H with context [nth_error (s_rcvs ?x) a] => change (s_rcvs x) with (s_rcvs t) in H; set (t2 := x) in * end. rewrite El in H.
  destruct (checked_add p (rc_credit l) 50) as [c|] eqn:Ec; [|discriminate H]. cbn [ebind] in H. unfold noobs, emap in H.
  apply EOk_inj in H. apply (f_equal fst) in H. cbn [fst] in H. subst t'.
  eexists _, (set_rc_credit c l). unfold rcv_link_flow. split; [rewrite post_out; frw; unfold t2; rewrite post_out; st_cbn; rewrite <- app_assoc; reflexivity|].
  split.
  { frw. rewrite nth_upd_rcv, Nat.eqb_refl. change (s_rcvs t2) with (s_rcvs t). rewrite El. reflexivity. }
  split; [reflexivity|]. split; [reflexivity|]. split; [reflexivity|].
  frw. unfold t2. frw. st_cbn. rewrite slab_get_set by congruence. rewrite N.eqb_refl. reflexivity.
Qed.

Lemma ends_send : forall p mine f s1 s3 y t1 t3 t4 os i edit r,
  asking p (EvAttachSender mine) mine f s1 s3 -> was_asked p f (LReceiver y) t1 t3 ->
  called i (KAttached r y) t3 -> being_attached y t3 -> attach_name r = attach_name f -> own_handle (LReceiver y) t3 (attach_handle r) ->
  step p (EvCtlOk i edit) t3 = EOk (t4, os) ->
  exists g fl, s_out t4 = s_out t3 ++ [FAttach g; FFlow fl] /\ forall s4 os4, step p (EvAttach g) s3 = EOk (s4, os4) ->
    let x := LSender (length (s_snds s3)) in
    two_ends x s4 (LReceiver y) t4
    /\ has_name x s4 (attach_name mine) /\ has_name (LReceiver y) t4 (attach_name mine)
    /\ (forall h, own_handle x s4 h <-> peer_handle (LReceiver y) t4 h)
    /\ (forall k, own_handle (LReceiver y) t4 k <-> peer_handle x s4 k)
    /\ counts x s4 (or_default 0 (attach_initial_delivery_count r))
    /\ (forall m, takes_up_to y t4 m -> sends_up_to (length (s_snds s3)) s4 (if m =? 0 then None else Some (cut m))).
Proof.
  intros p mine f s1 s3 y t1 t3 t4 os i edit r As Wa Ca Ba Nr Hr H.
  destruct (asking_facts _ _ _ _ _ _ As) as (Ef & Nm & Sl & Er & _). cbn [own_slot] in Sl.
  destruct (asked_facts _ _ _ _ _ Wa) as (LK & Fit & Fr & (l & h & El & Il)).
  destruct (open_receiver_exact p i edit r y l t3 t4 os Ca Ba El H) as (fl & l' & O & El' & Il' & Mx & Dc & G).
  assert (Op : is_open (LReceiver y) t4) by (exists (rc_handle l); exact G).
  assert (Fd := Fr _ _ _ H (fun g D => match D with end) eq_refl Op).
  assert (Hh : rc_handle l = attach_handle r).
  { destruct Hr as (l2 & E2 & ->). congruence. }
  set (k := slab_key (s_links s1)) in *.
  eexists _, fl. split; [exact O|]. intros s4 os4 H4. cbv zeta.
  assert (Na : attach_name (set_max_size (if rc_max l =? 0 then None else Some (rc_max l)) r) = attach_name mine).
  { change (attach_name r = attach_name mine). rewrite Nr, Ef. reflexivity. }
  cbn [step] in H4. apply EOk_inj in H4. apply (f_equal fst) in H4. cbn [fst] in H4. subst s4.
  unfold on_attach, handle_attach. rewrite Er, Na, Nm, Sl. cbv zeta. cbn [fire_opt].
  match goal with |- context [fire (next_future s1) ?v ?x] => set (s4 := fire (next_future s1) v x) end.
  assert (Es : nth_error (s_snds s4) (length (s_snds s3)) = Some (snd_new k (attach_name mine) (attach_handle r)
     (or_default 0 (attach_initial_delivery_count r)) (option_map clamp_u32 (if rc_max l =? 0 then None else Some (rc_max l))))).
  { unfold s4. frw. st_cbn. rewrite nth_error_app2, Nat.sub_diag by reflexivity. reflexivity. }
  assert (Gs : slab_get (s_links s4) k = Some (SEstablished (length (s_snds s3)))).
  { unfold s4. frw. st_cbn. rewrite slab_get_set by congruence. rewrite N.eqb_refl. reflexivity. }
  assert (Mp : map_get (attach_handle r) (s_rhandles s4) = Some k).
  { unfold s4. frw. st_cbn. cbn [attach_handle set_max_size]. rewrite map_get_put, N.eqb_refl. reflexivity. }
  clearbody s4.
  assert (Hf : attach_handle f = as_u32 k) by (rewrite Ef; reflexivity).
  assert (I2 : rc_handle l' = attach_handle r /\ rc_rhandle l' = as_u32 k /\ rc_name l' = attach_name mine).
  { unfold rcv_ids in *. assert (Nf : attach_name f = attach_name mine) by (rewrite Ef; reflexivity).
    repeat split; congruence. }
  destruct I2 as (I2 & I3 & I4).
  split.
  { split; [exact I|]. split; [exists k; exact Gs|]. split; [exact Op|]. exists (as_u32 k), (attach_handle r).
    split; [eexists; split; [exact Es | reflexivity]|]. split; [exists l'; split; [exact El' | congruence]|].
    split; [|rewrite <- Hf; exact Fd]. cbn [finds_remote]. unfold sender_by_remote. rewrite Mp, Gs. reflexivity. }
  split; [eexists; split; [exact Es | reflexivity]|]. split; [exists l'; auto|]. split; [|split; [|split]].
  - intros h'. split.
    + intros (l2 & E2 & ->). rewrite Es in E2. injection E2 as <-. exists l'. split; [exact El' | exact I3].
    + intros (l2 & E2 & <-). rewrite El' in E2. injection E2 as <-. eexists. split; [exact Es | exact I3].
  - intros h'. split.
    + intros (l2 & E2 & ->). rewrite El' in E2. injection E2 as <-. eexists. split; [exact Es | symmetry; exact I2].
    + intros (l2 & E2 & <-). rewrite Es in E2. injection E2 as <-. exists l'. split; [exact El' | symmetry; exact I2].
  - eexists. split; [exact Es | reflexivity].
  - intros m (l2 & E2 & <-). rewrite El' in E2. injection E2 as <-. eexists. split; [exact Es|]. cbn [sn_max snd_new]. rewrite Mx.
    destruct (rc_max l =? 0); cbn [option_map]; [reflexivity|]. rewrite cut_clamp. reflexivity.
Qed.

Lemma ends_receive : forall p mine f s1 s3 y l t1 t3 t4 os i edit r,
  asking p (EvAttachReceiver mine) mine f s1 s3 -> was_asked p f (LSender y) t1 t3 ->
  called i (KAttachSender f r y) t3 -> nth_error (s_snds t3) y = Some l -> ~ vacant (sn_id l) t3 -> attach_name (edit r) = attach_name f ->
  step p (EvCtlOk i edit) t3 = EOk (t4, os) ->
  exists g, s_out t4 = s_out t3 ++ [FAttach g] /\ forall s4 os4, step p (EvAttach g) s3 = EOk (s4, os4) ->
    let x := LReceiver (length (s_rcvs s1)) in
    two_ends x s4 (LSender y) t4
    /\ has_name x s4 (attach_name mine) /\ has_name (LSender y) t4 (or_default [] (from_address mine))
    /\ (forall h, own_handle x s4 h <-> peer_handle (LSender y) t4 h)
    /\ (forall h, own_handle x s4 h <-> peer_handle x s4 h)
    /\ (forall m, sends_up_to y t4 m -> attach_max_message_size g = m).
Proof.
  intros p mine f s1 s3 y l t1 t3 t4 os i edit r As Wa Ca El Nv Nr H.
  destruct (asking_facts _ _ _ _ _ _ As) as (Ef & Nm & Sl & Er & Rc). cbn [own_slot] in Sl.
  destruct (Rc mine eq_refl) as (lr & Elr & Ilr). clear Rc.
  destruct (asked_facts _ _ _ _ _ Wa) as (LK & Fit & Fr & (l0 & k0 & El0 & Il0)). rewrite El in El0. injection El0 as <-.
  assert (X : exists l', s_out t4 = s_out t3 ++ [FAttach (set_max_size (sn_max l) (set_handle (as_u32 (sn_id l)) (edit r)))]
     /\ nth_error (s_snds t4) y = Some l' /\ snd_ids l' = snd_ids l /\ sn_max l' = sn_max l /\ slab_get (s_links t4) (sn_id l) = Some (SEstablished y)).
  { unfold called in Ca. cbn [step] in H. rewrite Ca in H. cbn [control_ok] in H. unfold attach_remote_sender in H. cbv zeta in H.
    match type of H with context [nth_error (s_snds ?x) y] => change (s_snds x) with (s_snds t3) in H end. rewrite El in H.
    match type of H with context [put_link _ _ ?x] => set (t0 := x) in * end.
    assert (L1 : s_links t0 = s_links t3) by (unfold t0; st_cbn; repeat fr_break; reflexivity).
    assert (S1 : s_snds t0 = s_snds t3) by (unfold t0; st_cbn; repeat fr_break; reflexivity).
    assert (O1 : s_out t0 = s_out t3) by (unfold t0; st_cbn; repeat fr_break; reflexivity).
    destruct (slab_get (s_links t0) (sn_id l)) as [old|] eqn:Es; [|elim Nv; unfold vacant; rewrite <- L1; exact Es]. unfold noobs, emap in H.
    apply EOk_inj in H. apply (f_equal fst) in H. cbn [fst] in H. subst t4. rewrite post_out. frw. rewrite put_link_get by congruence. rewrite N.eqb_refl.
    assert (Q : exists l', nth_error (s_snds (put_link (sn_id l) (SEstablished y) t0)) y = Some l' /\ snd_ids l' = snd_ids l /\ sn_max l' = sn_max l).
    { unfold put_link. rewrite Es. destruct old; cbn [drop_link]; frw; st_cbn; rewrite ?S1; eauto.
      unfold drop_established_snd. st_cbn. rewrite S1. destruct (nth_error (s_snds t3) a) as [l1|] eqn:E1; [|st_cbn; rewrite S1; eauto].
      destruct (sn_closed l1); [st_cbn; rewrite S1; eauto|]. unfold notify_lock_snd.
      match goal with |- context [upd_snd a (set_sn_closed true) ?z] => set (t5 := z) end.
      assert (S5 : s_snds t5 = s_snds t3) by (unfold t5; st_cbn; exact S1).
      destruct (nth_error (s_snds (upd_snd a (set_sn_closed true) t5)) a) as [l2|] eqn:E2.
      - rewrite nth_upd_snd. frw. rewrite nth_upd_snd, S5. destruct (Nat.eqb_spec a y) as [->|Q]; [|apply Nat.eqb_neq in Q; rewrite nth_upd_snd, Q, S5; eauto].
        rewrite El, ?Nat.eqb_refl. cbn [option_map]. eexists. split; [reflexivity | split; reflexivity].
      - rewrite nth_upd_snd, S5. destruct (Nat.eqb_spec a y) as [->|]; [|eauto]. rewrite El. cbn [option_map]. eexists. split; [reflexivity | split; reflexivity].
      - match goal with |- context [match ?o with Some _ => _ | None => _ end] => destruct o as [[? ?]|] end; frw; st_cbn; rewrite S1; eauto. }
    destruct Q as (l' & E' & I' & M'). exists l'. rewrite O1. auto. }
  destruct X as (l' & O & El' & Il' & Mx & G).
  assert (Op : is_open (LSender y) t4) by (exists (sn_id l); exact G).
  assert (Fd := Fr _ _ _ H (fun g D => match D with end) eq_refl Op).
  set (k := slab_key (s_links s1)) in *.
  eexists. split; [exact O|]. intros s4 os4 H4. cbv zeta.
  assert (Na : attach_name (set_max_size (sn_max l) (set_handle (as_u32 (sn_id l)) (edit r))) = attach_name mine).
  { change (attach_name (edit r) = attach_name mine). rewrite Nr, Ef. reflexivity. }
  cbn [step] in H4. apply EOk_inj in H4. apply (f_equal fst) in H4. cbn [fst] in H4. subst s4.
  unfold on_attach, handle_attach. rewrite Er, Na, Nm, Sl. cbv zeta.
  match goal with |- context [fire (next_future s1) ?v ?x] => set (s4 := fire (next_future s1) v x) end.
  assert (Es : nth_error (s_rcvs s4) (length (s_rcvs s1)) = Some lr).
  { unfold s4. frw. st_cbn. exact Elr. }
  assert (Gs : slab_get (s_links s4) k = Some (REstablished (length (s_rcvs s1)))).
  { unfold s4. frw. st_cbn. rewrite slab_get_set by congruence. rewrite N.eqb_refl. reflexivity. }
  assert (Mp : map_get (as_u32 (sn_id l)) (s_rhandles s4) = Some k).
  { unfold s4. frw. st_cbn. cbn [attach_handle set_max_size set_handle]. rewrite map_get_put, N.eqb_refl. reflexivity. }
  clearbody s4.
  assert (Hf : attach_handle f = as_u32 k) by (rewrite Ef; reflexivity).
  assert (Ff : from_address f = from_address mine) by (rewrite Ef; reflexivity).
  assert (I2 : sn_id l' = sn_id l /\ sn_name l' = or_default [] (from_address mine) /\ sn_rhandle l' = as_u32 k) by (unfold snd_ids in *; repeat split; congruence).
  destruct I2 as (I2 & I3 & I4).
  assert (J2 : rc_handle lr = as_u32 k /\ rc_rhandle lr = as_u32 k /\ rc_name lr = attach_name mine) by (unfold rcv_ids in *; repeat split; congruence).
  destruct J2 as (J2 & J3 & J4).
  split.
  { split; [exact I|]. split; [exists k; exact Gs|]. split; [exact Op|]. exists (as_u32 k), (as_u32 (sn_id l)).
    split; [exists lr; split; congruence|]. split; [exists l'; split; [exact El' | congruence]|].
    split; [|rewrite <- Hf; exact Fd]. cbn [finds_remote]. unfold receiver_by_remote. rewrite Mp, Gs. reflexivity. }
  split; [exists lr; auto|]. split; [exists l'; auto|]. split; [|split].
  - intros h'. split; intros (l2 & E2 & Q).
    + exists l'. split; congruence.
    + exists lr. split; congruence.
  - intros h'. split; intros (l2 & E2 & Q); exists lr; split; congruence.
  - intros m (l2 & E2 & <-). cbn [attach_max_message_size set_max_size]. congruence.
Qed.
