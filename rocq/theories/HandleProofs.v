(** * Handles: which link a frame of the peer is for *)

From Coq Require Import ZifyBool ZifyNat ZifyN.
From Verif Require Export ClaimRel DispTheorems SpecHandles.
Import ListNotations.

(** ** What an event does to slots and to waiting attaches *)
Lemma handle_frame_action : forall p f s s' act, ses_handle_frame p f s = EOk (s', inl act) -> forall a frm r, act <> AAttachSender a frm r.
Proof.
  intros p f s s' act H a frm r E. subst act. unfold ses_handle_frame in H. destruct (s_error s); [discriminate H|]. destruct f; try discriminate H.
  - repeat match type of H with context [match ?x with _ => _ end] => destruct x; try discriminate H end.
  - destruct (map_get _ _); [|discriminate H]. destruct (slab_get _ _) as [[]|]; try discriminate H.
    unfold rcv_transfer in H. cbv zeta in H.
    repeat match type of H with
    | context [rcv_close ?x ?y ?z] => destruct (rcv_close x y z); cbn [ebind emap] in H; try discriminate H
    | context [checked_add ?x ?y ?z] => destruct (checked_add x y z); cbn [ebind emap] in H; try discriminate H
    | context [match ?x with _ => _ end] => destruct x; cbn [ebind emap] in H; try discriminate H
    end.
  - assert (N : snd (handle_detach x s) <> AAttachSender a frm r).
    { unfold handle_detach. cbv zeta. repeat match goal with |- context [match ?x with _ => _ end] => destruct x; cbn [snd]; try discriminate end. }
    destruct (handle_detach x s) as [s1 act]. cbn [snd] in N. congruence.
Qed.
Lemma kas_dispatch : forall act s, (forall a frm r, act <> AAttachSender a frm r) -> stable kas_rel s (dispatch act s).
Proof.
  intros act s N. destruct act; cbn [dispatch]; try exact _; [apply stable_refl; exact _ | exfalso; exact (N _ _ _ eq_refl)].
Qed.
Lemma step_kas : forall p e s s' os, step p e s = EOk (s', os) -> (exists frm, e = EvAttach frm) \/ stable kas_rel s s'.
Proof.
  intros p e s s' os H. destruct e; [right | left; eauto | right; cbn [step] in H; step_er H ..].
  cbn [step] in H. destruct (ses_handle_frame p f s) as [[s1 r]|] eqn:E; [|discriminate H]. cbn [ebind] in H. apply EOk_inj in H. apply (f_equal fst) in H. cbn [fst] in H. subst s'.
  assert (R := kas_rel_ses_handle_frame p f s _ E). cbn [fst] in R. destruct r as [act|]; [|exact R].
  eapply stable_trans; [exact _ | exact R |]. apply kas_dispatch. exact (handle_frame_action _ _ _ _ _ E).
Qed.
Lemma step_clm : forall p e s s' os, step p e s = EOk (s', os) ->
  stable clm_rel s s' \/ (exists frm, e = EvAttach frm) \/ (exists d, e = EvFrame (FDetach d) /\ s_error s = None)
  \/ exists i edit frm r a, e = EvCtlOk i edit /\ pending_at i frm r a s.
Proof.
  intros p e s s' os H. destruct e; try (left; solve [cbn [step] in H; step_er H]).
  - destruct (s_error s) eqn:Er.
    + left. cbn [step] in H. unfold ses_handle_frame in H. rewrite Er in H. step_er H.
    + destruct f; try (left; solve [cbn [step] in H; unfold ses_handle_frame in H; rewrite Er in H; step_er H]). right; right; left. eauto.
  - right; left. eauto.
  - cbn [step] in H. destruct (nth_error (s_ctl s) i) as [[k|]|] eqn:E; try (left; solve [step_er H]).
    destruct k; try (left; solve [unfold control_ok in H; step_er H]). do 3 right. unfold pending_at. eauto 10.
Qed.

(** ** What the frames that change slots do *)
(** An attach frame is one of four things. *)
Inductive attach_case (frm : attach_t) (s s' : ses) : Prop :=
| ac_nothing : s' = s -> attach_case frm s s'
| ac_sender (i : N) tx :
    slab_get (s_links s) i = Some (SOpening tx) ->
    s_links s' = slab_set i (SEstablished (length (s_snds s))) (s_links s) ->
    s_rhandles s' = map_put (attach_handle frm) i (s_rhandles s) ->
    length (s_snds s') = S (length (s_snds s)) -> length (s_rcvs s') = length (s_rcvs s) -> length (s_chans s') = length (s_chans s) ->
    s_ctl s' = s_ctl s -> attach_case frm s s'
| ac_receiver (i : N) a tx :
    slab_get (s_links s) i = Some (ROpeningLocal (Some (a, tx))) ->
    s_links s' = slab_set i (REstablished a) (s_links s) ->
    s_rhandles s' = map_put (attach_handle frm) i (s_rhandles s) ->
    length (s_snds s') = length (s_snds s) -> length (s_rcvs s') = length (s_rcvs s) -> length (s_chans s') = length (s_chans s) ->
    s_ctl s' = s_ctl s -> attach_case frm s s'
| ac_new_sender r l :
    s_links s' = slab_insert SOpeningRemote (s_links s) ->
    s_rhandles s' = s_rhandles s -> s_snds s' = s_snds s ++ [l] -> sn_rhandle l = attach_handle frm ->
    length (s_rcvs s') = length (s_rcvs s) -> length (s_chans s') = length (s_chans s) ->
    s_ctl s' = s_ctl s ++ [Some (KAttachSender frm r (length (s_snds s)))] -> attach_case frm s s'
| ac_new_receiver r :
    s_links s' = slab_insert (ROpening (Some (length (s_rcvs s), attach_source frm))) (s_links s) ->
    s_rhandles s' = map_put (attach_handle frm) (slab_key (s_links s)) (s_rhandles s) ->
    length (s_snds s') = length (s_snds s) -> length (s_rcvs s') = S (length (s_rcvs s)) -> length (s_chans s') = length (s_chans s) ->
    s_ctl s' = s_ctl s ++ [Some (KAttachReceiver frm r (length (s_rcvs s)))] -> attach_case frm s s'.
Lemma attach_cases : forall p frm s s' os, step p (EvAttach frm) s = EOk (s', os) -> attach_case frm s s'.
Proof.
  intros p frm s s' os H. cbn [step] in H. apply EOk_inj in H. apply (f_equal fst) in H. cbn [fst] in H. subst s'.
  unfold on_attach. destruct (s_error s); [apply ac_nothing; reflexivity|]. unfold handle_attach.
  destruct (name_get (attach_name frm) (s_names s)) as [i|].
  - destruct (slab_get (s_links s) i) as [[| |tx| | |[[a tx]|]| |]|] eqn:E; try (apply ac_nothing; reflexivity).
    + eapply ac_sender; [exact E|..]; frw; st_cbn; rewrite ?app_length; cbn [length]; try reflexivity; try lia.
      unfold fire_opt. destruct tx; [|reflexivity]. unfold fire. st_cbn. apply put_chan_len.
    + eapply ac_receiver; [exact E|..]; frw; st_cbn; try reflexivity. unfold fire. st_cbn. apply put_chan_len.
  - destruct (attach_role frm).
    + unfold attach_remote_receiver, insert_link. cbv zeta. cbn [snd dispatch].
      eapply ac_new_receiver; unfold control; st_cbn; rewrite ?app_length; cbn [length]; try reflexivity; lia.
    + unfold new_remote_sender, insert_link. cbv zeta. cbn [snd dispatch].
      eapply ac_new_sender; unfold control; st_cbn; try reflexivity.
Qed.
(** The control service has accepted the attach of a new sender link. *)
Lemma confirm_case : forall p i edit frm r a s s' os, pending_at i frm r a s -> step p (EvCtlOk i edit) s = EOk (s', os) ->
  match nth_error (s_snds s) a with
  | None => stable clm_rel s s'
  | Some l =>
      lens s s' /\ s_rhandles s' = map_put (attach_handle frm) (sn_id l) (s_rhandles s)
      /\ forall k x, claims k x s' -> (k = sn_id l /\ x = XSnd a) \/ (k <> sn_id l /\ claims k x s) \/ unborn x s
  end.
Proof.
  intros p i edit frm r a s s' os Hp H. unfold pending_at in Hp. cbn [step] in H. rewrite Hp in H. cbn [control_ok] in H. unfold attach_remote_sender in H. cbv zeta in H.
  match type of H with context [nth_error (s_snds ?x) a] => change (s_snds x) with (s_snds s) in H end.
  destruct (nth_error (s_snds s) a) as [l|] eqn:El.
  - match type of H with context [put_link _ _ ?x] => set (s1 := x) in * end.
    destruct (slab_get (s_links s1) (sn_id l)) as [old|] eqn:Es; [|discriminate H]. unfold noobs, emap in H. cbn [ebind] in H.
    apply EOk_inj in H. apply (f_equal fst) in H. cbn [fst] in H. subst s'.
    assert (E1 : s_links s1 = s_links s) by (unfold s1; repeat fr_break; reflexivity).
    assert (E2 : s_rhandles s1 = map_put (attach_handle frm) (sn_id l) (s_rhandles s)) by (unfold s1; repeat fr_break; reflexivity).
    assert (E3 : s_snds s1 = s_snds s) by (unfold s1; repeat fr_break; reflexivity).
    assert (E4 : s_rcvs s1 = s_rcvs s) by (unfold s1; repeat fr_break; reflexivity).
    assert (E5 : s_chans s1 = s_chans s) by (unfold s1; repeat fr_break; reflexivity).
    clearbody s1. match goal with |- context [post ?f ?x] => set (fr := f) end. clearbody fr.
    assert (Ed : put_link (sn_id l) (SEstablished a) s1 = drop_link old (set_s_links (slab_set (sn_id l) (SEstablished a) (s_links s1)) s1)).
    { unfold put_link. rewrite Es. reflexivity. }
    set (s2 := set_s_links (slab_set (sn_id l) (SEstablished a) (s_links s1)) s1) in *.
    assert (R := clm_rel_drop_link old s2). destruct R as (L & Rh & _).
    refine (conj _ (conj _ _)).
    + rewrite Ed. unfold lens in *. unfold post. st_cbn. unfold s2 in L. st_cbn_in L. rewrite E3, E4, E5 in L. exact L.
    + rewrite Ed. unfold post. st_cbn. rewrite Rh. unfold s2. st_cbn. exact E2.
    + intros k x (lk & G & I). unfold post in G. st_cbn_in G. rewrite put_link_get in G by (rewrite Es; discriminate).
      destruct (N.eqb_spec (sn_id l) k) as [->|].
      * left. apply Some_inj in G. subst lk. destruct x; cbn in I; try contradiction. subst. auto.
      * right; left. split; [auto|]. exists lk. rewrite E1 in G. auto.
  - cbn in H. apply EOk_inj in H. apply (f_equal fst) in H. cbn [fst] in H. subst s'. st_chain.
Qed.
(** A detach frame takes the link out of its slot, and the handle out of the table. *)
Lemma removed_case : forall h idx act s0 s, stable clm_rel s0 s ->
  let s' := dispatch act (set_s_rhandles (map_del h (s_rhandles s)) (remove_link idx s)) in
  lens s0 s' /\ s_rhandles s' = map_del h (s_rhandles s0) /\ forall k x, claims k x s' -> k <> idx /\ (claims k x s0 \/ unborn x s0).
Proof.
  intros h idx act s0 s (L & R & C). cbv zeta. set (s1 := set_s_rhandles (map_del h (s_rhandles s)) (remove_link idx s)).
  assert (F := fr_dispatch act s1). assert (Fl := F Flinks eq_refl). assert (Fr := F Frhandles eq_refl). assert (Fs := F Fsnds eq_refl). assert (Fv := F Frcvs eq_refl). assert (Fc := F Fchans eq_refl).
  cbn [same] in *. unfold lens, claims. rewrite Fl, Fr, Fs, Fv, Fc. unfold s1. st_cbn.
  assert (R1 := clm_rel_remove_link idx s). destruct R1 as (L1 & _ & _).
  refine (conj _ (conj _ _)).
  - unfold lens in *. lia.
  - rewrite R. reflexivity.
  - intros k x (lk & G & I). rewrite remove_link_get in G. destruct (N.eqb_spec idx k) as [->|N]; [discriminate G|]. split; [auto|]. apply C. exists lk. auto.
Qed.
Lemma detach_case : forall p d s s' os, s_error s = None -> step p (EvFrame (FDetach d)) s = EOk (s', os) ->
  stable clm_rel s s'
  \/ exists idx, (forall k, map_get (detach_handle d) (s_rhandles s) = Some k -> k = idx)
     /\ lens s s' /\ s_rhandles s' = map_del (detach_handle d) (s_rhandles s)
     /\ forall k x, claims k x s' -> k <> idx /\ (claims k x s \/ unborn x s).
Proof.
  intros p d s s' os Er H. cbn [step] in H. unfold ses_handle_frame in H. rewrite Er in H. unfold handle_detach in H. cbv zeta in H.
  destruct (match map_get (detach_handle d) (s_rhandles s) with
     | Some i => Some i | None => match slab_get (s_links s) (detach_handle d) with Some _ => Some (detach_handle d) | None => None end end) as [idx|] eqn:Ei.
  2:{ left. cbn in H. apply EOk_inj in H. apply (f_equal fst) in H. cbn [fst] in H. subst s'. apply stable_refl. exact _. }
  assert (Hi : forall k, map_get (detach_handle d) (s_rhandles s) = Some k -> k = idx).
  { intros k Hk. rewrite Hk in Ei. congruence. }
  clear Ei.
  destruct (slab_get (s_links s) idx) as [[| | | |[[a src]|]|[[a src]|]| |]|] eqn:Es;
    try (left; cbn in H; apply EOk_inj in H; apply (f_equal fst) in H; cbn [fst] in H; subst s'; apply stable_refl; exact _).
  all: try match type of H with context [match nth_error ?l ?i with _ => _ end] => destruct (nth_error l i) as [l0|];
    [|left; cbn in H; apply EOk_inj in H; apply (f_equal fst) in H; cbn [fst] in H; subst s'; apply stable_refl; exact _] end.
  all: cbn [ebind] in H; apply EOk_inj in H; apply (f_equal fst) in H; cbn [fst] in H; subst s'; right; exists idx; split; [exact Hi|].
  all: apply removed_case; st_chain.
Qed.
