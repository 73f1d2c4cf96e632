(** * Proofs: attaching links *)

From Coq Require Import ZifyBool ZifyNat ZifyN.
From Verif Require Import Base BaseProofs.
From Verif Require Export SpecAttach ReserveRel HandleTheorems ReadyProofs.
Import ListNotations.

(** ** Names *)
Definition nm_rel (s s' : ses) : Prop := s_names s' = s_names s.
#[export] Instance nm_pre : preorder nm_rel.
Proof. split; unfold nm_rel; [auto | congruence]. Qed.
#[export] Instance nm_sees : sees nm_rel [Fnames].
Proof. intros s s' H. exact (H Fnames eq_refl). Qed.

Inductive names_case (e : ev) (s s' : ses) : Prop :=
| nc_same : s_names s' = s_names s -> names_case e s s'
| nc_own frm k : (e = EvAttachSender frm \/ e = EvAttachReceiver frm) -> k = slab_key (s_links s) ->
    s_names s' = name_put (attach_name frm) k (s_names s) -> names_case e s s'
| nc_accept i edit frm r a l n : e = EvCtlOk i edit -> pending_at i frm r a s -> nth_error (s_snds s) a = Some l ->
    from_address frm = Some n -> s_names s' = name_put n (sn_id l) (s_names s) -> names_case e s s'
| nc_detach d k a l : e = EvFrame (FDetach d) -> slab_get (s_links s) k = Some (SEstablished a) -> nth_error (s_snds s) a = Some l ->
    slab_get (s_links s') k = None ->
    s_names s' = name_del (sn_name l) (s_names s) -> names_case e s s'
| nc_fail x : e = EvFail x -> s_names s' = [] -> names_case e s s'.
Lemma step_names : forall p e s s' os, step p e s = EOk (s', os) -> names_case e s s'.
Proof.
  intros p e s s' os H.
  assert (NM : stable nm_rel s s' -> names_case e s s') by (intros X; apply nc_same; exact X).
  destruct e; try (apply NM; solve [cbn [step] in H; step_er H]).
  - destruct (s_error s) eqn:Er.
    + apply NM. cbn [step] in H. unfold ses_handle_frame in H. rewrite Er in H. step_er H.
    + destruct f; try (apply NM; solve [cbn [step] in H; unfold ses_handle_frame in H; rewrite Er in H; step_er H]).
      cbn [step] in H. unfold ses_handle_frame in H. rewrite Er in H. cbn [ebind] in H.
      match type of H with context [handle_detach ?d0 s] => set (d := d0) in *; destruct (handle_detach d s) as [s1 act] eqn:Hd end. cbn [ebind] in H. apply EOk_inj in H. apply (f_equal fst) in H. cbn [fst] in H. subst s'.
      assert (Dn : s_names (dispatch act s1) = s_names s1) by (frw; reflexivity).
      assert (Dl : s_links (dispatch act s1) = s_links s1) by (frw; reflexivity).
      unfold handle_detach in Hd. cbv zeta in Hd.
      match type of Hd with match ?m with _ => _ end = _ => destruct m as [idx|] end; [|injection Hd as <- <-; apply nc_same; exact Dn].
      destruct (slab_get (s_links s) idx) as [lk|] eqn:Es; [|injection Hd as <- <-; apply nc_same; exact Dn].
      destruct lk as [| |tx| | |[[ar tx]|]| |];
        try (injection Hd as <- <-; apply nc_same; rewrite Dn; frw; st_cbn; frw; reflexivity).
      * destruct (nth_error (s_snds s) a) as [l|] eqn:El; injection Hd as <- <-; [|apply nc_same; exact Dn].
        eapply nc_detach; [reflexivity | exact Es | exact El | |].
        -- rewrite Dl. st_cbn. rewrite remove_link_get, N.eqb_refl. reflexivity.
        -- rewrite Dn. frw. st_cbn. frw. reflexivity.
      * destruct (nth_error (s_rcvs s) a) as [l|] eqn:El; injection Hd as <- <-; apply nc_same; rewrite Dn; [|reflexivity].
        frw. st_cbn. frw. reflexivity.
  - apply nc_fail with (x := e); [reflexivity|]. cbn [step] in H. apply EOk_inj in H. apply (f_equal fst) in H. cbn [fst] in H. subst s'.
    unfold ses_set_error. cbv zeta. st_cbn. frw. st_cbn. frw. reflexivity.
  - eapply nc_own with (frm := frm); [auto | reflexivity|]. cbn [step] in H. apply EOk_inj in H. apply (f_equal fst) in H. cbn [fst] in H. subst s'. reflexivity.
  - eapply nc_own with (frm := frm); [auto | reflexivity|]. cbn [step] in H. apply EOk_inj in H. apply (f_equal fst) in H. cbn [fst] in H. subst s'. reflexivity.
  - cbn [step] in H. destruct (nth_error (s_ctl s) i) as [[k|]|] eqn:E; try (apply NM; solve [step_er H]).
    destruct k; try (apply NM; solve [unfold control_ok in H; step_er H]).
    cbn [control_ok] in H. unfold attach_remote_sender in H. cbv zeta in H.
    match type of H with context [nth_error (s_snds ?x) a] => change (s_snds x) with (s_snds s) in H end.
    destruct (nth_error (s_snds s) a) as [l|] eqn:El.
    2: { cbn in H. apply EOk_inj in H. apply (f_equal fst) in H. cbn [fst] in H. subst s'. apply nc_same. reflexivity. }
    match type of H with context [put_link _ _ ?x] => set (s1 := x) in * end.
    destruct (slab_get (s_links s1) (sn_id l)) as [old|] eqn:Es; [|discriminate H]. unfold noobs, emap in H.
    apply EOk_inj in H. apply (f_equal fst) in H. cbn [fst] in H. subst s'.
    destruct (from_address frm) as [n|] eqn:Ea; unfold from_address in Ea.
    + eapply nc_accept; [reflexivity | exact E | exact El | exact Ea |]. frw. unfold s1.
      destruct (attach_source frm) as [src|]; [|discriminate Ea]. rewrite Ea. reflexivity.
    + apply nc_same. frw. unfold s1. destruct (attach_source frm) as [src|]; [rewrite Ea|]; reflexivity.
Qed.

Lemma name_get_put : forall n m k t, name_get n (name_put m k t) = if beqb n m then Some k else name_get n (name_del m t).
Proof. intros. unfold name_put. cbn [name_get]. reflexivity. Qed.

Lemma name_get_del : forall n m t, name_get n (name_del m t) <> None -> n <> m /\ name_get n t <> None.
Proof.
  intros n m t. induction t as [|[k v] t IH]; cbn [name_del filter name_get]; [congruence|].
  destruct (beqb m k) eqn:E; cbn [negb].
  - intros H. destruct (IH H) as [A B]. split; [exact A|]. apply beqb_eq in E as <-. cbn [name_get].
    destruct (beqb n m) eqn:E2; [congruence | exact B].
  - cbn [name_get]. destruct (beqb n k) eqn:E2; [|exact IH]. intros _. apply beqb_eq in E2 as <-. split; [|congruence].
    intros ->. rewrite beqb_refl in E. discriminate E.
Qed.
Lemma name_known_put : forall n m k t, name_get n (name_put m k t) <> None -> n = m \/ name_get n t <> None.
Proof.
  intros n m k t H. rewrite name_get_put in H. destruct (beqb n m) eqn:E; [left; apply beqb_eq; exact E|].
  right. apply name_get_del in H as [_ H]. exact H.
Qed.
Lemma names_hist : forall p evs s s' os n, run p evs s = EOk (s', os) ->
  name_get n (s_names s) = None -> (forall i frm r a, pending_at i frm r a s -> from_address frm <> Some n) ->
  (forall e, In e evs -> ~ takes_name n e) -> name_get n (s_names s') = None.
Proof.
  intros p evs. induction evs as [|e evs IH]; intros s s' os n R N P T; cbn [run] in R.
  - injection R as <- <-. exact N.
  - destruct (step p e s) as [[s1 o1]|] eqn:E; cbn [ebind] in R; [|discriminate R].
    destruct (run p evs s1) as [[s2 o2]|] eqn:R2; cbn [ebind] in R; [|discriminate R]. injection R as <- <-.
    eapply IH; [exact R2 | | | intros x Hx; apply T; right; exact Hx].
    + assert (Te := T e (or_introl eq_refl)). destruct (name_get n (s_names s1)) eqn:G; [exfalso | reflexivity].
      assert (G2 : name_get n (s_names s1) <> None) by congruence. clear G.
      destruct (step_names _ _ _ _ _ E) as [Q | frm k D _ Q | j edit frm r a l m -> Pn El Ea Q | d k a l -> Es El _ Q | x -> Q]; rewrite Q in G2.
      * congruence.
      * apply name_known_put in G2 as [->|G2]; [|congruence]. apply Te. destruct D as [-> | ->]; reflexivity.
      * apply name_known_put in G2 as [->|G2]; [|congruence]. exact (P _ _ _ _ Pn Ea).
      * apply name_get_del in G2 as [_ G2]. congruence.
      * cbn in G2. congruence.
    + intros i frm r a Hp. destruct (pending_hist p [e] s s1 _ (run_one _ _ _ _ _ E) _ _ _ _ Hp) as [I|Hp'].
      * destruct I as [->|[]]. exact (T _ (or_introl eq_refl)).
      * exact (P _ _ _ _ Hp').
Qed.

Lemma asked : forall p frm s s' os, s_error s = None -> name_get (attach_name frm) (s_names s) = None ->
  step p (EvAttach frm) s = EOk (s', os) ->
  exists k r, asks k frm (new_link frm s) r /\ echoes frm r /\ s_ctl s' = s_ctl s ++ [Some k] /\ s_out s' = s_out s.
Proof.
  intros p frm s s' os Er N H. cbn [step] in H. apply EOk_inj in H. apply (f_equal fst) in H. cbn [fst] in H. subst s'.
  unfold on_attach, handle_attach, new_link, echoes. rewrite Er, N.
  destruct (attach_role frm) eqn:R.
  - exists (KAttachReceiver frm (fst (fst (attach_remote_receiver frm s))) (length (s_rcvs s))), (fst (fst (attach_remote_receiver frm s))).
    unfold attach_remote_receiver. cbn [insert_link fst snd]. st_cbn. split; [reflexivity|]. cbn [attach_name attach_role attach_source attach_target]. split; [split; [reflexivity | split; [discriminate | split; reflexivity]]|].
    split; cbn [dispatch control]; st_cbn; reflexivity.
  - destruct (new_remote_sender frm s) as [[id r] s1] eqn:E.
    assert (X : s_ctl s1 = s_ctl s /\ s_out s1 = s_out s /\ s_snds s1 = s_snds s /\ attach_name r = attach_name frm /\ attach_role r = RoleSender
                /\ attach_source r = attach_source frm /\ attach_target r = attach_target frm).
    { unfold new_remote_sender in E. cbn [insert_link fst snd] in E. injection E as <- <- <-. repeat match goal with |- _ /\ _ => split end; reflexivity. }
    destruct X as (X1 & X2 & X3 & X4 & X5 & X6 & X7). rewrite X3.
    eexists _, r. split; [reflexivity|]. split; [split; [congruence | split; [rewrite X5; discriminate | split; congruence]]|]. split.
    + unfold dispatch, control. st_cbn. rewrite X1. reflexivity.
    + unfold dispatch, control. st_cbn. exact X2.
Qed.

(** ** Reservations *)
Lemma step_rsv : forall p e i s s' os, step p e s = EOk (s', os) -> calm i e ->
  stable rsv_rel s s' \/ exists j frm r a, ((exists edit, e = EvCtlOk j edit) \/ (exists x, e = EvCtlErr j x)) /\ pending_at j frm r a s.
Proof.
  intros p e i s s' os H C. destruct e; try (left; solve [cbn [step] in H; step_er H]); try (exfalso; exact C).
  - left. destruct (s_error s) eqn:Er.
    + cbn [step] in H. unfold ses_handle_frame in H. rewrite Er in H. step_er H.
    + destruct f; try (exfalso; exact C); cbn [step] in H; unfold ses_handle_frame in H; rewrite Er in H; step_er H.
  - cbn [step] in H. destruct (nth_error (s_ctl s) i0) as [[k|]|] eqn:E; try (left; solve [step_er H]).
    destruct k; try (left; solve [unfold control_ok in H; step_er H]). right. unfold pending_at. eauto 10.
  - cbn [step] in H. destruct (nth_error (s_ctl s) i0) as [[k|]|] eqn:E; try (left; solve [step_er H]).
    destruct k; try (left; solve [unfold control_err in H; step_er H]). right. unfold pending_at. eauto 10.
Qed.
Lemma step_kp : forall p e i s s' os, step p e s = EOk (s', os) -> calm i e -> stable (kp_rel i) s s'.
Proof.
  intros p e i s s' os H C. destruct e; try solve [cbn [step] in H; step_er H].
  - cbn [step] in H. cbn [calm] in C. destruct (nth_error (s_ctl s) i0) as [[k|]|] eqn:E; try solve [step_er H].
    assert (X : stable (kp_rel i) s (set_s_ctl (set_nth i0 None (s_ctl s)) s)).
    { intros x Hx. st_cbn. rewrite nth_set_nth_neq by congruence. exact Hx. }
    eapply stable_trans; [exact _ | exact X |]. step_er H.
  - cbn [step] in H. cbn [calm] in C. destruct (nth_error (s_ctl s) i0) as [[k|]|] eqn:E; try solve [step_er H].
    assert (X : stable (kp_rel i) s (set_s_ctl (set_nth i0 None (s_ctl s)) s)).
    { intros x Hx. st_cbn. rewrite nth_set_nth_neq by congruence. exact Hx. }
    eapply stable_trans; [exact _ | exact X |]. step_er H.
Qed.

(** Call [i] is about a sender link whose handle [k] is reserved for it alone. *)
Definition held (i : nat) (k : N) (a : nat) (s : ses) : Prop :=
  slab_wf (s_links s) /\ slab_get (s_links s) k = Some SOpeningRemote
  /\ (exists l, nth_error (s_snds s) a = Some l /\ sn_id l = k)
  /\ (forall j frm r b l, pending_at j frm r b s -> j <> i -> nth_error (s_snds s) b = Some l -> sn_id l <> k)
  /\ pend_born s.
Lemma objs_id : forall s s' a l, stable keeps_objs s s' -> nth_error (s_snds s) a = Some l ->
  exists l', nth_error (s_snds s') a = Some l' /\ sn_id l' = sn_id l.
Proof.
  intros s s' a l [K _] E. destruct (K a l E) as (l' & E' & I). exists l'. split; [exact E'|]. unfold snd_ids in I. congruence.
Qed.
Lemma objs_back : forall s s' a l, stable keeps_objs s s' -> (a < length (s_snds s))%nat -> nth_error (s_snds s') a = Some l ->
  exists l', nth_error (s_snds s) a = Some l' /\ sn_id l' = sn_id l.
Proof.
  intros s s' a l K L E. destruct (nth_error (s_snds s) a) as [l'|] eqn:E'; [|apply nth_error_None in E'; lia].
  exists l'. split; [reflexivity|]. destruct (objs_id s s' a l' K E') as (l2 & E2 & I). congruence.
Qed.
Lemma complete_slots : forall p e j frm r b s s' os, ((exists edit, e = EvCtlOk j edit) \/ (exists x, e = EvCtlErr j x)) ->
  pending_at j frm r b s -> step p e s = EOk (s', os) ->
  forall k, (forall l, nth_error (s_snds s) b = Some l -> sn_id l <> k) -> slab_get (s_links s') k = slab_get (s_links s) k.
Proof.
  intros p e j frm r b s s' os D P H k N. unfold pending_at in P. destruct D as [[edit ->]|[x ->]]; cbn [step] in H; rewrite P in H.
  - cbn [control_ok] in H. unfold attach_remote_sender in H. cbv zeta in H.
    match type of H with context [nth_error (s_snds ?x) b] => change (s_snds x) with (s_snds s) in H end.
    destruct (nth_error (s_snds s) b) as [l|] eqn:El.
    2: { cbn in H. apply EOk_inj in H. apply (f_equal fst) in H. cbn [fst] in H. subst s'. reflexivity. }
    match type of H with context [put_link _ _ ?x] => set (s1 := x) in * end.
    assert (L1 : s_links s1 = s_links s) by (unfold s1; st_cbn; repeat fr_break; reflexivity).
    destruct (slab_get (s_links s1) (sn_id l)) as [old|] eqn:Es; [|discriminate H]. unfold noobs, emap in H.
    apply EOk_inj in H. apply (f_equal fst) in H. cbn [fst] in H. subst s'. frw. rewrite put_link_get by congruence.
    destruct (N.eqb_spec (sn_id l) k) as [E|_]; [exfalso; exact (N l eq_refl E)|]. rewrite L1. reflexivity.
  - cbn [control_err] in H. unfold noobs, emap in H. apply EOk_inj in H. apply (f_equal fst) in H. cbn [fst] in H. subst s'.
    unfold detach_unconfirmed. match goal with |- context [nth_error (s_snds ?x) b] => change (s_snds x) with (s_snds s) end.
    destruct (nth_error (s_snds s) b) as [l|] eqn:El; [|reflexivity]. cbv zeta. rewrite remove_link_get.
    destruct (N.eqb_spec (sn_id l) k) as [E|_]; [exfalso; exact (N l eq_refl E)|]. reflexivity.
Qed.
Lemma new_pending_id : forall p frm s s' os j f r b l, lk_inv [] s -> pend_born s -> step p (EvAttach frm) s = EOk (s', os) ->
  pending_at j f r b s' -> nth_error (s_snds s') b = Some l ->
  pending_at j f r b s \/ (slab_get (s_links s) (sn_id l) = None /\ slab_get (s_links s') (sn_id l) = Some SOpeningRemote
                           /\ b = length (s_snds s) /\ f = frm /\ j = length (s_ctl s)).
Proof.
  intros p frm s s' os j f r b l I B H P E. cbn [step] in H. apply EOk_inj in H. apply (f_equal fst) in H. cbn [fst] in H. subst s'.
  revert P E. unfold on_attach. destruct (s_error s); [auto|].
  destruct (handle_attach frm s) as [s1|] eqn:Ha.
  { intros P E. left. unfold handle_attach in Ha. destruct (name_get _ _); [|discriminate Ha]. apply Some_inj in Ha. subst s1.
    revert P. unfold pending_at. repeat fr_break; frw; st_cbn; auto. }
  destruct (attach_role frm).
  - unfold attach_remote_receiver. cbn [insert_link fst snd]. unfold dispatch, control, pending_at. st_cbn. intros P E. left.
    destruct (Nat.ltb_spec j (length (s_ctl s))) as [L|L]; [rewrite nth_error_app1 in P by exact L; exact P|].
    rewrite nth_error_app2 in P by exact L. destruct (j - length (s_ctl s))%nat as [|[|m]]; cbn [nth_error] in P; discriminate P.
  - unfold new_remote_sender. cbn [insert_link fst snd]. unfold dispatch, control, pending_at. st_cbn. intros P E.
    destruct (Nat.ltb_spec j (length (s_ctl s))) as [L|L]; [left; rewrite nth_error_app1 in P by exact L; exact P|].
    right. rewrite nth_error_app2 in P by exact L. destruct (j - length (s_ctl s))%nat as [|[|m]] eqn:Ej; cbn [nth_error] in P; try discriminate P.
    injection P as <- <- <-. rewrite nth_error_app2, Nat.sub_diag in E by reflexivity. cbn [nth_error] in E. injection E as <-. cbn [sn_id snd_with].
    split; [apply slab_key_free; exact (proj1 I)|]. split; [|split; [reflexivity | split; [reflexivity | lia]]].
    rewrite slab_get_insert by exact (proj1 I). rewrite N.eqb_refl. reflexivity.
Qed.
Lemma held_step : forall p e i k a s s' os, lk_inv [] s -> held i k a s -> step p e s = EOk (s', os) -> calm i e ->
  (exists frm r, pending_at i frm r a s) -> held i k a s'.
Proof.
  intros p e i k a s s' os LK (W & Hk & (l & El & Ek) & Oth & PB) H C (frm0 & r0 & P0).
  assert (K := step_keeps_objs _ _ _ _ _ H).
  assert (RS : slab_wf (s_links s') /\ slab_get (s_links s') k = Some SOpeningRemote).
  { destruct (step_rsv p e i s s' os H C) as [R|(j & frm & r & b & D & Pj)].
    - destruct (R W) as [W' R0]. split; [exact W' | apply R0; exact Hk].
    - assert (LK' := step_lk _ _ _ _ _ H LK). split; [exact (proj1 LK')|].
      rewrite (complete_slots p e j frm r b s s' os D Pj H k); [exact Hk|]. intros l' El'.
      eapply Oth; [exact Pj | | exact El']. destruct D as [[edit ->]|[x ->]]; exact C. }
  split; [exact (proj1 RS)|]. split; [exact (proj2 RS)|]. split; [|split; [|eapply pend_born_step; eassumption]].
  - destruct (objs_id s s' a l K El) as (l' & El' & E). exists l'. split; [exact El' | congruence].
  - intros j frm r b l' Pj Nj El' Eb. subst k.
    assert (Old : pending_at j frm r b s -> False).
    { intros Po. destruct (objs_back s s' b l' K (PB _ _ _ _ Po) El') as (l2 & E2 & I2). apply (Oth j frm r b l2 Po Nj E2). congruence. }
    destruct (step_kas p e s s' os H) as [[f ->]|R]; [|exact (Old (R _ _ _ _ Pj))].
    destruct (new_pending_id p f s s' os j frm r b l' LK PB H Pj El') as [Po|(F & _)]; [exact (Old Po)|].
    rewrite Eb in F. congruence.
Qed.
Lemma held_run : forall p evs i k a s s' os, lk_inv [] s -> held i k a s -> run p evs s = EOk (s', os) -> Forall (calm i) evs ->
  forall frm r, pending_at i frm r a s -> lk_inv [] s' /\ held i k a s' /\ pending_at i frm r a s'.
Proof.
  intros p evs. induction evs as [|e evs IH]; intros i k a s s' os LK Hd R C frm r P; cbn [run] in R.
  - injection R as <- <-. auto.
  - destruct (step p e s) as [[s1 o1]|] eqn:E; cbn [ebind] in R; [|discriminate R].
    destruct (run p evs s1) as [[s2 o2]|] eqn:R2; cbn [ebind] in R; [|discriminate R]. injection R as <- <-.
    inversion C as [|x xs Ce Cs]; subst x xs.
    eapply IH; [exact (step_lk _ _ _ _ _ E LK) | | exact R2 | exact Cs | exact (step_kp _ _ _ _ _ _ E Ce _ P)].
    eapply held_step; eauto.
Qed.
Lemma attach_held : forall p frm r s s' os, lk_inv [] s -> pend_born s -> all_reserved s -> step p (EvAttach frm) s = EOk (s', os) ->
  pending_at (length (s_ctl s)) frm r (length (s_snds s)) s' -> exists k, held (length (s_ctl s)) k (length (s_snds s)) s'.
Proof.
  intros p frm r s s' os LK PB AR H P. assert (LK' := step_lk _ _ _ _ _ H LK). assert (PB' := pend_born_step _ _ _ _ _ PB H).
  assert (Lt := PB' _ _ _ _ P). destruct (nth_error (s_snds s') (length (s_snds s))) as [l|] eqn:El; [|apply nth_error_None in El; lia].
  assert (K := step_keeps_objs _ _ _ _ _ H).
  destruct (new_pending_id p frm s s' os _ _ _ _ l LK PB H P El) as [Po|(F & G & _)].
  { exfalso. apply PB in Po. lia. }
  exists (sn_id l). split; [exact (proj1 LK')|]. split; [exact G|]. split; [eauto|]. split; [|exact PB'].
  intros j f r' b l' Pj Nj El' Eb.
  destruct (new_pending_id p frm s s' os _ _ _ _ l' LK PB H Pj El') as [Po|(_ & _ & _ & _ & Q)]; [|exact (Nj Q)].
  destruct (objs_back s s' b l' K (PB _ _ _ _ Po) El') as (l2 & E2 & I2).
  apply (AR j f r' b l2 Po E2). unfold vacant. rewrite I2, Eb. exact F.
Qed.

(** ** What the service's decision sends *)
Lemma accept_sends : forall p i edit frm r a l s, pending_at i frm r a s -> nth_error (s_snds s) a = Some l -> slab_get (s_links s) (sn_id l) <> None ->
  exists s' f, step p (EvCtlOk i edit) s = EOk (s', []) /\ s_out s' = s_out s ++ [f] /\ attaches (LSender a) s' (edit r) f /\ is_open (LSender a) s'.
Proof.
  intros p i edit frm r a l s P El N. unfold pending_at in P. cbn [step]. rewrite P. cbn [control_ok]. unfold attach_remote_sender. cbv zeta.
  match goal with |- context [nth_error (s_snds ?x) a] => change (s_snds x) with (s_snds s) end. rewrite El.
  match goal with |- context [put_link _ _ ?x] => set (s1 := x) in * end.
  assert (L1 : s_links s1 = s_links s) by (unfold s1; st_cbn; repeat fr_break; reflexivity).
  assert (S1 : s_snds s1 = s_snds s) by (unfold s1; st_cbn; repeat fr_break; reflexivity).
  assert (O1 : s_out s1 = s_out s) by (unfold s1; st_cbn; repeat fr_break; reflexivity).
  destruct (slab_get (s_links s1) (sn_id l)) as [old|] eqn:Es; [|congruence]. unfold noobs, emap.
  eexists _, _. split; [reflexivity|].
  assert (PO : forall f x, s_out (post f x) = s_out x ++ [f]) by reflexivity.
  split; [rewrite PO; f_equal; frw; exact O1|].
  assert (Q : exists l', nth_error (s_snds (put_link (sn_id l) (SEstablished a) s1)) a = Some l' /\ sn_id l' = sn_id l).
  { destruct (objs_id s1 (put_link (sn_id l) (SEstablished a) s1) a l) as (l' & E' & I); [exact _ | rewrite S1; exact El|]. eauto. }
  destruct Q as (l' & El' & Il).
  split.
  - eexists _, _. split; [reflexivity|]. split; [exists l'; split; [frw; exact El' | reflexivity]|]. rewrite Il. repeat split.
  - exists (sn_id l). frw. rewrite put_link_get by congruence. rewrite N.eqb_refl. reflexivity.
Qed.
Lemma refuse_sends : forall p i e frm r a l s, pending_at i frm r a s -> nth_error (s_snds s) a = Some l ->
  exists s' f g, step p (EvCtlErr i e) s = EOk (s', []) /\ s_out s' = s_out s ++ [f; g]
    /\ attaches_bare (LSender a) s' (attach_name frm) f /\ detaches (LSender a) s' e g.
Proof.
  intros p i e frm r a l s P El. unfold pending_at in P. cbn [step]. rewrite P. cbn [control_err]. unfold detach_unconfirmed. cbv zeta.
  match goal with |- context [nth_error (s_snds ?x) a] => change (s_snds x) with (s_snds s) end. rewrite El. unfold noobs, emap.
  match goal with |- context [remove_link _ ?x] => set (s1 := x) in * end.
  assert (Q : exists l', nth_error (s_snds (remove_link (sn_id l) s1)) a = Some l' /\ sn_id l' = sn_id l).
  { destruct (objs_id s1 (remove_link (sn_id l) s1) a l) as (l' & E' & I); [exact _ | exact El|]. eauto. }
  destruct Q as (l' & El' & Il).
  eexists _, _, _. split; [reflexivity|]. split; [frw; unfold s1, post; st_cbn; rewrite <- app_assoc; reflexivity|]. split.
  - eexists _, _. split; [reflexivity|]. split; [exists l'; split; [exact El' | rewrite Il; reflexivity]|]. split; reflexivity.
  - exists (as_u32 (sn_id l)). split; [exists l'; split; [exact El' | rewrite Il; reflexivity] | reflexivity].
Qed.

(** ** Receiver links *)
Lemma post_out : forall f s, s_out (post f s) = s_out s ++ [f].
Proof. reflexivity. Qed.
Lemma ask_receiver : forall p i edit frm r a s, called i (KAttachReceiver frm r a) s ->
  exists s', step p (EvCtlOk i edit) s = EOk (s', []) /\ called (length (s_ctl s)) (KAttached (edit r) a) s' /\ s_out s' = s_out s.
Proof.
  intros p i edit frm r a s P. unfold called in P. cbn [step]. rewrite P. cbn [control_ok]. unfold noobs, emap, control.
  eexists. split; [reflexivity|]. unfold called. st_cbn. split; [|reflexivity].
  rewrite nth_error_app2 by (rewrite set_nth_length; reflexivity). rewrite set_nth_length, Nat.sub_diag. reflexivity.
Qed.
Lemma open_receiver_sends : forall p i edit r a l s, called i (KAttached r a) s -> being_attached a s ->
  nth_error (s_rcvs s) a = Some l -> (p = Release \/ rc_credit l + 50 < 2 ^ 32) -> attach_handle r = rc_handle l ->
  exists s' f g, step p (EvCtlOk i edit) s = EOk (s', []) /\ s_out s' = s_out s ++ [f; g]
    /\ attaches (LReceiver a) s' r f /\ grants (LReceiver a) s' 50 g /\ is_open (LReceiver a) s'.
Proof.
  intros p i edit r a l s P (l0 & src & El0 & Cl & Sl) El Cr Hr. rewrite El in El0. injection El0 as <-.
  unfold called in P. cbn [step]. rewrite P. cbn [control_ok].
  match goal with |- context [set_s_ctl ?x s] => set (s1 := set_s_ctl x s) end.
  assert (R1 : s_rcvs s1 = s_rcvs s) by reflexivity. assert (L1 : s_links s1 = s_links s) by reflexivity.
  unfold confirm_receiver. rewrite R1, El. cbv zeta. rewrite L1, Sl.
  match goal with |- context [set_max_size ?m r] => set (mx := m) end.
  assert (Pl : put_link (rc_handle l) (REstablished a) s1 = set_s_links (slab_set (rc_handle l) (REstablished a) (s_links s1)) s1).
  { unfold put_link. rewrite L1, Sl. reflexivity. }
  rewrite Pl. unfold set_link_credit.
  match goal with |- context [nth_error (s_rcvs ?x) a] => change (s_rcvs x) with (s_rcvs s); set (s2 := x) end. rewrite El.
  assert (Ck : exists c, checked_add p (rc_credit l) 50 = EOk c).
  { unfold checked_add. destruct (N.ltb_spec (rc_credit l + 50) two32) as [|G]; [eauto|]. destruct Cr as [-> |Cr]; [eauto|].
    unfold two32 in G. change (2 ^ 32) with 4294967296 in *. exfalso. lia. }
  destruct Ck as [c Ec]. rewrite Ec. cbn [ebind]. unfold noobs, emap, rcv_link_flow.
  eexists _, _, _. split; [reflexivity|].
  assert (O2 : s_out s2 = s_out s ++ [FAttach (set_max_size mx r)]) by reflexivity.
  assert (RC : exists l', nth_error (s_rcvs (upd_rcv a (set_rc_credit c) s2)) a = Some l' /\ rc_handle l' = rc_handle l).
  { unfold upd_rcv. change (s_rcvs s2) with (s_rcvs s). rewrite El. st_cbn. exists (set_rc_credit c l). split; [|reflexivity].
    rewrite nth_set_nth_eq; [reflexivity|]. apply nth_error_Some. congruence. }
  destruct RC as (l' & El' & Il).
  assert (LK : s_links s2 = slab_set (rc_handle l) (REstablished a) (s_links s)) by reflexivity.
  split; [rewrite post_out; frw; rewrite O2, <- app_assoc; reflexivity|].
  split; [|split].
  - eexists _, _. split; [reflexivity|]. split; [exists l'; split; [frw; exact El' | reflexivity]|]. rewrite Il.
    split; [exact Hr | repeat split].
  - eexists _, _. split; [reflexivity|]. split; [exists l'; split; [frw; exact El' | reflexivity]|]. rewrite Il. split; reflexivity.
  - exists (rc_handle l). frw. rewrite LK. rewrite slab_get_set by congruence. rewrite N.eqb_refl. reflexivity.
Qed.
Lemma refuse_receiver_sends : forall p i e k a l s, called i k s ->
  (exists frm r, k = KAttachReceiver frm r a \/ k = KAttached r a) -> being_attached a s -> nth_error (s_rcvs s) a = Some l ->
  exists s' f g, step p (EvCtlErr i e) s = EOk (s', []) /\ s_out s' = s_out s ++ [f; g]
    /\ attaches_bare (LReceiver a) s' (rc_name l) f /\ detaches (LReceiver a) s' e g /\ vacant (rc_handle l) s'.
Proof.
  intros p i e k a l s P K (l0 & src & El0 & Cl & Sl) El. rewrite El in El0. injection El0 as <-.
  unfold called in P. cbn [step]. rewrite P.
  match goal with |- context [set_s_ctl ?x s] => set (s1 := set_s_ctl x s) end.
  assert (Q : control_err e k s1 = rcv_close a (Some e) s1) by (destruct K as (frm & r & [-> | ->]); reflexivity). rewrite Q. clear Q.
  unfold rcv_close. change (s_rcvs s1) with (s_rcvs s). rewrite El.
  destruct (new_chan s1) as [c s2] eqn:Nc. unfold new_chan in Nc. apply (f_equal snd) in Nc. cbn [snd] in Nc. rename Nc into Es2.
  assert (L2 : s_links s2 = s_links s) by (rewrite <- Es2; reflexivity). assert (R2 : s_rcvs s2 = s_rcvs s) by (rewrite <- Es2; reflexivity).
  assert (O2 : s_out s2 = s_out s) by (rewrite <- Es2; reflexivity). clear Es2.
  rewrite Cl. unfold detach_receiver. rewrite L2, Sl, R2, El. cbn [ebind]. unfold noobs, emap.
  match goal with |- context [remove_link _ ?x] => set (s3 := x) end.
  assert (R3 : s_rcvs s3 = s_rcvs s) by (unfold s3; frw; exact R2).
  assert (Q : nth_error (s_rcvs (remove_link (rc_handle l) s3)) a = Some l \/ exists l', nth_error (s_rcvs (remove_link (rc_handle l) s3)) a = Some l' /\ rc_handle l' = rc_handle l).
  { unfold remove_link. assert (L3 : s_links s3 = s_links s) by (unfold s3; frw; exact L2). rewrite L3, Sl. cbn [drop_link]. left. frw. st_cbn. rewrite R3. exact El. }
  assert (Q' : exists l', nth_error (s_rcvs (remove_link (rc_handle l) s3)) a = Some l' /\ rc_handle l' = rc_handle l) by (destruct Q; eauto). clear Q.
  destruct Q' as (l1 & El1 & Il1).
  assert (RC : exists l', nth_error (s_rcvs (upd_rcv a (fun l => rcv_wake (set_rc_closed true l)) (remove_link (rc_handle l) s3))) a = Some l' /\ rc_handle l' = rc_handle l).
  { unfold upd_rcv. rewrite El1. st_cbn. exists (rcv_wake (set_rc_closed true l1)). split; [|unfold rcv_wake; repeat fr_break; exact Il1].
    rewrite nth_set_nth_eq; [reflexivity|]. apply nth_error_Some. congruence. }
  destruct RC as (l' & El' & Il).
  eexists _, _, _. split; [reflexivity|]. split; [frw; unfold s3; frw; rewrite !post_out, O2, <- app_assoc; reflexivity|].
  split; [|split].
  - eexists _, _. split; [reflexivity|]. split; [exists l'; split; [exact El' | rewrite Il; reflexivity]|]. split; reflexivity.
  - exists (rc_handle l). split; [exists l'; split; [exact El' | rewrite Il; reflexivity] | reflexivity].
  - unfold vacant. frw. rewrite remove_link_get, N.eqb_refl. reflexivity.
Qed.

(** ** Own attaches *)
Lemma chan_claims_step : forall p e c y s s' os, y = XChan c \/ y = XOpen c -> step p e s = EOk (s', os) ->
  forall k, claims k y s' -> claims k y s \/ unborn y s.
Proof.
  intros p e c y s s' os Y H k Hk.
  destruct (step_clm _ _ _ _ _ H) as [(Ln & _ & C)|[(frm & ->)|[(d & -> & Er)|(i & edit & frm & r & a & -> & P)]]].
  - auto.
  - destruct (attach_cases _ _ _ _ _ H) as [-> | i tx E Lk R Ls Lr Lc Ct | i a tx E Lk R Ls Lr Lc Ct | r l Lk R Ls Rh Lr Lc Ct | r Lk R Ls Lr Lc Ct].
    + auto.
    + unfold claims in Hk. rewrite Lk in Hk. destruct (claims_put _ _ _ _ _ _ E Hk) as [[_ X]|Hk']; [destruct Y as [-> | ->]; destruct X | auto].
    + unfold claims in Hk. rewrite Lk in Hk. destruct (claims_put _ _ _ _ _ _ E Hk) as [[_ X]|Hk']; [destruct Y as [-> | ->]; destruct X | auto].
    + unfold claims in Hk. rewrite Lk in Hk. apply claims_ins in Hk as [X|Hk']; [destruct Y as [-> | ->]; destruct X | auto].
    + unfold claims in Hk. rewrite Lk in Hk. apply claims_ins in Hk as [X|Hk']; [destruct Y as [-> | ->]; destruct X | auto].
  - destruct (detach_case _ _ _ _ _ Er H) as [(Ln & _ & C)|(idx & _ & Ln & _ & C)]; [auto|]. destruct (C _ _ Hk) as [_ X]. exact X.
  - assert (X := confirm_case _ _ _ _ _ _ _ _ _ P H). destruct (nth_error (s_snds s) a).
    + destruct X as (Ln & _ & C). destruct (C _ _ Hk) as [[_ Z]|[[_ Z]|Z]]; [destruct Y as [-> | ->]; discriminate Z | auto | auto].
    + destruct X as (Ln & _ & C). auto.
Qed.
Lemma step_nsn : forall p e s s' os, step p e s = EOk (s', os) -> (forall frm, e <> EvAttach frm) -> length (s_snds s') = length (s_snds s).
Proof.
  intros p e s s' os H N. change (stable nsn_rel s s'). destruct e; try solve [cbn [step] in H; step_er H]. elim (N _ eq_refl).
Qed.
Inductive new_snd (frm : attach_t) (s : ses) (l : slink) : Prop :=
| ns_peer : name_get (attach_name frm) (s_names s) = None -> sn_name l = or_default [] (from_address frm) -> new_snd frm s l
| ns_own i tx : s_error s = None -> name_get (attach_name frm) (s_names s) = Some i -> slab_get (s_links s) i = Some (SOpening tx) ->
    sn_name l = attach_name frm -> new_snd frm s l.
Lemma step_new_snd : forall p e s s' os a l, step p e s = EOk (s', os) -> nth_error (s_snds s') a = Some l ->
  (exists l0, nth_error (s_snds s) a = Some l0 /\ sn_name l0 = sn_name l) \/ exists frm, e = EvAttach frm /\ a = length (s_snds s) /\ new_snd frm s l.
Proof.
  intros p e s s' os a l H E.
  destruct (Nat.ltb_spec a (length (s_snds s))) as [L|L].
  { left. destruct (nth_error (s_snds s) a) as [l0|] eqn:E0; [|apply nth_error_None in E0; lia]. exists l0. split; [reflexivity|].
    destruct (proj1 (step_keeps_objs _ _ _ _ _ H) a l0 E0) as (l' & E' & I). unfold snd_ids in I. congruence. }
  right. destruct e; try (exfalso; assert (Ln := step_nsn _ _ _ _ _ H ltac:(discriminate)); assert (X : (a < length (s_snds s'))%nat) by (apply nth_error_Some; congruence); lia).
  exists frm. split; [reflexivity|].
  cbn [step] in H. apply EOk_inj in H. apply (f_equal fst) in H. cbn [fst] in H. subst s'. revert E. unfold on_attach.
  assert (Old : nth_error (s_snds s) a = Some l -> False) by (intros X; assert (Y : nth_error (s_snds s) a <> None) by congruence; apply nth_error_Some in Y; lia).
  destruct (s_error s) eqn:Er; [intros X; elim (Old X)|].
  destruct (handle_attach frm s) as [s1|] eqn:Ha; unfold handle_attach in Ha.
  { destruct (name_get (attach_name frm) (s_names s)) as [i|] eqn:Nm; [|discriminate Ha]. apply Some_inj in Ha. subst s1.
    destruct (slab_get (s_links s) i) as [lk|] eqn:Sl; [|intros X; elim (Old X)].
    destruct lk as [| |tx| | |[[b tx]|]| |]; frw; st_cbn; try (intros X; elim (Old X)).
    intros E. rewrite nth_error_app2 in E by exact L. destruct (a - length (s_snds s))%nat as [|[|m]] eqn:Ea; cbn [nth_error] in E; try discriminate E.
    injection E as <-. split; [lia|]. eapply ns_own; [exact Er | exact Nm | exact Sl | reflexivity]. }
  destruct (name_get (attach_name frm) (s_names s)) as [i|] eqn:Nm; [discriminate Ha|].
  destruct (attach_role frm).
  - unfold attach_remote_receiver. cbn [insert_link fst snd]. unfold dispatch, control. st_cbn. intros X; elim (Old X).
  - unfold new_remote_sender. cbn [insert_link fst snd]. unfold dispatch, control. st_cbn. intros E.
    rewrite nth_error_app2 in E by exact L. destruct (a - length (s_snds s))%nat as [|[|m]] eqn:Ea; cbn [nth_error] in E; try discriminate E.
    injection E as <-. split; [lia|]. apply ns_peer; [exact Nm|]. unfold snd_with, from_address. cbn [sn_name snd_new].
    destruct (attach_source frm); reflexivity.
Qed.

(** No sender link has name [n], nor will one that waits for the service. *)
Definition untaken (n : bytes) (s : ses) : Prop :=
  (forall a l, nth_error (s_snds s) a = Some l -> sn_name l <> n)
  /\ (forall i frm r a, pending_at i frm r a s -> from_address frm <> Some n).
Lemma untaken_step : forall p e n s s' os, untaken n s -> n <> [] -> step p e s = EOk (s', os) -> ~ takes_name n e ->
  (forall frm i tx, e = EvAttach frm -> s_error s = None -> attach_name frm = n -> name_get n (s_names s) = Some i -> slab_get (s_links s) i <> Some (SOpening tx)) ->
  untaken n s'.
Proof.
  intros p e n s s' os [U1 U2] Nn H T Q. split.
  - intros a l E D. destruct (step_new_snd _ _ _ _ _ _ _ H E) as [(l0 & E0 & I)|(frm & -> & _ & [N1 N2|i tx N0 N1 N2 N3])].
    + apply (U1 a l0 E0). congruence.
    + destruct (from_address frm) as [m|] eqn:F; cbn [or_default] in N2; [|congruence]. apply T. cbn [takes_name]. congruence.
    + rewrite D in N3. apply (Q frm i tx eq_refl N0 (eq_sym N3)); [rewrite N3; exact N1 | exact N2].
  - intros i frm r a P F. destruct (pending_hist p [e] s s' _ (run_one _ _ _ _ _ H) _ _ _ _ P) as [I|P'].
    + destruct I as [->|[]]. exact (T F).
    + exact (U2 _ _ _ _ P' F).
Qed.
Lemma name_get_other : forall n m k t, n <> m -> name_get n (name_put m k t) = name_get n t /\ name_get n (name_del m t) = name_get n t.
Proof.
  intros n m k t D. assert (X : name_get n (name_del m t) = name_get n t).
  { unfold name_del. induction t as [|[x v] t IH]; [reflexivity|]. cbn [filter name_get]. destruct (beqb m x) eqn:E; cbn [negb].
    - rewrite IH. apply beqb_eq in E as <-. destruct (beqb n m) eqn:E2; [apply beqb_eq in E2; contradiction | reflexivity].
    - cbn [name_get]. rewrite IH. reflexivity. }
  split; [|exact X]. rewrite name_get_put. destruct (beqb n m) eqn:E; [apply beqb_eq in E; contradiction | exact X].
Qed.
Lemma names_keep : forall p e n s s' os, untaken n s -> step p e s = EOk (s', os) -> ~ takes_name n e ->
  name_get n (s_names s') = name_get n (s_names s) \/ exists x, e = EvFail x.
Proof.
  intros p e n s s' os [U1 U2] H T.
  destruct (step_names _ _ _ _ _ H) as [Q | frm k D _ Q | j edit frm r a l m -> Pn El Ea Q | d k a l -> Es El _ Q | x -> Q]; [| | | |eauto]; left; rewrite Q.
  - reflexivity.
  - apply name_get_other. intros ->. apply T. destruct D as [-> | ->]; reflexivity.
  - apply name_get_other. intros ->. exact (U2 _ _ _ _ Pn Ea).
  - apply (name_get_other n (sn_name l) 0). intros ->. exact (U1 _ _ El eq_refl).
Qed.

(** This side attaches a link named [n] at handle [k], and future [c] waits for it. *)
Definition attaching (n : bytes) (c : nat) (k : N) (lk0 : link) (s : ses) : Prop :=
  (c < length (s_chans s))%nat /\ slab_wf (s_links s) /\ (forall j, ~ claims j (XChan c) s)
  /\ (forall j lk, opens c lk -> slab_get (s_links s) j = Some lk -> lk = lk0)
  /\ (waits_on c s -> at_place (PSlot k) c s /\ name_get n (s_names s) = Some k /\ untaken n s).
Lemma step_op : forall p e s s' os, step p e s = EOk (s', os) -> stable op_rel s s'.
Proof. intros p e s s' os H. destruct e; cbn [step] in H; step_er H. Qed.
Lemma attaching_step : forall p e n c k lk0 s s' os, attaching n c k lk0 s -> n <> [] -> step p e s = EOk (s', os) -> ~ takes_name n e ->
  attaching n c k lk0 s'.
Proof.
  intros p e n c k lk0 s s' os (Lc & W & NC & OP & A) Nn H T.
  destruct (step_hold _ _ _ _ _ H W) as [W' [CR Hp]].
  split; [destruct CR; lia|]. split; [exact W'|]. split.
  { intros j Hj. destruct (chan_claims_step p e c (XChan c) s s' os (or_introl eq_refl) H j Hj) as [X|X]; [exact (NC j X) | cbn in X; lia]. }
  split.
  { intros j lk O G. destruct (proj2 (step_op _ _ _ _ _ H) j lk c O G) as [G0|U]; [exact (OP j lk O G0) | lia]. }
  intros Wt'. assert (Wt := chan_back s s' c CR Lc Wt'). destruct (A Wt) as (Pl & Nm & Un).
  assert (Pl' := Hp _ _ Lc Pl Wt'). split; [exact Pl'|].
  assert (NF : forall x, e <> EvFail x).
  { intros x ->. cbn [step] in H. apply EOk_inj in H. apply (f_equal fst) in H. cbn [fst] in H. subst s'.
    destruct Pl' as (lk & G & _). rewrite ses_set_error_links, slab0_get in G. discriminate G. }
  split; [destruct (names_keep _ _ _ _ _ _ Un H T) as [E|(x & ->)]; [congruence | elim (NF x eq_refl)]|].
  eapply untaken_step; try eassumption. intros frm i tx -> Er En Ei Sl. rewrite Nm in Ei. injection Ei as <-.
  destruct Pl as (lk1 & G0 & Tx0). rewrite Sl in G0. injection G0 as <-. cbn [tx_of] in Tx0. subst tx.
  cbn [step] in H. apply EOk_inj in H. apply (f_equal fst) in H. cbn [fst] in H. subst s'.
  unfold on_attach, handle_attach in Wt'. rewrite Er, En, Nm, Sl in Wt'. cbn [fire_opt] in Wt'. exact (fire_done _ _ _ Wt').
Qed.
Lemma attaching_run : forall p evs n c k lk0 s s' os, attaching n c k lk0 s -> n <> [] -> run p evs s = EOk (s', os) ->
  (forall e, In e evs -> ~ takes_name n e) -> attaching n c k lk0 s'.
Proof.
  intros p evs. induction evs as [|e evs IH]; intros n c k lk0 s s' os A Nn R T; cbn [run] in R.
  - injection R as <- <-. exact A.
  - destruct (step p e s) as [[s1 o1]|] eqn:E; cbn [ebind] in R; [|discriminate R].
    destruct (run p evs s1) as [[s2 o2]|] eqn:R2; cbn [ebind] in R; [|discriminate R]. injection R as <- <-.
    eapply IH; [|exact Nn | exact R2 | intros x Hx; apply T; right; exact Hx].
    eapply attaching_step; [exact A | exact Nn | exact E | apply T; left; reflexivity].
Qed.
Definition unknown (n : bytes) (s : ses) : Prop := name_get n (s_names s) = None /\ untaken n s.
Lemma unknown_run : forall p evs n s s' os, unknown n s -> n <> [] -> run p evs s = EOk (s', os) ->
  (forall e, In e evs -> ~ takes_name n e) -> unknown n s'.
Proof.
  intros p evs. induction evs as [|e evs IH]; intros n s s' os A Nn R T; cbn [run] in R.
  - injection R as <- <-. exact A.
  - destruct (step p e s) as [[s1 o1]|] eqn:E; cbn [ebind] in R; [|discriminate R].
    destruct (run p evs s1) as [[s2 o2]|] eqn:R2; cbn [ebind] in R; [|discriminate R]. injection R as <- <-.
    eapply IH; [|exact Nn | exact R2 | intros x Hx; apply T; right; exact Hx].
    destruct A as [A U]. assert (Te := T e (or_introl eq_refl)). split.
    + destruct (names_keep _ _ _ _ _ _ U E Te) as [Q|(x & ->)]; [congruence|].
      destruct (step_names _ _ _ _ _ E) as [Q | frm k D _ Q | j edit frm r a l m D Pn El Ea Q | d k a l D Es El _ Q | y D Q]; try discriminate D; try (destruct D; discriminate);
        rewrite Q; [exact A | reflexivity].
    + eapply untaken_step; try eassumption. intros. congruence.
Qed.
Lemma unknown_start : forall n id local rc mfs b, unknown n (ses_new id local rc mfs b).
Proof.
  intros. split; [reflexivity|]. split.
  - intros a l E. destruct a; discriminate E.
  - intros i frm r a P. unfold pending_at in P. destruct i; discriminate P.
Qed.
Definition own_slot (e : ev) (s : ses) : link :=
  match e with
  | EvAttachReceiver _ => ROpeningLocal (Some (length (s_rcvs s), next_future s))
  | _ => SOpening (Some (next_future s))
  end.
Lemma own_attaching : forall p e s s' os n, unknown n s -> lk_inv [] s -> bounded_places s -> step p e s = EOk (s', os) ->
  (exists frm, attach_name frm = n /\ (e = EvAttachSender frm \/ e = EvAttachReceiver frm)) ->
  attaching n (next_future s) (slab_key (s_links s)) (own_slot e s) s'.
Proof.
  intros p e s s' os n [Nm [U1 U2]] LK B H (frm & Ef & D).
  assert (W := proj1 LK). assert (LK' := step_lk _ _ _ _ _ H LK). set (lk := own_slot e s).
  assert (X : s_links s' = slab_insert lk (s_links s) /\ tx_of lk = Some (next_future s) /\ ~ is_in (XChan (next_future s)) lk
              /\ s_names s' = name_put n (slab_key (s_links s)) (s_names s) /\ s_snds s' = s_snds s /\ s_ctl s' = s_ctl s
              /\ length (s_chans s') = S (length (s_chans s))).
  { unfold lk. destruct D as [-> | ->]; cbn [step] in H; apply EOk_inj in H; apply (f_equal fst) in H; cbn [fst] in H; subst s'; subst n.
    - cbn [own_slot]. unfold attach_local_sender. cbn [new_chan insert_link snd].
      split; [reflexivity|]. split; [reflexivity|]. split; [intros []|]. split; [reflexivity|]. split; [reflexivity|]. split; [reflexivity|].
      unfold post. st_cbn. rewrite app_length. cbn [length]. lia.
    - cbn [own_slot]. unfold attach_local_receiver. cbn [new_chan insert_link snd].
      split; [reflexivity|]. split; [reflexivity|]. split; [intros []|]. split; [reflexivity|]. split; [reflexivity|]. split; [reflexivity|].
      unfold post. st_cbn. rewrite app_length. cbn [length]. lia. }
  destruct X as (Lk & Tx & NX & Nm' & Sn & Ct & Lc).
  split; [unfold next_future; lia|]. split; [exact (proj1 LK')|]. split; [|split].
  - intros j Hj. unfold claims in Hj. rewrite Lk in Hj. apply claims_ins in Hj as [Z|Z]; [exact (NX Z)|].
    assert (Y := B _ _ (claims_place _ _ _ (or_introl Z))). unfold next_future in Y. lia.
  - intros j lk' O G. rewrite Lk in G. apply slab_insert_inv in G as [->|G]; [reflexivity|]. exfalso.
    assert (Y : at_place (PSlot j) (next_future s) s) by (exists lk'; split; [exact G | destruct O as [-> | (a & ->)]; reflexivity]).
    apply B in Y. unfold next_future in Y. lia.
  - intros _. split; [|split].
    + exists lk. split; [|exact Tx]. rewrite Lk, slab_get_insert by exact W. rewrite N.eqb_refl. reflexivity.
    + rewrite Nm', name_get_put, beqb_refl. reflexivity.
    + split; [rewrite Sn; exact U1|]. unfold pending_at. rewrite Ct. exact U2.
Qed.
Lemma attaching_slot : forall n c k lk0 s, attaching n c k lk0 s -> waits_on c s -> slab_get (s_links s) k = Some lk0 /\ name_get n (s_names s) = Some k.
Proof.
  intros n c k lk0 s (Lc & W & NC & OP & A) Wt. destruct (A Wt) as (Pl & Nm & _).
  apply place_claims in Pl as [Z|(lk & G & Z)]; [elim (NC k Z)|]. split; [|exact Nm]. rewrite G. f_equal. apply (OP k lk); [|exact G].
  destruct lk as [| |[tx|]| | |[[a tx]|]| |]; cbn [is_in] in Z; try contradiction Z; subst tx; [left; reflexivity | right; eauto].
Qed.
Lemma own_answer : forall p n c k lk0 frm s s' os, attaching n c k lk0 s -> waits_on c s -> s_error s = None -> attach_name frm = n ->
  step p (EvAttach frm) s = EOk (s', os) ->
  s_out s' = s_out s /\ s_ctl s' = s_ctl s
  /\ (lk0 = SOpening (Some c) -> nth_error (s_chans s') c = Some (CSent (VSender (length (s_snds s))))
       /\ sender_open (length (s_snds s)) s')
  /\ (forall a, lk0 = ROpeningLocal (Some (a, c)) -> nth_error (s_chans s') c = Some (CSent (VReceiver a)) /\ attached a s').
Proof.
  intros p n c k lk0 frm s s' os A Wt Er En H. destruct (attaching_slot _ _ _ _ _ A Wt) as [G Nm].
  cbn [step] in H. apply EOk_inj in H. apply (f_equal fst) in H. cbn [fst] in H. subst s'.
  unfold on_attach, handle_attach. rewrite Er, En, Nm, G.
  split; [destruct lk0 as [| |[tx|]| | |[[a tx]|]| |]; cbn [fire_opt]; frw; reflexivity|].
  split; [destruct lk0 as [| |[tx|]| | |[[a tx]|]| |]; cbn [fire_opt]; frw; reflexivity|].
  split.
  - intros ->. cbn [fire_opt]. split; [apply fire_self; exact Wt|]. exists k.
    frw. st_cbn. rewrite slab_get_set by congruence. rewrite N.eqb_refl. reflexivity.
  - intros a ->. split; [apply fire_self; exact Wt|]. exists k.
    frw. st_cbn. rewrite slab_get_set by congruence. rewrite N.eqb_refl. reflexivity.
Qed.
