(** * Proofs about looking links and sessions up *)

From Coq Require Import ZifyBool ZifyNat ZifyN.
From Verif Require Import SpecLookup HandleTheorems AttachProofs ReadyProofs OwnedRcvRel ConnTheorems ConnInv ConnMoves.
Import ListNotations.

(** ** By the handle of this side *)
Definition open_slot_of (x : link_ref) : link :=
  match x with LSender a => SEstablished a | LReceiver a => REstablished a end.
Lemma finds_slot : forall h x s, finds h x s <-> slab_get (s_links s) h = Some (open_slot_of x).
Proof.
  intros h [a|a] s; cbn [finds open_slot_of]; unfold sender_by_handle, receiver_by_handle;
    (split; [|intros ->; reflexivity]); destruct (slab_get (s_links s) h) as [[]|]; try discriminate; intros [= ->]; reflexivity.
Qed.
Lemma finds_open : forall h x s, finds h x s -> is_open x s.
Proof. intros h x s H. apply finds_slot in H. destruct x; cbn [is_open open_slot_of] in *; exists h; exact H. Qed.
Lemma finds_own : forall h x s, lk_inv [] s -> slots_fit s -> finds h x s -> own_handle x s h.
Proof.
  intros h x s (W & R & S & _) F H. apply finds_slot in H. assert (Lt : h < two32) by (apply slab_get_lt in H; unfold slots_fit in F; lia).
  destruct x as [a|a]; cbn [open_slot_of own_handle] in *.
  - destruct (S _ _ H) as (l & E & I). exists l. split; [exact E|]. rewrite I. unfold as_u32. rewrite N.mod_small by exact Lt. reflexivity.
  - destruct (R F _ _ a H (holds_est a)) as (l & E & I & _). exists l. auto.
Qed.
Lemma by_handle : forall p evs id local rc mfs b s os x h, run p evs (ses_new id local rc mfs b) = EOk (s, os) -> links_opened evs <= 2 ^ 32 ->
  (finds h x s <-> is_open x s /\ own_handle x s h).
Proof.
  intros p evs id local rc mfs b s os x h R L. destruct (start_slots _ _ _ _ _ _ _ _ _ R L) as [I F]. split.
  - intros H. split; [exact (finds_open _ _ _ H) | exact (finds_own _ _ _ I F H)].
  - intros [O H]. apply finds_slot. rewrite (open_slot _ _ _ I F O H). destruct x; reflexivity.
Qed.

(** ** Receivers leaving their slot *)
Lemma rown_put : forall a l l' s, nth_error (s_rcvs s) a = Some l -> rc_closed l' = rc_closed l -> stable rown_rel s (upd_rcv a (fun _ => l') s).
Proof.
  intros a l l' s E C W. split; [frw; exact W|]. split.
  - intros b [L K]. left. split; [|frw; exact K]. unfold upd_rcv. rewrite E. st_cbn. rewrite set_nth_length. exact L.
  - intros b (x & Ex & Cx). unfold rshut. rewrite nth_upd_rcv. destruct (Nat.eqb_spec a b) as [->|]; [|eauto].
    rewrite E. cbn [option_map]. exists l'. split; [reflexivity|]. congruence.
Qed.
Lemma step_rown : forall p e s s' os, step p e s = EOk (s', os) -> stable rown_rel s s'.
Proof.
  intros p e s s' os H. destruct e; cbn [step] in H; try solve [step_er H];
    (destruct (nth_error (s_rcvs s) a) as [l|] eqn:E; [|apply EOk_inj in H; apply (f_equal fst) in H; cbn [fst] in H; subst s'; apply stable_refl; exact _]).
  - assert (C : rc_closed (snd (poll_recv t l)) = rc_closed l) by (unfold poll_recv; repeat fr_break; cbn [snd]; st_cbn; congruence).
    destruct (poll_recv t l) as [r l']. apply EOk_inj in H. apply (f_equal fst) in H. cbn [fst] in H. subst s'. eapply rown_put; eassumption.
  - assert (C : rc_closed (snd (get_delivery l)) = rc_closed l) by (unfold get_delivery; repeat fr_break; cbn [snd]; st_cbn; congruence).
    destruct (get_delivery l) as [r l']. apply EOk_inj in H. apply (f_equal fst) in H. cbn [fst] in H. subst s'. eapply rown_put; eassumption.
Qed.
Lemma rch_put : forall a l l' s, nth_error (s_rcvs s) a = Some l -> rcv_ids l' = rcv_ids l -> stable rch_rel s (upd_rcv a (fun _ => l') s).
Proof.
  intros a l l' s E C b x Ex. rewrite nth_upd_rcv. destruct (Nat.eqb_spec a b) as [->|]; [|eauto]. rewrite E. cbn [option_map].
  exists l'. split; congruence.
Qed.
Lemma step_rch : forall p e s s' os, step p e s = EOk (s', os) -> stable rch_rel s s'.
Proof.
  intros p e s s' os H. destruct e; cbn [step] in H; try solve [step_er H];
    (destruct (nth_error (s_rcvs s) a) as [l|] eqn:E; [|apply EOk_inj in H; apply (f_equal fst) in H; cbn [fst] in H; subst s'; apply stable_refl; exact _]).
  - assert (C : rcv_ids (snd (poll_recv t l)) = rcv_ids l) by (unfold poll_recv; repeat fr_break; reflexivity).
    destruct (poll_recv t l) as [r l']. apply EOk_inj in H. apply (f_equal fst) in H. cbn [fst] in H. subst s'. eapply rch_put; eassumption.
  - assert (C : rcv_ids (snd (get_delivery l)) = rcv_ids l) by (unfold get_delivery; repeat fr_break; reflexivity).
    destruct (get_delivery l) as [r l']. apply EOk_inj in H. apply (f_equal fst) in H. cbn [fst] in H. subst s'. eapply rch_put; eassumption.
Qed.
Lemma run_rown : forall p evs s s' os, run p evs s = EOk (s', os) -> stable rown_rel s s'.
Proof.
  intros p evs s s' os. change (run p evs s = EOk (s', os) -> (fun x => stable rown_rel s x) s'). apply run_ind.
  - intros e s1 s2 os1 K H. eapply stable_trans; [exact _|exact K|exact (step_rown _ _ _ _ _ H)].
  - apply stable_refl. exact _.
Qed.
Lemma left_closed : forall p evs s s' os x, reachable p s -> slots_fit s -> run p evs s = EOk (s', os) -> is_open x s ->
  is_open x s' \/ says_closed x s'.
Proof.
  intros p evs s s' os x R F RN O. destruct (fut_reachable _ _ R) as (Wf & _).
  destruct (lk_reachable _ _ R) as (_ & Rs & Ss & _). destruct x as [a|a]; cbn [is_open says_closed] in *.
  - destruct (run_own _ _ _ _ _ RN Wf) as [_ [H _]]. destruct O as (k & G).
    assert (L : (a < length (s_snds s))%nat) by (destruct (Ss _ _ G) as (l & E & _); apply nth_lt in E; exact E).
    destruct (H a) as [[_ O']|C]; [split; eauto | left; exact O' | right; exact C].
  - destruct (run_rown _ _ _ _ _ RN Wf) as [_ [H _]]. destruct O as (k & G).
    assert (L : (a < length (s_rcvs s))%nat) by (destruct (Rs F _ _ a G (holds_est a)) as (l & E & _); apply nth_lt in E; exact E).
    destruct (H a) as [[_ O']|C]; [split; eauto | left; exact O' | right; exact C].
Qed.
Lemma keeps_handle : forall p evs s s' os x h, run p evs s = EOk (s', os) -> own_handle x s h -> own_handle x s' h.
Proof.
  intros p evs s s' os x h. revert s s' os. induction evs as [|e evs IH]; intros s s' os R O; cbn [run] in R.
  - injection R as <- <-. exact O.
  - destruct (step p e s) as [[s1 o1]|] eqn:E; cbn [ebind] in R; [|discriminate R].
    destruct (run p evs s1) as [[s2 o2]|] eqn:R2; cbn [ebind] in R; [|discriminate R]. injection R as <- <-.
    eapply IH; [exact R2|]. destruct (step_keeps_objs _ _ _ _ _ E) as [K1 _]. assert (K2 := step_rch _ _ _ _ _ E). destruct x as [a|a]; destruct O as (l & El & ->).
    + destruct (K1 _ _ El) as (l' & El' & I). exists l'. split; [exact El'|]. unfold snd_ids in I. congruence.
    + destruct (K2 _ _ El) as (l' & El' & I). exists l'. split; [exact El'|]. unfold rcv_ids in I. congruence.
Qed.
Lemma opened_two : forall l m, links_opened (l ++ m) = links_opened l + links_opened m.
Proof. intros l m. unfold links_opened. rewrite filter_app, app_length. lia. Qed.
Lemma kept : forall p evs1 evs2 id local rc mfs b s1 s2 os1 os2 x h,
  run p evs1 (ses_new id local rc mfs b) = EOk (s1, os1) -> run p evs2 s1 = EOk (s2, os2) -> links_opened (evs1 ++ evs2) <= 2 ^ 32 ->
  finds h x s1 -> finds h x s2 \/ says_closed x s2.
Proof.
  intros p evs1 evs2 id local rc mfs b s1 s2 os1 os2 x h R1 R2 L H.
  assert (R : run p (evs1 ++ evs2) (ses_new id local rc mfs b) = EOk (s2, os1 ++ os2)) by (eapply run_app; eassumption).
  assert (L1 : links_opened evs1 <= 2 ^ 32) by (rewrite opened_two in L; lia).
  destruct (start_slots _ _ _ _ _ _ _ _ _ R1 L1) as [I1 F1].
  assert (Re : reachable p s1) by (exists id, local, rc, mfs, b, evs1, os1; exact R1).
  destruct (left_closed p evs2 s1 s2 os2 x Re F1 R2 (finds_open _ _ _ H)) as [O|C]; [|right; exact C]. left.
  apply (by_handle _ _ _ _ _ _ _ _ _ _ _ R L). split; [exact O|]. eapply keeps_handle; [exact R2|]. exact (finds_own _ _ _ I1 F1 H).
Qed.
(** ** By the handle of the peer *)
Lemma by_remote : forall p id local rc mfs b evs1 evs2 frm x s1 s2 s3 os1 os2 os3,
  run p evs1 (ses_new id local rc mfs b) = EOk (s1, os1) ->
  step p (EvAttach frm) s1 = EOk (s2, os2) -> run p evs2 s2 = EOk (s3, os3) ->
  begins_link x frm s1 s2 ->
  none_waits (attach_handle frm) s1 -> unused_handle (attach_handle frm) evs2 ->
  links_opened (evs1 ++ EvAttach frm :: evs2) <= 2 ^ 32 ->
  is_open x s3 -> finds_remote (attach_handle frm) x s3.
Proof.
  intros p id local rc mfs b evs1 evs2 frm x s1 s2 s3 os1 os2 os3 R1 St R2 Bg Nw Uh L O.
  assert (JJ : J (attach_handle frm) (thing_of x) s3) by (eapply hist_J; eassumption).
  destruct (open_claims _ _ O) as (k & C & G). destruct JJ as (A & _). assert (M := A _ C).
  destruct x as [a|a]; cbn [finds_remote]; unfold sender_by_remote, receiver_by_remote; rewrite M, G; reflexivity.
Qed.

(** ** By name *)
Lemma open_origin : forall p e a s s' os, step p e s = EOk (s', os) -> (a < length (s_snds s))%nat -> forall k, slab_get (s_links s') k = Some (SEstablished a) ->
  slab_get (s_links s) k = Some (SEstablished a) \/ exists i edit frm r l, e = EvCtlOk i edit /\ pending_at i frm r a s /\ nth_error (s_snds s) a = Some l /\ k = sn_id l.
Proof.
  intros p e a s s' os H L k G. assert (Hk : claims k (XSnd a) s') by (exists (SEstablished a); split; [exact G | reflexivity]).
  assert (NB : ~ unborn (XSnd a) s) by (cbn; lia).
  assert (Back : claims k (XSnd a) s -> slab_get (s_links s) k = Some (SEstablished a)).
  { intros (lk & E & X). destruct lk; cbn [is_in] in X; try contradiction X. subst a0. exact E. }
  destruct (step_clm _ _ _ _ _ H) as [(Ln & _ & C)|[(frm & ->)|[(d & -> & Er)|(i & edit & frm & r & b & -> & P)]]].
  - left. destruct (C _ _ Hk) as [X|X]; [auto | contradiction].
  - left. apply Back. destruct (attach_cases _ _ _ _ _ H) as [-> | i tx E Lk R Ls Lr Lc Ct | i b tx E Lk R Ls Lr Lc Ct | r l Lk R Ls Rh Lr Lc Ct | r Lk R Ls Lr Lc Ct].
    + exact Hk.
    + unfold claims in Hk. rewrite Lk in Hk. destruct (claims_put _ _ _ _ _ _ E Hk) as [[_ X]|Hk']; [cbn [is_in] in X; lia | exact Hk'].
    + unfold claims in Hk. rewrite Lk in Hk. destruct (claims_put _ _ _ _ _ _ E Hk) as [[_ X]|Hk']; [destruct X | exact Hk'].
    + unfold claims in Hk. rewrite Lk in Hk. apply claims_ins in Hk as [X|Hk']; [destruct X | exact Hk'].
    + unfold claims in Hk. rewrite Lk in Hk. apply claims_ins in Hk as [X|Hk']; [destruct X | exact Hk'].
  - left. destruct (detach_case _ _ _ _ _ Er H) as [(Ln & _ & C)|(idx & _ & Ln & _ & C)].
    + destruct (C _ _ Hk) as [X|X]; [auto | contradiction].
    + destruct (C _ _ Hk) as [_ [X|X]]; [auto | contradiction].
  - assert (X := confirm_case _ _ _ _ _ _ _ _ _ P H). destruct (nth_error (s_snds s) b) as [l|] eqn:El.
    + destruct X as (Ln & _ & C). destruct (C _ _ Hk) as [[-> Z]|[[_ Z]|Z]]; [|left; auto | contradiction].
      injection Z as <-. right. exists i, edit, frm, r, l. auto.
    + destruct X as (Ln & _ & C). left. destruct (C _ _ Hk) as [X|X]; [auto | contradiction].
Qed.
Lemma pending_origin : forall p e s s' os i frm r a, lk_inv [] s -> pend_born s -> pend_born s' -> step p e s = EOk (s', os) -> pending_at i frm r a s' ->
  pending_at i frm r a s \/ (e = EvAttach frm /\ a = length (s_snds s) /\ i = length (s_ctl s)).
Proof.
  intros p e s s' os i frm r a I B B' H P. destruct (step_kas _ _ _ _ _ H) as [(f & ->)|K]; [|left; apply K, P].
  assert (L := B' _ _ _ _ P). apply nth_error_Some in L. destruct (nth_error (s_snds s') a) as [l|] eqn:E; [|congruence].
  destruct (new_pending_id _ _ _ _ _ _ _ _ _ _ I B H P E) as [X|(_ & _ & -> & -> & ->)]; auto.
Qed.
Lemma pending_lt : forall i frm r a s, pending_at i frm r a s -> (i < length (s_ctl s))%nat.
Proof. intros i frm r a s P. apply nth_error_Some. unfold pending_at in P. congruence. Qed.
Lemma done_pending : forall p i edit frm r a s s' os f r' b, pending_at i frm r a s -> step p (EvCtlOk i edit) s = EOk (s', os) -> ~ pending_at i f r' b s'.
Proof.
  intros p i edit frm r a s s' os f r' b P H Q. assert (nth_error (s_ctl s') i = Some None) as Z.
  { clear - P H. unfold pending_at in P. cbn [step] in H. rewrite P in H. unfold noobs, emap in H. cbn [control_ok] in H.
    destruct (attach_remote_sender _ _ _ _) as [s1|] eqn:E; [|discriminate H]. cbn [ebind] in H. apply EOk_inj in H. apply (f_equal fst) in H. cbn [fst] in H. subst s1.
    assert (F := fr_attach_remote_sender _ _ _ _ _ E Fctl eq_refl). cbn [same] in F. rewrite F. st_cbn. rewrite nth_set_nth, Nat.eqb_refl, P. reflexivity. }
  unfold pending_at in Q. congruence.
Qed.
Lemma accept_names : forall p i edit frm r a l n s s' os, pending_at i frm r a s -> nth_error (s_snds s) a = Some l -> from_address frm = Some n ->
  step p (EvCtlOk i edit) s = EOk (s', os) -> s_names s' = name_put n (sn_id l) (s_names s).
Proof.
  intros p i edit frm r a l n s s' os Hp El Fa H. unfold pending_at in Hp. cbn [step] in H. rewrite Hp in H. cbn [control_ok] in H. unfold attach_remote_sender in H. cbv zeta in H.
  match type of H with context [nth_error (s_snds ?x) a] => change (s_snds x) with (s_snds s) in H end. rewrite El in H.
  match type of H with context [put_link _ _ ?x] => set (s1 := x) in * end.
  destruct (slab_get (s_links s1) (sn_id l)) as [old|] eqn:Es; [|discriminate H]. unfold noobs, emap in H. cbn [ebind] in H.
  apply EOk_inj in H. apply (f_equal fst) in H. cbn [fst] in H. subst s'. frw.
  unfold s1. unfold from_address in Fa. destruct (attach_source frm) as [src|]; [|discriminate Fa]. rewrite Fa. frw. reflexivity.
Qed.

(** Sender link [a] is the only one with name [n]. *)
Definition only_named (n : bytes) (a : nat) (s : ses) : Prop :=
  forall b l, nth_error (s_snds s) b = Some l -> sn_name l = n -> b = a.
(** It waits for the service; it is attached, and the name leads to it; it is gone for good. *)
Definition name_asked (n : bytes) (i : nat) (frm r : attach_t) (a : nat) (s : ses) : Prop :=
  (a < length (s_snds s))%nat /\ pending_at i frm r a s /\ from_address frm = Some n
  /\ (forall j f r' b, pending_at j f r' b s -> b = a \/ from_address f = Some n -> j = i)
  /\ only_named n a s /\ name_get n (s_names s) = None /\ ~ sender_open a s.
Definition name_open (n : bytes) (a : nat) (s : ses) : Prop :=
  (exists k, slab_get (s_links s) k = Some (SEstablished a) /\ name_get n (s_names s) = Some k)
  /\ (forall j f r b, pending_at j f r b s -> b <> a /\ from_address f <> Some n)
  /\ only_named n a s.
Definition name_gone (a : nat) (s : ses) : Prop :=
  (a < length (s_snds s))%nat /\ ~ sender_open a s /\ forall j f r b, pending_at j f r b s -> b <> a.
Definition name_life (n : bytes) (a : nat) (s : ses) : Prop :=
  (exists i frm r, name_asked n i frm r a s) \/ name_open n a s \/ name_gone a s.

Lemma open_dec : forall a s, lk_inv [] s -> (exists k, slab_get (s_links s) k = Some (SEstablished a)) \/ ~ sender_open a s.
Proof.
  intros a s (_ & _ & Ss & _). destruct (nth_error (s_snds s) a) as [l|] eqn:E.
  - destruct (slab_get (s_links s) (sn_id l)) as [lk|] eqn:G.
    + assert (D : lk = SEstablished a \/ lk <> SEstablished a).
      { destruct lk as [b| | | | | | |]; try (right; discriminate). destruct (Nat.eq_dec b a) as [->|N]; [left; reflexivity | right; congruence]. }
      destruct D as [->|D]; [left; eauto|]. right. intros (k & G'). destruct (Ss _ _ G') as (l' & E' & I). congruence.
    + right. intros (k & G'). destruct (Ss _ _ G') as (l' & E' & I). congruence.
  - right. intros (k & G'). destruct (Ss _ _ G') as (l' & E' & I). congruence.
Qed.
Lemma lens_step : forall p e s s' os a, step p e s = EOk (s', os) -> (a < length (s_snds s))%nat -> (a < length (s_snds s'))%nat.
Proof.
  intros p e s s' os a H L. apply nth_error_Some in L. destruct (nth_error (s_snds s) a) as [l|] eqn:E; [|congruence].
  destruct (proj1 (step_keeps_objs _ _ _ _ _ H) _ _ E) as (l' & E' & _). apply nth_lt in E'. exact E'.
Qed.
Lemma gone_step : forall p e a s s' os, lk_inv [] s -> pend_born s -> step p e s = EOk (s', os) -> name_gone a s -> name_gone a s'.
Proof.
  intros p e a s s' os I B H (L & N & P). assert (B' := pend_born_step _ _ _ _ _ B H). split; [eapply lens_step; eauto|]. split.
  - intros (k & G). destruct (open_origin _ _ _ _ _ _ H L k G) as [G0|(i & edit & frm & r & l & _ & Pa & _)]; [apply N; exists k; exact G0 | exact (P _ _ _ _ Pa eq_refl)].
  - intros j f r b Q ->. destruct (pending_origin _ _ _ _ _ _ _ _ _ I B B' H Q) as [Q0|(_ & -> & _)]; [exact (P _ _ _ _ Q0 eq_refl) | lia].
Qed.
Lemma named_step : forall p e n a s s' os, step p e s = EOk (s', os) -> n <> [] -> ~ takes_name n e -> only_named n a s ->
  (forall i tx, s_error s = None -> name_get n (s_names s) = Some i -> slab_get (s_links s) i <> Some (SOpening tx)) -> only_named n a s'.
Proof.
  intros p e n a s s' os H Nn T O X b l E D. destruct (step_new_snd _ _ _ _ _ _ _ H E) as [(l0 & E0 & D0)|(frm & -> & _ & [N1 N2|i tx N0 N1 N2 N3])].
  - apply (O b l0 E0). congruence.
  - exfalso. destruct (from_address frm) as [m|] eqn:F; cbn [or_default] in N2; [|congruence]. apply T. cbn [takes_name]. congruence.
  - exfalso. rewrite D in N3. rewrite <- N3 in N1. exact (X i tx N0 N1 N2).
Qed.
Lemma life_step : forall p e n a s s' os, lk_inv [] s -> pend_born s -> n <> [] -> step p e s = EOk (s', os) -> ~ takes_name n e ->
  name_life n a s -> name_life n a s'.
Proof.
  intros p e n a s s' os I B Nn H T Lf. assert (B' := pend_born_step _ _ _ _ _ B H). assert (I' := step_lk _ _ _ _ _ H I).
  destruct Lf as [(i & frm & r & L & P & Fa & U & On & Nm & No)|[((k & G & Nm) & U & On)|G]]; [| |right; right; exact (gone_step p e a s s' os I B H G)].
  - assert (On' : only_named n a s') by (eapply named_step; eauto; intros; congruence).
    assert (U' : forall j f r' b, pending_at j f r' b s' -> b = a \/ from_address f = Some n -> j = i /\ pending_at j f r' b s).
    { intros j f r' b Q C. destruct (pending_origin _ _ _ _ _ _ _ _ _ I B B' H Q) as [Q0|(-> & -> & _)]; [split; [exact (U _ _ _ _ Q0 C) | exact Q0]|].
      exfalso. destruct C as [C|C]; [lia | exact (T C)]. }
    destruct (open_dec a s' I') as [(k & G)|N'].
    + destruct (open_origin _ _ _ _ _ _ H L k G) as [G0|(j & edit & f & r' & l & -> & Pa & El & ->)]; [elim No; exists k; exact G0|].
      assert (j = i) by (apply (U _ _ _ _ Pa); auto). subst j. assert (f = frm) by (unfold pending_at in *; congruence). subst f.
      right. left. split; [|split; [|exact On']].
      * exists (sn_id l). split; [exact G|]. rewrite (accept_names _ _ _ _ _ _ _ _ _ _ _ Pa El Fa H), name_get_put, BaseProofs.beqb_refl. reflexivity.
      * intros j f r2 b Q. split; intros C; (destruct (U' _ _ _ _ Q) as [-> _]; [auto|]); exact (done_pending _ _ _ _ _ _ _ _ _ _ _ _ Pa H Q).
    + assert (D : pending_at i frm r a s' \/ ~ pending_at i frm r a s').
      { destruct (nth_error (s_ctl s') i) as [[c|]|] eqn:Ec; [|right; unfold pending_at; congruence | right; unfold pending_at; congruence].
        assert (X : forall f1 r1 b1, c = KAttachSender f1 r1 b1 -> pending_at i frm r a s' \/ ~ pending_at i frm r a s').
        { intros f1 r1 b1 ->. assert (Y : pending_at i f1 r1 b1 s') by exact Ec.
          destruct (pending_origin _ _ _ _ _ _ _ _ _ I B B' H Y) as [Q0|(_ & _ & Ei)].
          - left. unfold pending_at in *. congruence.
          - apply pending_lt in P. lia. }
        destruct c; try (right; unfold pending_at; congruence). eapply X; reflexivity. }
      destruct D as [P'|NP].
      * left. exists i, frm, r. split; [eapply lens_step; eauto|]. split; [exact P'|]. split; [exact Fa|]. split; [intros j f r' b Q C; apply (U' _ _ _ _ Q C)|].
        split; [exact On'|]. split; [|exact N'].
        destruct (step_names _ _ _ _ _ H) as [Q | f k D _ Q | j edit f r' b l m -> Pn El Ea Q | d k b l -> Es El _ Q | x -> Q]; rewrite Q.
        -- exact Nm.
        -- rewrite (proj1 (name_get_other n (attach_name f) k (s_names s) ltac:(intros ->; apply T; destruct D as [-> | ->]; reflexivity))). exact Nm.
        -- assert (Nj : m <> n). { intros ->. assert (j = i) by (apply (U _ _ _ _ Pn); auto). subst j. exact (done_pending _ _ _ _ _ _ _ _ _ _ _ _ Pn H P'). }
           rewrite (proj1 (name_get_other n m (sn_id l) (s_names s) ltac:(congruence))). exact Nm.
        -- destruct (beqb n (sn_name l)) eqn:Eb.
           ++ apply BaseProofs.beqb_eq in Eb. subst n. assert (b = a) by (apply (On _ _ El eq_refl)). subst b. elim No. exists k. exact Es.
           ++ rewrite (proj2 (name_get_other n (sn_name l) 0 (s_names s) ltac:(intros ->; rewrite BaseProofs.beqb_refl in Eb; discriminate Eb))). exact Nm.
        -- reflexivity.
      * right. right. split; [eapply lens_step; eauto|]. split; [exact N'|]. intros j f r' b Q ->. destruct (U' _ _ _ _ Q) as [-> Q0]; [auto|].
        apply NP. unfold pending_at in *. congruence.
  - assert (L : (a < length (s_snds s))%nat) by (destruct I as (_ & _ & Ss & _); destruct (Ss _ _ G) as (l & El & _); apply nth_lt in El; exact El).
    assert (U' : forall j f r b, pending_at j f r b s' -> b <> a /\ from_address f <> Some n).
    { intros j f r b Q. destruct (pending_origin _ _ _ _ _ _ _ _ _ I B B' H Q) as [Q0|(-> & -> & _)]; [exact (U _ _ _ _ Q0)|].
      split; [lia | exact T]. }
    destruct (open_dec a s' I') as [(k' & G')|N'].
    2:{ right. right. split; [eapply lens_step; eauto|]. split; [exact N'|]. intros j f r b Q. apply (U' _ _ _ _ Q). }
    assert (G1 : slab_get (s_links s) k' = Some (SEstablished a)).
    { destruct (open_origin _ _ _ _ _ _ H L k' G') as [G0|(j & edit & f & r & l & _ & Pa & _)]; [exact G0 | elim (proj1 (U _ _ _ _ Pa)); reflexivity]. }
    assert (k' = k). { destruct I as (_ & _ & Ss & _). destruct (Ss _ _ G) as (l & El & Il). destruct (Ss _ _ G1) as (l' & El' & Il'). congruence. }
    subst k'. right. left. split; [|split; [exact U'|]].
    + exists k. split; [exact G'|].
      destruct (step_names _ _ _ _ _ H) as [Q | f j D _ Q | j edit f r b l m -> Pn El Ea Q | d j b l -> Es El Es' Q | x -> Q].
      * rewrite Q. exact Nm.
      * rewrite Q. rewrite (proj1 (name_get_other n (attach_name f) j (s_names s) ltac:(intros ->; apply T; destruct D as [-> | ->]; reflexivity))). exact Nm.
      * rewrite Q. rewrite (proj1 (name_get_other n m (sn_id l) (s_names s) ltac:(intros ->; exact (proj2 (U _ _ _ _ Pn) Ea)))). exact Nm.
      * rewrite Q. destruct (beqb n (sn_name l)) eqn:Eb.
        -- exfalso. apply BaseProofs.beqb_eq in Eb. assert (b = a) by (apply (On _ _ El); congruence). subst b.
           assert (j = k). { destruct I as (_ & _ & Ss & _). destruct (Ss _ _ G) as (l1 & El1 & Il1). destruct (Ss _ _ Es) as (l2 & El2 & Il2). congruence. }
           subst j. congruence.
        -- rewrite (proj2 (name_get_other n (sn_name l) 0 (s_names s) ltac:(intros ->; rewrite BaseProofs.beqb_refl in Eb; discriminate Eb))). exact Nm.
      * exfalso. cbn [step] in H. apply EOk_inj in H. apply (f_equal fst) in H. cbn [fst] in H. subst s'. rewrite ses_set_error_links, slab0_get in G'. discriminate G'.
    + eapply named_step; eauto. intros j tx _ Ej. rewrite Nm in Ej. apply Some_inj in Ej. subst j. congruence.
Qed.
Lemma life_run : forall p evs n a s s' os, lk_inv [] s -> pend_born s -> n <> [] -> run p evs s = EOk (s', os) -> (forall e, In e evs -> ~ takes_name n e) ->
  name_life n a s -> name_life n a s'.
Proof.
  intros p evs. induction evs as [|e evs IH]; intros n a s s' os I B Nn R T Lf; cbn [run] in R.
  - injection R as <- <-. exact Lf.
  - destruct (step p e s) as [[s1 o1]|] eqn:E; cbn [ebind] in R; [|discriminate R].
    destruct (run p evs s1) as [[s2 o2]|] eqn:R2; cbn [ebind] in R; [|discriminate R]. injection R as <- <-.
    eapply IH; [exact (step_lk _ _ _ _ _ E I) | exact (pend_born_step _ _ _ _ _ B E) | exact Nn | exact R2 | intros x Hx; apply T; right; exact Hx |].
    eapply life_step; eauto. apply T. left. reflexivity.
Qed.
Lemma life_found : forall n a s, name_life n a s -> sender_open a s -> sender_by_name n s = Some a.
Proof.
  intros n a s [(i & frm & r & _ & _ & _ & _ & _ & _ & N)|[((k & G & Nm) & _)|(_ & N & _)]] O; [contradiction | | contradiction].
  unfold sender_by_name. rewrite Nm, G. reflexivity.
Qed.
Lemma by_name_peer : forall p evs1 evs2 id local rc mfs b s1 s2 s3 os1 os2 os3 frm r n,
  run p evs1 (ses_new id local rc mfs b) = EOk (s1, os1) ->
  step p (EvAttach frm) s1 = EOk (s2, os2) ->
  called (length (s_ctl s1)) (KAttachSender frm r (length (s_snds s1))) s2 ->
  from_address frm = Some n -> n <> [] ->
  run p evs2 s2 = EOk (s3, os3) -> (forall e, In e (evs1 ++ evs2) -> ~ takes_name n e) ->
  sender_open (length (s_snds s1)) s3 -> sender_by_name n s3 = Some (length (s_snds s1)).
Proof.
  intros p evs1 evs2 id local rc mfs b s1 s2 s3 os1 os2 os3 frm r n R1 H C Fa Nn R2 T O.
  assert (Re : reachable p s1) by (exists id, local, rc, mfs, b, evs1, os1; exact R1).
  assert (LK := lk_reachable _ _ Re). assert (PB := pend_born_reachable _ _ Re).
  assert (Un : unknown n s1) by (eapply unknown_run; [apply unknown_start | exact Nn | exact R1 | intros e He; apply T, in_or_app; left; exact He]).
  destruct Un as [Nm [U1 U2]]. apply life_found; [|exact O].
  apply (life_run p evs2 n _ s2 s3 os3); [exact (step_lk _ _ _ _ _ H LK) | exact (pend_born_step _ _ _ _ _ PB H) | exact Nn | exact R2 | intros e He; apply T, in_or_app; right; exact He |].
  left. exists (length (s_ctl s1)), frm, r.
  assert (P : pending_at (length (s_ctl s1)) frm r (length (s_snds s1)) s2) by exact C.
  split; [exact (pend_born_step _ _ _ _ _ PB H _ _ _ _ P)|]. split; [exact P|]. split; [exact Fa|]. split; [|split; [|split]].
  - intros j f r' c Q D. destruct (pending_origin _ _ _ _ _ _ _ _ _ LK PB (pend_born_step _ _ _ _ _ PB H) H Q) as [Q0|(_ & _ & ->)]; [|reflexivity].
    exfalso. destruct D as [-> |D]; [apply PB in Q0; lia | exact (U2 _ _ _ _ Q0 D)].
  - intros c l E D. destruct (step_new_snd _ _ _ _ _ _ _ H E) as [(l0 & E0 & D0)|(f & _ & -> & _)]; [|reflexivity]. elim (U1 _ _ E0). congruence.
  - destruct (step_names _ _ _ _ _ H) as [Q | f k D _ Q | j edit f r' c l m D Pn El Ea Q | d k c l D Es El _ Q | x D Q]; try discriminate D; try (destruct D as [D|D]; discriminate D).
    rewrite Q. exact Nm.
  - intros (k & G). destruct (attach_cases _ _ _ _ _ H) as [-> | i tx E Lk R Ls Lr Lc Ct | i c tx E Lk R Ls Lr Lc Ct | r0 l Lk R Ls Rh Lr Lc Ct | r0 Lk R Ls Lr Lc Ct].
    + apply PB in P. lia.
    + apply pending_lt in P. rewrite Ct in P. lia.
    + apply pending_lt in P. rewrite Ct in P. lia.
    + rewrite Lk in G. apply slab_insert_inv in G as [Z|G]; [discriminate Z|]. destruct LK as (_ & _ & Ss & _). destruct (Ss _ _ G) as (l1 & E1 & _). apply nth_lt in E1. lia.
    + unfold called in C. rewrite Ct in C. rewrite nth_error_app2, Nat.sub_diag in C by reflexivity. discriminate C.
Qed.
Lemma by_name_own : forall p evs1 evs2 evs3 id local rc mfs b s1 s2 s3 s4 s5 os1 os2 os3 os4 os5 n mine frm,
  run p evs1 (ses_new id local rc mfs b) = EOk (s1, os1) -> attach_name mine = n -> n <> [] ->
  step p (EvAttachSender mine) s1 = EOk (s2, os2) -> run p evs2 s2 = EOk (s3, os3) ->
  (forall e', In e' (evs1 ++ evs2 ++ EvAttach frm :: evs3) -> ~ takes_name n e') ->
  s_error s3 = None -> still_waits (next_future s1) s3 ->
  attach_name frm = n -> step p (EvAttach frm) s3 = EOk (s4, os4) -> run p evs3 s4 = EOk (s5, os5) ->
  sender_open (length (s_snds s3)) s5 -> sender_by_name n s5 = Some (length (s_snds s3)).
Proof.
  intros p evs1 evs2 evs3 id local rc mfs b s1 s2 s3 s4 s5 os1 os2 os3 os4 os5 n mine frm R1 En Nn H R2 T Er Wt Ef Ha R3 O.
  assert (Re : reachable p s1) by (exists id, local, rc, mfs, b, evs1, os1; exact R1).
  assert (LK := lk_reachable _ _ Re).
  assert (Un : unknown n s1) by (eapply unknown_run; [apply unknown_start | exact Nn | exact R1 | intros e He; apply T, in_or_app; left; exact He]).
  assert (A2 : attaching n (next_future s1) (slab_key (s_links s1)) (own_slot (EvAttachSender mine) s1) s2).
  { eapply own_attaching; [exact Un | exact LK | destruct (fut_reachable _ _ Re) as (_ & Bp & _); exact Bp | exact H | exists mine; auto]. }
  assert (A3 := attaching_run p evs2 n _ _ _ s2 s3 os3 A2 Nn R2 ltac:(intros e He; apply T; apply in_or_app; right; apply in_or_app; left; exact He)).
  destruct (attaching_slot _ _ _ _ _ A3 Wt) as [G3 Nm3]. cbn [own_slot] in G3.
  destruct A3 as (_ & _ & _ & _ & A3). destruct (A3 Wt) as (_ & _ & [U1 U2]).
  assert (Re3 : reachable p s3).
  { exists id, local, rc, mfs, b, (evs1 ++ EvAttachSender mine :: evs2), (os1 ++ os2 ++ os3). eapply run_app; [exact R1|]. cbn [run]. rewrite H. cbn [ebind]. rewrite R2. reflexivity. }
  assert (LK3 := lk_reachable _ _ Re3). assert (PB3 := pend_born_reachable _ _ Re3).
  apply life_found; [|exact O].
  apply (life_run p evs3 n _ s4 s5 os5); [exact (step_lk _ _ _ _ _ Ha LK3) | exact (pend_born_step _ _ _ _ _ PB3 Ha) | exact Nn | exact R3
    | intros e He; apply T; apply in_or_app; right; apply in_or_app; right; right; exact He |].
  right. left. assert (B4 := pend_born_step _ _ _ _ _ PB3 Ha).
  assert (Lk4 : s_links s4 = slab_set (slab_key (s_links s1)) (SEstablished (length (s_snds s3))) (s_links s3) /\ s_names s4 = s_names s3 /\ s_ctl s4 = s_ctl s3).
  { cbn [step] in Ha. apply EOk_inj in Ha. apply (f_equal fst) in Ha. cbn [fst] in Ha. subst s4. unfold on_attach, handle_attach. rewrite Er, Ef, Nm3, G3.
    cbn [fire_opt]. frw. st_cbn. repeat match goal with |- _ /\ _ => split end; reflexivity. }
  destruct Lk4 as (Lk4 & Nm4 & Ct4). split; [|split].
  - exists (slab_key (s_links s1)). split; [rewrite Lk4, slab_get_set by congruence; rewrite N.eqb_refl; reflexivity | rewrite Nm4; exact Nm3].
  - intros j f r c Q. assert (Q0 : pending_at j f r c s3) by (unfold pending_at in *; congruence). split; [apply PB3 in Q0; lia | exact (U2 _ _ _ _ Q0)].
  - intros c l E D. destruct (step_new_snd _ _ _ _ _ _ _ Ha E) as [(l0 & E0 & D0)|(f & _ & -> & _)]; [|reflexivity]. elim (U1 _ _ E0). congruence.
Qed.

(** ** Sessions *)
Lemma session_sound : forall p c ch a, creachable p c -> session_by_channel ch c = Some a ->
  exists s, nth_error (c_sess c) a = Some s /\ channel_of s = as_u16 ch /\ s_ended s = false /\ s_error s = None.
Proof.
  intros p c ch a R H. apply CI_reachable in R. unfold session_by_channel in H.
  destruct (slab_get (c_slots c) (as_u16 ch)) as [[i|b|b]|] eqn:E; try discriminate H. apply Some_inj in H. subst b.
  destruct (ci_slot _ R (as_u16 ch) a (or_introl E)) as (s & Es & Id & En & Er). exists s. split; [exact Es|]. split; [|auto].
  unfold channel_of. rewrite Id. unfold as_u16. apply N.mod_mod. discriminate.
Qed.
(** A slot is closing only because a session was ended whose channel of the peer
    has the number of the slot. *)
Definition closing_by (c : conn) : Prop := forall k a, slab_get (c_slots c) k = Some (CoClosing a) ->
  exists b s, nth_error (c_sess c) b = Some s /\ s_rchan s = k /\ s_ending s = true.
Lemma closing_sess : forall c c', closing_by c ->
  (forall b s, nth_error (c_sess c) b = Some s -> exists s', nth_error (c_sess c') b = Some s' /\ s_rchan s' = s_rchan s /\ (s_ending s = true -> s_ending s' = true)) ->
  (forall k a, slab_get (c_slots c') k = Some (CoClosing a) -> slab_get (c_slots c) k = Some (CoClosing a)) -> closing_by c'.
Proof.
  intros c c' I S L k a G. destruct (I k a (L k a G)) as (b & s & E & R & D). destruct (S b s E) as (s' & E' & R' & D'). exists b, s'. rewrite R'. auto.
Qed.
Lemma alike_keeps : forall ss ss', alike ss ss' -> forall b s, nth_error ss b = Some s ->
  exists s', nth_error ss' b = Some s' /\ s_rchan s' = s_rchan s /\ (s_ending s = true -> s_ending s' = true).
Proof. intros ss ss' [_ A] b s E. destruct (A b s E) as (s' & E' & (_ & R & _) & D). exists s'. repeat split; congruence. Qed.
Lemma snoc_keeps : forall (ss : list ses) x, forall b s, nth_error ss b = Some s ->
  exists s', nth_error (ss ++ [x]) b = Some s' /\ s_rchan s' = s_rchan s /\ (s_ending s = true -> s_ending s' = true).
Proof. intros ss x b s E. exists s. rewrite nth_error_app1 by (apply nth_lt in E; exact E). auto. Qed.
Lemma closing_move : forall c c', move c c' -> closing_by c -> closing_by c'.
Proof.
  intros c c' M I. destruct M as [l S A _ _ | l _ S A _ _ | i b _ _ S A _ | ch mfs b b' _ S A _ _ | k ch i mfs b _ G S A _ | a s E En Ng A S _ | ch k a s e l Mg At E A S _ _].
  - eapply closing_sess; [exact I | apply alike_keeps; exact A | rewrite S; auto].
  - intros k a G. rewrite S, slab0_get in G. discriminate G.
  - eapply closing_sess; [exact I | rewrite A; intros x s E; exists s; auto |]. rewrite S. intros k a G. apply slab_insert_inv in G as [G|G]; [discriminate G | exact G].
  - eapply closing_sess; [exact I | rewrite A; apply snoc_keeps |]. rewrite S. intros k a G. apply slab_insert_inv in G as [G|G]; [discriminate G | exact G].
  - eapply closing_sess; [exact I | rewrite A; apply snoc_keeps |]. rewrite S. intros k' a G'. rewrite slab_get_set in G' by congruence.
    destruct (k =? k'); [discriminate G' | exact G'].
  - assert (K : forall b x, nth_error (c_sess c) b = Some x -> exists s', nth_error (c_sess c') b = Some s' /\ s_rchan s' = s_rchan x /\ (s_ending x = true -> s_ending s' = true)).
    { intros b x Ex. rewrite A. destruct (Nat.eq_dec a b) as [<-|N].
      - exists (ses_end s). split; [exact (nth_set_nth_eq _ _ _ _ (nth_lt _ _ _ _ E))|]. assert (x = s) as -> by congruence. rewrite Ng.
        split; [unfold ses_end; frw; reflexivity | discriminate].
      - exists x. rewrite nth_set_nth_neq by congruence. auto. }
    intros k b G. rewrite S, close_session_get in G. destruct (slab_get (c_slots c) k) as [[i|x|x]|] eqn:Gk; try discriminate G.
    + destruct (k =? s_rchan s) eqn:Ek; [|discriminate G]. apply N.eqb_eq in Ek. exists a, (ses_end s). rewrite A.
      split; [exact (nth_set_nth_eq _ _ _ _ (nth_lt _ _ _ _ E))|]. split; [frw; symmetry; exact Ek | assert (F := end_fields s); cbv zeta in F; destruct F as (_ & _ & _ & _ & _ & F6 & _); rewrite F6, En, Ng; reflexivity].
    + destruct (I _ _ Gk) as (d & y & Ey & Ry & Dy). destruct (K _ _ Ey) as (y' & Ey' & Ry' & Dy'). exists d, y'. rewrite Ry'. auto.
  - eapply closing_sess; [exact I | |].
    + intros b x Ex. rewrite A. destruct (Nat.eq_dec a b) as [<-|N].
      * exists (ses_set_error e s). split; [exact (nth_set_nth_eq _ _ _ _ (nth_lt _ _ _ _ E))|]. assert (x = s) as -> by congruence. frw. auto.
      * exists x. rewrite nth_set_nth_neq by congruence. auto.
    + rewrite S. intros k' b G. rewrite slab_get_remove in G. destruct (k =? k'); [discriminate G | exact G].
Qed.
Lemma closing_reachable : forall p c, creachable p c -> closing_by c.
Proof.
  intros p c (chmax & mfs & evs & os & _ & R).
  assert (X : CI c /\ closing_by c); [|exact (proj2 X)]. revert R. apply (crun_ind (fun c => CI c /\ closing_by c)).
  - intros e c0 c1 o [I1 I2] H. split; [exact (CI_step _ _ _ _ _ I1 H) | exact (closing_move _ _ (step_move _ _ _ _ _ I1 H) I2)].
  - split; [apply CI_new|]. intros k a G. cbn [c_slots conn_new] in G. rewrite slab0_get in G. discriminate G.
Qed.
Lemma session_complete : forall p chmax mfs evs c os a s, chmax < two16 -> at_most 65536 p evs (conn_new chmax mfs) ->
  crun p evs (conn_new chmax mfs) = EOk (c, os) -> c_error c = None ->
  nth_error (c_sess c) a = Some s -> s_ended s = false ->
  (forall b s', nth_error (c_sess c) b = Some s' -> s_rchan s' = s_id s -> s_ending s' = false) ->
  session_by_channel (channel_of s) c = Some a.
Proof.
  intros p chmax mfs evs c os a s Ch Am R Er E En No. assert (Re : creachable p c) by (exists chmax, mfs, evs, os; split; [exact Ch | exact R]).
  assert (I := CI_reachable _ _ Re). destruct (channels_unique _ _ _ _ _ _ Am R) as [Lt _].
  destruct (ci_ended _ I a s E) as [[k At]|[D|D]]; [|congruence | contradiction].
  destruct (ci_slot _ I k a At) as (s' & E' & Id & _). assert (s' = s) as -> by congruence.
  assert (Lk : k < two16) by (apply Lt; destruct At as [-> | ->]; discriminate).
  assert (G : slab_get (c_slots c) k = Some (CoEstablished a)).
  { destruct At as [G|G]; [exact G|]. destruct (closing_reachable _ _ Re _ _ G) as (b & x & Ex & Rx & Dx). rewrite (No b x Ex ltac:(congruence)) in Dx. discriminate Dx. }
  unfold session_by_channel, channel_of. rewrite Id. unfold as_u16. rewrite !(N.mod_small k two16) by exact Lk. rewrite G. reflexivity.
Qed.

Lemma few_nil : forall n p c, N.of_nat (length (slab_values (c_slots c))) <= n -> at_most n p [] c.
Proof. intros n p c H evs1 evs2 c1 os1 E R. destruct evs1; [|discriminate E]. cbn in R. apply EOk_inj in R. assert (c1 = c) as -> by congruence. exact H. Qed.
Lemma few_cons : forall n p e evs c, N.of_nat (length (slab_values (c_slots c))) <= n ->
  (forall c1 os, cstep p e c = EOk (c1, os) -> at_most n p evs c1) -> at_most n p (e :: evs) c.
Proof.
  intros n p e evs c H K evs1 evs2 c2 os2 E R. destruct evs1 as [|e1 evs1].
  - cbn in R. apply EOk_inj in R. assert (c2 = c) as -> by congruence. exact H.
  - injection E as <- ->. apply crun_cons in R as (c1 & o1 & o2 & Hs & Hr & _). exact (K c1 o1 Hs evs1 evs2 c2 o2 eq_refl Hr).
Qed.
