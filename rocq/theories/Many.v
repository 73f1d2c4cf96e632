(** * Handles below the number of links: the relation *)

From Coq Require Import ZifyBool ZifyNat ZifyN.
From Verif Require Export SpecMany ConnProofs OwnedRcv Turn.
Import ListNotations.

Definition MK (n : N) (s : ses) : Prop :=
  slab_full (s_links s) /\ N.of_nat (nslots s) <= n
  /\ (forall a l, nth_error (s_snds s) a = Some l -> sn_id l < n)
  /\ (forall a l, nth_error (s_rcvs s) a = Some l -> rc_handle l < n)
  /\ forall a, In (FAttach a) (s_out s) -> attach_handle a < n.
Definition mk_rel (n : N) (s s' : ses) : Prop := MK n s -> MK n s'.
#[export] Instance mk_pre n : preorder (mk_rel n).
Proof. split; unfold mk_rel; auto. Qed.
Lemma mk_like : forall n s s', slab_full (s_links s') \/ s_links s' = s_links s ->
  ((nslots s' <= nslots s)%nat) ->
  (forall a l', nth_error (s_snds s') a = Some l' -> exists l, nth_error (s_snds s) a = Some l /\ sn_id l' = sn_id l) ->
  (forall a l', nth_error (s_rcvs s') a = Some l' -> exists l, nth_error (s_rcvs s) a = Some l /\ rc_handle l' = rc_handle l) ->
  (forall a, In (FAttach a) (s_out s') -> In (FAttach a) (s_out s)) -> stable (mk_rel n) s s'.
Proof.
  intros n s s' HF HN HS HR HO (F & B & S & R & O). split; [|split; [|split; [|split]]].
  - destruct HF as [X|E]; [exact X | rewrite E; exact F].
  - lia.
  - intros a l' E. destruct (HS a l' E) as (l & E1 & ->). eauto.
  - intros a l' E. destruct (HR a l' E) as (l & E1 & ->). eauto.
  - intros a I. eauto.
Qed.
#[export] Instance mk_sees n : sees (mk_rel n) [Flinks; Fsnds; Frcvs; Fout].
Proof.
  intros s s' H. assert (E1 := H Flinks eq_refl). assert (E2 := H Fsnds eq_refl). assert (E3 := H Frcvs eq_refl). assert (E4 := H Fout eq_refl). cbn [same] in *.
  unfold mk_rel, MK, nslots. rewrite E1, E2, E3, E4. auto.
Qed.
Class no_attach (f : frame) : Prop := get_no_attach : forall a, f <> FAttach a.
#[export] Hint Extern 1 (no_attach _) => (intros ?; discriminate) : typeclass_instances.
#[export] Instance mk_post n f s (N : no_attach f) : stable (mk_rel n) s (post f s).
Proof.
  unfold post. apply mk_like; st_cbn; eauto. intros a I. apply in_app_or in I as [I|[E|[]]]; [exact I | elim (N a E)].
Qed.
Lemma mk_post_attach : forall n a s, (MK n s -> attach_handle a < n) -> stable (mk_rel n) s (post (FAttach a) s).
Proof.
  intros n a s L M. assert (La := L M). destruct M as (F & B & S & R & O). unfold post. split; [|split; [|split; [|split]]]; st_cbn; auto.
  intros b I. apply in_app_or in I as [I|[E|[]]]; [exact (O _ I) | congruence].
Qed.
Lemma mk_post_all : forall n fs s, (forall f a, In f fs -> f <> FAttach a) -> stable (mk_rel n) s (post_all fs s).
Proof.
  intros n fs. induction fs as [|f fs IH]; intros s H; cbn [post_all fold_left]; [apply stable_refl; exact _|].
  eapply stable_trans; [exact _ | apply (mk_post n f); intros a; apply H; left; reflexivity | apply IH; intros g a Hg; apply H; right; exact Hg].
Qed.
#[export] Instance mk_clear n s : stable (mk_rel n) s (set_s_links slab0 s).
Proof. apply mk_like; unfold nslots; st_cbn; eauto; [left; exact (slab_full0 _) | cbn; lia]. Qed.
#[export] Instance mk_set n k l s : stable (mk_rel n) s (set_s_links (slab_set k l (s_links s)) s).
Proof.
  intros (F & B & S & R & O). split; [|split; [|split; [|split]]]; st_cbn; auto; [apply full_set; exact F | unfold nslots in *; st_cbn; rewrite slab_set_length; exact B].
Qed.
#[export] Instance mk_rem n k s : stable (mk_rel n) s (set_s_links (slab_remove k (s_links s)) s).
Proof.
  intros (F & B & S & R & O). split; [|split; [|split; [|split]]]; st_cbn; auto; [apply full_remove; exact F | unfold nslots in *; st_cbn; rewrite slab_remove_length; exact B].
Qed.
#[export] Instance mk_upd_snd n a f s {H : same_snd_ids f} : stable (mk_rel n) s (upd_snd a f s).
Proof.
  apply mk_like; try (frw; auto; fail); [unfold nslots; frw; lia | | intros b l E; revert E; frw; eauto].
  intros b l E. rewrite nth_upd_snd in E. destruct (Nat.eqb_spec a b) as [->|]; [|eauto].
  destruct (nth_error (s_snds s) b) as [l0|]; [|discriminate E]. cbn [option_map] in E. exists l0. split; [reflexivity|].
  assert (X := H l0). unfold snd_ids in X. congruence.
Qed.
Lemma mk_upd_rcv : forall n a f s, (forall l, rcv_ids (f l) = rcv_ids l) -> stable (mk_rel n) s (upd_rcv a f s).
Proof.
  intros n a f s H. apply mk_like; try (frw; auto; fail); [unfold nslots; frw; lia | intros b l E; revert E; frw; eauto |].
  intros b l E. rewrite nth_upd_rcv in E. destruct (Nat.eqb_spec a b) as [->|]; [|eauto].
  destruct (nth_error (s_rcvs s) b) as [l0|]; [|discriminate E]. cbn [option_map] in E. exists l0. split; [reflexivity|].
  assert (X := H l0). unfold rcv_ids in X. congruence.
Qed.
#[export] Hint Extern 1 (stable (mk_rel ?n) ?s (upd_rcv ?a ?f ?s)) => solve [apply mk_upd_rcv; intros; rewrite ?wake_handle; reflexivity] : typeclass_instances.
Lemma mk_put_rcv : forall n a l l' s, nth_error (s_rcvs s) a = Some l -> rcv_ids l' = rcv_ids l -> stable (mk_rel n) s (upd_rcv a (fun _ => l') s).
Proof.
  intros n a l l' s E I. apply mk_like; try (frw; auto; fail); [unfold nslots; frw; lia | intros b x Eb; revert Eb; frw; eauto |].
  intros b x Eb. rewrite nth_upd_rcv in Eb. destruct (Nat.eqb_spec a b) as [->|]; [|eauto]. rewrite E in Eb. cbn [option_map] in Eb. exists l. split; [exact E|].
  unfold rcv_ids in I. congruence.
Qed.
#[export] Instance mk_transmit n t tk l tag s : stable (mk_rel n) s (transmit t tk l tag s).
Proof.
  unfold transmit. cbv zeta. match goal with |- context [post_all ?fs ?x] => set (fr := fs); set (y := x) end.
  assert (P : stable (mk_rel n) y (post_all fr y)). { apply mk_post_all. intros f a Hf. apply transfer_frames_are in Hf as (t0 & ->). discriminate. }
  assert (Q : stable (mk_rel n) s y) by (unfold y; destruct (tk_settled tk); st_chain).
  clearbody fr y. eapply stable_trans; [exact _ | exact Q|]. eapply stable_trans; [exact _ | exact P|]. st_chain.
Qed.
Lemma u32_le : forall k, as_u32 k <= k.
Proof. intros k. unfold as_u32. apply N.mod_le. discriminate. Qed.
Lemma MK_slot : forall n s k lk, MK n s -> slab_get (s_links s) k = Some lk -> k < n.
Proof. intros n s k lk (_ & B & _) G. apply slab_get_lt in G. unfold nslots in B. lia. Qed.
Lemma mk_add_snd : forall n l s, sn_id l < n -> stable (mk_rel n) s (set_s_snds (s_snds s ++ [l]) s).
Proof.
  intros n l s L (F & B & S & R & O). split; [|split; [|split; [|split]]]; st_cbn; auto. intros a x E.
  destruct (Nat.lt_ge_cases a (length (s_snds s))) as [La|La].
  - rewrite nth_error_app1 in E by exact La. eauto.
  - rewrite nth_error_app2 in E by exact La. destruct (a - length (s_snds s))%nat as [|[|m]]; cbn in E; try discriminate E. congruence.
Qed.
Lemma mk_add_rcv : forall n l s, rc_handle l < n -> stable (mk_rel n) s (set_s_rcvs (s_rcvs s ++ [l]) s).
Proof.
  intros n l s L (F & B & S & R & O). split; [|split; [|split; [|split]]]; st_cbn; auto. intros a x E.
  destruct (Nat.lt_ge_cases a (length (s_rcvs s))) as [La|La].
  - rewrite nth_error_app1 in E by exact La. eauto.
  - rewrite nth_error_app2 in E by exact La. destruct (a - length (s_rcvs s))%nat as [|[|m]]; cbn in E; try discriminate E. congruence.
Qed.
