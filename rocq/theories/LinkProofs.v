(** * The slots of a session and the links in them *)

From Verif Require Export SendProofs.
From Coq Require Import ZifyBool ZifyNat ZifyN.

(** ** Slabs *)
Definition slab_wf {A} (s : slab A) : Prop :=
  NoDup (sl_free s) /\ forall k, In k (sl_free s) -> nth_error (sl_items s) (N.to_nat k) = Some None.
Lemma slab0_wf : forall A, slab_wf (@slab0 A).
Proof. intros A. split; [constructor|]. intros k []. Qed.
Lemma slab0_get : forall A k, slab_get (@slab0 A) k = None.
Proof. intros A k. unfold slab_get. cbn. destruct (N.to_nat k); reflexivity. Qed.
Lemma slab_get_lt : forall A (s : slab A) k a, slab_get s k = Some a -> (N.to_nat k < length (sl_items s))%nat.
Proof.
  intros A s k a H. unfold slab_get in H. destruct (nth_error _ _) eqn:E; [|discriminate].
  eapply nth_lt; eauto.
Qed.
Lemma to_nat_eqb : forall a b, Nat.eqb (N.to_nat a) (N.to_nat b) = (a =? b).
Proof. intros. destruct (Nat.eqb_spec (N.to_nat a) (N.to_nat b)), (N.eqb_spec a b); lia. Qed.
Lemma slab_key_free : forall A (s : slab A), slab_wf s -> slab_get s (slab_key s) = None.
Proof.
  intros A s [ND W]. unfold slab_get, slab_key. destruct (sl_free s) as [|k fr].
  - destruct (nth_error (sl_items s) (N.to_nat (N.of_nat (length (sl_items s))))) eqn:E; [|reflexivity].
    apply nth_lt in E. lia.
  - rewrite (W k); [reflexivity | left; reflexivity].
Qed.
Lemma slab_get_insert : forall A (s : slab A) a k, slab_wf s ->
  slab_get (slab_insert a s) k = if slab_key s =? k then Some a else slab_get s k.
Proof.
  intros A s a k [ND W]. unfold slab_insert, slab_key, slab_get.
  destruct (sl_free s) as [|k0 fr]; cbn [sl_items].
  - destruct (N.eqb_spec (N.of_nat (length (sl_items s))) k) as [<-|Hk].
    + rewrite Nat2N.id, nth_end. reflexivity.
    + destruct (Nat.lt_ge_cases (N.to_nat k) (length (sl_items s))) as [L|L].
      * rewrite nth_error_app1 by exact L. reflexivity.
      * rewrite (proj2 (nth_error_None _ _)) by (rewrite app_length; cbn [length]; lia).
        rewrite (proj2 (nth_error_None _ _)) by lia. reflexivity.
  - rewrite nth_set_nth, to_nat_eqb, (W k0) by (left; reflexivity).
    destruct (k0 =? k); reflexivity.
Qed.
Lemma slab_get_set : forall A (s : slab A) a k k', slab_get s k <> None ->
  slab_get (slab_set k a s) k' = if k =? k' then Some a else slab_get s k'.
Proof.
  intros A s a k k' H. unfold slab_set. destruct (slab_get s k) as [x|] eqn:E; [|congruence].
  unfold slab_get in *. cbn [sl_items]. rewrite nth_set_nth, to_nat_eqb.
  destruct (k =? k'); [|reflexivity].
  destruct (nth_error (sl_items s) (N.to_nat k)); [reflexivity | discriminate].
Qed.
Lemma slab_get_remove : forall A (s : slab A) k k',
  slab_get (slab_remove k s) k' = if k =? k' then None else slab_get s k'.
Proof.
  intros A s k k'. unfold slab_remove. destruct (slab_get s k) as [x|] eqn:E.
  - unfold slab_get in *. cbn [sl_items]. rewrite nth_set_nth, to_nat_eqb.
    destruct (N.eqb_spec k k') as [<-|]; [|reflexivity].
    destruct (nth_error (sl_items s) (N.to_nat k)); reflexivity.
  - destruct (N.eqb_spec k k') as [<-|]; auto.
Qed.
Lemma slab_insert_wf : forall A (s : slab A) a, slab_wf s -> slab_wf (slab_insert a s).
Proof.
  intros A s a [ND W]. unfold slab_insert. destruct (sl_free s) as [|k fr]; [split; cbn; [constructor|intros k []]|].
  inversion ND as [|? ? Hk ND']; subst. split; cbn [sl_free sl_items]; [exact ND'|].
  intros k' Hk'. rewrite nth_set_nth, to_nat_eqb. destruct (N.eqb_spec k k') as [->|]; [contradiction|].
  apply W. right. exact Hk'.
Qed.
Lemma slab_set_wf : forall A (s : slab A) k a, slab_wf s -> slab_wf (slab_set k a s).
Proof.
  intros A s k a [ND W]. unfold slab_set. destruct (slab_get s k) eqn:E; [|split; assumption].
  split; cbn [sl_free sl_items]; [exact ND|]. intros k' Hk'. rewrite nth_set_nth, to_nat_eqb.
  destruct (N.eqb_spec k k') as [->|]; [|auto]. apply W in Hk'. unfold slab_get in E.
  rewrite Hk' in E. discriminate.
Qed.
Lemma slab_remove_wf : forall A (s : slab A) k, slab_wf s -> slab_wf (slab_remove k s).
Proof.
  intros A s k [ND W]. unfold slab_remove. destruct (slab_get s k) eqn:E; [|split; assumption].
  assert (Hk : ~ In k (sl_free s)).
  { intros H. apply W in H. unfold slab_get in E. rewrite H in E. discriminate. }
  assert (L := slab_get_lt _ _ _ _ E).
  split; cbn [sl_free sl_items]; [constructor; assumption|].
  intros k' [<-|Hk']; [apply nth_set_nth_eq; exact L|].
  rewrite nth_set_nth_neq; [auto|]. intros Heq. apply N2Nat.inj in Heq. subst. contradiction.
Qed.
Lemma slab_set_length : forall A (s : slab A) k a, length (sl_items (slab_set k a s)) = length (sl_items s).
Proof. intros. unfold slab_set. destruct (slab_get s k); [apply set_nth_length | reflexivity]. Qed.
Lemma slab_remove_length : forall A (s : slab A) k, length (sl_items (slab_remove k s)) = length (sl_items s).
Proof. intros. unfold slab_remove. destruct (slab_get s k); [apply set_nth_length | reflexivity]. Qed.
Lemma slab_insert_length : forall A (s : slab A) a,
  (length (sl_items s) <= length (sl_items (slab_insert a s)) <= S (length (sl_items s)))%nat.
Proof.
  intros. unfold slab_insert. destruct (sl_free s); cbn [sl_items].
  - rewrite app_length. cbn. lia.
  - rewrite set_nth_length. lia.
Qed.
Lemma in_somes : forall A (l : list (option A)) a, In a (somes l) <-> In (Some a) l.
Proof.
  induction l as [|[x|] l IH]; intros a; cbn; [tauto| |].
  - rewrite IH. split; intros [H|H]; auto; left; congruence.
  - rewrite IH. split; [auto|]. intros [H|H]; [discriminate|exact H].
Qed.
Lemma slab_values_get : forall A (s : slab A) a, In a (slab_values s) <-> exists k, slab_get s k = Some a.
Proof.
  intros A s a. unfold slab_values. rewrite in_somes. split.
  - intros H. apply In_nth_error in H as [n H]. exists (N.of_nat n). unfold slab_get.
    rewrite Nat2N.id, H. reflexivity.
  - intros [k H]. unfold slab_get in H. destruct (nth_error _ _) as [[x|]|] eqn:E; try discriminate.
    injection H as ->. eapply nth_error_In; eauto.
Qed.

(** ** Which links the slots hold *)
Definition slots_fit (s : ses) : Prop := N.of_nat (length (sl_items (s_links s))) <= two32.
(** A link in a slot knows the number of its slot and is not closed, except those in [X]. *)
Definition rcv_slots (X : list nat) (s : ses) : Prop :=
  slots_fit s ->
  forall k lk a, slab_get (s_links s) k = Some lk -> holds_rcv a lk = true ->
    exists l, nth_error (s_rcvs s) a = Some l /\ rc_handle l = k
              /\ (rc_closed l = true -> In a X).
Definition snd_slots (s : ses) : Prop :=
  forall k a, slab_get (s_links s) k = Some (SEstablished a) ->
    exists l, nth_error (s_snds s) a = Some l /\ sn_id l = k.
Definition failed_slots (s : ses) : Prop :=
  s_error s <> None ->
  forall k lk, slab_get (s_links s) k = Some lk ->
    match lk with REstablished _ | ROpening _ => False | _ => True end.
Definition lk_inv (X : list nat) (s : ses) : Prop :=
  slab_wf (s_links s) /\ rcv_slots X s /\ snd_slots s /\ failed_slots s.
Definition lk_rel (s s' : ses) : Prop := lk_inv [] s -> lk_inv [] s'.
#[export] Instance lk_rel_pre : preorder lk_rel.
Proof. split; unfold lk_rel; auto. Qed.

Lemma lk_inv_same : forall X s s',
  s_links s' = s_links s -> s_error s' = s_error s ->
  (forall a l, nth_error (s_snds s) a = Some l ->
     exists l', nth_error (s_snds s') a = Some l' /\ sn_id l' = sn_id l) ->
  (forall a l, nth_error (s_rcvs s) a = Some l ->
     exists l', nth_error (s_rcvs s') a = Some l' /\ rc_handle l' = rc_handle l
                /\ (rc_closed l' = true -> rc_closed l = true \/ In a X)) ->
  lk_inv X s -> lk_inv X s'.
Proof.
  intros X s s' El Ee Hs Hr (W & R & Sn & F).
  refine (conj _ (conj _ (conj _ _))).
  - rewrite El. exact W.
  - intros B k lk a Hk Ha. unfold slots_fit in B. rewrite El in *.
    destruct (R B k lk a Hk Ha) as (l & H1 & H2 & H3).
    destruct (Hr _ _ H1) as (l' & G1 & G2 & G3). exists l'. refine (conj G1 (conj _ _)); [congruence|].
    intros H. destruct (G3 H); auto.
  - intros k a Hk. rewrite El in Hk. destruct (Sn _ _ Hk) as (l & H1 & H2).
    destruct (Hs _ _ H1) as (l' & G1 & G2). exists l'. split; congruence.
  - intros He k lk Hk. rewrite El in Hk. rewrite Ee in He. exact (F He k lk Hk).
Qed.
#[export] Instance lk_rel_sees : sees lk_rel [Flinks; Fsnds; Frcvs; Ferror].
Proof.
  intros s s' H. assert (H1 := H Flinks eq_refl). assert (H2 := H Fsnds eq_refl).
  assert (H3 := H Frcvs eq_refl). assert (H4 := H Ferror eq_refl). cbn [same] in *.
  intros I. eapply lk_inv_same; [exact H1 | exact H4 | | | exact I]; rewrite ?H2, ?H3; eauto 6.
Qed.
Lemma lk_weaken : forall X Y s, incl X Y -> lk_inv X s -> lk_inv Y s.
Proof.
  intros X Y s Hi (W & R & Sn & F). refine (conj W (conj _ (conj Sn F))).
  intros B k lk a Hk Ha. destruct (R B k lk a Hk Ha) as (l & H1 & H2 & H3). eauto 6.
Qed.
Lemma lk_framed : forall X M s s', framed s s' M ->
  forallb (fun f => negb (memf f M)) [Flinks; Fsnds; Frcvs; Ferror] = true -> lk_inv X s -> lk_inv X s'.
Proof.
  intros X M s s' Fr HM I. cbn [forallb] in HM. rewrite !Bool.andb_true_iff, !Bool.negb_true_iff in HM.
  destruct HM as (M1 & M2 & M3 & M4 & _).
  assert (H1 := Fr Flinks M1). assert (H2 := Fr Fsnds M2). assert (H3 := Fr Frcvs M3). assert (H4 := Fr Ferror M4).
  cbn [same] in *. eapply lk_inv_same; [exact H1 | exact H4 | | | exact I]; rewrite ?H2, ?H3; eauto 6.
Qed.

(** *** Updates of a link *)
Class same_rcv_slot (f : rlink -> rlink) : Prop :=
  get_same_rcv_slot : forall l, rc_handle (f l) = rc_handle l /\ (rc_closed (f l) = true -> rc_closed l = true).
#[export] Hint Extern 0 (same_rcv_slot _) => (intro; split; [reflexivity | exact (fun x => x)]) : typeclass_instances.
#[export] Instance wake_same_rcv_slot : same_rcv_slot rcv_wake.
Proof. intro l. unfold rcv_wake. destruct (rc_waker l); st_cbn; auto. Qed.
Lemma lk_upd_rcv : forall X a f s, (forall l, rc_handle (f l) = rc_handle l /\ (rc_closed (f l) = true -> rc_closed l = true \/ In a X)) ->
  lk_inv X s -> lk_inv X (upd_rcv a f s).
Proof.
  intros X a f s Hf. apply lk_inv_same; [frw; reflexivity | frw; reflexivity | frw; eauto |].
  intros b l E. rewrite nth_upd_rcv. destruct (Nat.eqb_spec a b) as [->|].
  - rewrite E. exists (f l). split; [reflexivity | apply Hf].
  - exists l. auto.
Qed.
#[export] Instance lk_rel_upd_rcv a f s {H : same_rcv_slot f} : stable lk_rel s (upd_rcv a f s).
Proof. intro I. apply lk_upd_rcv; [|exact I]. intros l. destruct (H l). auto. Qed.
Lemma lk_upd_snd : forall X a f s, same_snd_ids f -> lk_inv X s -> lk_inv X (upd_snd a f s).
Proof.
  intros X a f s Hf. apply lk_inv_same; [frw; reflexivity | frw; reflexivity | | frw; eauto 6].
  intros b l E. rewrite nth_upd_snd. destruct (Nat.eqb_spec a b) as [->|].
  - rewrite E. exists (f l). split; [reflexivity|]. assert (X1 := Hf l). unfold snd_ids in X1. congruence.
  - exists l. auto.
Qed.
#[export] Instance lk_rel_upd_snd a f s {H : same_snd_ids f} : stable lk_rel s (upd_snd a f s).
Proof. intro I. apply lk_upd_snd; [exact H | exact I]. Qed.
#[export] Instance lk_rel_add_snd l s : stable lk_rel s (set_s_snds (s_snds s ++ [l]) s).
Proof.
  unfold stable, lk_rel. apply lk_inv_same; st_cbn; [reflexivity | reflexivity | | eauto 6].
  intros a x E. exists x. split; [apply nth_app_old; exact E | reflexivity].
Qed.
#[export] Instance lk_rel_add_rcv l s : stable lk_rel s (set_s_rcvs (s_rcvs s ++ [l]) s).
Proof.
  unfold stable, lk_rel. apply lk_inv_same; st_cbn; [reflexivity | reflexivity | eauto |].
  intros a x E. exists x. split; [apply nth_app_old; exact E | auto].
Qed.

(** *** A link that is in no slot may be closed *)
Definition unheld (a : nat) (s : ses) : Prop :=
  forall k lk, slab_get (s_links s) k = Some lk -> holds_rcv a lk = false.
Lemma lk_close : forall X a f s, (forall l, rc_handle (f l) = rc_handle l) ->
  (slots_fit s -> unheld a s) -> lk_inv X s -> lk_inv X (upd_rcv a f s).
Proof.
  intros X a f s Hf Hu (W & R & Sn & F).
  refine (conj _ (conj _ (conj _ _))).
  - frw. exact W.
  - intros B k lk b Hk Hb. unfold slots_fit in B. frw_in B. frw_in Hk.
    destruct (R B k lk b Hk Hb) as (l & H1 & H2 & H3). rewrite nth_upd_rcv.
    destruct (Nat.eqb_spec a b) as [->|]; [|exists l; auto].
    rewrite (Hu B _ _ Hk) in Hb. discriminate.
  - intros k b Hk. frw_in Hk. frw. exact (Sn _ _ Hk).
  - intros He k lk Hk. frw_in He. frw_in Hk. exact (F He _ _ Hk).
Qed.
Lemma lk_drop_link : forall X lk s,
  (forall a, lk = REstablished a -> slots_fit s -> unheld a s) -> lk_inv X s -> lk_inv X (drop_link lk s).
Proof.
  intros X lk s Hu I. unfold drop_link, drop_established_snd, drop_established_rcv.
  assert (G : forall M s', framed s s' M -> forallb (fun f => negb (memf f M)) [Flinks; Fsnds; Frcvs; Ferror] = true -> lk_inv X s')
    by (intros; eapply lk_framed; eauto).
  destruct lk as [a| |[c|]|[c|]|o|[[a c]|]|a|[c|]]; cbn [drop_opt]; try exact I; try (eapply G; [exact _|reflexivity]).
  - destruct (nth_error (s_snds s) a) as [l|] eqn:E; [|exact I]. destruct (sn_closed l); [exact I|].
    unfold notify_lock_snd. rewrite nth_upd_snd, Nat.eqb_refl, E. cbn [option_map].
    apply lk_upd_snd; [exact _|].
    eapply lk_framed with (s := upd_snd a (set_sn_closed true) s) (M := [Fchans]); [fr_chain | reflexivity|].
    apply lk_upd_snd; [exact _|exact I].
  - apply lk_close; [reflexivity | auto | exact I].
Qed.
Lemma handle_unique : forall X s k k' lk lk' a, lk_inv X s -> slots_fit s ->
  slab_get (s_links s) k = Some lk -> holds_rcv a lk = true ->
  slab_get (s_links s) k' = Some lk' -> holds_rcv a lk' = true -> k = k'.
Proof.
  intros X s k k' lk lk' a (W & R & _) B Hk Ha Hk' Ha'.
  destruct (R B _ _ _ Hk Ha) as (l & H1 & H2 & _). destruct (R B _ _ _ Hk' Ha') as (l' & H1' & H2' & _).
  congruence.
Qed.
Lemma holds_est : forall a, holds_rcv a (REstablished a) = true.
Proof. intros. cbn. apply Nat.eqb_refl. Qed.

(** Removing a slot. *)
Lemma lk_remove_x : forall X k lk a s, slab_get (s_links s) k = Some lk -> holds_rcv a lk = true ->
  lk_inv (a :: X) s -> lk_inv X (set_s_links (slab_remove k (s_links s)) s).
Proof.
  intros X k lk a s Hk Ha I. assert (I' := I). destruct I as (W & R & Sn & F).
  refine (conj _ (conj _ (conj _ _))); st_cbn.
  - apply slab_remove_wf, W.
  - intros B k' lk' b Hk' Hb. unfold slots_fit in B. st_cbn_in B. st_cbn_in Hk'. st_cbn.
    rewrite slab_remove_length in B. rewrite slab_get_remove in Hk'.
    destruct (N.eqb_spec k k') as [|Nk]; [discriminate|].
    destruct (R B _ _ _ Hk' Hb) as (l & H1 & H2 & H3). exists l. refine (conj H1 (conj H2 _)).
    intros Hc. destruct (H3 Hc) as [<-|]; [|assumption]. elim Nk. eapply (handle_unique _ s); eauto.
  - intros k' b Hk'. st_cbn_in Hk'. rewrite slab_get_remove in Hk'. st_cbn.
    destruct (k =? k'); [discriminate|]. exact (Sn _ _ Hk').
  - intros He k' lk' Hk'. st_cbn_in He. st_cbn_in Hk'. rewrite slab_get_remove in Hk'.
    destruct (k =? k'); [discriminate|]. exact (F He _ _ Hk').
Qed.
Lemma lk_remove : forall X k s, lk_inv X s -> lk_inv X (set_s_links (slab_remove k (s_links s)) s).
Proof.
  intros X k s (W & R & Sn & F).
  refine (conj _ (conj _ (conj _ _))); st_cbn.
  - apply slab_remove_wf, W.
  - intros B k' lk' b Hk' Hb. unfold slots_fit in B. st_cbn_in B. st_cbn_in Hk'. st_cbn.
    rewrite slab_remove_length in B. rewrite slab_get_remove in Hk'.
    destruct (k =? k'); [discriminate|]. exact (R B _ _ _ Hk' Hb).
  - intros k' b Hk'. st_cbn_in Hk'. rewrite slab_get_remove in Hk'. st_cbn.
    destruct (k =? k'); [discriminate|]. exact (Sn _ _ Hk').
  - intros He k' lk' Hk'. st_cbn_in He. st_cbn_in Hk'. rewrite slab_get_remove in Hk'.
    destruct (k =? k'); [discriminate|]. exact (F He _ _ Hk').
Qed.
Lemma remove_unheld : forall X s k lk a, lk_inv X s -> slab_get (s_links s) k = Some lk ->
  holds_rcv a lk = true -> slots_fit (set_s_links (slab_remove k (s_links s)) s) ->
  unheld a (set_s_links (slab_remove k (s_links s)) s).
Proof.
  intros X s k lk a I Hk Ha B k' lk' Hk'. st_cbn_in Hk'. unfold slots_fit in B. st_cbn_in B.
  rewrite slab_remove_length in B. rewrite slab_get_remove in Hk'.
  destruct (N.eqb_spec k k') as [|Nk]; [discriminate|].
  destruct (holds_rcv a lk') eqn:Ha'; [|reflexivity]. elim Nk. eapply (handle_unique _ s); eauto.
Qed.
Lemma lk_remove_link_x : forall X k lk a s, slab_get (s_links s) k = Some lk -> holds_rcv a lk = true ->
  lk_inv (a :: X) s -> lk_inv X (remove_link k s).
Proof.
  intros X k lk a s Hk Ha I. unfold remove_link. rewrite Hk. apply lk_drop_link.
  - intros b -> B. eapply remove_unheld; [exact I | exact Hk | apply holds_est | exact B].
  - eapply lk_remove_x; eauto.
Qed.
Lemma lk_remove_link : forall X k s, lk_inv X s -> lk_inv X (remove_link k s).
Proof.
  intros X k s I. unfold remove_link. destruct (slab_get (s_links s) k) as [lk|] eqn:Hk; [|exact I].
  apply lk_drop_link; [|apply lk_remove, I].
  intros b -> B. eapply remove_unheld; [exact I | exact Hk | apply holds_est | exact B].
Qed.
#[export] Instance lk_rel_remove_link k s : stable lk_rel s (remove_link k s).
Proof. exact (lk_remove_link [] k s). Qed.

(** Overwriting a slot. *)
Definition slot_ok (k : N) (new old : link) (s : ses) : Prop :=
  (forall a, holds_rcv a new = true -> holds_rcv a old = true)
  /\ (forall a, new = SEstablished a -> exists l, nth_error (s_snds s) a = Some l /\ sn_id l = k)
  /\ (s_error s <> None -> match new with REstablished _ | ROpening _ => False | _ => True end).
Lemma lk_set : forall X k new old s, slab_get (s_links s) k = Some old -> slot_ok k new old s ->
  lk_inv X s -> lk_inv X (set_s_links (slab_set k new (s_links s)) s).
Proof.
  intros X k new old s Hk (N1 & N2 & N3) (W & R & Sn & F).
  assert (G : forall k', slab_get (slab_set k new (s_links s)) k' = if k =? k' then Some new else slab_get (s_links s) k')
    by (intros; apply slab_get_set; congruence).
  refine (conj _ (conj _ (conj _ _))); st_cbn.
  - apply slab_set_wf, W.
  - intros B k' lk' b Hk' Hb. unfold slots_fit in B. st_cbn_in B. st_cbn_in Hk'. st_cbn.
    rewrite slab_set_length in B. rewrite G in Hk'. destruct (N.eqb_spec k k') as [<-|]; [|exact (R B _ _ _ Hk' Hb)].
    injection Hk' as <-. exact (R B _ _ _ Hk (N1 _ Hb)).
  - intros k' b Hk'. st_cbn_in Hk'. rewrite G in Hk'. st_cbn.
    destruct (N.eqb_spec k k') as [<-|]; [|exact (Sn _ _ Hk')]. injection Hk' as ->. apply N2. reflexivity.
  - intros He k' lk' Hk'. st_cbn_in He. st_cbn_in Hk'. rewrite G in Hk'.
    destruct (N.eqb_spec k k') as [<-|]; [|exact (F He _ _ Hk')]. injection Hk' as <-. exact (N3 He).
Qed.
Lemma lk_put_link : forall X k new s,
  (forall old, slab_get (s_links s) k = Some old -> slot_ok k new old s
     /\ (forall a, old = REstablished a -> holds_rcv a new = false)) ->
  lk_inv X s -> lk_inv X (put_link k new s).
Proof.
  intros X k new s H I. unfold put_link. destruct (slab_get (s_links s) k) as [old|] eqn:Hk; [|exact I].
  destruct (H old eq_refl) as [O1 O2].
  apply lk_drop_link; [|eapply lk_set; eauto].
  intros a -> B k' lk' Hk'. st_cbn_in Hk'. unfold slots_fit in B. st_cbn_in B. rewrite slab_set_length in B.
  rewrite slab_get_set in Hk' by congruence. destruct (N.eqb_spec k k') as [<-|Nk].
  - injection Hk' as <-. auto.
  - destruct (holds_rcv a lk') eqn:Ha'; [|reflexivity]. elim Nk.
    eapply (handle_unique _ s); eauto. apply holds_est.
Qed.
#[export] Instance lk_rel_put_closing_s k tx s : stable lk_rel s (put_link k (SClosing tx) s).
Proof.
  intro I. apply lk_put_link; [|exact I]. intros old H. repeat split; try discriminate; auto.
Qed.
#[export] Instance lk_rel_put_closing_r k tx s : stable lk_rel s (put_link k (RClosing tx) s).
Proof.
  intro I. apply lk_put_link; [|exact I]. intros old H. repeat split; try discriminate; auto.
Qed.

(** Inserting a slot. *)
Lemma lk_insert : forall X new s,
  (forall a, holds_rcv a new = true -> exists l, nth_error (s_rcvs s) a = Some l
      /\ rc_handle l = as_u32 (slab_key (s_links s)) /\ rc_closed l = false) ->
  (forall a, new <> SEstablished a) ->
  (s_error s <> None -> match new with REstablished _ | ROpening _ => False | _ => True end) ->
  lk_inv X s -> lk_inv X (set_s_links (slab_insert new (s_links s)) s).
Proof.
  intros X new s N1 N2 N3 (W & R & Sn & F).
  assert (G := fun k => slab_get_insert _ (s_links s) new k W).
  assert (L := slab_insert_length _ (s_links s) new).
  refine (conj _ (conj _ (conj _ _))); st_cbn.
  - apply slab_insert_wf, W.
  - intros B k lk b Hk Hb. unfold slots_fit in B. st_cbn_in B. st_cbn_in Hk. st_cbn.
    assert (B0 : slots_fit s) by (unfold slots_fit; lia).
    assert (Bk := slab_get_lt _ _ _ _ Hk).
    rewrite G in Hk. destruct (N.eqb_spec (slab_key (s_links s)) k) as [<-|]; [|exact (R B0 _ _ _ Hk Hb)].
    injection Hk as <-. destruct (N1 _ Hb) as (l & H1 & H2 & H3). exists l. refine (conj H1 (conj _ _)); [|congruence].
    rewrite H2. unfold as_u32. apply N.mod_small. lia.
  - intros k b Hk. st_cbn_in Hk. rewrite G in Hk. st_cbn.
    destruct (slab_key (s_links s) =? k); [|exact (Sn _ _ Hk)]. injection Hk as ->. elim (N2 b). reflexivity.
  - intros He k lk Hk. st_cbn_in He. st_cbn_in Hk. rewrite G in Hk.
    destruct (slab_key (s_links s) =? k); [|exact (F He _ _ Hk)]. injection Hk as <-. exact (N3 He).
Qed.
#[export] Instance lk_rel_insert_opening c s :
  stable lk_rel s (set_s_links (slab_insert (SOpening c) (s_links s)) s).
Proof. intro I. apply lk_insert; try discriminate; auto. Qed.
#[export] Instance lk_rel_insert_remote s :
  stable lk_rel s (set_s_links (slab_insert SOpeningRemote (s_links s)) s).
Proof. intro I. apply lk_insert; try discriminate; auto. Qed.

(** *** Functions on slots *)
Ltac lk_skip :=
  lazymatch goal with |- lk_inv ?X (?g ?x) => eapply (lk_framed X _ x (g x)); [typeclasses eauto | reflexivity |] end.
Lemma ses_set_error_links : forall e s, s_links (ses_set_error e s) = slab0.
Proof. intros e s. unfold ses_set_error. frw. reflexivity. Qed.
#[export] Instance lk_rel_ses_set_error e s : stable lk_rel s (ses_set_error e s).
Proof.
  intros (W & R & Sn & F). assert (E := ses_set_error_links e s).
  refine (conj _ (conj _ (conj _ _))).
  - rewrite E. apply slab0_wf.
  - intros B k lk a Hk. rewrite E, slab0_get in Hk. discriminate.
  - intros k a Hk. rewrite E, slab0_get in Hk. discriminate.
  - intros _ k lk Hk. rewrite E, slab0_get in Hk. discriminate.
Qed.
#[export] Instance lk_rel_notify_lock_snd a s : stable lk_rel s (notify_lock_snd a s).
Proof. unfold notify_lock_snd. st_solve. Qed.
#[export] Instance lk_rel_snd_remote_detached a e s : stable lk_rel s (snd_remote_detached a e s).
Proof. unfold snd_remote_detached. st_solve. Qed.
#[export] Instance lk_rel_attach_remote_sender frm r a s :
  stable_er lk_rel (fun x => x) s (attach_remote_sender frm r a s).
Proof.
  intros x H I. unfold attach_remote_sender in H.
  destruct (nth_error (s_snds s) a) as [l|] eqn:El; [|apply EOk_inj in H; subst; exact I].
  set (s1 := match attach_source frm with Some _ => _ | None => _ end) in H.
  assert (F1 : framed s s1 [Fnames]) by (unfold s1; repeat fr_break; fr_chain). clearbody s1.
  cbv zeta in H. destruct (slab_get _ _) as [old|] eqn:Ho; [|discriminate].
  apply EOk_inj in H. subst x.
  lk_skip.
  apply lk_put_link.
  - intros old' Ho'. refine (conj (conj _ (conj _ _)) _); try discriminate; auto.
    intros a' E. injection E as <-. exists l. frw. rewrite (F1 Fsnds eq_refl). auto.
  - eapply lk_framed with (s := s1) (M := [Frhandles]); [fr_chain | reflexivity|].
    eapply lk_framed; [exact F1 | reflexivity | exact I].
Qed.
Lemma lk_rel_attach_remote_receiver frm s : s_error s = None ->
  stable lk_rel s (snd (attach_remote_receiver frm s)).
Proof.
  intros He I. unfold attach_remote_receiver. cbv beta iota zeta delta [insert_link snd].
  lk_skip.
  apply lk_insert.
  - intros a Ha. cbn [holds_rcv] in Ha. apply Nat.eqb_eq in Ha. subst a. st_cbn.
    eexists. split; [apply nth_end|]. split; reflexivity.
  - discriminate.
  - st_cbn. congruence.
  - eapply (lk_rel_add_rcv _ s). exact I.
Qed.
#[export] Instance lk_rel_attach_local_receiver frm s : stable lk_rel s (snd (attach_local_receiver frm s)).
Proof.
  intros I. unfold attach_local_receiver. cbv beta iota zeta delta [new_chan insert_link]. cbn [snd].
  lk_skip.
  lk_skip.
  apply lk_insert.
  - intros a Ha. cbn [holds_rcv] in Ha. apply Nat.eqb_eq in Ha. subst a. st_cbn.
    eexists. split; [apply nth_end|]. split; reflexivity.
  - discriminate.
  - auto.
  - apply (lk_rel_add_rcv _ (set_s_chans _ s)).
    lk_skip; exact I.
Qed.
#[export] Instance lk_rel_confirm_receiver a r s : stable lk_rel s (confirm_receiver a r s).
Proof.
  intros I. unfold confirm_receiver. destruct (nth_error (s_rcvs s) a) as [l|]; [|exact I].
  destruct (slab_get (s_links s) (rc_handle l)) as [lk|] eqn:Hk; [|exact I].
  destruct lk as [| | | |[[a' src]|]| | |]; try exact I.
  lk_skip. apply lk_put_link; [|exact I].
  intros old Ho. rewrite Hk in Ho. injection Ho as <-.
  refine (conj (conj _ (conj _ _)) _); try discriminate; auto.
  intros He. destruct I as (_ & _ & _ & F). exact (F He _ _ Hk).
Qed.
Lemma lk_rel_handle_attach frm s : s_error s = None -> stable_opt lk_rel s (handle_attach frm s).
Proof.
  intros He x H I. unfold handle_attach in H.
  destruct (name_get (attach_name frm) (s_names s)) as [i|]; [|discriminate].
  apply Some_inj in H. subst x.
  destruct (slab_get (s_links s) i) as [lk|] eqn:Hk; [|exact I].
  destruct lk as [| |tx| | |[[a tx]|]| |]; try exact I; cbv zeta.
  - lk_skip.
    eapply lk_set; [st_cbn; exact Hk | |].
    + refine (conj _ (conj _ _)); try discriminate; auto. st_cbn.
      intros a E. injection E as <-. eexists. split; [apply nth_end | reflexivity].
    + apply (lk_rel_add_snd _ (set_s_rhandles _ s)). lk_skip; exact I.
  - lk_skip.
    eapply lk_set; [st_cbn; exact Hk | |].
    + refine (conj _ (conj _ _)); try discriminate; auto.
    + lk_skip; exact I.
Qed.
#[export] Instance lk_rel_on_attach frm s : stable lk_rel s (on_attach frm s).
Proof.
  unfold on_attach. destruct (s_error s) eqn:He; [apply stable_refl; exact _|].
  destruct (handle_attach frm s) eqn:E; [exact (lk_rel_handle_attach frm s He _ E)|].
  destruct (attach_role frm).
  - assert (X := lk_rel_attach_remote_receiver frm s He).
    destruct (attach_remote_receiver frm s) as [[r a] s1]. cbn [snd] in X.
    eapply stable_trans; [exact _ | exact X | st_chain].
  - unfold new_remote_sender. cbv beta iota zeta delta [insert_link]. st_chain.
Qed.
#[export] Instance lk_rel_detach_receiver id c e tx s :
  stable_er lk_rel (fun x => x) s (detach_receiver id c e tx s).
Proof. intros x H. change (stable lk_rel s x). unfold detach_receiver in H. st_er H. Qed.

(** After [detach_receiver] with the number of its slot a link is in no slot. *)
Lemma drop_link_links : forall lk s, s_links (drop_link lk s) = s_links s.
Proof. intros. frw. reflexivity. Qed.
Lemma remove_link_get : forall k s k', slab_get (s_links (remove_link k s)) k'
  = if k =? k' then None else slab_get (s_links s) k'.
Proof.
  intros. unfold remove_link. destruct (slab_get (s_links s) k) as [lk|] eqn:E.
  - rewrite drop_link_links. st_cbn. apply slab_get_remove.
  - destruct (N.eqb_spec k k') as [<-|]; auto.
Qed.
Lemma put_link_get : forall k lk s k', slab_get (s_links s) k <> None ->
  slab_get (s_links (put_link k lk s)) k' = if k =? k' then Some lk else slab_get (s_links s) k'.
Proof.
  intros. unfold put_link. destruct (slab_get (s_links s) k) as [old|] eqn:E; [|congruence].
  rewrite drop_link_links. st_cbn. apply slab_get_set. congruence.
Qed.
Lemma detach_receiver_slots : forall h c e tx s s', detach_receiver h c e tx s = EOk s' ->
  forall k lk, slab_get (s_links s') k = Some lk ->
    (k = h -> forall a, holds_rcv a lk = false) /\ (k <> h -> slab_get (s_links s) k = Some lk).
Proof.
  intros h c e tx s s' H k lk Hk. unfold detach_receiver in H.
  destruct (slab_get (s_links s) h) as [l0|] eqn:E.
  - destruct l0 as [| | | |inner|o|a|tx']; try discriminate; apply EOk_inj in H; subst s'.
    all: try (frw_in Hk; split; [intros ->; rewrite E in Hk; injection Hk as <-; reflexivity | auto]).
    + rewrite remove_link_get in Hk. destruct (N.eqb_spec h k); [discriminate|]. split; [congruence|].
      intros _. revert Hk. destruct inner as [[a src]|]; [destruct (nth_error (s_rcvs s) a)|]; frw; auto.
    + revert Hk. frw. rewrite put_link_get by congruence. destruct (N.eqb_spec h k) as [->|]; [|intuition congruence].
      intros Hk. injection Hk as <-. split; [reflexivity | congruence].
    + rewrite remove_link_get in Hk. destruct (N.eqb_spec h k); [discriminate|]. split; [congruence|].
      intros _. revert Hk. frw. auto.
  - apply EOk_inj in H. subst s'. frw_in Hk. split; [congruence | auto].
Qed.
Lemma detach_receiver_fit : forall h c e tx s s', detach_receiver h c e tx s = EOk s' ->
  length (sl_items (s_links s')) = length (sl_items (s_links s)).
Proof.
  intros h c e tx s s' H. unfold detach_receiver, remove_link, put_link in H.
  repeat (fr_break_in H; try discriminate H); apply EOk_inj in H; subst s'; frw; st_cbn; frw;
    rewrite ?slab_remove_length, ?slab_set_length; reflexivity.
Qed.
Lemma rcv_close_unheld : forall a l e s s', lk_inv [] s -> nth_error (s_rcvs s) a = Some l ->
  rcv_close a e s = EOk s' -> lk_inv [] s' /\ (slots_fit s' -> unheld a s').
Proof.
  intros a l e s s' I El H. unfold rcv_close in H. rewrite El in H.
  cbv beta iota zeta delta [new_chan] in H.
  set (s1 := set_s_chans (s_chans s ++ [CWait]) s) in H.
  assert (I1 : lk_inv [] s1) by (unfold s1; lk_skip; exact I).
  assert (E1 : nth_error (s_rcvs s1) a = Some l) by exact El.
  clearbody s1. clear I El.
  destruct (rc_closed l) eqn:Ec; cbn [ebind] in H.
  - assert (U : slots_fit s1 -> unheld a s1).
    { intros B k lk Hk. destruct (holds_rcv a lk) eqn:Ha; [|reflexivity].
      destruct I1 as (_ & R & _). destruct (R B _ _ _ Hk Ha) as (l' & H1 & _ & H3).
      rewrite E1 in H1. injection H1 as <-. elim (H3 Ec). }
    apply EOk_inj in H. subst s'. split.
    + apply lk_close.
      * intros l'. unfold rcv_wake. st_cbn. destruct (rc_waker l'); reflexivity.
      * intros B k lk Hk. unfold slots_fit in B. frw_in B. frw_in Hk. exact (U B k lk Hk).
      * lk_skip; exact I1.
    + intros B k lk Hk. unfold slots_fit in B. frw_in B. frw_in Hk. exact (U B k lk Hk).
  - destruct (detach_receiver (rc_handle l) true e (length (s_chans s)) s1) as [s2|] eqn:E2; [|discriminate].
    cbn [ebind] in H.
    assert (I2 : lk_inv [] s2) by exact (lk_rel_detach_receiver _ _ _ _ _ _ E2 I1).
    assert (Fit := detach_receiver_fit _ _ _ _ _ _ E2).
    assert (U : slots_fit s2 -> unheld a s2).
    { intros B k lk Hk. destruct (detach_receiver_slots _ _ _ _ _ _ E2 _ _ Hk) as [G1 G2].
      destruct (N.eq_dec k (rc_handle l)) as [Ek|Nk]; [apply G1; exact Ek|].
      destruct (holds_rcv a lk) eqn:Ha; [|reflexivity].
      destruct I1 as (_ & R & _). assert (B1 : slots_fit s1) by (unfold slots_fit in *; rewrite <- Fit; exact B).
      destruct (R B1 _ _ _ (G2 Nk) Ha) as (l' & H1 & H2 & _).
      rewrite E1 in H1. injection H1 as <-. congruence. }
    apply EOk_inj in H. subst s'. split.
    + apply lk_close; [|exact U | exact I2].
      intros l'. unfold rcv_wake. st_cbn. destruct (rc_waker l'); reflexivity.
    + intros B k lk Hk. unfold slots_fit in B. frw_in B. frw_in Hk. exact (U B k lk Hk).
Qed.
#[export] Instance lk_rel_rcv_close a e s : stable_er lk_rel (fun x => x) s (rcv_close a e s).
Proof.
  intros x H I. destruct (nth_error (s_rcvs s) a) as [l|] eqn:El.
  - eapply rcv_close_unheld; eauto.
  - unfold rcv_close in H. rewrite El in H. apply EOk_inj in H. subst. exact I.
Qed.
#[export] Instance lk_rel_handle_detach d s : stable lk_rel s (fst (handle_detach d s)).
Proof.
  intros I. unfold handle_detach.
  destruct (match map_get (detach_handle d) (s_rhandles s) with Some i => Some i | None => _ end) as [idx|]; [|exact I].
  cbv zeta.
  assert (G : forall s1, lk_inv [] s1 -> lk_inv [] (set_s_rhandles (map_del (detach_handle d) (s_rhandles s)) (remove_link idx s1)))
    by (intros s1 I1; lk_skip; apply lk_remove_link; exact I1).
  assert (G' : forall m s1, lk_inv [] s1 -> lk_inv [] (set_s_rhandles m (remove_link idx s1)))
    by (intros m s1 I1; lk_skip; apply lk_remove_link; exact I1).
  assert (Fr : forall M s', framed s s' M -> forallb (fun f => negb (memf f M)) [Flinks; Fsnds; Frcvs; Ferror] = true -> lk_inv [] s')
    by (intros; eapply lk_framed; eauto).
  destruct (slab_get (s_links s) idx) as [lk|] eqn:Hk; [|exact I].
  destruct lk as [a| |tx|tx|o|[[a tx]|]|a|tx]; cbn [fst]; try exact I.
  - destruct (nth_error (s_snds s) a) as [l|] eqn:El; cbn [fst]; [|exact I].
    apply G'. match goal with |- lk_inv [] ?t => assert (X : stable lk_rel s t) by st_chain; exact (X I) end.
  - apply G', I.
  - apply G'. eapply Fr; [exact _ | reflexivity].
  - apply G'. eapply Fr; [exact _ | reflexivity].
  - lk_skip.
    set (s1 := fire tx (VErr (ELinkDetached (detach_error d))) (rcv_detached a s)).
    assert (E1 : s_links s1 = s_links s) by (unfold s1; frw; reflexivity).
    eapply (lk_remove_link_x [] idx _ a).
    + rewrite E1. exact Hk.
    + cbn. apply Nat.eqb_refl.
    + subst s1. lk_skip. unfold rcv_detached.
      destruct (nth_error (s_rcvs s) a); [|eapply lk_weaken; [|exact I]; intros ? []].
      lk_skip.
      apply lk_upd_rcv; [|eapply lk_weaken; [|exact I]; intros ? []].
      intros l. split; [reflexivity|]. intros _. right. left. reflexivity.
  - apply G', I.
  - destruct (nth_error (s_rcvs s) a) as [l|] eqn:El; cbn [fst]; [|exact I].
    lk_skip.
    set (s1 := post (detach_frame (rc_handle l) true None) (fail_unsettled false (rc_handle l) (ELinkDetached (detach_error d)) s)).
    assert (F1 : framed s s1 [Fsnd; Frcv; Fchans; Fout]) by (unfold s1; fr_chain). clearbody s1.
    eapply (lk_remove_link_x [] idx _ a); [frw; rewrite (F1 Flinks eq_refl); exact Hk | apply holds_est |].
    unfold rcv_remote_detached. apply lk_upd_rcv.
    + intros l'. split; [unfold rcv_wake; st_cbn; destruct (rc_waker l'); reflexivity|].
      intros _. right. left. reflexivity.
    + eapply lk_weaken with (X := []); [intros ? []|]. eapply lk_framed; [exact F1 | reflexivity | exact I].
  - apply G'. eapply Fr; [exact _ | reflexivity].
Qed.

(** ** A link that no slot holds stays out of the slots *)
Definition uh_rel (s s' : ses) : Prop :=
  (length (s_rcvs s) <= length (s_rcvs s'))%nat
  /\ forall a, (a < length (s_rcvs s))%nat -> unheld a s -> unheld a s'.
#[export] Instance uh_rel_pre : preorder uh_rel.
Proof.
  split.
  - intros s. split; auto.
  - intros s s1 s2 [L1 H1] [L2 H2]. split; [lia|]. intros a L U. apply H2; [lia|]. auto.
Qed.
#[export] Instance uh_rel_sees : sees uh_rel [Flinks; Frcvs].
Proof.
  intros s s' H. assert (H1 := H Frcvs eq_refl). assert (H2 := H Flinks eq_refl). cbn [same] in H1, H2.
  split; [rewrite H1; lia|]. intros a _ U k lk Hk. rewrite H2 in Hk. exact (U k lk Hk).
Qed.
Lemma upd_rcv_length : forall a f s, length (s_rcvs (upd_rcv a f s)) = length (s_rcvs s).
Proof.
  intros a f s. unfold upd_rcv. destruct (nth_error (s_rcvs s) a); [|reflexivity]. st_cbn.
  apply set_nth_length.
Qed.
#[export] Instance uh_rel_upd_rcv a f s : stable uh_rel s (upd_rcv a f s).
Proof.
  split; [rewrite upd_rcv_length; lia|]. intros b _ U k lk Hk. frw_in Hk. exact (U k lk Hk).
Qed.
#[export] Instance uh_rel_rcv_remote_detached a e s : stable uh_rel s (rcv_remote_detached a e s).
Proof. unfold rcv_remote_detached. st_solve. Qed.
#[export] Instance uh_rel_add_rcv l s : stable uh_rel s (set_s_rcvs (s_rcvs s ++ [l]) s).
Proof.
  split; [st_cbn; rewrite app_length; lia|]. intros b _ U k lk Hk. frw_in Hk. exact (U k lk Hk).
Qed.
#[export] Instance uh_rel_clear s : stable uh_rel s (set_s_links slab0 s).
Proof.
  split; [st_cbn; lia|]. intros b _ U k lk Hk. st_cbn_in Hk. rewrite slab0_get in Hk. discriminate.
Qed.
Lemma slab_insert_inv : forall A (s : slab A) a k x,
  slab_get (slab_insert a s) k = Some x -> x = a \/ slab_get s k = Some x.
Proof.
  intros A s a k x. unfold slab_insert, slab_get. destruct (sl_free s) as [|j fr]; cbn [sl_items].
  - destruct (nth_error (sl_items s ++ [Some a]) (N.to_nat k)) as [o|] eqn:E; [|discriminate].
    apply nth_snoc in E as [E|[_ E]].
    + rewrite E. auto.
    + subst o. intros [= <-]. auto.
  - rewrite nth_set_nth. destruct (Nat.eqb_spec (N.to_nat j) (N.to_nat k)) as [->|].
    + destruct (nth_error _ _); [|discriminate]. intros [= <-]. auto.
    + auto.
Qed.
Lemma uh_insert : forall l s, (forall a, (a < length (s_rcvs s))%nat -> holds_rcv a l = true -> unheld a s -> False) ->
  uh_rel s (set_s_links (slab_insert l (s_links s)) s).
Proof.
  intros l s H. split; [st_cbn; lia|]. intros a L U k lk Hk. st_cbn_in Hk.
  apply slab_insert_inv in Hk as [->|Hk]; [|exact (U k lk Hk)].
  destruct (holds_rcv a l) eqn:E; [|reflexivity]. elim (H a L E U).
Qed.
#[export] Instance uh_insert_opening c s :
  stable uh_rel s (set_s_links (slab_insert (SOpening c) (s_links s)) s).
Proof. apply uh_insert. discriminate. Qed.
#[export] Instance uh_insert_remote s :
  stable uh_rel s (set_s_links (slab_insert SOpeningRemote (s_links s)) s).
Proof. apply uh_insert. discriminate. Qed.
Lemma uh_set : forall k l s, (forall a, holds_rcv a l = true -> unheld a s -> False) ->
  uh_rel s (set_s_links (slab_set k l (s_links s)) s).
Proof.
  intros k l s H. split; [st_cbn; lia|]. intros a L U k' lk Hk. st_cbn_in Hk.
  destruct (slab_get (s_links s) k) eqn:E.
  - rewrite slab_get_set in Hk by congruence. destruct (k =? k') ; [|exact (U k' lk Hk)].
    apply Some_inj in Hk. subst lk. destruct (holds_rcv a l) eqn:Eh; [|reflexivity]. elim (H a Eh U).
  - unfold slab_set in Hk. rewrite E in Hk. exact (U k' lk Hk).
Qed.
Lemma drop_link_rcvs : forall l s, length (s_rcvs (drop_link l s)) = length (s_rcvs s).
Proof.
  intros l s. unfold drop_link, drop_established_rcv. repeat fr_break; frw; try reflexivity.
  all: rewrite ?upd_rcv_length; try reflexivity.
  all: unfold rcv_remote_detached; rewrite ?upd_rcv_length; reflexivity.
Qed.
#[export] Instance uh_drop_link l s : stable uh_rel s (drop_link l s).
Proof.
  split; [rewrite drop_link_rcvs; lia|]. intros a _ U k lk Hk. frw_in Hk. exact (U k lk Hk).
Qed.
Lemma uh_put : forall k l s, (forall a, holds_rcv a l = true -> unheld a s -> False) ->
  uh_rel s (put_link k l s).
Proof.
  intros k l s H. unfold put_link. destruct (slab_get (s_links s) k) eqn:E; [|exact (pre_refl (R:=uh_rel) s)].
  eapply (pre_trans (R:=uh_rel)); [exact (uh_set k l s H)|]. exact (uh_drop_link _ _).
Qed.
#[export] Instance uh_put_closing_s k tx s : stable uh_rel s (put_link k (SClosing tx) s).
Proof. apply uh_put. discriminate. Qed.
#[export] Instance uh_put_closing_r k tx s : stable uh_rel s (put_link k (RClosing tx) s).
Proof. apply uh_put. discriminate. Qed.
#[export] Instance uh_put_est k a s : stable uh_rel s (put_link k (SEstablished a) s).
Proof. apply uh_put. discriminate. Qed.
#[export] Instance uh_set_est k a s : stable uh_rel s (set_s_links (slab_set k (SEstablished a) (s_links s)) s).
Proof. apply uh_set. discriminate. Qed.
#[export] Instance uh_remove_link k s : stable uh_rel s (remove_link k s).
Proof.
  split.
  - unfold remove_link. destruct (slab_get (s_links s) k); [|lia]. rewrite drop_link_rcvs. st_cbn. lia.
  - intros a _ U k' lk Hk. rewrite remove_link_get in Hk. destruct (k =? k'); [discriminate|]. exact (U k' lk Hk).
Qed.
#[export] Instance uh_attach_remote_receiver frm s : stable uh_rel s (snd (attach_remote_receiver frm s)).
Proof.
  unfold attach_remote_receiver. cbv beta iota zeta delta [insert_link snd].
  split; [frw; st_cbn; rewrite app_length; lia|].
  intros a L U k lk Hk. st_cbn_in Hk. apply slab_insert_inv in Hk as [->|Hk]; [|exact (U k lk Hk)].
  cbn [holds_rcv]. apply Nat.eqb_neq. lia.
Qed.
#[export] Instance uh_attach_local_receiver frm s : stable uh_rel s (snd (attach_local_receiver frm s)).
Proof.
  unfold attach_local_receiver. cbv beta iota zeta delta [new_chan insert_link]. cbn [snd].
  split; [frw; st_cbn; rewrite app_length; lia|].
  intros a L U k lk Hk. frw_in Hk. st_cbn_in Hk. apply slab_insert_inv in Hk as [->|Hk]; [|exact (U k lk Hk)].
  cbn [holds_rcv]. apply Nat.eqb_neq. lia.
Qed.
#[export] Instance uh_confirm_receiver a r s : stable uh_rel s (confirm_receiver a r s).
Proof.
  unfold confirm_receiver. destruct (nth_error (s_rcvs s) a) as [l|]; [|apply stable_refl; exact _].
  destruct (slab_get (s_links s) (rc_handle l)) as [lk|] eqn:Hk; [|apply stable_refl; exact _].
  destruct lk as [| | | |[[a' src]|]| | |]; try (apply stable_refl; exact _).
  eapply stable_trans with (s1 := put_link (rc_handle l) (REstablished a') s); [exact _ | apply uh_put | st_chain].
  intros b Hb U. assert (X := U _ _ Hk). cbn [holds_rcv] in *. congruence.
Qed.
#[export] Instance uh_handle_attach frm s : stable_opt uh_rel s (handle_attach frm s).
Proof.
  intros x H. unfold handle_attach in H.
  destruct (name_get (attach_name frm) (s_names s)) as [i|]; [|discriminate].
  apply Some_inj in H. match type of H with ?t = _ => enough (stable uh_rel s t) by (subst x; assumption) end. clear H x.
  destruct (slab_get (s_links s) i) as [lk|] eqn:Hk; [|apply stable_refl; exact _].
  destruct lk as [| |tx| | |[[a tx]|]| |]; try (apply stable_refl; exact _); cbv zeta.
  - st_chain.
  - set (s1 := set_s_rhandles _ s).
    eapply stable_trans with (s1 := set_s_links (slab_set i (REstablished a) (s_links s1)) s1); [exact _ | | st_chain].
    eapply stable_trans with (s1 := s1); [exact _ | unfold s1; st_chain | apply uh_set].
    intros b Hb U. assert (X := U i _ Hk). cbn [holds_rcv] in *. congruence.
Qed.

(** ** The number of slots *)
Definition nslots (s : ses) : nat := length (sl_items (s_links s)).
Definition len_rel (s s' : ses) : Prop := (nslots s' <= nslots s)%nat.
#[export] Instance len_rel_pre : preorder len_rel.
Proof. split; unfold len_rel; intros; lia. Qed.
#[export] Instance len_rel_sees : sees len_rel [Flinks].
Proof.
  intros s s' H. assert (H2 := H Flinks eq_refl). cbn [same] in H2. unfold len_rel, nslots. rewrite H2. lia.
Qed.
#[export] Instance len_clear s : stable len_rel s (set_s_links slab0 s).
Proof. unfold stable, len_rel, nslots. st_cbn. cbn. lia. Qed.
#[export] Instance len_set k l s : stable len_rel s (set_s_links (slab_set k l (s_links s)) s).
Proof. unfold stable, len_rel, nslots. st_cbn. rewrite slab_set_length. lia. Qed.
#[export] Instance len_put k l s : stable len_rel s (put_link k l s).
Proof. unfold put_link. st_solve. Qed.
#[export] Instance len_remove k s : stable len_rel s (remove_link k s).
Proof.
  unfold remove_link, stable, len_rel, nslots. destruct (slab_get _ _); [|lia]. frw. st_cbn.
  rewrite slab_remove_length. lia.
Qed.
