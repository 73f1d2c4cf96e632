(** * Every delivery the application holds has its entry *)

From Coq Require Import ZifyBool ZifyNat ZifyN.
From Verif Require Export DispRel.
Import ListNotations.

Definition entry (k : bool * N) (s : ses) : option dinner := map_get (snd k) (unsettled (fst k) s).
Definition ent_le (o o' : option dinner) : Prop :=
  match o, o' with
  | None, Some _ => False
  | Some d, Some d' => di_settled d = true -> di_settled d' = true
  | _, None => True
  end.
Lemma ent_le_refl : forall o, ent_le o o.
Proof. intros [d|]; cbn; auto. Qed.
Lemma ent_le_trans : forall o o1 o2, ent_le o o1 -> ent_le o1 o2 -> ent_le o o2.
Proof. intros [d|] [d1|] [d2|]; cbn; intuition. Qed.
Definition falls (x x' : dlv) : Prop :=
  key_of x' = key_of x /\ (dl_alive x' = true -> dl_alive x = true) /\ (dl_local x' = false -> dl_local x = false).
Lemma falls_refl : forall x, falls x x.
Proof. repeat split; auto. Qed.
Definition heap_falls (s s' : ses) : Prop :=
  forall i x, nth_error (s_dlvs s) i = Some x -> exists x', nth_error (s_dlvs s') i = Some x' /\ falls x x'.
Definition all_tracked (s : ses) : Prop :=
  s_error s = None -> forall i x, nth_error (s_dlvs s) i = Some x -> only i (key_of x) s ->
  dl_alive x = true -> dl_local x = false -> entry (key_of x) s <> None.
Definition trk_rel (s s' : ses) : Prop :=
  heap_falls s s' /\ (all_tracked s -> all_tracked s')
  /\ (forall i x, nth_error (s_dlvs s) i = Some x -> only i (key_of x) s' -> ent_le (entry (key_of x) s) (entry (key_of x) s')).
Lemma only_falls : forall s s' i k, heap_falls s s' -> only i k s' -> only i k s.
Proof.
  intros s s' i k H O j y E K. apply H in E as (y' & E' & G & _). apply (O _ _ E'). congruence.
Qed.
#[export] Instance trk_pre : preorder trk_rel.
Proof.
  split.
  - intros s. refine (conj _ (conj (fun H => H) _)); [intros i x E; exists x; split; [exact E | apply falls_refl] | intros; apply ent_le_refl].
  - intros s s1 s2 (A1 & B1 & C1) (A2 & B2 & C2). refine (conj _ (conj _ _)); [|auto|].
    + intros i x E. apply A1 in E as (x1 & E1 & F1 & G1 & H1). apply A2 in E1 as (x2 & E2 & F2 & G2 & H2). exists x2. split; [exact E2|]. split; [congruence | auto].
    + intros i x E O. destruct (A1 _ _ E) as (x1 & E1 & K1 & _). apply ent_le_trans with (entry (key_of x) s1).
      * apply (C1 i x E). exact (only_falls _ _ _ _ A2 O).
      * rewrite <- K1. apply (C2 i x1 E1). rewrite K1. exact O.
Qed.
Lemma entry_same : forall k s s', s_snd s' = s_snd s -> s_rcv s' = s_rcv s -> entry k s' = entry k s.
Proof. intros. unfold entry. rewrite (unsettled_same (fst k) s s'); auto. Qed.
(** The deliveries stay. *)
Lemma trk_entries : forall s s', s_dlvs s' = s_dlvs s -> s_error s' = s_error s ->
  (forall k, ent_le (entry k s) (entry k s') /\ (entry k s' = None -> entry k s = None)) -> stable trk_rel s s'.
Proof.
  intros s s' E1 E2 H. refine (conj _ (conj _ _)).
  - intros i x E. exists x. rewrite E1. split; [exact E | apply falls_refl].
  - intros T Er i x E O Al Lo X. apply H in X. rewrite E2 in Er. rewrite E1 in E. revert X. apply (T Er i x E); [|exact Al|exact Lo].
    unfold only in *. rewrite E1 in O. exact O.
  - intros i x E O. apply H.
Qed.
#[export] Instance trk_sees : sees trk_rel [Fdlvs; Fsnd; Frcv; Ferror].
Proof.
  intros s s' H. assert (E1 := H Fdlvs eq_refl). assert (E2 := H Fsnd eq_refl). assert (E3 := H Frcv eq_refl). assert (E4 := H Ferror eq_refl). cbn [same] in *.
  apply trk_entries; auto. intros k. rewrite (entry_same k s s' E2 E3). split; [apply ent_le_refl | auto].
Qed.
(** The entries stay. *)
Lemma trk_upd : forall a f s, (forall x, falls x (f x)) -> stable trk_rel s (upd_dlv a f s).
Proof.
  intros a f s H.
  assert (Hp : heap_falls s (upd_dlv a f s)).
  { intros i x E. rewrite nth_upd_dlv, E. destruct (Nat.eqb a i); cbn [option_map]; eauto using falls_refl. }
  assert (Ee : forall k, entry k (upd_dlv a f s) = entry k s) by (intros; apply entry_same; frw; reflexivity).
  refine (conj Hp (conj _ _)).
  - intros T Er i x E O Al Lo. rewrite Ee. frw_in Er. rewrite nth_upd_dlv in E.
    assert (X : exists y, nth_error (s_dlvs s) i = Some y /\ falls y x).
    { destruct (Nat.eqb a i); [|eauto using falls_refl]. destruct (nth_error (s_dlvs s) i) as [y|]; [|discriminate E]. apply Some_inj in E. subst x. eauto. }
    destruct X as (y & Ey & Ky & Fa & Fl). rewrite Ky. apply (T Er i y Ey); auto. rewrite <- Ky. exact (only_falls _ _ _ _ Hp O).
  - intros i x E O. rewrite Ee. apply ent_le_refl.
Qed.
Ltac fall := apply trk_upd; intros x; split; [reflexivity | st_cbn; split; congruence].
#[export] Instance trk_remote a s : stable trk_rel s (upd_dlv a (set_dl_remote true) s).
Proof. fall. Qed.
#[export] Instance trk_local a s : stable trk_rel s (upd_dlv a (set_dl_local true) s).
Proof. fall. Qed.
#[export] Instance trk_dead a s : stable trk_rel s (upd_dlv a (set_dl_alive false) s).
Proof. fall. Qed.
(** ** A new delivery *)
Lemma trk_add : forall x s s', s_dlvs s' = s_dlvs s ++ [x] -> s_error s' = s_error s ->
  (forall k, k <> key_of x -> entry k s' = entry k s) -> (entry (key_of x) s <> None -> entry (key_of x) s' <> None) ->
  (dl_local x = false -> entry (key_of x) s' <> None) -> stable trk_rel s s'.
Proof.
  intros x s s' E1 E2 H1 H2 H3.
  assert (Hp : heap_falls s s').
  { intros i y E. exists y. rewrite E1, nth_error_app1 by (apply nth_lt in E; exact E). split; [exact E | apply falls_refl]. }
  assert (Nx : nth_error (s_dlvs s') (length (s_dlvs s)) = Some x) by (rewrite E1, nth_error_app2, Nat.sub_diag by lia; reflexivity).
  refine (conj Hp (conj _ _)).
  - intros T Er i y E O Al Lo. rewrite E2 in Er. destruct (Nat.lt_ge_cases i (length (s_dlvs s))) as [L|G].
    + rewrite E1, nth_error_app1 in E by exact L. assert (X : entry (key_of y) s <> None) by (apply (T Er i y E); auto; exact (only_falls _ _ _ _ Hp O)).
      assert (D : key_of y = key_of x \/ key_of y <> key_of x). { destruct (key_of y) as [yb yi], (key_of x) as [xb xi]. destruct (Bool.bool_dec yb xb), (N.eq_dec yi xi); [left; congruence|right; congruence..]. }
      destruct D as [D|D]; [rewrite D in *; auto | rewrite (H1 _ D); exact X].
    + assert (y = x). { rewrite E1, nth_error_app2 in E by exact G. destruct (i - length (s_dlvs s))%nat as [|n]; [|destruct n; discriminate E]. apply Some_inj in E. auto. }
      subst y. auto.
  - intros i y E O. assert (N : key_of y <> key_of x).
    { intros K. assert (length (s_dlvs s) = i). { apply (O _ _ Nx). auto. } apply nth_lt in E. lia. }
    rewrite (H1 _ N). apply ent_le_refl.
Qed.
Lemma entry_put : forall k b id d s, entry k (put_unsettled b id d s) = if Bool.eqb (fst k) b && (snd k =? id) then Some d else entry k s.
Proof.
  intros [kb ki] b id d s. unfold entry, put_unsettled. cbn [fst snd]. cbv zeta. rewrite unsettled_set.
  set (s1 := match map_get id _ with Some _ => _ | None => _ end). assert (E : forall b', unsettled b' s1 = unsettled b' s).
  { intros b'. unfold s1. destruct (map_get id (unsettled b s)); [|reflexivity]. apply unsettled_same; frw; reflexivity. }
  rewrite !E. destruct (Bool.eqb_spec kb b) as [->|]; cbn [andb]; [rewrite map_get_put | ]; reflexivity.
Qed.
Lemma entry_del : forall k b id s, entry k (del_unsettled b id s) = if Bool.eqb (fst k) b && (snd k =? id) then None else entry k s.
Proof.
  intros [kb ki] b id s. unfold entry, del_unsettled. cbn [fst snd]. cbv zeta. rewrite unsettled_set.
  set (s1 := match map_get id _ with Some _ => _ | None => _ end). assert (E : forall b', unsettled b' s1 = unsettled b' s).
  { intros b'. unfold s1. destruct (map_get id (unsettled b s)); [|reflexivity]. apply unsettled_same; frw; reflexivity. }
  rewrite !E. destruct (Bool.eqb_spec kb b) as [->|]; cbn [andb]; [rewrite map_get_del | ]; reflexivity.
Qed.
Lemma put_keeps : forall b id d s, s_dlvs (put_unsettled b id d s) = s_dlvs s /\ s_error (put_unsettled b id d s) = s_error s.
Proof. intros. frw. auto. Qed.
Lemma key_eqb : forall k b id, (Bool.eqb (fst k) b && (snd k =? id))%bool = true <-> k = (b, id).
Proof.
  intros [kb ki] b id. cbn [fst snd]. rewrite Bool.andb_true_iff, Bool.eqb_true_iff, N.eqb_eq. split; [intros [-> ->]; reflexivity | intros [= -> ->]; auto].
Qed.
Lemma trk_put_add : forall x b h d s s', key_of x = (b, h) -> dl_local x = false -> s_dlvs s' = s_dlvs s ++ [x] -> s_error s' = s_error s ->
  (forall k, entry k s' = entry k (put_unsettled b h d s)) -> stable trk_rel s s'.
Proof.
  intros x b h d s s' K L E1 E2 H. apply (trk_add x); auto.
  - intros k N. rewrite H, entry_put. destruct (_ && _)%bool eqn:X; [|reflexivity]. apply key_eqb in X. congruence.
  - intros _. rewrite H, entry_put, K. assert (X := proj2 (key_eqb (b, h) b h) eq_refl). rewrite X. discriminate.
  - intros _. rewrite H, entry_put, K. assert (X := proj2 (key_eqb (b, h) b h) eq_refl). rewrite X. discriminate.
Qed.
#[export] Instance trk_rel_new_rcv id h tag settled s : stable trk_rel s (snd (new_rcv id h tag settled s)).
Proof.
  unfold new_rcv. cbv zeta. cbn [snd]. destruct settled.
  - eapply trk_add; try reflexivity. intros H. exact H. intros D. discriminate D.
  - eapply (trk_put_add (mk_dlv id tag false false false true) false id (di_new h)); try reflexivity; st_cbn; frw; reflexivity.
Qed.
#[export] Instance trk_rel_transmit t tk l tag s : stable trk_rel s (transmit t tk l tag s).
Proof.
  unfold transmit. cbv zeta. set (s0 := set_s_nout _ (set_s_iwin _ s)). eapply stable_trans; [exact _| |st_one].
  assert (S0 : stable trk_rel s s0) by (unfold s0; st_chain). eapply stable_trans; [exact _ | exact S0|]. clearbody s0. clear S0.
  destruct (tk_settled tk).
  - eapply (trk_add (mk_dlv (s_nout s) tag true true false true)).
    + st_cbn. frw. reflexivity.
    + st_cbn. frw. reflexivity.
    + intros k _. apply entry_same; st_cbn; frw; reflexivity.
    + intros H. erewrite entry_same; [exact H| |]; st_cbn; frw; reflexivity.
    + intros D. discriminate D.
  - eapply (trk_put_add (mk_dlv (s_nout s) tag true false false true) true (s_nout s) (di_new (as_u32 (sn_id l))) s0); try reflexivity.
    + st_cbn. frw. reflexivity.
    + st_cbn. frw. reflexivity.
    + intros k. apply entry_same; st_cbn; frw; reflexivity.
Qed.
(** ** Dropping a delivery *)
#[export] Instance trk_rel_dlv_drop i s : stable trk_rel s (dlv_drop i s).
Proof.
  unfold dlv_drop. destruct (nth_error (s_dlvs s) i) as [x|] eqn:E; [|apply stable_refl; exact _].
  destruct (dl_alive x) eqn:Al; cbn [negb]; [|apply stable_refl; exact _]. cbv zeta.
  set (s1 := upd_dlv i (set_dl_alive false) s). assert (S1 : stable trk_rel s s1) by (unfold s1; st_one).
  destruct (map_get (dl_id x) (unsettled (dl_sender x) s1)); [|exact S1].
  eapply stable_trans; [exact _ | exact S1|].
  assert (N1 : nth_error (s_dlvs s1) i = Some (set_dl_alive false x)) by (unfold s1; rewrite nth_upd_dlv, Nat.eqb_refl, E; reflexivity).
  clearbody s1. clear S1. eapply stable_trans with (s1 := del_unsettled (dl_sender x) (dl_id x) s1); [exact _| |destruct (_ || _)%bool; st_chain].
  refine (conj _ (conj _ _)).
  - intros j y Ey. exists y. frw. split; [exact Ey | apply falls_refl].
  - intros T Er j y Ey O Aly Lo. frw_in Er. frw_in Ey. rewrite entry_del. 
    assert (Oy : only j (key_of y) s1) by (intros j' y' E' K'; apply (O j' y'); [frw; exact E' | exact K']).
    destruct (_ && _)%bool eqn:X; [|apply (T Er j y Ey); auto]. apply key_eqb in X. assert (i = j). { apply (Oy i _ N1). symmetry. exact X. }
    subst j. rewrite N1 in Ey. apply Some_inj in Ey. subst y. discriminate Aly.
  - intros j y Ey O. rewrite entry_del. destruct (_ && _)%bool; [|apply ent_le_refl]. destruct (entry (key_of y) s1); exact I.
Qed.
(** ** The entries *)
Lemma trk_map : forall b m s s', s_dlvs s' = s_dlvs s -> s_error s' = s_error s -> (forall b', b' <> b -> unsettled b' s' = unsettled b' s) -> unsettled b s' = m ->
  (forall id, ent_le (map_get id (unsettled b s)) (map_get id m) /\ (map_get id m = None -> map_get id (unsettled b s) = None)) -> stable trk_rel s s'.
Proof.
  intros b m s s' E1 E2 E3 E4 H. apply trk_entries; auto. intros [kb ki]. unfold entry. cbn [fst snd]. destruct (Bool.bool_dec kb b) as [->|N].
  - rewrite E4. apply H.
  - rewrite (E3 _ N). split; [apply ent_le_refl | auto].
Qed.
Lemma trk_upd_entry : forall b id d d' s s1, s_dlvs s1 = s_dlvs s -> s_error s1 = s_error s -> s_snd s1 = s_snd s -> s_rcv s1 = s_rcv s ->
  map_get id (unsettled b s) = Some d -> (di_settled d = true -> di_settled d' = true) ->
  stable trk_rel s (set_unsettled b (map_upd id d' (unsettled b s1)) s1).
Proof.
  intros b id d d' s s1 E1 E2 E3 E4 G H. rewrite (unsettled_same b s s1 E3 E4). apply (trk_map b (map_upd id d' (unsettled b s))).
  - frw. exact E1.
  - frw. exact E2.
  - intros b' N. rewrite unsettled_set. destruct (Bool.eqb_spec b' b); [contradiction|]. apply unsettled_same; assumption.
  - rewrite unsettled_set, Bool.eqb_reflx. reflexivity.
  - intros id'. rewrite map_get_upd. destruct (N.eqb_spec id' id) as [->|]; [|split; [apply ent_le_refl | auto]].
    rewrite G. cbn [option_map ent_le]. split; [exact H | discriminate].
Qed.
#[export] Instance trk_rel_fail_unsettled b h e s : stable trk_rel s (fail_unsettled b h e s).
Proof.
  unfold fail_unsettled. cbv zeta. eapply (trk_map b).
  - frw. reflexivity.
  - frw. reflexivity.
  - intros b' N. rewrite unsettled_set. destruct (Bool.eqb_spec b' b); [contradiction|]. apply unsettled_fail_all.
  - rewrite unsettled_set, Bool.eqb_reflx. reflexivity.
  - intros id. rewrite map_get_vals. destruct (map_get id (unsettled b s)) as [d|]; cbn [option_map ent_le]; [|auto]. split; [|discriminate].
    destruct (di_handle d =? h); auto.
Qed.
#[export] Instance trk_rel_settle_one disp b s no : stable trk_rel s (settle_one disp b s no).
Proof.
  apply (trk_map b (unsettled b (settle_one disp b s no))).
  - frw. reflexivity.
  - frw. reflexivity.
  - intros b' N. unfold settle_one. destruct (map_get no (unsettled b s)); [|reflexivity]. rewrite unsettled_set. destruct (Bool.eqb_spec b' b); [contradiction|]. apply unsettled_same; frw; reflexivity.
  - reflexivity.
  - intros id. rewrite settle_one_get. rewrite Bool.eqb_reflx. cbn [andb]. destruct (N.eqb_spec id no); [|split; [apply ent_le_refl | auto]].
    destruct (map_get id (unsettled b s)) as [d|]; cbn [option_map ent_le]; [|auto]. split; [|discriminate]. unfold di_disposition. intros ->. reflexivity.
Qed.
Lemma check_settled : forall d r d', check_inner d = (r, d') -> di_settled d' = di_settled d.
Proof. intros d r d' H. destruct (evolves_check _ _ _ H) as (_ & E & _). exact E. Qed.
#[export] Instance trk_rel_poll_wait w s : stable trk_rel s (poll_wait w s).
Proof.
  unfold poll_wait. cbv zeta. destruct (nth_error (s_waits s) w) as [k|]; [|apply stable_refl; exact _].
  destruct (nth_error (s_dlvs s) (wk_dlv k)) as [d|]; [|apply stable_refl; exact _].
  assert (K : forall r s1, stable trk_rel s s1 -> stable trk_rel s (upd_wait w (set_wk_st r) s1)).
  { intros r s1 H. eapply stable_trans; [exact _ | exact H | st_one]. }
  destruct (wk_st k) as [|c|r|]; try (apply stable_refl; exact _).
  - destruct (dl_local d); [apply K, stable_refl; exact _|].
    destruct (map_get (dl_id d) (unsettled (dl_sender d) s)) as [di|] eqn:G; [|apply K, stable_refl; exact _].
    destruct (check_inner di) as [[r|] di'] eqn:Ec.
    + apply K. eapply (trk_upd_entry _ _ di); eauto. intros H. rewrite (check_settled _ _ _ Ec). exact H.
    + unfold new_chan. apply K. eapply (trk_upd_entry _ _ di); eauto; frw; reflexivity.
  - destruct (nth_error (s_chans s) c) as [[]|]; try (apply stable_refl; exact _); [|apply K, stable_refl; exact _].
    destruct (map_get (dl_id d) (unsettled (dl_sender d) s)) as [di|] eqn:G; [|apply K, stable_refl; exact _].
    set (s1 := if di_settled di then _ else s). assert (E1 : s_snd s1 = s_snd s /\ s_rcv s1 = s_rcv s) by (unfold s1; destruct (di_settled di); frw; auto).
    assert (S1 : stable trk_rel s s1) by (unfold s1; destruct (di_settled di); [st_one | apply stable_refl; exact _]).
    destruct E1 as [E1 E2]. rewrite <- (unsettled_same (dl_sender d) s s1 E1 E2) in G. clearbody s1.
    destruct (check_inner di) as [[r|] di'] eqn:Ec; [|apply K, S1].
    apply K. eapply stable_trans; [exact _ | exact S1|]. eapply (trk_upd_entry _ _ di); eauto. intros H. rewrite (check_settled _ _ _ Ec). exact H.
Qed.
(** ** The failure of the session *)
#[export] Instance falls_pre : preorder heap_falls.
Proof.
  split; [intros s i x E; exists x; split; [exact E | apply falls_refl]|].
  intros s s1 s2 A1 A2 i x E. apply A1 in E as (x1 & E1 & F1 & G1 & H1). apply A2 in E1 as (x2 & E2 & F2 & G2 & H2). exists x2. split; [exact E2|]. split; [congruence | auto].
Qed.
#[export] Instance falls_sees : sees heap_falls [Fdlvs].
Proof. intros s s' H i x E. assert (E1 := H Fdlvs eq_refl). cbn [same] in E1. exists x. rewrite E1. split; [exact E | apply falls_refl]. Qed.
#[export] Instance falls_drop i s : stable heap_falls s (dlv_drop i s).
Proof. exact (proj1 (trk_rel_dlv_drop i s)). Qed.
#[export] Instance falls_drop_dlvs l s : stable heap_falls s (drop_dlvs l s).
Proof.
  unfold drop_dlvs. revert s. induction l as [|x l IH]; intros s; cbn [fold_left]; [apply stable_refl; exact _|].
  eapply stable_trans; [exact _| |apply IH]. st_solve.
Qed.
#[export] Instance falls_drop_link x s : stable heap_falls s (drop_link x s).
Proof. unfold drop_link. st_solve. Qed.
#[export] Instance falls_drop_links l s : stable heap_falls s (drop_links l s).
Proof.
  unfold drop_links. revert s. induction l as [|x l IH]; intros s; cbn [fold_left]; [apply stable_refl; exact _|].
  eapply stable_trans; [exact _| |apply IH]. st_solve.
Qed.
#[export] Instance falls_set_error e s : stable heap_falls s (ses_set_error e s).
Proof. unfold ses_set_error. st_solve. Qed.
#[export] Instance trk_rel_ses_set_error e s : stable trk_rel s (ses_set_error e s).
Proof.
  refine (conj (falls_set_error e s) (conj _ _)).
  - intros _ Er. exfalso. revert Er. unfold ses_set_error. cbv zeta. st_cbn. frw. st_cbn. discriminate.
  - intros i x E O. unfold entry. rewrite fail_unsettled_none. destruct (map_get (snd (key_of x)) (unsettled (fst (key_of x)) s)); exact I.
Qed.
