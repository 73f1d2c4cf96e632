(** * What builders build *)

From Verif Require Import SpecBuilders BaseProofs CodecProofs ProtocolGood FrameProofs ProtocolTheorems.

Lemma latest_app {C A} (g : C -> option A) l c :
  latest g (l ++ [c]) = match g c with Some x => Some x | None => latest g l end.
Proof.
  induction l as [|d l IH]; cbn [latest app]; [destruct (g c); reflexivity|]. rewrite IH. destruct (g c); [reflexivity|].
  destruct (latest g l); reflexivity.
Qed.
Lemma latest_none {C A} (g : C -> option A) l : (forall c, In c l -> g c = None) -> latest g l = None.
Proof.
  induction l as [|c l IH]; intros H; [reflexivity|]. cbn [latest]. rewrite IH by (intros x Hx; apply H; right; exact Hx).
  apply H. left. reflexivity.
Qed.

(** ** Tables *)
Lemma insert_in k v (m : list (bytes * variant)) k' v' : NoDup (map fst m) ->
  (In (k', v') (map_insert beqb k v m) <-> if beqb k k' then v' = v else In (k', v') m).
Proof.
  induction m as [|[a b] m IH]; intros N; cbn [map_insert].
  - cbn [In]. destruct (beqb k k') eqn:E.
    + apply BaseProofs.beqb_eq in E. subst k'. split; [intros [H|[]]; congruence | intros ->; auto].
    + split; [intros [H|[]]; injection H as -> ->; rewrite BaseProofs.beqb_refl in E; discriminate | intros []].
  - cbn [map fst] in N. apply NoDup_cons_iff in N. destruct N as [N1 N2].
    destruct (beqb a k) eqn:Ea.
    + apply BaseProofs.beqb_eq in Ea. subst a. cbn [In]. destruct (beqb k k') eqn:E.
      * apply BaseProofs.beqb_eq in E. subst k'. split.
        -- intros [H|H]; [congruence|]. destruct N1. change k with (fst (k, v')). apply in_map. exact H.
        -- intros ->. auto.
      * split; [intros [H|H]; [injection H as -> ->; rewrite BaseProofs.beqb_refl in E; discriminate|auto]|].
        intros [H|H]; [injection H as -> ->; rewrite BaseProofs.beqb_refl in E; discriminate|auto].
    + cbn [In]. rewrite (IH N2). destruct (beqb k k') eqn:E; [|tauto].
      apply BaseProofs.beqb_eq in E. subst k'. split; [|auto]. intros [H|H]; [|exact H].
      injection H as -> ->. rewrite BaseProofs.beqb_refl in Ea. discriminate.
Qed.
Lemma insert_keys k v (m : list (bytes * variant)) x : In x (map fst (map_insert beqb k v m)) -> x = k \/ In x (map fst m).
Proof.
  induction m as [|[a b] m IH]; cbn [map_insert map fst In].
  - intros [H|[]]; auto.
  - destruct (beqb a k) eqn:E; cbn [map fst In]; [tauto|]. intros [H|H]; [auto|]. destruct (IH H); auto.
Qed.
Lemma insert_nodup k v (m : list (bytes * variant)) : NoDup (map fst m) -> NoDup (map fst (map_insert beqb k v m)).
Proof.
  induction m as [|[a b] m IH]; intros N; cbn [map_insert].
  - cbn. constructor; [intros []|constructor].
  - cbn [map fst] in N. apply NoDup_cons_iff in N. destruct N as [N1 N2]. destruct (beqb a k) eqn:E; cbn [map fst]; constructor; auto.
    intros H. destruct (insert_keys _ _ _ _ H) as [->|H1]; [|auto]. rewrite BaseProofs.beqb_refl in E. discriminate.
Qed.
Lemma insert_legal k v m : text k -> legal_value v -> legal_fields m -> legal_fields (map_insert beqb k v m).
Proof.
  intros K V [P N]. split; [|apply insert_nodup; exact N]. unfold legal_pairs in *. clear N.
  induction P as [|[a b] m [Pa Pb] P IH]; cbn [map_insert].
  - constructor; [split; assumption|constructor].
  - destruct (beqb a k); constructor; auto; split; assumption.
Qed.
Lemma remove_in k (m : list (bytes * variant)) k' v' : NoDup (map fst m) ->
  (In (k', v') (map_remove beqb k m) <-> beqb k k' = false /\ In (k', v') m).
Proof.
  induction m as [|[a b] m IH]; intros N; cbn [map_remove]; [cbn; tauto|].
  cbn [map fst] in N. apply NoDup_cons_iff in N. destruct N as [N1 N2]. destruct (beqb a k) eqn:Ea.
  - apply BaseProofs.beqb_eq in Ea. subst a. cbn [In]. split.
    + intros H. split; [|auto]. destruct (beqb k k') eqn:E; [|reflexivity]. apply BaseProofs.beqb_eq in E. subst k'.
      destruct N1. change k with (fst (k, v')). apply in_map. exact H.
    + intros [E [H|H]]; [injection H as -> ->; rewrite BaseProofs.beqb_refl in E; discriminate|exact H].
  - cbn [In]. rewrite (IH N2). split; [|tauto]. intros [H|[E H]]; [|auto]. injection H as -> ->. split; [|auto].
    destruct (beqb k k') eqn:E; [|reflexivity]. apply BaseProofs.beqb_eq in E. subst k'. rewrite BaseProofs.beqb_refl in Ea. discriminate.
Qed.
Lemma remove_keys k (m : list (bytes * variant)) x : In x (map fst (map_remove beqb k m)) -> In x (map fst m).
Proof.
  induction m as [|[a b] m IH]; cbn [map_remove map fst In]; [auto|]. destruct (beqb a k); cbn [map fst In]; [auto|].
  intros [H|H]; auto.
Qed.
Lemma remove_legal k m : legal_fields m -> legal_fields (map_remove beqb k m).
Proof.
  intros [P N]. split.
  - unfold legal_pairs in *. clear N. induction P as [|[a b] m Q P IH]; cbn [map_remove]; [constructor|].
    destruct (beqb a k); [exact P|constructor; auto].
  - clear P. induction m as [|[a b] m IH]; cbn [map_remove]; [exact N|]. cbn [map fst] in N. apply NoDup_cons_iff in N. destruct N as [N1 N2].
    destruct (beqb a k); [exact N2|]. cbn [map fst]. constructor; auto. intros H. apply N1. eapply remove_keys. exact H.
Qed.
Lemma no_fields : legal_fields [].
Proof. split; constructor. Qed.

(** ** Sender links *)
Lemma build_sender_snoc n a l c : build_sender n a (l ++ [c]) = call_sender c (build_sender n a l).
Proof. unfold build_sender. rewrite fold_left_app. reflexivity. Qed.
Lemma sender_built name address calls : Forall plain_sender_call calls ->
  build_sender name address calls
    = mk_attach name 0 RoleSender SenderMixed ReceiverFirst None (Some (plain_target address)) None false None
        (Some (match latest sender_size calls with Some n => n | None => 262144 end)) None None None.
Proof.
  induction calls as [|c calls IH] using rev_ind; intros H; [reflexivity|].
  apply Forall_app in H. destruct H as [H1 H2]. rewrite build_sender_snoc, latest_app, (IH H1).
  destruct c as [n|f]; [reflexivity|]. inversion H2 as [|x y Hc z]; destruct Hc.
Qed.
Lemma sender_size_legal calls : Forall plain_sender_call calls ->
  unsigned 64 (match latest sender_size calls with Some n => n | None => 262144 end).
Proof.
  induction calls as [|c calls IH] using rev_ind; intros H; [reflexivity|].
  apply Forall_app in H. destruct H as [H1 H2]. rewrite latest_app. inversion H2 as [|x y Hc z]; subst.
  destruct c as [n|f]; [exact Hc|destruct Hc].
Qed.

(** ** Receiver links *)
Lemma build_receiver_snoc n a l c :
  build_receiver n a (l ++ [c]) = match build_receiver n a l with Some x => call_receiver c x | None => None end.
Proof. unfold build_receiver. rewrite fold_left_app. reflexivity. Qed.
Lemma receiver_built name address calls : Forall plain_receiver_call calls ->
  exists props, build_receiver name address calls
    = Some (mk_attach name 0 RoleReceiver SenderMixed ReceiverFirst
        (Some (plain_source address (latest receiver_caps calls))) None None false None
        (Some (match latest receiver_size calls with Some n => n | None => 262144 end)) None None props)
  /\ optional legal_fields props
  /\ (forall k v, has_entry k props v <-> latest (receiver_property k) calls = Some (Some v))
  /\ optional legal_symbols (latest receiver_caps calls)
  /\ unsigned 64 (match latest receiver_size calls with Some n => n | None => 262144 end).
Proof.
  induction calls as [|c calls IH] using rev_ind; intros H.
  { exists None. split; [reflexivity|]. split; [exact I|]. split; [|split; [exact I|reflexivity]].
    intros k v. split; [intros (l & E & _); discriminate | discriminate]. }
  apply Forall_app in H. destruct H as [H1 H2]. inversion H2 as [|x y Hc z]; subst. clear H2.
  destruct (IH H1) as (props & B & Lp & E & Lc & Ls). rewrite build_receiver_snoc, B.
  rewrite !latest_app. destruct c as [n|k v|caps|f]; cbn [plain_receiver_call] in Hc; [| | |destruct Hc].
  - exists props. split; [reflexivity|]. split; [exact Lp|]. split; [|split; [exact Lc|exact Hc]].
    intros k v. rewrite latest_app. apply E.
  - cbn [receiver_caps receiver_size call_receiver]. destruct Hc as [Hk Hv].
    assert (Lq : legal_fields (or_default [] props)) by (destruct props; [exact Lp|apply no_fields]).
    assert (Eq : forall k' v', In (k', v') (or_default [] props) <-> latest (receiver_property k') calls = Some (Some v')).
    { intros k' v'. rewrite <- E. destruct props as [m|]; cbn [or_default].
      - split; [intros X; exists m; auto | intros (l & Hl & X); congruence].
      - split; [intros [] | intros (l & Hl & X); discriminate]. }
    assert (N := proj2 Lq).
    eexists. split; [reflexivity|]. cbn [attach_properties]. split; [|split; [|split; [exact Lc|exact Ls]]].
    + cbn [optional]. destruct v as [v|]; [apply insert_legal; assumption|apply remove_legal; exact Lq].
    + intros k' v'. rewrite latest_app. cbn [receiver_property]. transitivity (In (k', v') (match v with
        | Some v0 => map_insert beqb k v0 (or_default [] props) | None => map_remove beqb k (or_default [] props) end)).
      { split; [intros (l & Hl & X); injection Hl as <-; exact X | intros X; eexists; split; [reflexivity|exact X]]. }
      destruct v as [v|].
      * rewrite (insert_in k v _ k' v' N). destruct (beqb k k'); [split; congruence|apply Eq].
      * rewrite (remove_in k _ k' v' N), Eq. destruct (beqb k k'); [split; [intros [X _]; discriminate|discriminate]|].
        split; [tauto|auto].
  - exists props. split; [reflexivity|]. split; [exact Lp|]. split; [|split; [exact Hc|exact Ls]].
    intros k v. rewrite latest_app. apply E.
Qed.

(** ** Sessions *)
Lemma build_session_snoc l c : build_session (l ++ [c]) = call_session c (build_session l).
Proof. unfold build_session. rewrite fold_left_app. reflexivity. Qed.
Lemma session_built calls : Forall plain_session_call calls ->
  let r := build_session calls in
  sr_offered r = latest session_offered calls /\ sr_desired r = latest session_desired calls
  /\ optional legal_fields (sr_props r)
  /\ (forall k v, has_entry k (sr_props r) v <-> latest (session_property k) calls = Some v)
  /\ optional legal_symbols (sr_offered r) /\ optional legal_symbols (sr_desired r).
Proof.
  cbv zeta. induction calls as [|c calls IH] using rev_ind; intros H.
  { cbn. repeat match goal with |- _ /\ _ => split end; auto. intros k v. split; [intros (l & E & _); discriminate | discriminate]. }
  apply Forall_app in H. destruct H as [H1 H2]. inversion H2 as [|x y Hc z]; subst. clear H2.
  destruct (IH H1) as (Eo & Ed & Lp & E & Lo & Ld). rewrite build_session_snoc, !latest_app. clear IH H1.
  destruct c as [l|l|k v]; cbn [plain_session_call call_session sr_offered sr_desired sr_props session_offered session_desired] in *.
  - repeat match goal with |- _ /\ _ => split end; auto. intros k v. rewrite latest_app. apply E.
  - repeat match goal with |- _ /\ _ => split end; auto. intros k v. rewrite latest_app. apply E.
  - destruct Hc as [Hk Hv]. set (props := sr_props (build_session calls)) in *.
    assert (Lq : legal_fields (or_default [] props)) by (destruct props; [exact Lp|apply no_fields]).
    assert (Eq : forall k' v', In (k', v') (or_default [] props) <-> latest (session_property k') calls = Some v').
    { intros k' v'. rewrite <- E. destruct props as [m|]; cbn [or_default].
      - split; [intros X; exists m; auto | intros (l & Hl & X); congruence].
      - split; [intros [] | intros (l & Hl & X); discriminate]. }
    assert (N := proj2 Lq).
    split; [exact Eo|]. split; [exact Ed|]. split; [apply insert_legal; assumption|]. split; [|auto].
    intros k' v'. rewrite latest_app. cbn [session_property]. transitivity (In (k', v') (map_insert beqb k v (or_default [] props))).
    { split; [intros (l & Hl & X); injection Hl as <-; exact X | intros X; eexists; split; [reflexivity|exact X]]. }
    rewrite (insert_in k v _ k' v' N). destruct (beqb k k'); [split; congruence|apply Eq].
Qed.

(** ** Errors *)
Lemma build_error_snoc x l c : build_error x (l ++ [c]) = call_error c (build_error x l).
Proof. unfold build_error. rewrite fold_left_app. reflexivity. Qed.
Lemma error_built x calls :
  build_error x calls = mk_err x (latest error_text calls) (latest error_fields calls).
Proof.
  induction calls as [|c calls IH] using rev_ind; [reflexivity|]. rewrite build_error_snoc, !latest_app, IH.
  destruct c; reflexivity.
Qed.

(** ** The wire *)
Lemma legal_arrives f : (forall t, f <> FTransfer t) -> legal_frame f -> arrives_whole f.
Proof.
  intros T L B p. rewrite (frame_round_trip p f L B). destruct f as [| | | | tr | | | | |]; try reflexivity. destruct (T tr). reflexivity.
Qed.
