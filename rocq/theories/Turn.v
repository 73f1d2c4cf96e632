(** * Attach and detach frames in turn: the relation *)

From Coq Require Import ZifyBool ZifyNat ZifyN.
From Verif Require Export SpecTurn LinkRel ClaimRel Wire.
Import ListNotations.

Definition silent (f : frame) : bool := match f with FAttach _ | FDetach _ => false | _ => true end.
Definition about_only (k : N) (f : frame) : Prop :=
  match f with FAttach a => attach_handle a = k | FDetach d => detach_handle d = k | _ => True end.

Lemma turn_app : forall h l1 l2 b, in_turn h b (l1 ++ l2) <-> in_turn h b l1 /\ in_turn h (in_use h b l1) l2.
Proof.
  intros h l1. induction l1 as [|f l1 IH]; intros l2 b; cbn [app in_turn in_use]; [tauto|].
  destruct f; cbn [in_turn in_use]; try apply IH.
  - destruct (attach_handle x =? h); rewrite IH; tauto.
  - destruct (detach_handle x =? h); rewrite IH; tauto.
Qed.
Lemma use_app : forall h l1 l2 b, in_use h b (l1 ++ l2) = in_use h (in_use h b l1) l2.
Proof.
  intros h l1. induction l1 as [|f l1 IH]; intros l2 b; cbn [app in_use]; [reflexivity|]. destruct f; apply IH.
Qed.
Lemma turn_other : forall h k l b, Forall (about_only k) l -> h <> k -> in_turn h b l /\ in_use h b l = b.
Proof.
  intros h k l b F N. induction F as [|f l A F IH]; [split; [exact I | reflexivity]|].
  destruct f; cbn [in_turn in_use]; try exact IH; cbn [about_only] in A; subst k;
    (destruct (N.eqb_spec (attach_handle x) h) || destruct (N.eqb_spec (detach_handle x) h)); try congruence; exact IH.
Qed.
Lemma turn_silent : forall h l b, forallb silent l = true -> in_turn h b l /\ in_use h b l = b.
Proof.
  intros h l b. induction l as [|f l IH]; intros F; [split; [exact I | reflexivity]|]. cbn [forallb] in F.
  apply andb_prop in F as [F1 F2]. destruct f; cbn [in_turn in_use]; try exact (IH F2); discriminate F1.
Qed.

Definition used (lk : option link) : bool :=
  match lk with
  | Some (SOpening _) | Some (SEstablished _) | Some (ROpeningLocal _) | Some (REstablished _) => true
  | _ => false
  end.
Definition sound (n : nat) (lk : link) : Prop :=
  match lk with ROpening None => False | ROpening (Some (a, _)) => (a < n)%nat | _ => True end.
Definition TJ (s : ses) : Prop :=
  (forall k lk, slab_get (s_links s) k = Some lk -> sound (length (s_rcvs s)) lk)
  /\ forall h, in_turn h false (s_out s) /\ in_use h false (s_out s) = used (slab_get (s_links s) h).

Lemma sound_le : forall n m lk, (n <= m)%nat -> sound n lk -> sound m lk.
Proof. intros n m lk L. destruct lk as [| | | |[[a src]|]| | |]; cbn [sound]; try tauto. lia. Qed.

Lemma TJ_move : forall k new l s s', TJ s ->
  (forall h, slab_get (s_links s') h = if k =? h then new else slab_get (s_links s) h) ->
  s_out s' = s_out s ++ l -> (length (s_rcvs s) <= length (s_rcvs s'))%nat ->
  (forall lk, new = Some lk -> sound (length (s_rcvs s')) lk) ->
  Forall (about_only k) l -> in_turn k (used (slab_get (s_links s) k)) l -> in_use k (used (slab_get (s_links s) k)) l = used new -> TJ s'.
Proof.
  intros k new l s s' [S T] L O R N F I U. split.
  - intros h lk H. rewrite L in H. destruct (N.eqb_spec k h) as [->|]; [exact (N _ H)|]. eapply sound_le; [exact R | exact (S _ _ H)].
  - intros h. rewrite O, turn_app, use_app, L. destruct (T h) as [T1 T2]. rewrite T2. destruct (N.eqb_spec k h) as [->|D].
    + auto.
    + destruct (turn_other h k l (used (slab_get (s_links s) h)) F (not_eq_sym D)) as [A B]. auto.
Qed.
Lemma TJ_quiet : forall l s s', TJ s -> (forall h, slab_get (s_links s') h = slab_get (s_links s) h) -> s_out s' = s_out s ++ l ->
  (length (s_rcvs s) <= length (s_rcvs s'))%nat -> forallb silent l = true -> TJ s'.
Proof.
  intros l s s' [S T] L O R F. split.
  - intros h lk H. rewrite L in H. eapply sound_le; [exact R | exact (S _ _ H)].
  - intros h. rewrite O, turn_app, use_app, L. destruct (T h) as [T1 T2]. rewrite T2.
    destruct (turn_silent h l (used (slab_get (s_links s) h)) F) as [A B]. auto.
Qed.

Definition tn_rel (s s' : ses) : Prop := s_error s' = None -> s_error s = None /\ (TJ s -> TJ s').
#[export] Instance tn_pre : preorder tn_rel.
Proof. split; unfold tn_rel; [tauto|]. intros s s1 s2 A B E. destruct (B E) as [E1 B1]. destruct (A E1) as [E0 A1]. auto. Qed.
Lemma tn_quiet : forall l s s', s_error s' = s_error s -> s_links s' = s_links s -> s_out s' = s_out s ++ l ->
  (length (s_rcvs s) <= length (s_rcvs s'))%nat -> forallb silent l = true -> stable tn_rel s s'.
Proof.
  intros l s s' E L O R F Er. split; [congruence|]. intros J. eapply TJ_quiet; [exact J | intros h; rewrite L; reflexivity | exact O | exact R | exact F].
Qed.
#[export] Instance tn_sees : sees tn_rel [Flinks; Fout; Frcvs; Ferror].
Proof.
  intros s s' H. assert (E1 := H Flinks eq_refl). assert (E2 := H Fout eq_refl). assert (E3 := H Frcvs eq_refl). assert (E4 := H Ferror eq_refl). cbn [same] in *.
  eapply (tn_quiet []); [assumption | assumption | rewrite app_nil_r; assumption | rewrite E3; lia | reflexivity].
Qed.
Class silent_f (f : frame) : Prop := get_silent_f : silent f = true.
#[export] Hint Extern 1 (silent_f _) => reflexivity : typeclass_instances.
#[export] Instance tn_rel_post f s (N : silent_f f) : stable tn_rel s (post f s).
Proof. eapply (tn_quiet [f]); try reflexivity. cbn. rewrite N. reflexivity. Qed.
Lemma tn_post_all : forall fs s, (forall f, In f fs -> silent f = true) -> stable tn_rel s (post_all fs s).
Proof.
  induction fs as [|f fs IH]; intros s H; cbn [post_all fold_left]; [apply stable_refl; exact _|].
  eapply stable_trans; [exact _ | apply (tn_rel_post f), H; left; reflexivity | apply IH; intros g Hg; apply H; right; exact Hg].
Qed.
#[export] Instance tn_rel_upd_rcv a f s : stable tn_rel s (upd_rcv a f s).
Proof. eapply (tn_quiet []); [frw; reflexivity | frw; reflexivity | frw; rewrite app_nil_r; reflexivity | rewrite upd_rcv_length; lia | reflexivity]. Qed.
#[export] Instance tn_rel_transmit t tk l tag s : stable tn_rel s (transmit t tk l tag s).
Proof.
  unfold transmit. cbv zeta. match goal with |- context [post_all ?fs ?x] => set (fr := fs); set (y := x) end.
  assert (P : stable tn_rel y (post_all fr y)). { apply tn_post_all. intros f Hf. apply transfer_frames_are in Hf as (t0 & ->). reflexivity. }
  assert (Q : stable tn_rel s y) by (unfold y; destruct (tk_settled tk); st_chain).
  clearbody fr y. eapply stable_trans; [exact _ | exact Q|]. eapply stable_trans; [exact _ | exact P|]. st_chain.
Qed.
#[export] Instance tn_rel_ses_set_error e s : stable tn_rel s (ses_set_error e s).
Proof. intros E. exfalso. revert E. unfold ses_set_error. frw. st_cbn. discriminate. Qed.
(** A slot changes and frames about it are sent. *)
Lemma tn_move : forall k new l s s', s_error s' = s_error s ->
  (forall h, slab_get (s_links s') h = if k =? h then new else slab_get (s_links s) h) ->
  s_out s' = s_out s ++ l -> length (s_rcvs s') = length (s_rcvs s) ->
  (forall lk, new = Some lk -> sound (length (s_rcvs s)) lk) ->
  Forall (about_only k) l -> in_turn k (used (slab_get (s_links s) k)) l -> in_use k (used (slab_get (s_links s) k)) l = used new -> stable tn_rel s s'.
Proof.
  intros k new l s s' E L O R N F I U Er. split; [congruence|]. intros J. eapply TJ_move; try eassumption; [lia|]. intros lk H. rewrite R. exact (N lk H).
Qed.
Lemma put_rcvs : forall k lk s, length (s_rcvs (put_link k lk s)) = length (s_rcvs s).
Proof. intros. unfold put_link. destruct (slab_get _ _); [|reflexivity]. rewrite drop_link_rcvs. reflexivity. Qed.
Lemma remove_rcvs : forall k s, length (s_rcvs (remove_link k s)) = length (s_rcvs s).
Proof. intros. unfold remove_link. destruct (slab_get _ _); [|reflexivity]. rewrite drop_link_rcvs. reflexivity. Qed.
Lemma self : forall k : N, (k =? k) = true.
Proof. exact N.eqb_refl. Qed.
#[export] Instance tn_rel_detach_sender id c e tx s : stable tn_rel s (detach_sender id c e tx s).
Proof.
  unfold detach_sender. destruct (slab_get (s_links s) id) as [lk|] eqn:E; [|st_chain].
  destruct lk; try st_chain.
  - eapply (tn_move id (Some (SClosing (Some tx))) [detach_frame id c e]).
    + frw. reflexivity.
    + intros h. frw. rewrite put_link_get by congruence. reflexivity.
    + unfold control, post. st_cbn. frw. reflexivity.
    + unfold control, post. st_cbn. apply put_rcvs.
    + intros lk H. injection H as <-. exact I.
    + repeat constructor.
    + rewrite E. cbn [detach_frame in_turn used detach_handle]. rewrite self. auto.
    + rewrite E. cbn [detach_frame in_use used detach_handle]. rewrite self. reflexivity.
  - eapply (tn_move id (Some (SClosing (Some tx))) [detach_frame id c e]).
    + frw. reflexivity.
    + intros h. frw. rewrite put_link_get by congruence. reflexivity.
    + unfold control, post. st_cbn. frw. reflexivity.
    + unfold control, post. st_cbn. apply put_rcvs.
    + intros lk H. injection H as <-. exact I.
    + repeat constructor.
    + rewrite E. cbn [detach_frame in_turn used detach_handle]. rewrite self. auto.
    + rewrite E. cbn [detach_frame in_use used detach_handle]. rewrite self. reflexivity.
Qed.
#[export] Instance tn_rel_detach_receiver id c e tx s : stable_er tn_rel (fun x => x) s (detach_receiver id c e tx s).
Proof.
  intros x H. change (stable tn_rel s x). unfold detach_receiver in H.
  destruct (slab_get (s_links s) id) as [lk|] eqn:E; [destruct lk as [| | | |inner| | |]|]; try discriminate H; apply EOk_inj in H; subst x; try st_chain.
  - intros Er. split; [revert Er; frw; repeat fr_break; frw; auto|]. intros J.
    assert (S := proj1 J id _ E). destruct inner as [[a src]|]; [|contradiction]. cbn [sound] in S.
    destruct (nth_error (s_rcvs s) a) as [l|] eqn:El; [|apply nth_error_None in El; lia].
    eapply (TJ_move id None [FAttach _; detach_frame id c e]); [exact J | ..].
    + intros h. rewrite remove_link_get. frw. reflexivity.
    + frw. unfold post, fire. st_cbn. rewrite <- app_assoc. reflexivity.
    + rewrite remove_rcvs. unfold post, fire. st_cbn. lia.
    + intros lk H. discriminate H.
    + repeat constructor.
    + rewrite E. cbn [detach_frame in_turn used detach_handle attach_handle]. rewrite self. auto.
    + rewrite E. cbn [detach_frame in_use used detach_handle attach_handle]. rewrite self. reflexivity.
  - eapply (tn_move id (Some (RClosing (Some tx))) [detach_frame id c e]).
    + frw. reflexivity.
    + intros h. frw. rewrite put_link_get by congruence. reflexivity.
    + unfold control, post. st_cbn. frw. reflexivity.
    + unfold control, post. st_cbn. apply put_rcvs.
    + intros lk H. injection H as <-. exact I.
    + repeat constructor.
    + rewrite E. cbn [detach_frame in_turn used detach_handle]. rewrite self. auto.
    + rewrite E. cbn [detach_frame in_use used detach_handle]. rewrite self. reflexivity.
  - eapply (tn_move id None []).
    + frw. reflexivity.
    + intros h. rewrite remove_link_get. frw. reflexivity.
    + frw. rewrite app_nil_r. reflexivity.
    + rewrite remove_rcvs. reflexivity.
    + intros lk H. discriminate H.
    + constructor.
    + exact I.
    + rewrite E. reflexivity.
Qed.
#[export] Instance tn_rel_handle_attach frm s : stable_opt tn_rel s (handle_attach frm s).
Proof.
  intros x H. change (stable tn_rel s x). unfold handle_attach in H.
  destruct (name_get (attach_name frm) (s_names s)) as [i|]; [|discriminate]. apply Some_inj in H. subst x.
  destruct (slab_get (s_links s) i) as [lk|] eqn:E; [|st_chain]. destruct lk as [| |tx| | |[[a tx]|]| |]; try st_chain.
  - eapply (tn_move i (Some (SEstablished _)) []); [frw; reflexivity | intros h; frw; st_cbn; rewrite slab_get_set by congruence; reflexivity
      | frw; rewrite app_nil_r; reflexivity | frw; reflexivity | intros lk H; injection H as <-; exact I | constructor | exact I | rewrite E; reflexivity].
  - eapply (tn_move i (Some (REstablished a)) []); [frw; reflexivity | intros h; frw; st_cbn; rewrite slab_get_set by congruence; reflexivity
      | frw; rewrite app_nil_r; reflexivity | frw; reflexivity | intros lk H; injection H as <-; exact I | constructor | exact I | rewrite E; reflexivity].
Qed.

(** ** What the control service is asked about *)
(** The answer prepared for a receiver link has the handle of the link. *)
Definition rsp (k : ctl) : option (attach_t * nat) :=
  match k with KAttachReceiver _ r a | KAttached r a => Some (r, a) | _ => None end.
Definition ra_rel (s s' : ses) : Prop :=
  forall i k x, rsp k = Some x -> nth_error (s_ctl s') i = Some (Some k) -> nth_error (s_ctl s) i = Some (Some k).
#[export] Instance ra_pre : preorder ra_rel.
Proof. split; unfold ra_rel; eauto. Qed.
#[export] Instance ra_sees : sees ra_rel [Fctl].
Proof. intros s s' H. assert (E := H Fctl eq_refl). cbn [same] in E. unfold ra_rel. rewrite E. eauto. Qed.
Class plain_ctl (k : ctl) : Prop := plain_ctl_ok : rsp k = None.
#[export] Hint Extern 0 (plain_ctl _) => reflexivity : typeclass_instances.
Lemma ctl_snoc : forall i k k' (c : list (option ctl)), nth_error (c ++ [Some k']) i = Some (Some k) ->
  nth_error c i = Some (Some k) \/ (i = length c /\ k = k').
Proof.
  intros i k k' c H. destruct (Nat.lt_ge_cases i (length c)).
  - rewrite nth_error_app1 in H by assumption. auto.
  - rewrite nth_error_app2 in H by assumption. destruct (i - length c)%nat as [|[]] eqn:D; cbn in H; [|discriminate H..]. right. split; [lia | congruence].
Qed.
#[export] Instance ra_rel_control k s (N : plain_ctl k) : stable ra_rel s (control k s).
Proof.
  intros i k' x Hx H. unfold control in H. st_cbn_in H. apply ctl_snoc in H as [H|[_ ->]]; [exact H|]. unfold plain_ctl in N. congruence.
Qed.
#[export] Instance ra_erase i s : stable ra_rel s (set_s_ctl (set_nth i None (s_ctl s)) s).
Proof.
  intros j k x Hx H. st_cbn_in H. rewrite nth_set_nth in H. destruct (Nat.eqb i j) eqn:E; [|exact H].
  destruct (nth_error (s_ctl s) i); discriminate H.
Qed.
