(** * A channel is kept at one place only: every event *)

From Coq Require Import ZifyBool ZifyNat ZifyN.
From Verif Require Export OneRel.
Import ListNotations.

Definition bounded_places (s : ses) : Prop := forall pl c, at_place pl c s -> (c < length (s_chans s))%nat.
Definition one_rel (s s' : ses) : Prop :=
  bounded_places s ->
  bounded_places s'
  /\ (length (s_chans s) <= length (s_chans s'))%nat
  /\ forall pl c, at_place pl c s' ->
       at_place pl c s \/ ((length (s_chans s) <= c)%nat /\ forall pl', at_place pl' c s' -> pl' = pl).
#[export] Instance one_pre : preorder one_rel.
Proof.
  split.
  - intros s B. refine (conj B (conj (le_n _) _)). auto.
  - intros s s1 s2 H1 H2 B. destruct (H1 B) as (B1 & L1 & K1). destruct (H2 B1) as (B2 & L2 & K2).
    refine (conj B2 (conj _ _)); [lia|]. intros pl c P2. destruct (K2 _ _ P2) as [P1|[L U]].
    + destruct (K1 _ _ P1) as [P|[L U]]; [auto|]. right. split; [exact L|]. intros pl' P'.
      destruct (K2 _ _ P') as [P1'|[L' _]]; [auto|]. apply B1 in P1. lia.
    + right. split; [lia | exact U].
Qed.
#[export] Instance one_sees : sees one_rel [Flinks; Fchans; Fsnds; Fpending; Fsnd; Frcv; Fclosed].
Proof.
  intros s s' H B. destruct (shr_sees s s' H) as [L K]. refine (conj _ (conj L _)).
  - intros pl c P. apply K, B in P. lia.
  - auto.
Qed.
#[export] Instance one_lift s s' : stable shr_rel s s' -> stable one_rel s s'.
Proof.
  intros [L K] B. refine (conj _ (conj L _)).
  - intros pl c P. apply K, B in P. lia.
  - auto.
Qed.
#[export] Instance one_lift_er A (pr : A -> ses) s m : stable_er shr_rel pr s m -> stable_er one_rel pr s m.
Proof. intros H x E. apply one_lift. exact (H x E). Qed.
#[export] Instance one_lift_opt s m : stable_opt shr_rel s m -> stable_opt one_rel s m.
Proof. intros H x E. apply one_lift. exact (H x E). Qed.

(** Only [c] gets to a place, and only to [pl0]. *)
Definition add_rel (pl0 : place) (c0 : nat) (s s' : ses) : Prop :=
  (length (s_chans s) <= length (s_chans s'))%nat
  /\ forall pl c, at_place pl c s' -> at_place pl c s \/ (c = c0 /\ pl = pl0).
#[export] Instance add_pre pl0 c0 : preorder (add_rel pl0 c0).
Proof.
  split; [intros s; split; auto|]. intros s s1 s2 [L1 H1] [L2 H2]. split; [lia|]. intros pl c P.
  destruct (H2 _ _ P) as [P1|E]; auto.
Qed.
#[export] Instance add_sees pl0 c0 : sees (add_rel pl0 c0) [Flinks; Fchans; Fsnds; Fpending; Fsnd; Frcv; Fclosed].
Proof. intros s s' H. destruct (shr_sees s s' H) as [L K]. split; auto. Qed.
#[export] Instance add_lift pl0 c0 s s' : stable shr_rel s s' -> stable (add_rel pl0 c0) s s'.
Proof. intros [L K]. split; auto. Qed.
Lemma one_add : forall pl0 s s',
  stable (add_rel pl0 (length (s_chans s))) (set_s_chans (s_chans s ++ [CWait]) s) s' -> stable one_rel s s'.
Proof.
  intros pl0 s s' [L K] B. st_cbn_in L. rewrite app_length in L. cbn [length] in L.
  assert (K' : forall pl c, at_place pl c s' -> at_place pl c s \/ (c = length (s_chans s) /\ pl = pl0)).
  { intros pl c P. destruct (K _ _ P) as [P1|E]; [left | auto]. revert P1. apply at_place_same; reflexivity. }
  refine (conj _ (conj _ _)); [|lia|].
  - intros pl c P. destruct (K' _ _ P) as [P1|[-> _]]; [apply B in P1|]; lia.
  - intros pl c P. destruct (K' _ _ P) as [P1|[-> ->]]; [auto|]. right. split; [auto|]. intros pl' P'.
    destruct (K' _ _ P') as [P1|[_ ->]]; [|reflexivity]. apply B in P1. lia.
Qed.

(** ** Placing a channel *)
Lemma add_upd_snd : forall pl0 c0 a f s,
  (forall l c, nth_error (s_snds s) a = Some l ->
     (In c (sn_pending (f l)) -> In c (sn_pending l) \/ (c = c0 /\ PLink a = pl0))
     /\ (In c (cd_wait (sn_on_close (f l))) -> In c (cd_wait (sn_on_close l)) \/ (c = c0 /\ PClose a = pl0))
     /\ (In c (cd_wait (sn_on_credit (f l))) -> In c (cd_wait (sn_on_credit l)) \/ (c = c0 /\ PCredit a = pl0))) ->
  stable (add_rel pl0 c0) s (upd_snd a f s).
Proof.
  intros pl0 c0 a f s H. split; [frw; auto|]. intros pl c P.
  assert (X : forall b (g : slink -> list nat) q,
    (forall l, nth_error (s_snds s) a = Some l -> In c (g (f l)) -> In c (g l) \/ (c = c0 /\ q a = pl0)) ->
    (exists l, nth_error (s_snds (upd_snd a f s)) b = Some l /\ In c (g l)) ->
    (exists l, nth_error (s_snds s) b = Some l /\ In c (g l)) \/ (c = c0 /\ q b = pl0)).
  { intros b g q Hg (l & E & I). rewrite nth_upd_snd in E. destruct (Nat.eqb_spec a b) as [->|]; [|eauto].
    destruct (nth_error (s_snds s) b) as [l0|] eqn:E0; [|discriminate]. cbn [option_map] in E. injection E as <-.
    destruct (Hg l0 eq_refl I) as [I'|E']; [left; eauto | auto]. }
  destruct pl as [| | | |[] id| |]; cbn [at_place] in *; unfold unsettled in *; frw_in P; try (left; exact P).
  - apply (X a0 sn_pending PLink); [|exact P]. intros l E. apply (H l c E).
  - apply (X a0 (fun l => cd_wait (sn_on_close l)) PClose); [|exact P]. intros l E. apply (H l c E).
  - apply (X a0 (fun l => cd_wait (sn_on_credit l)) PCredit); [|exact P]. intros l E. apply (H l c E).
Qed.
#[export] Instance add_push a c s : stable (add_rel (PLink a) c) s (upd_snd a (fun l => set_sn_pending (sn_pending l ++ [c]) l) s).
Proof.
  apply add_upd_snd. intros l x _. st_cbn. split; [|auto]. intros H. apply in_app_or in H as [H|[->|[]]]; auto.
Qed.
#[export] Instance add_pending h c s : stable (add_rel (PSes h) c) s (set_s_pending (s_pending s ++ [(c, h)]) s).
Proof.
  split; [auto|]. intros pl x P. destruct pl; cbn [at_place] in *; unfold unsettled in *; try (left; exact P).
  st_cbn_in P. apply in_app_or in P as [P|[[= -> ->]|[]]]; auto.
Qed.
Lemma slab_insert_at : forall A (s : slab A) a k x, slab_get (slab_insert a s) k = Some x ->
  (k = slab_key s /\ x = a) \/ slab_get s k = Some x.
Proof.
  intros A s a k x H. unfold slab_insert, slab_key in *. destruct (sl_free s) as [|k0 r]; unfold slab_get in *; cbn [sl_items] in *.
  - destruct (Nat.lt_ge_cases (N.to_nat k) (length (sl_items s))).
    + rewrite nth_error_app1 in H by lia. auto.
    + rewrite nth_error_app2 in H by lia. destruct (N.to_nat k - length (sl_items s))%nat as [|n] eqn:En.
      * injection H as ->. left. split; [lia | reflexivity].
      * cbn in H. destruct n; discriminate.
  - rewrite nth_set_nth in H. destruct (Nat.eqb_spec (N.to_nat k0) (N.to_nat k)) as [E|]; [|auto].
    destruct (nth_error (sl_items s) (N.to_nat k0)); cbn in H; [|discriminate H]. injection H as ->.
    left. split; [lia | reflexivity].
Qed.
Lemma add_links : forall k0 c0 v s,
  (forall k lk c, slab_get v k = Some lk -> tx_of lk = Some c ->
     (exists lk', slab_get (s_links s) k = Some lk' /\ tx_of lk' = Some c) \/ (c = c0 /\ k = k0)) ->
  stable (add_rel (PSlot k0) c0) s (set_s_links v s).
Proof.
  intros k0 c0 v s H. split; [auto|]. intros pl c P. destruct pl; cbn [at_place] in *; unfold unsettled in *; try (left; exact P).
  destruct P as (lk & G & T). destruct (H _ _ _ G T) as [|[-> ->]]; auto.
Qed.
Lemma add_insert : forall l c s, tx_of l = Some c ->
  stable (add_rel (PSlot (slab_key (s_links s))) c) s (set_s_links (slab_insert l (s_links s)) s).
Proof.
  intros l c s T. apply add_links. intros k lk x G Tx. apply slab_insert_at in G as [[-> ->]|G]; [right | left; eauto].
  split; [congruence | reflexivity].
Qed.
Lemma add_put_link : forall k l c s, tx_of l = Some c -> stable (add_rel (PSlot k) c) s (put_link k l s).
Proof.
  intros k l c s T. unfold put_link. destruct (slab_get (s_links s) k) as [old|] eqn:Eo; [|apply stable_refl; exact _].
  eapply stable_trans; [exact _ | | apply add_lift; exact (shr_rel_drop_link old _)].
  apply add_links. intros k' lk x G Tx. rewrite slab_get_set in G by congruence.
  destruct (N.eqb_spec k k') as [<-|]; [|left; eauto]. right. split; [congruence | reflexivity].
Qed.
#[export] Instance add_sclosing k c s : stable (add_rel (PSlot k) c) s (put_link k (SClosing (Some c)) s).
Proof. apply add_put_link. reflexivity. Qed.
#[export] Instance add_rclosing k c s : stable (add_rel (PSlot k) c) s (put_link k (RClosing (Some c)) s).
Proof. apply add_put_link. reflexivity. Qed.
Lemma add_detach_sender : forall id cl e tx s, stable (add_rel (PSlot id) tx) s (detach_sender id cl e tx s).
Proof. intros. unfold detach_sender. st_solve. Qed.
Lemma add_detach_receiver : forall id cl e tx s s', detach_receiver id cl e tx s = EOk s' -> stable (add_rel (PSlot id) tx) s s'.
Proof. intros id cl e tx s s' H. unfold detach_receiver in H. st_er H. Qed.

(** ** Functions that make channels *)
#[export] Instance one_rel_attach_local_sender frm s : stable one_rel s (snd (attach_local_sender frm s)).
Proof.
  unfold attach_local_sender, insert_link, new_chan. cbv zeta. cbn [snd]. set (s1 := set_s_chans _ s).
  apply (one_add (PSlot (slab_key (s_links s)))). fold s1.
  eapply stable_trans; [exact _ | |st_one]. eapply stable_trans; [exact _ | |st_one].
  apply (add_insert (SOpening (Some (length (s_chans s)))) (length (s_chans s)) s1 eq_refl).
Qed.
#[export] Instance one_rel_attach_local_receiver frm s : stable one_rel s (snd (attach_local_receiver frm s)).
Proof.
  unfold attach_local_receiver, insert_link, new_chan. cbv zeta. cbn [snd]. set (s1 := set_s_chans _ s).
  set (s2 := set_s_rcvs _ s1).
  apply (one_add (PSlot (slab_key (s_links s)))). fold s1.
  apply stable_trans with (s1 := s2); [exact _ | unfold s2; st_one|].
  eapply stable_trans; [exact _ | |st_one]. eapply stable_trans; [exact _ | |st_one].
  apply (add_insert (ROpeningLocal (Some (length (s_rcvs s), length (s_chans s)))) (length (s_chans s)) s2 eq_refl).
Qed.
#[export] Instance one_rel_snd_close a e s : stable one_rel s (snd_close a e s).
Proof.
  unfold snd_close. destruct (nth_error (s_snds s) a) as [l|]; [|apply stable_refl; exact _].
  destruct (sn_closed l); [apply stable_refl; exact _|]. cbv zeta. unfold new_chan.
  set (s1 := notify_lock_snd a _). apply stable_trans with (s1 := s1); [exact _ | unfold s1; st_chain|].
  apply (one_add (PSlot (as_u32 (sn_id l)))). apply add_detach_sender.
Qed.
#[export] Instance one_rel_rcv_close a e s : stable_er one_rel (fun x => x) s (rcv_close a e s).
Proof.
  intros x H. change (stable one_rel s x). unfold rcv_close in H. destruct (nth_error (s_rcvs s) a) as [l|]; [|st_er H].
  cbv beta iota zeta delta [new_chan] in H. destruct (rc_closed l).
  - st_er H.
  - destruct (detach_receiver _ _ _ _ _) as [s1|] eqn:E; [|discriminate]. apply add_detach_receiver in E. cbn [ebind] in H.
    apply EOk_inj in H. subst x. eapply stable_trans; [exact _ | |st_one]. exact (one_add _ _ _ E).
Qed.
#[export] Instance one_rel_ses_detach_receiver h e s : stable_er one_rel (fun x => x) s (ses_detach_receiver h e s).
Proof.
  intros x H. change (stable one_rel s x). unfold ses_detach_receiver, new_chan in H. apply add_detach_receiver in H.
  exact (one_add _ _ _ H).
Qed.
#[export] Instance one_rel_ses_detach_sender h e s : stable one_rel s (ses_detach_sender h e s).
Proof. unfold ses_detach_sender, new_chan. apply (one_add (PSlot h)). apply add_detach_sender. Qed.
#[export] Instance one_rel_session_loop t tk l tag s : stable one_rel s (session_loop t tk l tag s).
Proof.
  unfold session_loop. destruct (s_iwin s =? 0); [|st_chain]. unfold new_chan. apply (one_add (PSes (as_u32 (sn_id l)))).
  eapply stable_trans; [exact _ | |st_one].
  apply add_pending.
Qed.
#[export] Instance one_rel_link_loop t tk l tag s : stable one_rel s (link_loop t tk l tag s).
Proof.
  unfold link_loop. match goal with |- context [if ?b then _ else _] => destruct b end; [|st_chain].
  unfold new_chan. apply (one_add (PLink (tk_link tk))). eapply stable_trans; [exact _ | apply add_push | st_one].
Qed.
#[export] Instance one_rel_poll_send t s : stable one_rel s (poll_send t s).
Proof. unfold poll_send. st_solve. Qed.
#[export] Instance one_rel_poll_wait w s : stable one_rel s (poll_wait w s).
Proof.
  assert (Keep : forall b id di r di' s1, map_get id (unsettled b s1) = Some di -> check_inner di = (r, di') ->
            stable one_rel s1 (set_unsettled b (map_upd id di' (unsettled b s1)) s1)).
  { intros b id di r di' s1 G Ck. apply one_lift. apply shr_map. intros id' di0 c G' T. rewrite map_get_upd in G'.
    destruct (N.eqb_spec id' id) as [->|]; [|eauto]. rewrite G in G'. injection G' as <-. exists di.
    rewrite (check_inner_tx _ _ _ Ck) in T. auto. }
  unfold poll_wait. destruct (nth_error (s_waits s) w) as [t|]; [|apply stable_refl; exact _].
  destruct (nth_error (s_dlvs s) (wk_dlv t)) as [d|]; [|apply stable_refl; exact _]. cbv zeta.
  destruct (wk_st t) as [|c|r|]; try (apply stable_refl; exact _).
  - destruct (dl_local d); [st_chain|]. destruct (map_get (dl_id d) (unsettled (dl_sender d) s)) as [di|] eqn:G; [|st_chain].
    destruct (check_inner di) as [[r|] di'] eqn:Ck.
    + eapply stable_trans; [exact _ | eapply Keep; eauto|]. st_chain.
    + unfold new_chan. apply (one_add (PEntry (dl_sender d) (dl_id d))). set (s1 := set_s_chans _ s).
      set (s2 := drop_opt (di_tx di) s1). apply stable_trans with (s1 := s2); [exact _ | unfold s2; st_chain|].
      eapply stable_trans; [exact _ | |st_one]. split; [destruct (dl_sender d); auto|]. intros pl x P.
      destruct pl as [| | | |b' id| |]; cbn [at_place] in *; try (left; destruct (dl_sender d); exact P).
      rewrite unsettled_set in P. destruct (Bool.eqb_spec b' (dl_sender d)) as [->|]; [|left; exact P].
      destruct P as (di0 & E & T). rewrite map_get_upd in E. destruct (N.eqb_spec id (dl_id d)) as [->|]; [|left; eauto].
      right. match type of E with match ?x with _ => _ end = _ => destruct x; [|discriminate E] end. apply Some_inj in E. subst di0. cbn in T. injection T as <-. auto.
  - destruct (nth_error (s_chans s) c) as [[]|]; try (apply stable_refl; exact _); [|st_chain].
    destruct (map_get (dl_id d) (unsettled (dl_sender d) s)) as [di|] eqn:G; [|st_chain].
    destruct (check_inner di) as [[r|] di'] eqn:Ck.
    + set (s1 := if di_settled di then _ else s). apply stable_trans with (s1 := s1); [exact _ | unfold s1; destruct (di_settled di); st_chain|].
      eapply stable_trans; [exact _ | eapply Keep; [|exact Ck] | st_chain].
      unfold s1. destruct (di_settled di); [|exact G]. destruct (dl_sender d); unfold unsettled in *; frw; exact G.
    + destruct (di_settled di); st_chain.
Qed.
#[export] Instance one_rel_ses_end s : stable one_rel s (ses_end s).
Proof.
  unfold ses_end. destruct (s_ended s); [apply stable_refl; exact _|]. cbv zeta.
  set (s1 := if s_ending s then s else _). assert (K : stable one_rel s s1) by (unfold s1; destruct (s_ending s); st_chain).
  eapply stable_trans; [exact _ | exact K|]. clear K. clearbody s1. cbv beta iota delta [cond_wait new_chan].
  apply (one_add PEnd). set (s2 := set_s_chans _ s1).
  assert (X : forall s3 v, s_closed s3 = s_closed s1 ->
            (forall c, In c (cd_wait v) -> In c (cd_wait (s_closed s1)) \/ c = length (s_chans s1)) ->
            stable (add_rel PEnd (length (s_chans s1))) s3 (set_s_closed v s3)).
  { intros s3 v E V. split; [auto|]. intros pl c P. destruct pl; cbn [at_place] in *; unfold unsettled in *; try (left; exact P).
    rewrite E. st_cbn_in P. destruct (V c P) as [V1| ->]; auto. }
  destruct (cd_lock (s_closed s1)).
  - eapply stable_trans; [exact _ | |apply X]; [st_chain | frw; reflexivity |]. auto.
  - apply X; [frw; reflexivity|]. cbn [cd_wait]. intros c H. apply in_app_or in H as [H|[->|[]]]; auto.
Qed.
#[export] Instance one_rel_rcv_transfer p tr a s : stable_er one_rel fst s (rcv_transfer p tr a s).
Proof. intros [x r] H. change (stable one_rel s x). unfold rcv_transfer in H. st_er H. Qed.
#[export] Instance one_rel_ses_handle_frame p f s : stable_er one_rel fst s (ses_handle_frame p f s).
Proof. intros [x r] H. change (stable one_rel s x). unfold ses_handle_frame in H. st_er H. Qed.
#[export] Instance one_rel_control_err e k s : stable_er one_rel (fun x => x) s (control_err e k s).
Proof. intros x H. change (stable one_rel s x). unfold control_err in H. st_er H. Qed.
