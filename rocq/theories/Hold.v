(** * Where the channels that futures await are kept

    Every future of the session awaits a channel; whoever is to complete it must
    find the sending half somewhere. *)

From Coq Require Import ZifyBool ZifyNat ZifyN.
From Verif Require Export LinkRel.
Import ListNotations.

(** The places: the pending sends of a link; the two conditions of a link; the
    pending sends of the session; an unsettled delivery; a slot; the condition of
    the session. *)
Inductive place : Type :=
| PLink (a : nat) | PClose (a : nat) | PCredit (a : nat)
| PSes (h : N)
| PEntry (sender : bool) (id : N)
| PSlot (k : N)
| PEnd.

Definition tx_of (l : link) : option nat :=
  match l with
  | SOpening tx | SClosing tx | RClosing tx => tx
  | ROpeningLocal (Some (_, tx)) => Some tx
  | _ => None
  end.
Definition at_place (pl : place) (c : nat) (s : ses) : Prop :=
  match pl with
  | PLink a => exists l, nth_error (s_snds s) a = Some l /\ In c (sn_pending l)
  | PClose a => exists l, nth_error (s_snds s) a = Some l /\ In c (cd_wait (sn_on_close l))
  | PCredit a => exists l, nth_error (s_snds s) a = Some l /\ In c (cd_wait (sn_on_credit l))
  | PSes h => In (c, h) (s_pending s)
  | PEntry b id => exists di, map_get id (unsettled b s) = Some di /\ di_tx di = Some c
  | PSlot k => exists lk, slab_get (s_links s) k = Some lk /\ tx_of lk = Some c
  | PEnd => In c (cd_wait (s_closed s))
  end.
Definition waits_on (c : nat) (s : ses) : Prop := nth_error (s_chans s) c = Some CWait.

(** A channel changes once. *)
Definition chan_rel (s s' : ses) : Prop :=
  (length (s_chans s) <= length (s_chans s'))%nat
  /\ forall c x, nth_error (s_chans s) c = Some x -> x <> CWait -> nth_error (s_chans s') c = Some x.
Lemma chan_back : forall s s' c, chan_rel s s' -> (c < length (s_chans s))%nat -> waits_on c s' -> waits_on c s.
Proof.
  intros s s' c [_ H] L W. unfold waits_on in *. destruct (nth_error (s_chans s) c) as [x|] eqn:E.
  - destruct x; [reflexivity | |]; rewrite (H _ _ E) in W by discriminate; discriminate W.
  - apply nth_error_None in E. lia.
Qed.
Definition hold0 (s s' : ses) : Prop :=
  chan_rel s s'
  /\ forall pl c, (c < length (s_chans s))%nat -> at_place pl c s -> waits_on c s' -> at_place pl c s'.
#[export] Instance hold_pre : preorder hold0.
Proof.
  split.
  - intros s. split; [split; auto|]. auto.
  - intros s s1 s2 [[A1 B1] C1] [[A2 B2] C2]. split; [split; [lia|]; intros; eauto|].
    intros pl c L P W. apply C2; [lia| |exact W]. apply C1; auto.
    apply (chan_back s1 s2); [split; assumption | lia | exact W].
Qed.
#[export] Instance hold_sees : sees hold0 [Flinks; Fchans; Fsnds; Fpending; Fsnd; Frcv; Fclosed].
Proof.
  intros s s' H. assert (X := H Flinks eq_refl). assert (X1 := H Fchans eq_refl). assert (X2 := H Fsnds eq_refl).
  assert (X3 := H Fpending eq_refl). assert (X4 := H Fsnd eq_refl). assert (X5 := H Frcv eq_refl). assert (X6 := H Fclosed eq_refl).
  cbn [same] in *. split.
  - split; [rewrite X1; auto|]. intros. congruence.
  - intros pl c _ P _. destruct pl; cbn [at_place] in *; unfold unsettled in *; try congruence.
    + rewrite X2. exact P.
    + rewrite X2. exact P.
    + rewrite X2. exact P.
    + destruct sender; [rewrite X4 | rewrite X5]; exact P.
    + rewrite X. exact P.
Qed.
(** ** Channels *)
Lemma hold_chans : forall v s,
  (length (s_chans s) <= length v)%nat ->
  (forall c x, nth_error (s_chans s) c = Some x -> x <> CWait -> nth_error v c = Some x) ->
  hold0 s (set_s_chans v s).
Proof.
  intros v s L H. split; [split; [st_cbn; exact L | st_cbn; exact H]|].
  intros pl c _ P _. destruct pl; cbn [at_place] in *; unfold unsettled in *; exact P.
Qed.
Lemma put_chan_len : forall c v l, length (put_chan c v l) = length l.
Proof. intros c v l. unfold put_chan. destruct (nth_error l c) as [[]|]; auto using set_nth_length. Qed.
Lemma put_chan_old : forall c v l d x, nth_error l d = Some x -> x <> CWait -> nth_error (put_chan c v l) d = Some x.
Proof.
  intros c v l d x E N. unfold put_chan. destruct (nth_error l c) as [[]|] eqn:Ec; auto.
  rewrite nth_set_nth. destruct (Nat.eqb_spec c d) as [->|]; [congruence | exact E].
Qed.
#[export] Instance hold0_fire c v s : stable hold0 s (fire c v s).
Proof. apply hold_chans; [rewrite put_chan_len; auto | intros; apply put_chan_old; assumption]. Qed.
#[export] Instance hold0_drop_tx c s : stable hold0 s (drop_tx c s).
Proof. apply hold_chans; [rewrite put_chan_len; auto | intros; apply put_chan_old; assumption]. Qed.
#[export] Instance hold_new_chan v s : stable hold0 s (set_s_chans (s_chans s ++ v) s).
Proof. apply hold_chans; [rewrite app_length; lia | intros; apply nth_app_old; assumption]. Qed.
Lemma fire_done : forall c v s, ~ waits_on c (fire c v s).
Proof.
  intros c v s H. unfold waits_on, fire in H. st_cbn_in H. unfold put_chan in H.
  destruct (nth_error (s_chans s) c) as [[]|] eqn:E; try congruence.
  rewrite nth_set_nth, Nat.eqb_refl in H. destruct (nth_error (s_chans s) c); [|discriminate]. cbn in H.
  destruct v; discriminate.
Qed.
Lemma drop_done : forall c s, ~ waits_on c (drop_tx c s).
Proof.
  intros c s H. unfold waits_on, drop_tx in H. st_cbn_in H. unfold put_chan in H.
  destruct (nth_error (s_chans s) c) as [[]|] eqn:E; try congruence.
  rewrite nth_set_nth, Nat.eqb_refl in H. destruct (nth_error (s_chans s) c); [|discriminate]. cbn in H. discriminate.
Qed.
Lemma fire_all_done : forall cs v s c, In c cs -> ~ waits_on c (fire_all cs v s).
Proof.
  unfold fire_all. induction cs as [|d cs IH]; intros v s c Hin W; [destruct Hin|]. cbn [fold_left] in W.
  destruct Hin as [->|Hin]; [|exact (IH _ _ _ Hin W)].
  assert (K : hold0 (fire c v s) (fold_left (fun s c => fire c v s) cs (fire c v s))).
  { clear. generalize (fire c v s). induction cs as [|d cs IH]; intros s1; cbn [fold_left]; [apply pre_refl|].
    eapply pre_trans; [|apply IH]. exact (hold0_fire d v s1). }
  destruct (Nat.lt_ge_cases c (length (s_chans (fire c v s)))) as [L|L].
  - exact (fire_done c v s (chan_back _ _ _ (proj1 K) L W)).
  - assert (E : length (s_chans (fold_left (fun s c => fire c v s) cs (fire c v s))) = length (s_chans (fire c v s))).
    { clear. generalize (fire c v s). induction cs as [|d cs IH]; intros s1; cbn [fold_left]; [reflexivity|].
      rewrite IH. unfold fire. st_cbn. apply put_chan_len. }
    apply nth_lt in W. lia.
Qed.
Lemma waits_back : forall s s' c, chan_rel s s' -> length (s_chans s') = length (s_chans s) -> waits_on c s' -> waits_on c s.
Proof. intros s s' c H E W. apply (chan_back s s'); auto. apply nth_lt in W. lia. Qed.
Lemma hold_change : forall s s', s_chans s' = s_chans s ->
  (forall pl c, at_place pl c s -> waits_on c s -> at_place pl c s') -> hold0 s s'.
Proof.
  intros s s' E H. split; [split; [rewrite E; auto | intros; congruence]|].
  intros pl c _ P W. apply H; [exact P|]. unfold waits_on in *. congruence.
Qed.
(** ** Sender links *)
Lemma hold_upd_snd : forall a f s,
  (forall l c, nth_error (s_snds s) a = Some l -> waits_on c s ->
     (In c (sn_pending l) -> In c (sn_pending (f l)))
     /\ (In c (cd_wait (sn_on_close l)) -> In c (cd_wait (sn_on_close (f l))))
     /\ (In c (cd_wait (sn_on_credit l)) -> In c (cd_wait (sn_on_credit (f l))))) ->
  hold0 s (upd_snd a f s).
Proof.
  intros a f s H. apply hold_change; [frw; reflexivity|]. intros pl c P W.
  assert (X : forall b (g : slink -> list nat),
    (forall l, nth_error (s_snds s) a = Some l -> In c (g l) -> In c (g (f l))) ->
    (exists l, nth_error (s_snds s) b = Some l /\ In c (g l)) ->
    exists l, nth_error (s_snds (upd_snd a f s)) b = Some l /\ In c (g l)).
  { intros b g Hg (l & E & I). rewrite nth_upd_snd. destruct (Nat.eqb_spec a b) as [->|]; [|eauto].
    rewrite E. cbn [option_map]. eauto. }
  destruct pl; cbn [at_place] in *; unfold unsettled in *; frw; try exact P.
  - apply X; [|exact P]. intros l E. apply (H l c E W).
  - apply (X a0 (fun l => cd_wait (sn_on_close l))); [|exact P]. intros l E. apply (H l c E W).
  - apply (X a0 (fun l => cd_wait (sn_on_credit l))); [|exact P]. intros l E. apply (H l c E W).
Qed.
Ltac hold_snd := apply hold_upd_snd; intros; st_cbn; auto.
#[export] Instance hold_upd_closed a v s : stable hold0 s (upd_snd a (set_sn_closed v) s).
Proof. hold_snd. Qed.
#[export] Instance hold_upd_max a v s : stable hold0 s (upd_snd a (set_sn_max v) s).
Proof. hold_snd. Qed.
#[export] Instance hold_upd_tag a f s : stable hold0 s (upd_snd a (fun l => set_sn_tag (f l) l) s).
Proof. hold_snd. Qed.
#[export] Instance hold_upd_took a f g s : stable hold0 s (upd_snd a (fun l => set_sn_credit (f l) (set_sn_dc (g l) l)) s).
Proof. hold_snd. Qed.
#[export] Instance hold_upd_push a v s : stable hold0 s (upd_snd a (fun l => set_sn_pending (sn_pending l ++ v) l) s).
Proof. hold_snd. split; auto. intros. apply in_or_app. auto. Qed.
Lemma hold_add_snd : forall v s, stable hold0 s (set_s_snds (s_snds s ++ v) s).
Proof.
  intros v s. apply hold_change; [reflexivity|]. intros pl c P W.
  destruct pl; cbn [at_place] in *; unfold unsettled in *; st_cbn; try exact P;
    destruct P as (l & E & I); exists l; (split; [apply nth_app_old; exact E | exact I]).
Qed.
#[export] Existing Instance hold_add_snd.
#[export] Instance hold_fire_all l v s : stable hold0 s (fire_all l v s).
Proof.
  unfold fire_all. revert s. induction l as [|x l IH]; intros s; cbn [fold_left]; [apply stable_refl; exact _|].
  eapply stable_trans; [exact _| |apply IH]. st_solve.
Qed.
Lemma fire_all_len : forall l v s, length (s_chans (fire_all l v s)) = length (s_chans s).
Proof.
  unfold fire_all. induction l as [|x l IH]; intros v s; cbn [fold_left]; [reflexivity|]. rewrite IH.
  unfold fire. st_cbn. apply put_chan_len.
Qed.
Lemma fire_all_past : forall l v s s' c, In c l -> stable hold0 (fire_all l v s) s' ->
  length (s_chans s') = length (s_chans (fire_all l v s)) -> ~ waits_on c s'.
Proof.
  intros l v s s' c Hin [K _] E W. apply (fire_all_done l v s c Hin). eapply waits_back; eauto.
Qed.
#[export] Instance hold0_notify_lock_snd a s : stable hold0 s (notify_lock_snd a s).
Proof.
  unfold notify_lock_snd. destruct (nth_error (s_snds s) a) as [l|] eqn:El; [|apply stable_refl; exact _].
  cbv zeta. set (s1 := fire_all (cd_wait (sn_on_close l)) VOk s). set (s2 := fire_all (cd_wait (sn_on_credit l)) VOk s1).
  apply stable_trans with (s1 := s2); [exact _ | unfold s2, s1; st_chain|].
  apply hold_upd_snd. intros l2 c E2 W.
  assert (l2 = l) as -> by (unfold s2, s1 in E2; frw_in E2; congruence). st_cbn. split; [auto|]. split; intros Hin; exfalso.
  - revert W. apply (fire_all_past (cd_wait (sn_on_close l)) VOk s s2 c Hin); [unfold s2; st_chain|].
    apply fire_all_len.
  - revert W. apply fire_all_done. exact Hin.
Qed.
#[export] Instance hold0_snd_remote_detached a e s : stable hold0 s (snd_remote_detached a e s).
Proof.
  unfold snd_remote_detached. destruct (nth_error (s_snds s) a) as [l|] eqn:El; [|apply stable_refl; exact _].
  cbv zeta. set (s1 := fire_all (sn_pending l) (VErr e) s).
  eapply stable_trans; [exact _ | | exact _].
  apply stable_trans with (s1 := s1); [exact _ | unfold s1; st_chain|].
  apply hold_upd_snd. intros l2 c E2 W.
  assert (l2 = l) as -> by (unfold s1 in E2; frw_in E2; congruence). st_cbn. split; [|auto]. intros Hin.
  destruct (fire_all_done _ _ _ _ Hin W).
Qed.
#[export] Instance hold0_apply_flow f a s : stable hold0 s (apply_flow f a s).
Proof.
  unfold apply_flow. destruct (flow_link_credit f) as [cr|]; [|apply stable_refl; exact _].
  destruct (nth_error (s_snds s) a) as [l|] eqn:El; [|apply stable_refl; exact _].
  cbv zeta. set (s1 := fire_all (sn_pending l) VOk s).
  match goal with |- context [upd_snd a ?f s1] => set (s2 := upd_snd a f s1) end.
  assert (K : stable hold0 s s2).
  { apply stable_trans with (s1 := s1); [exact _ | unfold s1; st_chain|].
    apply hold_upd_snd. intros l2 c E2 W.
    assert (l2 = l) as -> by (unfold s1 in E2; frw_in E2; congruence). st_cbn. split; [|auto]. intros Hin.
    destruct (fire_all_done _ _ _ _ Hin W). }
  destruct (0 <? _); [|exact K].
  apply stable_trans with (s1 := s2); [exact _ | exact K|].
  eapply stable_trans; [exact _ | |].
  2: { apply hold_upd_snd. intros l2 c E2 W. st_cbn. split; [auto|]. split; [auto|]. intros Hin. exfalso. revert W.
       apply fire_all_done. frw_in E2. unfold s2 in E2. rewrite nth_upd_snd, Nat.eqb_refl in E2. unfold s1 in E2.
       frw_in E2. rewrite El in E2. cbn [option_map] in E2. injection E2 as <-. st_cbn_in Hin. exact Hin. }
  st_chain.
Qed.
(** ** Slots *)
Lemma drop_link_done : forall lk s c, tx_of lk = Some c -> ~ waits_on c (drop_link lk s).
Proof.
  intros lk s c H. destruct lk as [a| |[tx|]|[tx|]|o|[[a tx]|]|a|[tx|]]; cbn [tx_of] in H; try discriminate;
    injection H as ->; cbn [drop_link drop_opt]; apply drop_done.
Qed.
#[export] Instance hold0_fire_opt c v s : stable hold0 s (fire_opt c v s).
Proof. unfold fire_opt. st_solve. Qed.
#[export] Instance hold0_drop_opt c s : stable hold0 s (drop_opt c s).
Proof. unfold drop_opt. st_solve. Qed.
#[export] Instance hold0_drop_established_snd a s : stable hold0 s (drop_established_snd a s).
Proof. unfold drop_established_snd. st_solve. Qed.
#[export] Instance hold0_drop_link l s : stable hold0 s (drop_link l s).
Proof. unfold drop_link. st_solve. Qed.
Lemma drop_link_len : forall l s, length (s_chans (drop_link l s)) = length (s_chans s).
Proof.
  assert (N : forall a s, length (s_chans (notify_lock_snd a s)) = length (s_chans s)).
  { intros a s. unfold notify_lock_snd. destruct (nth_error (s_snds s) a); [|reflexivity]. frw. rewrite !fire_all_len. reflexivity. }
  assert (D : forall c s, length (s_chans (drop_tx c s)) = length (s_chans s)).
  { intros c s. unfold drop_tx. st_cbn. apply put_chan_len. }
  intros [a| |[tx|]|[tx|]|o|[[a tx]|]|a|[tx|]] s; cbn [drop_link drop_opt]; auto.
  - unfold drop_established_snd. destruct (nth_error (s_snds s) a); [|reflexivity].
    destruct (sn_closed s0); [reflexivity|]. rewrite N. frw. reflexivity.
  - unfold drop_established_rcv. frw. reflexivity.
Qed.

(** ** With the slots

    The slots are well formed, so that a new one never replaces another. *)
Definition hold_rel (s s' : ses) : Prop := slab_wf (s_links s) -> slab_wf (s_links s') /\ hold0 s s'.
#[export] Instance hold_rel_pre : preorder hold_rel.
Proof.
  split.
  - intros s W. split; [exact W | apply pre_refl].
  - intros s s1 s2 H1 H2 W. destruct (H1 W) as [W1 K1]. destruct (H2 W1) as [W2 K2].
    split; [exact W2|]. eapply pre_trans; eauto.
Qed.
#[export] Instance hold_rel_sees : sees hold_rel [Flinks; Fchans; Fsnds; Fpending; Fsnd; Frcv; Fclosed].
Proof.
  intros s s' H W. split; [|exact (hold_sees s s' H)]. assert (X := H Flinks eq_refl). cbn [same] in X. rewrite X. exact W.
Qed.
Class no_links (M : list fld) : Prop := get_no_links : memf Flinks M = false.
#[export] Hint Extern 0 (no_links _) => reflexivity : typeclass_instances.
#[export] Instance hold_lift s s' M : framed s s' M -> no_links M -> stable hold0 s s' -> stable hold_rel s s'.
Proof. intros F N H W. split; [|exact H]. assert (X := F Flinks N). cbn [same] in X. rewrite X. exact W. Qed.

Lemma hold_lift_eq : forall s s', s_links s' = s_links s -> stable hold0 s s' -> stable hold_rel s s'.
Proof. intros s s' E H W. split; [rewrite E; exact W | exact H]. Qed.

Lemma hold_slots : forall s s' v,
  (slab_wf (s_links s) -> slab_wf v) -> s_links s' = v -> stable hold0 (set_s_links v s) s' ->
  (forall k lk c, slab_wf (s_links s) -> slab_get (s_links s) k = Some lk -> tx_of lk = Some c -> waits_on c s' ->
     slab_get v k = Some lk) ->
  stable hold_rel s s'.
Proof.
  intros s s' v Wf E [[L C] K] H W. split; [rewrite E; auto|]. split; [split; [exact L|]|].
  - intros c x Ec Nx. apply C; [exact Ec | exact Nx].
  - intros pl c Lc P Wc. destruct pl; try (apply K; [exact Lc | exact P | exact Wc]).
    destruct P as (lk & Hk & Ht). cbn [at_place]. rewrite E. exists lk. eauto.
Qed.
#[export] Instance hold_rel_put_link k l s : stable hold_rel s (put_link k l s).
Proof.
  unfold put_link. destruct (slab_get (s_links s) k) as [old|] eqn:Ho; [|apply stable_refl; exact _].
  apply hold_slots with (v := slab_set k l (s_links s)).
  - apply slab_set_wf.
  - frw. reflexivity.
  - exact _.
  - intros k' lk c _ Hk Ht W. rewrite slab_get_set by congruence. destruct (N.eqb_spec k k') as [<-|]; [|exact Hk].
    rewrite Ho in Hk. injection Hk as ->. destruct (drop_link_done _ _ _ Ht W).
Qed.
#[export] Instance hold_rel_remove_link k s : stable hold_rel s (remove_link k s).
Proof.
  unfold remove_link. destruct (slab_get (s_links s) k) as [old|] eqn:Ho; [|apply stable_refl; exact _].
  apply hold_slots with (v := slab_remove k (s_links s)).
  - apply slab_remove_wf.
  - frw. reflexivity.
  - exact _.
  - intros k' lk c _ Hk Ht W. rewrite slab_get_remove. destruct (N.eqb_spec k k') as [<-|]; [|exact Hk].
    rewrite Ho in Hk. injection Hk as ->. destruct (drop_link_done _ _ _ Ht W).
Qed.
#[export] Instance hold_insert l s : stable hold_rel s (set_s_links (slab_insert l (s_links s)) s).
Proof.
  apply hold_slots with (v := slab_insert l (s_links s)).
  - intros W. apply slab_insert_wf. exact W.
  - reflexivity.
  - apply stable_refl. exact _.
  - intros k lk c W Hk _ _. rewrite slab_get_insert by exact W. destruct (N.eqb_spec (slab_key (s_links s)) k) as [<-|]; [|exact Hk].
    rewrite (slab_key_free _ _ W) in Hk. discriminate.
Qed.

(** ** Maps *)
Lemma map_get_put : forall A k k' (a : A) m, map_get k' (map_put k a m) = if k' =? k then Some a else map_get k' m.
Proof.
  intros A k k' a m. unfold map_put. cbn [map_get]. destruct (N.eqb_spec k' k) as [->|N]; [reflexivity|].
  induction m as [|[j b] m IH]; [reflexivity|]. cbn [map_del filter map_get].
  destruct (N.eqb_spec k j) as [->|Nj]; cbn [negb].
  - rewrite (proj2 (N.eqb_neq k' j) N). exact IH.
  - cbn [map_get]. destruct (k' =? j); [reflexivity | exact IH].
Qed.
Lemma map_get_del : forall A k k' (m : list (N * A)), map_get k' (map_del k m) = if k' =? k then None else map_get k' m.
Proof.
  intros A k k' m. induction m as [|[j b] m IH]; [destruct (k' =? k); reflexivity|]. cbn [map_del filter map_get].
  destruct (N.eqb_spec k j) as [->|Nj]; cbn [negb].
  - unfold map_del in IH. rewrite IH. destruct (k' =? j); reflexivity.
  - cbn [map_get]. unfold map_del in IH. rewrite IH. destruct (N.eqb_spec k' j) as [->|]; [|reflexivity].
    rewrite (proj2 (N.eqb_neq j k)); [reflexivity | congruence].
Qed.
Lemma map_get_upd : forall A k k' (a : A) m,
  map_get k' (map_upd k a m) = if k' =? k then match map_get k m with Some _ => Some a | None => None end else map_get k' m.
Proof.
  intros A k k' a m. induction m as [|[j b] m IH]; [destruct (k' =? k); reflexivity|].
  cbn [map_upd map map_get]. destruct (N.eqb_spec k j) as [->|Nj]; cbn [map_get].
  - destruct (N.eqb_spec k' j) as [->|]; [reflexivity|]. unfold map_upd in IH. rewrite IH. reflexivity.
  - destruct (N.eqb_spec k' j) as [->|Nk].
    + rewrite (proj2 (N.eqb_neq j k)); [reflexivity | congruence].
    + exact IH.
Qed.
Lemma map_get_vals : forall A (f : A -> A) k m, map_get k (map_vals f m) = option_map f (map_get k m).
Proof.
  intros A f k m. induction m as [|[j b] m IH]; [reflexivity|]. cbn [map_vals map map_get].
  destruct (k =? j); [reflexivity | exact IH].
Qed.
Lemma map_get_in : forall A k (a : A) m, map_get k m = Some a -> In (k, a) m.
Proof.
  intros A k a m. induction m as [|[j b] m IH]; cbn [map_get]; [discriminate|]. destruct (N.eqb_spec k j) as [->|].
  - intros [= ->]. left. reflexivity.
  - right. auto.
Qed.

(** ** Unsettled deliveries *)
Lemma unsettled_set : forall b b' m s, unsettled b (set_unsettled b' m s) = if Bool.eqb b b' then m else unsettled b s.
Proof. intros [] [] m s; reflexivity. Qed.
Lemma hold_map : forall b m s,
  (forall id di c, map_get id (unsettled b s) = Some di -> di_tx di = Some c -> waits_on c s ->
     exists di', map_get id m = Some di' /\ di_tx di' = Some c) ->
  stable hold0 s (set_unsettled b m s).
Proof.
  intros b m s H. apply hold_change; [destruct b; reflexivity|]. intros pl c P W.
  destruct pl as [| | | |b' id| |]; cbn [at_place] in *; try (destruct b; exact P).
  rewrite unsettled_set. destruct (Bool.eqb_spec b' b) as [->|]; [|exact P].
  destruct P as (di & E & T). eauto.
Qed.
#[export] Instance hold0_fail_all m s : stable hold0 s (fail_all m s).
Proof.
  unfold fail_all. revert s. induction m as [|[k d] m IH]; intros s; cbn [fold_left]; [apply stable_refl; exact _|].
  eapply stable_trans; [exact _| |apply IH]. st_solve.
Qed.
Lemma fire_opt_len : forall o v s, length (s_chans (fire_opt o v s)) = length (s_chans s).
Proof. intros [c|] v s; [|reflexivity]. unfold fire_opt, fire. st_cbn. apply put_chan_len. Qed.
Lemma fail_all_len : forall m s, length (s_chans (fail_all m s)) = length (s_chans s).
Proof.
  unfold fail_all. induction m as [|[k d] m IH]; intros s; cbn [fold_left]; [reflexivity|]. rewrite IH. apply fire_opt_len.
Qed.
Lemma fail_all_done : forall m s k d c, In (k, d) m -> di_tx d = Some c -> ~ waits_on c (fail_all m s).
Proof.
  intros m. induction m as [|[j e] m IH]; intros s k d c Hin T W; [destruct Hin|].
  change (fail_all ((j, e) :: m) s) with (fail_all m (fire_opt (di_tx e) VOk s)) in W.
  destruct Hin as [[= -> ->]|Hin]; [|exact (IH _ _ _ _ Hin T W)].
  rewrite T in W. cbn [fire_opt] in W. apply (fire_done c VOk s).
  eapply waits_back; [|apply fail_all_len|exact W]. apply (hold0_fail_all m (fire c VOk s)).
Qed.
#[export] Instance hold0_put_unsettled b id d s : stable hold0 s (put_unsettled b id d s).
Proof.
  unfold put_unsettled. cbv zeta. destruct (map_get id (unsettled b s)) as [old|] eqn:E.
  - apply stable_trans with (s1 := fire_opt (di_tx old) VOk s); [exact _ | exact _|]. apply hold_map.
    intros id' di c G T W. rewrite map_get_put. destruct (N.eqb_spec id' id) as [->|]; [|eauto]. exfalso.
    assert (di = old) as ->. { destruct b; unfold unsettled in *; frw_in G; congruence. }
    rewrite T in W. exact (fire_done _ _ _ W).
  - apply hold_map. intros id' di c G T W. rewrite map_get_put. destruct (N.eqb_spec id' id) as [->|]; [|eauto]. congruence.
Qed.
#[export] Instance hold0_del_unsettled b id s : stable hold0 s (del_unsettled b id s).
Proof.
  unfold del_unsettled. cbv zeta. destruct (map_get id (unsettled b s)) as [old|] eqn:E.
  - apply stable_trans with (s1 := fire_opt (di_tx old) VOk s); [exact _ | exact _|]. apply hold_map.
    intros id' di c G T W. rewrite map_get_del. destruct (N.eqb_spec id' id) as [->|]; [|eauto]. exfalso.
    assert (di = old) as ->. { destruct b; unfold unsettled in *; frw_in G; congruence. }
    rewrite T in W. exact (fire_done _ _ _ W).
  - apply hold_map. intros id' di c G T W. rewrite map_get_del. destruct (N.eqb_spec id' id) as [->|]; [|eauto]. congruence.
Qed.
#[export] Instance hold0_settle_one disp b s no : stable hold0 s (settle_one disp b s no).
Proof.
  unfold settle_one. destruct (map_get no (unsettled b s)) as [old|] eqn:E; [|apply stable_refl; exact _].
  cbv zeta. apply stable_trans with (s1 := fire_opt (di_tx old) VOk s); [exact _ | exact _|]. apply hold_map.
  intros id' di c G T W. rewrite map_get_upd. destruct (N.eqb_spec id' no) as [->|]; [|eauto]. exfalso.
  assert (di = old) as ->. { destruct b; unfold unsettled in *; frw_in G; congruence. }
  rewrite T in W. exact (fire_done _ _ _ W).
Qed.
#[export] Instance hold0_fail_unsettled b h e s : stable hold0 s (fail_unsettled b h e s).
Proof.
  unfold fail_unsettled. cbv zeta. eapply stable_trans; [exact _ | apply hold0_fail_all | apply hold_map].
  intros id di c G T W. rewrite map_get_vals.
  assert (G' : map_get id (unsettled b s) = Some di) by (destruct b; unfold unsettled in *; frw_in G; exact G).
  rewrite G'. cbn [option_map]. destruct (di_handle di =? h) eqn:Eh; [|eauto]. exfalso.
  eapply fail_all_done; [|exact T|exact W]. apply filter_In. split; [apply map_get_in; exact G' | exact Eh].
Qed.
Lemma check_inner_tx : forall d r d', check_inner d = (r, d') -> di_tx d' = di_tx d.
Proof. intros d r d' H. unfold check_inner in H. destruct (di_state d) as [[]|]; injection H as _ <-; reflexivity. Qed.
#[export] Instance hold0_poll_wait w s : stable hold0 s (poll_wait w s).
Proof.
  assert (Keep : forall b id di r di' s1, map_get id (unsettled b s1) = Some di -> check_inner di = (r, di') ->
            stable hold0 s1 (set_unsettled b (map_upd id di' (unsettled b s1)) s1)).
  { intros b id di r di' s1 G Ck. apply hold_map. intros id' di0 c G' T W. rewrite map_get_upd.
    destruct (N.eqb_spec id' id) as [->|]; [|eauto]. rewrite G. exists di'. split; [reflexivity|].
    rewrite (check_inner_tx _ _ _ Ck). congruence. }
  unfold poll_wait. destruct (nth_error (s_waits s) w) as [t|]; [|apply stable_refl; exact _].
  destruct (nth_error (s_dlvs s) (wk_dlv t)) as [d|]; [|apply stable_refl; exact _]. cbv zeta.
  destruct (wk_st t) as [|c|r|]; try (apply stable_refl; exact _).
  - destruct (dl_local d); [st_chain|]. destruct (map_get (dl_id d) (unsettled (dl_sender d) s)) as [di|] eqn:G; [|st_chain].
    destruct (check_inner di) as [[r|] di'] eqn:Ck.
    + eapply stable_trans; [exact _ | eapply Keep; eauto|]. st_chain.
    + cbv beta iota delta [new_chan]. set (s1 := set_s_chans (s_chans s ++ [CWait]) s). set (s2 := drop_opt (di_tx di) s1).
      apply stable_trans with (s1 := s2); [exact _ | unfold s2, s1; st_chain|].
      eapply stable_trans; [exact _ | apply hold_map | st_chain].
      intros id' di0 c G' T W. rewrite map_get_upd. destruct (N.eqb_spec id' (dl_id d)) as [->|]; [|eauto]. exfalso.
      assert (di0 = di) as ->. { unfold s2, s1 in G'. destruct (dl_sender d); unfold unsettled in *; frw_in G'; congruence. }
      unfold s2 in W. rewrite T in W. exact (drop_done _ _ W).
  - destruct (nth_error (s_chans s) c) as [[]|]; try (apply stable_refl; exact _); [|st_chain].
    destruct (map_get (dl_id d) (unsettled (dl_sender d) s)) as [di|] eqn:G; [|st_chain].
    destruct (check_inner di) as [[r|] di'] eqn:Ck.
    + set (s1 := if di_settled di then _ else s). apply stable_trans with (s1 := s1); [exact _ | unfold s1; destruct (di_settled di); st_chain|].
      eapply stable_trans; [exact _ | eapply Keep; [|exact Ck] | st_chain].
      unfold s1. destruct (di_settled di); [|exact G]. destruct (dl_sender d); unfold unsettled in *; frw; exact G.
    + destruct (di_settled di); st_chain.
Qed.

(** ** Sends that await the session *)
Lemma hold_pending : forall v s,
  (forall c h, In (c, h) (s_pending s) -> waits_on c s -> In (c, h) v) -> stable hold0 s (set_s_pending v s).
Proof.
  intros v s H. apply hold_change; [reflexivity|]. intros pl c P W.
  destruct pl; cbn [at_place] in *; unfold unsettled in *; try exact P. st_cbn. auto.
Qed.
#[export] Instance hold_push_pending v s : stable hold0 s (set_s_pending (s_pending s ++ v) s).
Proof. apply hold_pending. intros. apply in_or_app. auto. Qed.
#[export] Instance hold_no_pending v s : stable hold0 s (set_s_pending [] (fire_all (map fst (s_pending s)) v s)).
Proof.
  eapply stable_trans; [exact _ | apply hold_fire_all | apply hold_pending]. intros c h H W. frw_in H.
  exfalso. eapply fire_all_done; [|exact W]. exact (in_map fst _ _ H).
Qed.
#[export] Instance hold0_drain_pending h e s : stable hold0 s (drain_pending h e s).
Proof.
  unfold drain_pending. cbv zeta. eapply stable_trans; [exact _ | apply hold_fire_all | apply hold_pending].
  intros c h' H W. frw_in H. apply filter_In. split; [exact H|]. destruct (h' =? h) eqn:E; [exfalso | reflexivity].
  eapply fire_all_done; [|exact W]. apply (in_map fst _ (c, h')). apply filter_In. split; [exact H | exact E].
Qed.

(** ** The condition of the session *)
Lemma hold_closed : forall v s,
  (forall c, In c (cd_wait (s_closed s)) -> waits_on c s -> In c (cd_wait v)) -> stable hold0 s (set_s_closed v s).
Proof.
  intros v s H. apply hold_change; [reflexivity|]. intros pl c P W.
  destruct pl; cbn [at_place] in *; unfold unsettled in *; try exact P. st_cbn. auto.
Qed.
#[export] Instance hold0_ses_end s : stable hold0 s (ses_end s).
Proof.
  unfold ses_end. destruct (s_ended s); [apply stable_refl; exact _|]. cbv zeta.
  set (s1 := if s_ending s then s else _). assert (K : stable hold0 s s1) by (unfold s1; destruct (s_ending s); st_chain).
  eapply stable_trans; [exact _ | exact K|]. clear K. clearbody s1. cbv beta iota delta [cond_wait new_chan].
  destruct (cd_lock (s_closed s1)).
  - eapply stable_trans; [exact _ | |apply hold_closed]; [st_chain|]. intros c H _. frw_in H. exact H.
  - eapply stable_trans; [exact _ | |apply hold_closed]; [st_chain|]. intros c H _. frw_in H. st_cbn. apply in_or_app. auto.
Qed.
Lemma hold_cond : forall a (g : slink -> cond) set s l,
  (forall v l, g (set v l) = v) ->
  (forall v l, sn_pending (set v l) = sn_pending l) ->
  (forall v l c, In c (cd_wait (sn_on_close l)) -> (forall c, In c (cd_wait (g l)) -> In c (cd_wait v)) -> In c (cd_wait (sn_on_close (set v l)))) ->
  (forall v l c, In c (cd_wait (sn_on_credit l)) -> (forall c, In c (cd_wait (g l)) -> In c (cd_wait v)) -> In c (cd_wait (sn_on_credit (set v l)))) ->
  nth_error (s_snds s) a = Some l ->
  stable hold0 s (upd_snd a (set (fst (cond_wait (g l) s))) (snd (cond_wait (g l) s))).
Proof.
  intros a g set s l Hg Hp H1 H2 El. cbv beta iota delta [cond_wait new_chan].
  assert (X : forall s1 v, s_snds s1 = s_snds s -> stable hold0 s s1 ->
     (forall c, In c (cd_wait (g l)) -> In c (cd_wait v)) -> stable hold0 s (upd_snd a (set v) s1)).
  { intros s1 v F K V. eapply stable_trans; [exact _ | exact K|]. apply hold_upd_snd. intros l2 c E2 _.
    assert (l2 = l) as -> by congruence.
    rewrite Hp. split; [auto|]. split; intros; auto. }
  destruct (cd_lock (g l)); cbn [fst snd].
  - apply X; [frw; reflexivity | st_chain | auto].
  - apply X; [frw; reflexivity | st_chain |]. intros c H. st_cbn. apply in_or_app. auto.
Qed.

(** ** Failing *)
#[export] Instance hold0_fail_link e s l : stable hold0 s (fail_link e s l).
Proof. unfold fail_link. st_solve. Qed.
#[export] Instance hold0_fail_links e ls s : stable hold0 s (fail_links e ls s).
Proof.
  unfold fail_links. revert s. induction ls as [|l ls IH]; intros s; cbn [fold_left]; [apply stable_refl; exact _|].
  eapply stable_trans; [exact _| |apply IH]. exact _.
Qed.
#[export] Instance hold0_drop_links ls s : stable hold0 s (drop_links ls s).
Proof.
  unfold drop_links. revert s. induction ls as [|l ls IH]; intros s; cbn [fold_left]; [apply stable_refl; exact _|].
  eapply stable_trans; [exact _| |apply IH]. exact _.
Qed.
Lemma drop_links_len : forall ls s, length (s_chans (drop_links ls s)) = length (s_chans s).
Proof.
  unfold drop_links. induction ls as [|l ls IH]; intros s; cbn [fold_left]; [reflexivity|]. rewrite IH. apply drop_link_len.
Qed.
Lemma drop_links_done : forall ls s lk c, In lk ls -> tx_of lk = Some c -> ~ waits_on c (drop_links ls s).
Proof.
  induction ls as [|l ls IH]; intros s lk c Hin T W; [destruct Hin|].
  change (drop_links (l :: ls) s) with (drop_links ls (drop_link l s)) in W.
  destruct Hin as [->|Hin]; [|exact (IH _ _ _ Hin T W)].
  apply (drop_link_done lk s c T). eapply waits_back; [|apply drop_links_len|exact W].
  apply (hold0_drop_links ls (drop_link lk s)).
Qed.
#[export] Instance hold_no_map b s : stable hold0 s (set_unsettled b [] (fail_all (unsettled b s) s)).
Proof.
  eapply stable_trans; [exact _ | apply hold0_fail_all | apply hold_map]. intros id di c G T W. exfalso.
  eapply fail_all_done; [|exact T|exact W]. apply map_get_in.
  destruct b; unfold unsettled in *; frw_in G; exact G.
Qed.
#[export] Instance hold_no_links s : stable hold_rel s (drop_links (slab_values (s_links s)) (set_s_links slab0 s)).
Proof.
  apply hold_slots with (v := slab0).
  - intros _. apply slab0_wf.
  - frw. reflexivity.
  - exact _.
  - intros k lk c _ G T W. exfalso. eapply drop_links_done; [|exact T|exact W]. apply slab_values_get. eauto.
Qed.

#[export] Instance hold0_handle_flow f l s : stable hold0 s (handle_flow f l s).
Proof.
  unfold handle_flow. cbv zeta.
  set (s0 := set_s_iwin _ _). set (s1 := set_s_pending [] _).
  assert (K : stable hold0 s s1).
  { apply stable_trans with (s1 := s0); [exact _ | unfold s0; st_chain|]. exact (hold_no_pending VOk s0). }
  clearbody s1. clear s0. destruct (flow_echo f), l as [a|]; st_chain.
Qed.
#[export] Instance hold_rel_ses_set_error e s : stable hold_rel s (ses_set_error e s).
Proof.
  unfold ses_set_error. cbv zeta.
  set (s1 := set_s_pending [] _). assert (K1 : stable hold_rel s s1).
  { unfold s1. apply hold_lift_eq; [frw; reflexivity | exact _]. }
  set (s2 := set_s_snd [] (fail_all (s_snd s1) s1)). assert (K2 : stable hold_rel s1 s2).
  { unfold s2. apply hold_lift_eq; [frw; reflexivity|]. exact (hold_no_map true s1). }
  set (s3 := set_s_rcv [] (fail_all (s_rcv s2) s2)). assert (K3 : stable hold_rel s2 s3).
  { unfold s3. apply hold_lift_eq; [frw; reflexivity|]. exact (hold_no_map false s2). }
  set (s4 := set_s_names [] s3). assert (K4 : stable hold_rel s3 s4) by (unfold s4; st_chain).
  set (ls := slab_values (s_links s4)). set (s5 := fail_links e ls s4).
  assert (K5 : stable hold_rel s4 s5) by (unfold s5; apply hold_lift_eq; [frw; reflexivity | exact _]).
  assert (El : ls = slab_values (s_links s5)) by (unfold s5; frw; reflexivity).
  set (s6 := drop_links ls (set_s_links slab0 s5)).
  assert (K6 : stable hold_rel s5 s6) by (unfold s6; rewrite El; exact _).
  set (s7 := set_s_ended true (set_s_error (Some e) s6)). assert (K7 : stable hold_rel s6 s7) by (unfold s7; st_chain).
  assert (K8 : stable hold_rel s7 (set_s_closed (mk_cond [] true) (fire_all (cd_wait (s_closed s7)) VOk s7))).
  { apply hold_lift_eq; [frw; reflexivity|]. eapply stable_trans; [exact _ | apply hold_fire_all | apply hold_closed].
    intros c H W. frw_in H. exfalso. eapply fire_all_done; eauto. }
  eapply stable_trans; [exact _ | exact K1|]. eapply stable_trans; [exact _ | exact K2|]. eapply stable_trans; [exact _ | exact K3|].
  eapply stable_trans; [exact _ | exact K4|]. eapply stable_trans; [exact _ | exact K5|]. eapply stable_trans; [exact _ | exact K6|].
  eapply stable_trans; [exact _ | exact K7|]. exact K8.
Qed.
Lemma fire_opt_done : forall o v s c, o = Some c -> ~ waits_on c (fire_opt o v s).
Proof. intros o v s c -> W. exact (fire_done _ _ _ W). Qed.
#[export] Instance hold_rel_handle_attach frm s : stable_opt hold_rel s (handle_attach frm s).
Proof.
  intros s' H. change (stable hold_rel s s'). unfold handle_attach in H. destruct (name_get (attach_name frm) (s_names s)) as [k|]; [|discriminate].
  apply Some_inj in H. subst s'. destruct (slab_get (s_links s) k) as [[a| |tx|tx|o|[[a tx]|]|a|tx]|] eqn:El; try (apply stable_refl; exact _); cbv zeta.
  - match goal with |- context [set_s_snds ?v ?s0] => set (s1 := set_s_snds v s0) end.
    apply stable_trans with (s1 := s1); [exact _ | unfold s1; st_chain|].
    assert (Es : s_links s1 = s_links s) by reflexivity.
    apply hold_slots with (v := slab_set k (SEstablished (length (s_snds s))) (s_links s1)).
    + apply slab_set_wf.
    + frw. reflexivity.
    + exact _.
    + intros k' lk c _ G T W. rewrite Es in *. rewrite slab_get_set by congruence. destruct (N.eqb_spec k k') as [<-|]; [|exact G].
      exfalso. rewrite El in G. injection G as <-. cbn [tx_of] in T. eapply fire_opt_done; eauto.
  - match goal with |- context [set_s_rhandles ?v ?s0] => set (s1 := set_s_rhandles v s0) end.
    apply stable_trans with (s1 := s1); [exact _ | unfold s1; st_chain|].
    assert (Es : s_links s1 = s_links s) by reflexivity.
    apply hold_slots with (v := slab_set k (REstablished a) (s_links s1)).
    + apply slab_set_wf.
    + frw. reflexivity.
    + exact _.
    + intros k' lk c _ G T W. rewrite Es in *. rewrite slab_get_set by congruence. destruct (N.eqb_spec k k') as [<-|]; [|exact G].
      exfalso. rewrite El in G. injection G as <-. cbn [tx_of] in T. injection T as <-. exact (fire_done _ _ _ W).
Qed.
