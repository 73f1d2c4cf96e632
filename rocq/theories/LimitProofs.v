(** * Proofs about the size limit of a sender link: C69 *)

From Coq Require Import ZifyBool ZifyNat ZifyN.
From Verif Require Import Base BaseProofs LimitRel AttachProofs EndsProofs ReleaseProofs.
From Verif Require Export SpecLimit.
Import ListNotations.

Lemma step_mx : forall p e s s' os a l, step p e s = EOk (s', os) -> (forall n, e <> EvSenderMax a n) ->
  nth_error (s_snds s) a = Some l -> exists l', nth_error (s_snds s') a = Some l' /\ sn_max l' = sn_max l.
Proof.
  intros p e s s' os a l H N. revert l.
  assert (D : (exists b n, e = EvSenderMax b n) \/ stable mx_rel s s').
  { destruct e; cbn [step] in H; eauto; right; step_er H. }
  destruct D as [(b & n & ->)|K]; [|apply K].
  cbn [step] in H. apply EOk_inj in H. apply (f_equal fst) in H. cbn [fst] in H. subst s'. intros l E. rewrite nth_upd_snd.
  destruct (Nat.eqb_spec b a) as [->|]; [elim (N n eq_refl)|eauto].
Qed.

(** A send that begins beyond the limit does not get beyond it. *)
Lemma poll_large : forall t s tk l m, nth_error (s_tasks s) t = Some tk -> tk_st tk = TNew -> nth_error (s_snds s) (tk_link tk) = Some l ->
  sn_max l = Some m -> m < tb_size (tk_body tk) ->
  poll_send t s = upd_task t (set_tk_st (TDone (inr (match sn_error l with Some e => e | None => if sn_closed l then EDisconnected else EBodyTooLarge end)))) s.
Proof.
  intros t s tk l m Et St El Em Lt. unfold poll_send. rewrite Et, El, St, Em. destruct (sn_error l); [reflexivity|]. destruct (sn_closed l); [reflexivity|].
  destruct (N.ltb_spec m (tb_size (tk_body tk))); [reflexivity|lia].
Qed.
(** A send that begins within the limit is not told that its body is too large. *)
Lemma poll_small : forall t s tk l, nth_error (s_tasks s) t = Some tk -> tk_st tk = TNew -> nth_error (s_snds s) (tk_link tk) = Some l ->
  sn_error l = None -> sn_closed l = false ->
  (forall m, sn_max l = Some m -> tb_size (tk_body tk) <= m) ->
  forall tk', nth_error (s_tasks (poll_send t s)) t = Some tk' -> tk_st tk' <> TDone (inr EBodyTooLarge).
Proof.
  intros t s tk l Et St El Ee Ec M tk' Et' D. unfold poll_send in Et'. rewrite Et, El, St, Ee, Ec in Et'.
  replace (match sn_max l with Some m => m <? tb_size (tk_body tk) | None => false end) with false in Et'
    by (symmetry; destruct (sn_max l) as [m|]; [specialize (M m eq_refl); apply N.ltb_ge; lia | reflexivity]).
  assert (SL : forall tag s1 k, nth_error (s_tasks s1) t = Some k -> nth_error (s_tasks (session_loop t tk l tag s1)) t = Some tk' -> False).
  { intros tag s1 k E1 E2. destruct (session_loop_effect t tk l tag s1) as (st & sent & T & _ & _ & _ & _ & Q & _).
    rewrite T, Nat.eqb_refl, E1 in E2. cbn [option_map] in E2. assert (tk_st tk' = st) by (apply Some_inj in E2; subst tk'; reflexivity).
    destruct Q as [(-> & _)|(_ & c & ->)]; congruence. }
  assert (LL : forall tag s1, s_tasks s1 = s_tasks s -> nth_error (s_tasks (link_loop t tk l tag s1)) t = Some tk' -> False).
  { intros tag s1 E1 E2. unfold link_loop in E2. destruct (_ || _).
    - cbv beta iota zeta delta [new_chan] in E2. rewrite nth_upd_task, Nat.eqb_refl in E2. frw_in E2. st_cbn_in E2. rewrite E1, Et in E2.
      cbn [option_map] in E2. assert (tk_st tk' = TLink tag (length (s_chans s1))) by (apply Some_inj in E2; subst tk'; reflexivity). congruence.
    - eapply SL; [|exact E2]. rewrite nth_upd_task, Nat.eqb_refl. frw. rewrite E1, Et. reflexivity. }
  destruct (tk_tag tk) as [tag|]; eapply LL; try exact Et'; frw; reflexivity.
Qed.

(** What the task can still send. *)
Definition fits_limit (m : N) (a : nat) (tk : stask) : Prop :=
  tk_link tk = a -> match tk_st tk with TNew | TGone | TDone (inr _) => True | _ => tb_size (tk_body tk) <= m end.
Definition lim_inv (m : N) (a : nat) (s : ses) : Prop :=
  (exists l, nth_error (s_snds s) a = Some l /\ sn_max l = Some m)
  /\ forall t tk, nth_error (s_tasks s) t = Some tk -> fits_limit m a tk.
Lemma lim_step : forall m a p e s s' os, (forall n, e <> EvSenderMax a n) -> lim_inv m a s -> step p e s = EOk (s', os) -> lim_inv m a s'.
Proof.
  intros m a p e s s' os Ne ((l & El & Em) & T) H. split.
  { destruct (step_mx _ _ _ _ _ _ _ H Ne El) as (l' & E' & M'). exists l'. split; [exact E' | congruence]. }
  assert (F := step_framed _ _ _ _ _ H).
  assert (Same : s_tasks s' = s_tasks s -> forall t tk, nth_error (s_tasks s') t = Some tk -> fits_limit m a tk) by (intros ->; exact T).
  destruct e; try (apply Same; apply (F Ftasks eq_refl)); clear Same; cbn [step] in H.
  - destruct (nth_error (s_snds s) a0) eqn:Ea; apply EOk_inj in H; apply (f_equal fst) in H; cbn [fst] in H; subst s'; [|exact T].
    intros t tk Et. st_cbn_in Et. destruct (Nat.ltb_spec t (length (s_tasks s))) as [L|L].
    + rewrite nth_error_app1 in Et by exact L. eauto.
    + rewrite nth_error_app2 in Et by exact L. destruct (t - length (s_tasks s))%nat as [|n]; cbn in Et; [|destruct n; discriminate].
      apply Some_inj in Et. subst tk. intros _. exact I.
  - apply EOk_inj in H. apply (f_equal fst) in H. cbn [fst] in H. subst s'.
    destruct (poll_send_pstep t s) as [->|(tk & lk & st & auto & took & sent & tag & P)]; [exact T|].
    destruct P as [Pt Pl Pa Ps _ _ _ _ _ Pc _ _ _]. intros u k Ek. assert (Ek0 := Ek). rewrite Ps in Ek. destruct (Nat.eqb_spec t u) as [->|]; [|eauto].
    apply Some_inj in Ek. subst k. intros La. cbn in La. cbn [tk_st set_tk_st tk_body set_tk_took].
    assert (K := T _ _ Pt La). destruct (tk_st tk) eqn:St.
    + destruct (N.ltb_spec m (tb_size (tk_body tk))) as [Lt|Ge].
      * assert (lk = l) by congruence. subst lk.
        rewrite (poll_large _ _ _ _ _ Pt St Pl Em Lt), nth_upd_task, Nat.eqb_refl, Pt in Ek0. apply Some_inj in Ek0. apply (f_equal tk_st) in Ek0. cbn in Ek0. rewrite <- Ek0. exact I.
      * destruct st; auto; destruct r; auto.
    + destruct st; auto; destruct r; auto.
    + destruct st; auto; destruct r; auto.
    + elim (Pa _ eq_refl).
    + exfalso. decompose [and or ex] Pc; try congruence. subst.
      (* a dropped future is not polled *) unfold poll_send in Ek0. rewrite Pt, Pl, St in Ek0. rewrite Pt in Ek0. apply Some_inj in Ek0. apply (f_equal tk_st) in Ek0. cbn in Ek0. congruence.
  - apply EOk_inj in H. apply (f_equal fst) in H. cbn [fst] in H. subst s'.
    intros t0 tk Et. apply upd_task_cases in Et as (k0 & E0 & ->). assert (X := T _ _ E0).
    destruct (Nat.eqb t t0); [|exact X]. destruct (tk_st k0) eqn:Es; try (intros ?; exact I). exact X.
Qed.

Lemma lim_run : forall m a p evs s s' os, (forall n, ~ In (EvSenderMax a n) evs) -> lim_inv m a s -> run p evs s = EOk (s', os) -> lim_inv m a s'.
Proof.
  intros m a p evs. induction evs as [|e evs IH]; intros s s' os N I H; cbn [run] in H.
  - apply EOk_inj in H. apply (f_equal fst) in H. cbn [fst] in H. subst s'. exact I.
  - destruct (step p e s) as [[s1 o1]|] eqn:E1; [|discriminate]. cbn [ebind] in H.
    destruct (run p evs s1) as [[s2 o2]|] eqn:E2; [|discriminate]. cbn [ebind] in H.
    apply EOk_inj in H. apply (f_equal fst) in H. cbn [fst] in H. subst s'. eapply (IH s1); [intros n K; exact (N n (or_intror K)) | | exact E2].
    eapply lim_step; [|exact I|exact E1]. intros n ->. exact (N n (or_introl eq_refl)).
Qed.

Lemma within : forall m a p evs s s' os, (forall n, ~ In (EvSenderMax a n) evs) -> sends_up_to a s (Some m) -> under_way_fit m a s ->
  run p evs s = EOk (s', os) ->
  sends_up_to a s' (Some m) /\ forall t tk d, send_done s' t tk d -> tk_link tk = a -> tb_size (tk_body tk) <= m.
Proof.
  intros m a p evs s s' os N M U R. assert (I : lim_inv m a s).
  { split; [exact M|]. intros t tk Et La. assert (X := U _ _ Et La). destruct (tk_st tk); try exact Logic.I; try (apply X; discriminate).
    destruct r; [apply X; discriminate|exact Logic.I]. }
  destruct (lim_run _ _ _ _ _ _ _ N I R) as (M' & T). split; [exact M'|]. intros t tk d (Et & i & St & _) La.
  assert (X := T _ _ Et La). rewrite St in X. exact X.
Qed.

(** ** Where the limit comes from *)
Lemma attach_max : forall p frm s s' os l, step p (EvAttach frm) s = EOk (s', os) -> nth_error (s_snds s') (length (s_snds s)) = Some l ->
  sn_max l = option_map cut (attach_max_message_size frm) /\ length (s_snds s') = S (length (s_snds s)).
Proof.
  intros p frm s s' os l H. cbn [step] in H. apply EOk_inj in H. apply (f_equal fst) in H. cbn [fst] in H. subst s'. unfold on_attach.
  assert (Old : nth_error (s_snds s) (length (s_snds s)) = Some l -> False) by (intros X; assert (Y : nth_error (s_snds s) (length (s_snds s)) <> None) by congruence; apply nth_error_Some in Y; lia).
  assert (Cl : option_map clamp_u32 (attach_max_message_size frm) = option_map cut (attach_max_message_size frm))
    by (destruct (attach_max_message_size frm); [cbn; rewrite cut_clamp|]; reflexivity).
  destruct (s_error s) eqn:Er; [intros X; elim (Old X)|].
  destruct (handle_attach frm s) as [s1|] eqn:Ha; unfold handle_attach in Ha.
  { destruct (name_get (attach_name frm) (s_names s)) as [i|] eqn:Nm; [|discriminate Ha]. apply Some_inj in Ha. subst s1.
    destruct (slab_get (s_links s) i) as [lk|] eqn:Sl; [|intros X; elim (Old X)].
    destruct lk as [| |tx| | |[[b tx]|]| |]; frw; st_cbn; try (intros X; elim (Old X)).
    intros E. rewrite nth_error_app2, Nat.sub_diag in E by reflexivity. cbn [nth_error] in E. apply Some_inj in E. subst l. rewrite app_length. cbn [length]. split; [exact Cl|lia]. }
  destruct (name_get (attach_name frm) (s_names s)) as [i|] eqn:Nm; [discriminate Ha|].
  destruct (attach_role frm).
  - unfold attach_remote_receiver. cbn [insert_link fst snd]. unfold dispatch, control. st_cbn. intros X; elim (Old X).
  - unfold new_remote_sender. cbn [insert_link fst snd]. unfold dispatch, control. st_cbn. intros E.
    rewrite nth_error_app2, Nat.sub_diag in E by reflexivity. cbn [nth_error] in E. apply Some_inj in E. subst l. rewrite app_length. cbn [length]. split; [exact Cl|lia].
Qed.
Lemma run_last : forall p evs e s s' os, run p (evs ++ [e]) s = EOk (s', os) ->
  exists s1 os1 os2, run p evs s = EOk (s1, os1) /\ step p e s1 = EOk (s', os2).
Proof.
  intros p evs e. induction evs as [|x evs IH]; intros s s' os H; cbn [app run] in H.
  - destruct (step p e s) as [[s1 o1]|] eqn:E1; [|discriminate]. cbn [ebind] in H. apply EOk_inj in H. apply (f_equal fst) in H. cbn [fst] in H. subst s1.
    exists s, [], o1. split; [reflexivity|exact E1].
  - destruct (step p x s) as [[s1 o1]|] eqn:E1; [|discriminate]. cbn [ebind] in H.
    destruct (run p (evs ++ [e]) s1) as [[s2 o2]|] eqn:E2; [|discriminate]. cbn [ebind] in H. apply EOk_inj in H. apply (f_equal fst) in H. cbn [fst] in H. subst s2.
    destruct (IH _ _ _ E2) as (s3 & o3 & o4 & R & S). exists s3, (o1 ++ o3), o4. split; [|exact S]. cbn [run]. rewrite E1. cbn [ebind]. rewrite R. reflexivity.
Qed.
Lemma limit_origin : forall p id local rc mfs b evs s os a n, let s0 := ses_new id local rc mfs b in
  run p evs s0 = EOk (s, os) -> (forall n, ~ In (EvSenderMax a n) evs) -> sends_up_to a s n ->
  exists evs1 f evs2, evs = evs1 ++ EvAttach f :: evs2 /\ opened_with p evs1 f s0 a /\ n = option_map cut (attach_max_message_size f).
Proof.
  intros p id local rc mfs b evs s os a n s0. revert s os n. induction evs as [|e evs IH] using rev_ind; intros s os n R N (l & El & M).
  - cbn [run] in R. apply EOk_inj in R. apply (f_equal fst) in R. cbn [fst] in R. subst s. destruct a; discriminate El.
  - destruct (run_last _ _ _ _ _ _ R) as (s1 & o1 & o2 & R1 & S).
    assert (N1 : forall m, ~ In (EvSenderMax a m) evs) by (intros m K; apply (N m), in_or_app; auto).
    assert (Ne : forall m, e <> EvSenderMax a m) by (intros m ->; apply (N m), in_or_app; right; left; reflexivity).
    destruct (nth_error (s_snds s1) a) as [l1|] eqn:E1.
    + destruct (step_mx _ _ _ _ _ _ _ S Ne E1) as (l' & E' & M'). rewrite El in E'. apply Some_inj in E'. subst l'.
      destruct (IH s1 o1 n R1 N1) as (ev1 & f & ev2 & -> & O & Hn); [exists l1; split; [exact E1|congruence]|].
      exists ev1, f, (ev2 ++ [e]). rewrite <- app_assoc. split; [reflexivity|]. split; [exact O|exact Hn].
    + destruct (step_new_snd _ _ _ _ _ _ _ S El) as [(l0 & E0 & _)|(f & -> & -> & _)]; [congruence|].
      destruct (attach_max _ _ _ _ _ _ S El) as (Em & Ln).
      exists evs, f, []. split; [reflexivity|]. split; [exists s1, s, o1, o2; auto|congruence].
Qed.
Lemma opened_lt : forall p s s' os evs a l, run p evs s = EOk (s', os) -> nth_error (s_snds s) a = Some l -> exists l', nth_error (s_snds s') a = Some l'.
Proof. intros p s s' os evs a l R E. destruct (run_snd_ids _ _ _ _ _ _ _ R E) as (l' & E' & _). eauto. Qed.

Lemma run_split : forall p evs1 evs2 s s' os, run p (evs1 ++ evs2) s = EOk (s', os) ->
  exists s1 os1 os2, run p evs1 s = EOk (s1, os1) /\ run p evs2 s1 = EOk (s', os2).
Proof.
  intros p evs1. induction evs1 as [|x evs IH]; intros evs2 s s' os H; cbn [app run] in H.
  - exists s, [], os. split; [reflexivity|exact H].
  - destruct (step p x s) as [[s1 o1]|] eqn:E1; [|discriminate]. cbn [ebind] in H.
    destruct (run p (evs ++ evs2) s1) as [[s2 o2]|] eqn:E2; [|discriminate]. cbn [ebind] in H. apply EOk_inj in H. apply (f_equal fst) in H. cbn [fst] in H. subst s2.
    destruct (IH _ _ _ _ E2) as (s3 & o3 & o4 & R & S). exists s3, (o1 ++ o3), o4. split; [|exact S]. cbn [run]. rewrite E1. cbn [ebind]. rewrite R. reflexivity.
Qed.

(** All sends of a link have been within what the attach frame of the peer said. *)
Lemma announced : forall p id local rc mfs b evs s os t tk d, let s0 := ses_new id local rc mfs b in
  run p evs s0 = EOk (s, os) -> send_done s t tk d -> (forall n, ~ In (EvSenderMax (tk_link tk) n) evs) ->
  exists evs1 f evs2, evs = evs1 ++ EvAttach f :: evs2 /\ opened_with p evs1 f s0 (tk_link tk)
    /\ forall m, attach_max_message_size f = Some m -> tb_size (tk_body tk) <= m.
Proof.
  intros p id local rc mfs b evs s os t tk d s0 R D N. assert (Re : reachable p s) by (exists id, local, rc, mfs, b, evs, os; exact R).
  destruct (linked_reachable _ _ Re t tk (proj1 D)) as (l & El).
  destruct (limit_origin p id local rc mfs b evs s os (tk_link tk) (sn_max l) R N) as (evs1 & f & evs2 & Ev & O & M); [exists l; auto|].
  exists evs1, f, evs2. split; [exact Ev|]. split; [exact O|]. intros m Hm. subst evs. rewrite Hm in M. cbn [option_map] in M.
  destruct O as (s1 & s2 & o1 & o2 & R1 & S & L1 & L2).
  destruct (run_split _ _ _ _ _ _ R) as (s1' & o3 & o4 & R1' & R2). assert (X : EOk (s1', o3) = EOk (s1, o1)) by (rewrite <- R1, <- R1'; reflexivity).
  apply EOk_inj in X. apply (f_equal fst) in X. cbn [fst] in X. subst s1'. cbn [run] in R2. rewrite S in R2. cbn [ebind] in R2.
  destruct (run p evs2 s2) as [[s3 o5]|] eqn:E2; [|discriminate]. cbn [ebind] in R2. apply EOk_inj in R2. apply (f_equal fst) in R2. cbn [fst] in R2. subst s3.
  assert (N2 : forall n, ~ In (EvSenderMax (tk_link tk) n) evs2) by (intros n K; apply (N n), in_or_app; right; right; exact K).
  assert (Re1 : reachable p s1) by (exists id, local, rc, mfs, b, evs1, o1; exact R1).
  destruct (nth_error (s_snds s2) (tk_link tk)) as [l2|] eqn:E3; [|apply nth_error_None in E3; lia].
  assert (M2 : sn_max l2 = Some (cut m)).
  { rewrite <- L1 in E3. destruct (attach_max _ _ _ _ _ _ S E3) as (Em & _). rewrite Em, Hm. reflexivity. }
  assert (T2 : under_way_fit (cut m) (tk_link tk) s2).
  { intros u k Ek La _. exfalso. assert (F := step_framed _ _ _ _ _ S Ftasks eq_refl). cbn [same] in F. rewrite F in Ek.
    destruct (linked_reachable _ _ Re1 u k Ek) as (l1 & E1). rewrite La in E1. apply nth_lt in E1. lia. }
  destruct (within _ _ _ _ _ _ _ N2 (ex_intro _ l2 (conj E3 M2)) T2 E2) as (_ & W).
  assert (X := W _ _ _ D eq_refl). unfold cut in X. lia.
Qed.
