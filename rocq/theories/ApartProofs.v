(** * Links that an event does not name *)

From Coq Require Import Lia ZifyBool ZifyNat ZifyN.
From Verif Require Export ApartRel.
Import ListNotations.

Section K.
Context {x : lname} {r : slink + rlink} {s0 : ses}.
Notation K := (kept x r s0).
Lemma took_upd_rcv y a f s : (forall l, rc_handle (f l) = rc_handle l) -> ~ took_slot x y s -> ~ took_slot x y (upd_rcv a f s).
Proof.
  intros F N (k & H & A). apply N. exists k. split; [|destruct A as (l & G & A); rewrite (get_links _ _ _ (H := fr_upd_rcv _ _ _)) in G by reflexivity; exists l; auto].
  destruct y as [b|b]; cbn [home] in *.
  - rewrite (get_snds _ _ _ (H := fr_upd_rcv _ _ _)) in H by reflexivity. exact H.
  - destruct H as (l & E & ->). rewrite nth_upd_rcv in E. destruct (Nat.eqb_spec a b) as [->|]; [|exists l; auto].
    destruct (nth_error (s_rcvs s) b) as [l0|]; [|discriminate E]. apply Some_inj in E. subst l. rewrite F. exists l0. auto.
Qed.
Lemma K_rcv_transfer p tr a s s' act : x <> inr a -> ~ took_slot x (inr a) s -> K s -> rcv_transfer p tr a s = EOk (s', act) -> K s'.
Proof.
  intros Na N H. unfold rcv_transfer. destruct (nth_error (s_rcvs s) a) as [l|] eqn:E; [|intros Q; apply EOk_inj, pair_equal_spec in Q as [<- _]; exact H].
  assert (C : forall e s1, ~ took_slot x (inr a) s1 -> K s1 -> ebind (rcv_close a (Some e) s1) (fun s => EOk (s, ANone)) = EOk (s', act) -> K s').
  { intros e s1 N1 H1. destruct (rcv_close a (Some e) s1) as [s2|] eqn:R; [|discriminate]. cbn [ebind].
    intros Q. apply EOk_inj, pair_equal_spec in Q as [<- _]. eapply K_rcv_close; eassumption. }
  destruct (rc_credit l =? 0); [apply C; assumption|]. cbv zeta.
  set (s1 := if transfer_more (tr_head tr) then s else upd_rcv a (set_rc_credit (rc_credit l - 1)) s).
  assert (H1 : K s1) by (unfold s1; destruct (transfer_more (tr_head tr)); kk).
  assert (N1 : ~ took_slot x (inr a) s1) by (unfold s1; destruct (transfer_more (tr_head tr)); [exact N|apply took_upd_rcv; [reflexivity|exact N]]).
  clearbody s1. destruct (rc_partial l) as [body|].
  - destruct (match transfer_delivery_id (tr_head tr) with Some _ => _ | None => _ end); [apply C; assumption|].
    destruct (match tr_body tr with Some _ => _ | None => _ end) as [body1|]; [|apply C; assumption].
    destruct (transfer_more (tr_head tr)); [intros Q; apply EOk_inj, pair_equal_spec in Q as [<- _]; kk|].
    destruct (checked_add _ _ _); [|discriminate]. cbn [ebind]. destruct (rev (rc_queue l)) as [|[d first] prev].
    + apply C; [apply took_upd_rcv; [reflexivity|exact N1]|kk].
    + intros Q. apply EOk_inj, pair_equal_spec in Q as [<- _]. kk.
  - destruct (transfer_delivery_id (tr_head tr)) as [id|]; [|apply C; assumption].
    destruct (transfer_more (tr_head tr)).
    + destruct (new_rcv _ _ _ _ _) as [d s2] eqn:R. intros Q. apply EOk_inj, pair_equal_spec in Q as [<- _].
      apply (f_equal snd) in R. cbn [snd] in R. subst s2. kk.
    + destruct (checked_add _ _ _); [|discriminate]. cbn [ebind].
      destruct (new_rcv _ _ _ _ _) as [d s2] eqn:R. intros Q. apply EOk_inj, pair_equal_spec in Q as [<- _].
      apply (f_equal snd) in R. cbn [snd] in R. subst s2. kk.
Qed.
Lemma K_handle_detach d s : ~ named (EvFrame (FDetach d)) x s -> K s -> K (fst (handle_detach d s)).
Proof.
  intros N H. cbn [named] in N. unfold handle_detach. cbv zeta.
  assert (W : forall k, match map_get (detach_handle d) (s_rhandles s) with Some i => Some i | None =>
     match slab_get (s_links s) (detach_handle d) with Some _ => Some (detach_handle d) | None => None end end = Some k -> ~ at_slot k x s).
  { intros k. destruct (map_get _ _); [intros [= ->]; exact N|]. destruct (slab_get (s_links s) (detach_handle d)); [intros [= <-]; exact N|discriminate]. }
  destruct (match map_get (detach_handle d) (s_rhandles s) with Some i => _ | None => _ end) as [k|]; [|exact H].
  specialize (W k eq_refl). clear N. destruct (slab_get (s_links s) k) as [l|] eqn:G; [|exact H].
  assert (NH : ~ holds x l) by (intros Hd; apply W; exists l; split; assumption).
  assert (NS : forall a, l = SEstablished a -> x <> inl a) by (intros a -> ->; apply NH; reflexivity).
  assert (NR : forall a, l = REstablished a -> x <> inr a) by (intros a -> ->; apply NH; reflexivity).
  assert (NO : forall a c, l = ROpeningLocal (Some (a, c)) -> x <> inr a) by (intros a c -> ->; apply NH; reflexivity).
  destruct l; try (specialize (NS _ eq_refl)); try (specialize (NR _ eq_refl)); cbn [fst]; kk.
  all: try (match goal with |- context [match nth_error ?v ?i with _ => _ end] => destruct (nth_error v i) end; cbn [fst]; kk).
  all: try (match goal with |- context [match ?o with _ => _ end] => destruct o as [[a c]|] end; cbn [fst]; try specialize (NO _ _ eq_refl); kk).
Qed.
Lemma K_handle_frame p f s s' act : (forall y, named (EvFrame f) y s -> y <> x /\ ~ took_slot x y s) -> K s ->
  ses_handle_frame p f s = EOk (s', act) -> K s'.
Proof.
  intros N H. unfold ses_handle_frame. destruct (s_error s); [intros Q; apply EOk_inj, pair_equal_spec in Q as [<- _]; exact H|].
  destruct f as [?|?|?|flow|tr|disp|d|?|?|]; try (intros Q; apply EOk_inj, pair_equal_spec in Q as [<- _]; kk; fail).
  - destruct (match flow_handle flow with Some _ => _ | None => _ end) as [[]|];
      intros Q; apply EOk_inj, pair_equal_spec in Q as [<- _]; try exact H; apply K_handle_flow; try exact H; discriminate.
  - destruct (map_get _ _) as [k|] eqn:M; [|intros Q; apply EOk_inj, pair_equal_spec in Q as [<- _]; exact H].
    destruct (slab_get (s_links s) k) as [l|] eqn:G; [|intros Q; apply EOk_inj, pair_equal_spec in Q as [<- _]; exact H].
    destruct l; try (intros Q; apply EOk_inj, pair_equal_spec in Q as [<- _]; exact H).
    destruct (rcv_transfer p tr _ s) as [[s1 act1]|] eqn:R; [|discriminate]. cbn [emap].
    intros Q; apply EOk_inj, pair_equal_spec in Q as [<- _].
    destruct (N (inr a)) as [N1 N2]; [exists k; split; [exact M|]; eexists; split; [exact G|reflexivity]|].
    eapply (K_rcv_transfer p tr a); [intros Z; apply N1; symmetry; exact Z|exact N2|exact H|exact R].
  - destruct (handle_detach d s) as [s1 act1] eqn:D. intros Q; apply EOk_inj, pair_equal_spec in Q as [<- _].
    apply (f_equal fst) in D. cbn [fst] in D. subst s1. apply K_handle_detach; [|exact H].
    intros Nm. destruct (N x Nm) as [C _]. apply C. reflexivity.
Qed.
Lemma K_on_attach frm s : ~ named (EvAttach frm) x s -> K s -> K (on_attach frm s).
Proof.
  intros N H. unfold on_attach. destruct (s_error s); [exact H|].
  unfold handle_attach. cbn [named] in N. destruct (name_get (attach_name frm) (s_names s)) as [k|].
  - assert (W : ~ at_slot k x s) by (intros A; apply N; exists k; auto).
    destruct (slab_get (s_links s) k) as [l|] eqn:G; [|exact H].
    destruct l as [| | | | |[[a tx]|]| |]; try exact H; cbv zeta; kk.
    + apply K_set_slot; [eapply not_at; [|exact W]; reflexivity|st_cbn; congruence|kk].
    + apply K_set_slot; [eapply not_at; [|exact W]; reflexivity|st_cbn; congruence|kk].
  - destruct (attach_role frm).
    + unfold new_remote_sender, insert_link. cbv beta iota zeta. kk.
    + unfold attach_remote_receiver, insert_link. cbv beta iota zeta. cbn [snd]. kk.
Qed.
Lemma K_control_ok p edit k s : x <> ctl_link k -> ~ took_slot x (ctl_link k) s -> K s -> Ke (control_ok p edit k s) (x := x) (r := r) (s0 := s0).
Proof.
  intros N T H s'. destruct k; cbn [control_ok ctl_link] in *; try (intros Q; apply EOk_inj in Q as <-; kk; fail).
  - intros Q. eapply K_attach_remote_sender; eassumption.
  - intros Q. eapply K_set_link_credit; [exact N| |exact Q]. apply K_confirm_receiver; assumption.
Qed.
Lemma K_control_err e k s : x <> ctl_link k -> ~ took_slot x (ctl_link k) s -> K s -> Ke (control_err e k s) (x := x) (r := r) (s0 := s0).
Proof.
  intros N T H s'. destruct k; cbn [control_err ctl_link] in *;
    try (intros Q; apply EOk_inj in Q as <-; first [exact H|apply K_detach_unconfirmed; assumption|apply K_snd_close; assumption]);
    intros Q; eapply K_rcv_close; eassumption.
Qed.
Lemma took_ctl y i v s : ~ took_slot x y s -> ~ took_slot x y (set_s_ctl (set_nth i v (s_ctl s)) s).
Proof. intros N (k & A & B). apply N. exists k. split; [destruct y; exact A|exact B]. Qed.
Lemma K_step p e s s' os : (forall y, named e y s -> y <> x /\ ~ took_slot x y s) -> K s -> step p e s = EOk (s', os) -> K s'.
Proof.
  intros N H.
  assert (Nx : ~ named e x s) by (intros A; destruct (N x A) as [C _]; apply C; reflexivity).
  assert (NX : forall y, named e y s -> x <> y /\ ~ took_slot x y s) by (intros y A; destruct (N y A); split; congruence). clear N.
  destruct e; unfold step, noobs;
    try (intros Q; apply EOk_inj, pair_equal_spec in Q as [<- _]; kk; fail).
  - destruct (ses_handle_frame p f s) as [[s1 ra]|] eqn:F; [|discriminate]. cbn [ebind]. intros Q. apply EOk_inj, pair_equal_spec in Q as [<- _].
    apply (K_handle_frame _ _ _ _ _ (fun y A => match NX y A with conj a b => conj (not_eq_sym a) b end) H) in F. kk.
  - intros Q; apply EOk_inj, pair_equal_spec in Q as [<- _]. apply K_on_attach; assumption.
  - exfalso. apply Nx. exact I.
  - unfold ses_detach_receiver, new_chan. destruct (detach_receiver _ _ _ _ _) as [s1|] eqn:D; [|discriminate].
    cbn [emap]. intros Q; apply EOk_inj, pair_equal_spec in Q as [<- _]. eapply K_detach_receiver; [| |exact D]; [k_at|kk].
  - destruct (nth_error (s_snds s) a); intros Q; apply EOk_inj, pair_equal_spec in Q as [<- _]; kk.
  - intros Q; apply EOk_inj, pair_equal_spec in Q as [<- _]. apply K_poll_send; assumption.
  - intros Q; apply EOk_inj, pair_equal_spec in Q as [<- _]. destruct (NX (inl a) eq_refl). apply K_snd_close; assumption.
  - destruct (NX (inl a) eq_refl). unfold cond_wait, new_chan. destruct (nth_error (s_snds s) a) as [l|]; [destruct (cd_lock _)|];
      cbv beta iota zeta; intros Q; apply EOk_inj, pair_equal_spec in Q as [<- _]; kk.
  - destruct (NX (inl a) eq_refl). unfold cond_wait, new_chan. destruct (nth_error (s_snds s) a) as [l|]; [destruct (cd_lock _)|];
      cbv beta iota zeta; intros Q; apply EOk_inj, pair_equal_spec in Q as [<- _]; kk.
  - destruct (nth_error (s_dlvs s) d); intros Q; apply EOk_inj, pair_equal_spec in Q as [<- _]; kk.
  - destruct (NX (inr a) eq_refl). destruct (nth_error (s_rcvs s) a) as [l|]; [destruct (poll_recv t l)|];
      intros Q; apply EOk_inj, pair_equal_spec in Q as [<- _]; kk.
  - destruct (NX (inr a) eq_refl). destruct (nth_error (s_rcvs s) a) as [l|]; [destruct (get_delivery l)|];
      intros Q; apply EOk_inj, pair_equal_spec in Q as [<- _]; kk.
  - destruct (NX (inr a) eq_refl). destruct (set_link_credit p a n s) as [s1|] eqn:C; [|discriminate].
    cbn [emap]. intros Q; apply EOk_inj, pair_equal_spec in Q as [<- _]. eapply K_set_link_credit; eassumption.
  - destruct (NX (inr a) eq_refl). destruct (rcv_close a e s) as [s1|] eqn:C; [|discriminate].
    cbn [emap]. intros Q; apply EOk_inj, pair_equal_spec in Q as [<- _]. eapply K_rcv_close; eassumption.
  - destruct (NX (inr a) eq_refl). destruct (nth_error (s_rcvs s) a) as [l|]; [destruct (existsb _ _)|];
      intros Q; apply EOk_inj, pair_equal_spec in Q as [<- _]; kk.
  - destruct (nth_error (s_ctl s) i) as [[k|]|] eqn:E; try (intros Q; apply EOk_inj, pair_equal_spec in Q as [<- _]; exact H).
    destruct (NX (ctl_link k)) as [N1 N2]; [exists k; auto|].
    destruct (control_ok p edit k _) as [s1|] eqn:C; [|discriminate]. cbn [emap]. intros Q; apply EOk_inj, pair_equal_spec in Q as [<- _].
    eapply K_control_ok; [exact N1|apply took_ctl; exact N2| |exact C]. kk.
  - destruct (nth_error (s_ctl s) i) as [[k|]|] eqn:E; try (intros Q; apply EOk_inj, pair_equal_spec in Q as [<- _]; exact H).
    destruct (NX (ctl_link k)) as [N1 N2]; [exists k; auto|].
    destruct (control_err e k _) as [s1|] eqn:C; [|discriminate]. cbn [emap]. intros Q; apply EOk_inj, pair_equal_spec in Q as [<- _].
    eapply K_control_err; [exact N1|apply took_ctl; exact N2| |exact C]. kk.
Qed.
End K.

(** ** Steps and histories *)
Lemma apart_step : forall p e s s' os x, slab_wf (s_links s) -> link_state x s <> None -> untouched e x s -> step p e s = EOk (s', os) ->
  link_state x s' = link_state x s
  /\ (forall k l, slab_get (s_links s) k = Some l -> holds x l -> slab_get (s_links s') k = Some l) /\ slab_wf (s_links s').
Proof.
  intros p e s s' os x Wf L U St. destruct (link_state x s) as [r|] eqn:E; [|congruence].
  assert (H : kept x r s s) by (constructor; auto).
  apply (K_step p e s s' os U H) in St as [A B C]. auto.
Qed.
Lemma apart_run : forall p evs s s' os x, slab_wf (s_links s) -> link_state x s <> None -> spared p evs x s -> run p evs s = EOk (s', os) ->
  link_state x s' = link_state x s
  /\ (forall k l, slab_get (s_links s) k = Some l -> holds x l -> slab_get (s_links s') k = Some l).
Proof.
  intros p. induction evs as [|e evs IH]; intros s s' os x Wf L Sp R; cbn [run spared] in *.
  - apply EOk_inj, pair_equal_spec in R as [<- _]. auto.
  - destruct (step p e s) as [[s1 o1]|] eqn:St; [|discriminate R]. cbn [ebind] in R. destruct Sp as [U Sp].
    destruct (run p evs s1) as [[s2 o2]|] eqn:R1; [|discriminate R]. apply EOk_inj, pair_equal_spec in R as [<- _].
    destruct (apart_step _ _ _ _ _ _ Wf L U St) as (A & B & W1).
    destruct (IH s1 s2 o2 x W1) as [A2 B2]; [congruence|exact (Sp _ _ eq_refl)|exact R1|]. split; [congruence|]. eauto.
Qed.
Lemma apart_reachable : forall p evs s s' os x, reachable p s -> link_state x s <> None -> spared p evs x s -> run p evs s = EOk (s', os) ->
  link_state x s' = link_state x s /\ (forall k, at_slot k x s -> at_slot k x s').
Proof.
  intros p evs s s' os x R L Sp Rn. destruct (apart_run _ _ _ _ _ _ (proj1 (fut_reachable _ _ R)) L Sp Rn) as [A B].
  split; [exact A|]. intros k (l & G & H). exists l. split; [exact (B _ _ G H)|exact H].
Qed.
Lemma holds_one : forall x y l, holds x l -> holds y l -> x = y.
Proof.
  intros x y l Hx Hy. destruct l as [| | | |[[? ?]|]|[[? ?]|]| |], x as [u|u], y as [v|v]; cbn [holds] in *; try contradiction; congruence.
Qed.
Lemma settled_apart : forall x y s, settled_in y s -> y <> x -> ~ took_slot x y s.
Proof.
  intros x y s Hs N (k & Hm & (l & G & Hx)). destruct (Hs _ Hm) as (l' & G' & Hy). rewrite G in G'. apply Some_inj in G'. subst l'.
  apply N. exact (holds_one _ _ _ Hy Hx).
Qed.
Lemma apart_settled : forall p e s s' os x, reachable p s -> link_state x s <> None -> (forall y, named e y s -> y <> x /\ settled_in y s) ->
  step p e s = EOk (s', os) -> link_state x s' = link_state x s /\ (forall k, at_slot k x s -> at_slot k x s').
Proof.
  intros p e s s' os x R L U St. destruct (apart_step p e s s' os x (proj1 (fut_reachable _ _ R)) L) as (A & B & _); [|exact St|].
  - intros y Hy. destruct (U y Hy) as [N H]. split; [exact N|]. apply settled_apart; assumption.
  - split; [exact A|]. intros k (l & G & H). exists l. split; [exact (B _ _ G H)|exact H].
Qed.
Lemma detach_only : forall d s k a l, map_get (detach_handle d) (s_rhandles s) = Some k -> slab_get (s_links s) k = Some (SEstablished a) ->
  nth_error (s_snds s) a = Some l -> sn_id l = k -> as_u32 (sn_id l) = k -> forall y, named (EvFrame (FDetach d)) y s -> y = inl a /\ settled_in y s.
Proof.
  intros d s k a l M G E I1 I2 y H. cbn [named] in H. rewrite M in H. destruct H as (l0 & G0 & H). rewrite G in G0. apply Some_inj in G0. subst l0.
  destruct y as [b|b]; cbn [holds] in H; [subst b|contradiction]. split; [reflexivity|].
  intros j (l1 & E1 & Hj). rewrite E in E1. apply Some_inj in E1. subst l1. assert (j = k) as -> by (destruct Hj; congruence).
  exists (SEstablished a). split; [exact G|reflexivity].
Qed.
Lemma detach_names : forall d s k a, map_get (detach_handle d) (s_rhandles s) = Some k -> slab_get (s_links s) k = Some (SEstablished a) ->
  named (EvFrame (FDetach d)) (inl a) s.
Proof. intros d s k a M G. cbn [named]. rewrite M. exists (SEstablished a). split; [exact G|reflexivity]. Qed.
