(** * Close frames have their reasons *)

From Coq Require Import ZifyBool ZifyNat ZifyN.
From Verif Require Export ConnMoves SpecClose.
Import ListNotations.

Definition is_failure (k : option cctl) : bool := match k with Some (KProtocolError _) => true | _ => false end.
Definition debt (c : conn) : nat := ((if c_failed c then 1 else 0) + length (filter is_failure (c_ctl c)))%nat.
Definition owed (c : conn) : nat := (closes_sent (c_out c) + debt c)%nat.

Lemma owed_none : forall c c', c_ctl c' = c_ctl c -> c_failed c' = c_failed c -> (exists l, c_out c' = c_out c ++ l /\ closes_sent l = 0%nat) -> owed c' = owed c.
Proof. intros c c' A B (l & E & Z). unfold owed, debt. rewrite A, B, E, closes_app, Z. lia. Qed.
Lemma owed_same : forall c c', c_ctl c' = c_ctl c -> c_failed c' = c_failed c -> c_out c' = c_out c -> owed c' = owed c.
Proof. intros c c' A B E. apply owed_none; auto. exists []. rewrite app_nil_r. auto. Qed.
Lemma forget_ctl : forall ch c, c_ctl (forget ch c) = c_ctl c /\ c_failed (forget ch c) = c_failed c.
Proof. intros ch c. unfold forget. destruct (map_get ch (c_map c)); auto. Qed.
Lemma owed_put : forall a s s' c, wire_rel s s' -> owed (put_ses a s s' c) = owed c.
Proof.
  intros a s s' c W. apply owed_none; [reflexivity | reflexivity|]. destruct (wire_put a s s' c W) as (l & Ho & _ & F).
  exists (map (pair (as_u16 (s_id s))) l). split; [exact Ho | apply closes_inner; exact F].
Qed.
Lemma owed_close : forall e c, owed (conn_close e c) = (owed c + 1)%nat.
Proof.
  intros e c. unfold owed, debt, conn_close, io_close. cbn [cpost set_c_out c_io]. destruct (c_io c);
    cbn [cpost set_c_out set_c_io c_out c_failed c_ctl]; rewrite closes_app; change (closes_sent [(0, FClose (mk_close e))]) with 1%nat; lia.
Qed.
Lemma failures_drop : forall l i k, nth_error l i = Some (Some k) ->
  (length (filter is_failure (set_nth i None l)) + (if is_failure (Some k) then 1 else 0) = length (filter is_failure l))%nat.
Proof.
  induction l as [|x l IH]; intros i k H; destruct i; try discriminate H; cbn [set_nth].
  - injection H as ->. cbn [filter]. change (is_failure None) with false. destruct (is_failure (Some k)); cbn [length]; lia.
  - cbn [filter]. specialize (IH i k H). destruct (is_failure x); cbn [length]; lia.
Qed.
Lemma owed_step : forall p ev c c' os, CI c -> cstep p ev c = EOk (c', os) -> (owed c' <= owed c + close_reasons ev)%nat.
Proof.
  intros p ev c c' os C H.
  assert (Q : owed c' = owed c -> (owed c' <= owed c + close_reasons ev)%nat) by (intros ->; apply Nat.le_add_r).
  destruct ev; cbn [cstep] in H;
    try (apply EOk_inj in H; apply (f_equal fst) in H; cbn [fst] in H; subst c').
  - destruct (plain f) eqn:P.
    + apply Q. destruct (c_error c) as [e|] eqn:Er.
      { assert (c' = c) as ->; [|reflexivity]. unfold conn_frame in H. rewrite Er in H. destruct f; try discriminate P; apply EOk_inj in H; congruence. }
      destruct (frame_cases _ _ _ _ _ _ H P Er) as [(-> & _)|[(k & i & _ & _ & -> & _)|[(k & a & Em & Ha & Na)|[(k & a & s & Em & Es & Ea & X)|(k & a & s & Em & Es & Ea & X)]]]]; try reflexivity.
      * destruct (ci_slot c C _ _ Ha) as (s & Es & _). congruence.
      * destruct f; try discriminate P; try (destruct X as (s' & r & X & _ & -> & _); exact (owed_put _ _ _ _ (frame_wire _ _ _ _ _ X))); destruct X as [-> _].
        -- apply owed_put, attach_wire.
        -- apply owed_none; cbn [cpost set_c_out c_ctl c_failed c_out]; [rewrite (proj1 (forget_ctl _ _)); reflexivity | rewrite (proj2 (forget_ctl _ _)); reflexivity|]. rewrite forget_out, put_fail_out. eexists. split; reflexivity.
      * destruct f; try discriminate P; destruct X as [-> _]; try reflexivity. apply owed_same; [rewrite (proj1 (forget_ctl _ _)); reflexivity | rewrite (proj2 (forget_ctl _ _)); reflexivity|]. rewrite forget_out. apply put_fail_out.
    + destruct f; try discriminate P; cbn [conn_frame] in H.
      * apply Q. destruct (begin_remote_channel x) as [n|]; apply EOk_inj in H; apply (f_equal fst) in H; cbn [fst] in H; subst c'.
        -- unfold complete_session. destruct (slab_get (c_slots c) n) as [[]|]; apply owed_same; reflexivity.
        -- apply owed_none; [reflexivity | reflexivity|]. eexists. split; reflexivity.
      * destruct (close_frame _ _ _ _ (ci_norm c C) H) as (y & -> & _).
        unfold owed, debt. cbn [ccontrol set_c_ctl set_c_state cpost set_c_out c_out c_ctl c_failed conn_set_error set_c_notified set_c_error set_c_map set_c_slots set_c_opens set_c_sess].
        rewrite closes_app, filter_app, app_length. cbn [close_reasons filter is_failure length closes_sent is_close snd]. unfold closes_sent. cbn. lia.
      * apply Q. apply EOk_inj in H. assert (c' = c) as -> by congruence. reflexivity.
  - apply Q. destruct (nth_error (c_sess c) a) as [s|] eqn:Ea; [|apply EOk_inj in H; assert (c' = c) as -> by congruence; reflexivity].
    destruct (own_event e) eqn:O; [|apply EOk_inj in H; assert (c' = c) as -> by congruence; reflexivity].
    apply ses_event_inv in H as (s' & o & Es & -> & _). exact (owed_put _ _ _ _ (own_wire _ _ _ _ _ O Es)).
  - apply Q. unfold conn_end. destruct (nth_error (c_sess c) a) as [s|]; [|reflexivity]. assert (F := end_fields s). cbv zeta in F. destruct F as (_ & _ & _ & _ & _ & _ & F7).
    destruct (s_ended s || s_ending s).
    + apply owed_none; [reflexivity | reflexivity|]. cbn [put_ses set_c_out set_c_sess c_out]. rewrite F7, skip_own. eexists. split; reflexivity.
    + apply owed_none; cbn [put_ses set_c_out set_c_sess c_out c_ctl c_failed]; [unfold close_session; destruct (slab_get (c_slots c) (s_rchan s)) as [[]|]; reflexivity ..|].
      rewrite F7, skip_own. unfold close_session. eexists. destruct (slab_get (c_slots c) (s_rchan s)) as [[]|]; split; reflexivity.
  - apply Q. unfold open_session. destruct (c_error c); [apply owed_same; reflexivity|]. destruct (c_chmax c <=? slab_key (c_slots c)); [apply owed_same; reflexivity|].
    apply owed_none; [reflexivity | reflexivity|]. eexists. split; reflexivity.
  - apply Q. destruct (nth_error (c_opens c) i) as [[]|]; apply owed_same; reflexivity.
  - rewrite owed_close. apply Nat.le_refl.
  - apply Q. unfold conn_force_close, io_close. cbn. destruct (c_io c); apply owed_same; reflexivity.
  - unfold owed, debt. cbn [ccontrol set_c_ctl c_out c_ctl c_failed close_reasons]. rewrite filter_app, app_length. cbn. lia.
  - unfold owed, debt. cbn [ccontrol set_c_ctl c_out c_ctl c_failed close_reasons]. rewrite filter_app, app_length. cbn. lia.
  - destruct (nth_error (c_ctl c) i) as [[k|]|] eqn:E; [|lia|lia]. assert (X := failures_drop _ _ _ E).
    destruct k; unfold owed, debt; cbn [is_failure] in X;
      cbn [set_c_failed c_out c_ctl c_failed conn_set_error set_c_notified set_c_error set_c_map set_c_slots set_c_opens set_c_sess set_c_ctl close_reasons];
      destruct (c_failed c); lia.
  - destruct (c_failed c) eqn:E; [|lia]. rewrite owed_close. unfold owed, debt. cbn [set_c_failed c_out c_ctl c_failed]. rewrite E. lia.
  - rewrite owed_close. apply Nat.le_refl.
  - apply Q. apply owed_none; [reflexivity | reflexivity|]. eexists. split; reflexivity.
  - apply Q. apply owed_same; reflexivity.
Qed.
Lemma owed_run : forall p evs c c' os, CI c -> crun p evs c = EOk (c', os) -> (owed c' <= owed c + list_sum (map close_reasons evs))%nat.
Proof.
  intros p evs. induction evs as [|e evs IH]; intros c c' os C H.
  - cbn in H. apply EOk_inj in H. assert (c' = c) as -> by congruence. cbn. lia.
  - apply crun_cons in H as (c1 & o1 & o2 & Hs & Hr & ->). assert (X := IH c1 c' o2 (CI_step _ _ _ _ _ C Hs) Hr).
    assert (Y := owed_step _ _ _ _ _ C Hs). cbn [map list_sum fold_right]. unfold list_sum in X. lia.
Qed.
