(** * The session window *)

From Verif Require Export CreditProofs.
From Coq Require Import ZifyBool ZifyNat ZifyN.

Definition new_window (f : flow_t) (s : ses) : N :=
  wsub (wadd (or_default 0 (flow_next_incoming_id f)) (flow_incoming_window f)) (s_nout s).

Lemma handle_flow_window : forall f lnk s, s_iwin (handle_flow f lnk s) = new_window f s.
Proof.
  intros f lnk s. unfold handle_flow. cbv zeta.
  destruct lnk as [a|]; [frw|]; (destruct (flow_echo f); [frw|]); frw; reflexivity.
Qed.

Lemma step_window : forall p e s s' os, step p e s = EOk (s', os) -> (forall t, e <> EvPollSend t) ->
  s_iwin s' = match flow_of e s with Some (f, _) => new_window f s | None => s_iwin s end.
Proof.
  intros p e s s' os H Np. assert (F := step_framed _ _ _ _ _ H).
  destruct e; try solve [exact (F Fiwin eq_refl)]; clear F; cbn [step flow_of] in *.
  - destruct (ses_handle_frame p f s) as [[s1 r]|] eqn:Eh; [|discriminate]. cbn [ebind] in H.
    apply EOk_inj in H; apply (f_equal fst) in H; cbn [fst] in H; subst s'.
    assert (E1 : s_iwin (match r with inl act => dispatch act s1 | inr _ => s1 end) = s_iwin s1).
    { destruct r; [frw|]; reflexivity. }
    rewrite E1. clear E1. unfold ses_handle_frame in Eh.
    destruct (s_error s) eqn:Ee.
    { apply EOk_inj in Eh; apply (f_equal fst) in Eh; cbn [fst] in Eh; subst s1. destruct f; reflexivity. }
    destruct f; try solve [ cbv beta iota zeta delta [ebind emap noobs] in Eh; repeat (fr_break_in Eh; try discriminate Eh); fr_knows; repeat fr_pair;
      try (apply EOk_inj in Eh; apply (f_equal fst) in Eh; cbn [fst] in Eh; subst s1); frw; reflexivity ].
    + unfold for_sender.
      destruct (flow_handle x) as [h|].
      2: { apply EOk_inj in Eh; apply (f_equal fst) in Eh; cbn [fst] in Eh; subst s1. apply handle_flow_window. }
      destruct (map_get h (s_rhandles s)) as [i|].
      2: { apply EOk_inj in Eh; apply (f_equal fst) in Eh; cbn [fst] in Eh; subst s1. apply handle_flow_window. }
      destruct (slab_get (s_links s) i) as [[]|];
        apply EOk_inj in Eh; apply (f_equal fst) in Eh; cbn [fst] in Eh; subst s1;
        first [apply handle_flow_window | reflexivity].
  - elim (Np t eq_refl).
  - destruct (nth_error (s_ctl s) i) as [[k|]|] eqn:Ei.
    2,3: apply EOk_inj in H; apply (f_equal fst) in H; cbn [fst] in H; subst s'; reflexivity.
    unfold noobs, emap in H.
    destruct (control_ok p edit k (set_s_ctl (set_nth i None (s_ctl s)) s)) as [s1|] eqn:Ek; [|discriminate].
    cbn [ebind] in H. apply EOk_inj in H. apply (f_equal fst) in H; cbn [fst] in H; subst s1.
    destruct k; cbn [control_ok] in Ek;
      try solve [ repeat (fr_break_in Ek; try discriminate Ek); fr_knows; repeat fr_pair;
                  try (apply EOk_inj in Ek; subst s');
                  match goal with |- s_iwin ?t = _ =>
                    let X := fresh in
                    assert (X : framed s t [Fnin; Fowin; Flinks; Fnames; Frhandles; Fpending; Fchans;
                                            Fsnds; Frcvs; Fctl; Fout]) by fr_chain;
                    exact (X Fiwin eq_refl) end ].
    apply EOk_inj in Ek. subst s'. rewrite handle_flow_window. reflexivity.
Qed.

(** [n] deliveries have begun, and the window leaves room up to [L]. *)
Definition win_inv (L : N) (s : ses) : Prop :=
  let n := N.of_nat (length (delivery_ids (s_out s))) in
  s_nout s mod two32 = (n + 1) mod two32 /\ n + s_iwin s <= L.

Lemma win_poll : forall L t s, win_inv L s -> win_inv L (poll_send t s).
Proof.
  intros L t s [Hn Hw].
  destruct (poll_send_pstep t s) as [->|(tk & lk & st & auto & took & sent & tag & P)]; [split; auto|].
  destruct P as [_ _ _ _ _ _ [Iw Nz] _ _ _ _ No Out]. unfold win_inv.
  assert (E : length (delivery_ids (s_out (poll_send t s)))
              = (length (delivery_ids (s_out s)) + if sent then 1 else 0)%nat).
  { rewrite Out. unfold delivery_ids. rewrite transfers_app, flat_map_app, app_length. f_equal.
    destruct sent; [|reflexivity]. rewrite transfers_map. apply (f_equal (@length N) (delivery_ts_ids _ _ _ _ _ _ _)). }
  rewrite E, No, Iw. destruct sent.
  - specialize (Nz eq_refl). split; [|clear - Hw Nz; lia].
    unfold wadd. rewrite N.mod_mod by discriminate.
    rewrite <- N.add_mod_idemp_l, Hn, N.add_mod_idemp_l by discriminate. f_equal. clear. lia.
  - rewrite Nat.add_0_r. auto.
Qed.

Lemma win_step : forall L p e s s' os, win_inv L s -> step p e s = EOk (s', os) ->
  let fs := match flow_of e s with Some (f, _) => [f] | None => [] end in
  (forall f, In f fs -> flow_next_incoming_id f <> None) ->
  forall limits, Forall2 window_limit fs limits -> nondecreasing L limits ->
  win_inv (last limits L) s'.
Proof.
  intros L p e s s' os I H fs Hid limits Hf Hn.
  destruct (match e with EvPollSend _ => true | _ => false end) eqn:Ee.
  - destruct e; try discriminate. cbn [step] in H.
    apply EOk_inj in H. apply (f_equal fst) in H; cbn [fst] in H; subst s'.
    unfold fs in Hf. cbn in Hf. inversion Hf; subst. cbn [last]. apply win_poll, I.
  - assert (Np : forall t, e <> EvPollSend t) by (intros t ->; discriminate).
    assert (F := step_framed _ _ _ _ _ H).
    assert (Nn : s_nout s' = s_nout s) by (destruct e; try discriminate Ee; apply (F Fnout eq_refl)).
    assert (Q := step_transfers_quiet _ _ _ _ _ H Np). assert (W := step_window _ _ _ _ _ H Np).
    assert (Ed : delivery_ids (s_out s') = delivery_ids (s_out s)) by (unfold delivery_ids; rewrite Q; reflexivity).
    unfold win_inv in *. rewrite Ed, Nn, W. destruct I as [I1 I2]. unfold fs in *.
    destruct (flow_of e s) as [[f b]|].
    + inversion Hf as [|? L1 ? ? Hlim Hr]; subst. inversion Hr; subst. cbn [last nondecreasing] in *.
      destruct Hn as [HL _]. split; [exact I1|].
      set (n := N.of_nat (length (delivery_ids (s_out s)))) in *. clearbody n.
      assert (HT : n <= L1) by (clear - I2 HL; lia).
      assert (X : new_window f s <= L1 - n); [|clear - X HT; lia].
      unfold new_window. apply wsub_le. unfold window_limit in Hlim. change (2 ^ 32) with two32 in Hlim.
      rewrite <- N.add_mod_idemp_l, I1, N.add_mod_idemp_l by discriminate.
      replace (n + 1 + (L1 - n)) with (1 + L1) by (clear - HT; lia). rewrite Hlim. unfold wadd.
      rewrite N.mod_mod by discriminate. f_equal. f_equal.
      assert (Hs := Hid f (or_introl eq_refl)). destruct (flow_next_incoming_id f); [reflexivity|congruence].
    + inversion Hf; subst. cbn [last]. auto.
Qed.

Lemma win_run : forall p evs s s' os L, win_inv L s -> run p evs s = EOk (s', os) ->
  let fs := map fst (flows p evs s) in
  (forall f, In f fs -> flow_next_incoming_id f <> None) ->
  forall limits, Forall2 window_limit fs limits -> nondecreasing L limits ->
  win_inv (last limits L) s'.
Proof.
  intros p. induction evs as [|e evs IH]; intros s s' os L I H fs Hdc limits Hf Hn.
  - unfold fs in Hf. inversion Hf; subst. cbn [run] in H. apply EOk_inj in H.
    apply (f_equal fst) in H; cbn [fst] in H; subst s'. exact I.
  - cbn [run] in H. destruct (step p e s) as [[s1 o1]|] eqn:E1; [|discriminate]. cbn [ebind] in H.
    destruct (run p evs s1) as [[s2 o2]|] eqn:E2; [|discriminate]. cbn [ebind] in H.
    apply EOk_inj in H. apply (f_equal fst) in H; cbn [fst] in H; subst s2.
    unfold fs in *. cbn [flows] in *. rewrite E1, map_app in *.
    apply Forall2_app_inv_l in Hf as (l1 & l2 & F1 & F2 & ->).
    apply nondecreasing_app in Hn as [N1 N2]. rewrite last_app2.
    eapply IH; [|exact E2| |exact F2|exact N2].
    + eapply win_step; eauto.
      * intros f Hi. apply Hdc, in_or_app. left. destruct (flow_of e s) as [[]|]; exact Hi.
      * destruct (flow_of e s) as [[]|]; exact F1.
    + intros f Hi. apply Hdc, in_or_app. auto.
Qed.

Lemma window_respected : forall p id local rc mfs begin evs s os limits,
  run p evs (ses_new id local rc mfs begin) = EOk (s, os) ->
  (forall f, In f (map fst (flows p evs (ses_new id local rc mfs begin))) -> flow_next_incoming_id f <> None) ->
  Forall2 window_limit (map fst (flows p evs (ses_new id local rc mfs begin))) limits ->
  nondecreasing (begin_incoming_window begin) limits ->
  N.of_nat (length (delivery_ids (s_out s))) <= last limits (begin_incoming_window begin).
Proof.
  intros p id local rc mfs begin evs s os limits H Hid Hf Hn.
  assert (I : win_inv (begin_incoming_window begin) (ses_new id local rc mfs begin)).
  { split; [reflexivity|]. cbn. lia. }
  destruct (win_run _ _ _ _ _ _ I H Hid _ Hf Hn) as [_ X]. lia.
Qed.

(** Deliveries that fit one frame. *)
Lemma one_frame_each : forall p s, reachable p s ->
  (forall t tk, nth_error (s_tasks s) t = Some tk -> tb_size (tk_body tk) <= chunk_size (s_mfs s)) ->
  length (transfers (s_out s)) = length (delivery_ids (s_out s)).
Proof.
  intros p s R Hs. apply wire_reachable in R as (order & ND & Nn & Ti & gs & C & L & G).
  unfold delivery_ids. rewrite C.
  assert (H1 : forall g, In g gs -> length g = length (ts_ids g)).
  { intros g Hg. apply In_nth_error in Hg as [k Eg].
    destruct (nth_error order k) as [u|] eqn:Ek;
      [|apply nth_error_None in Ek; apply nth_lt in Eg; lia].
    destruct (G _ _ _ Ek Eg) as (tk & l & i & d & E1 & E2 & E3 & E4 & Hi & Hsd & Hx & ->).
    rewrite delivery_ts_ids. unfold delivery_ts, transfer_frames. cbv zeta. specialize (Hs _ _ E1).
    destruct (N.ltb_spec (chunk_size (s_mfs s)) (tb_size (tk_body tk))) as [X|X]; [lia|reflexivity]. }
  clear - H1. fold (ts_ids (concat gs)). induction gs as [|g gs IH]; [reflexivity|].
  cbn [concat]. unfold ts_ids. rewrite flat_map_app, !app_length. fold (ts_ids g) (ts_ids (concat gs)).
  rewrite (H1 g (or_introl eq_refl)), IH; [reflexivity|]. intros x Hx. apply H1. right. exact Hx.
Qed.
