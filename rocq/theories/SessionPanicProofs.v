(** * Proofs: what can panic *)

From Coq Require Import List NArith Lia.
From Verif Require Import Base SpecPanic LinkProofs ReadyProofs.
Import ListNotations.
Local Open Scope N_scope.

Lemma add_panics : forall p a b q, checked_add p a b = EPanic q -> p = Debug /\ q = EPOverflow /\ a + b >= 2 ^ 32.
Proof.
  intros p a b q. unfold checked_add. destruct (N.ltb_spec (a + b) two32); [discriminate|].
  destruct p; [|discriminate]. intros [= <-]. repeat split. change (2 ^ 32) with two32. lia.
Qed.
Lemma add_overflows : forall a b, a + b >= 2 ^ 32 -> checked_add Debug a b = EPanic EPOverflow.
Proof.
  intros a b H. unfold checked_add. change (2 ^ 32) with two32 in H. destruct (N.ltb_spec (a + b) two32); [lia|reflexivity].
Qed.

Lemma detach_panics : forall id cl e tx s q, detach_receiver id cl e tx s = EPanic q -> still_attaching id s /\ q = EPUnimplemented.
Proof.
  intros id cl e tx s q. unfold detach_receiver, still_attaching.
  destruct (slab_get (s_links s) id) as [[]|]; try discriminate. intros [= <-]. eauto.
Qed.
Lemma detach_attaching : forall id cl e tx s, still_attaching id s -> detach_receiver id cl e tx s = EPanic EPUnimplemented.
Proof. intros id cl e tx s [x H]. unfold detach_receiver. rewrite H. reflexivity. Qed.

Lemma attaching_same : forall h s s', s_links s' = s_links s -> still_attaching h s' -> still_attaching h s.
Proof. intros h s s' E [x H]. exists x. congruence. Qed.

Lemma close_panics : forall a e s q, rcv_close a e s = EPanic q -> q = EPUnimplemented /\ exists h, open_receiver a h s /\ still_attaching h s.
Proof.
  intros a e s q. unfold rcv_close, open_receiver. destruct (nth_error (s_rcvs s) a) as [l|]; [|discriminate].
  cbv beta iota zeta delta [new_chan]. destruct (rc_closed l) eqn:C; [discriminate|].
  match goal with |- ebind ?m _ = _ -> _ => destruct m as [x|q'] eqn:E end; [discriminate|].
  cbn [ebind]. intros [= <-]. apply detach_panics in E as [A ->]. split; [reflexivity|]. exists (rc_handle l).
  split; [eauto|]. eapply attaching_same; [|exact A]. reflexivity.
Qed.
Lemma close_attaching : forall a e h s, open_receiver a h s -> still_attaching h s -> rcv_close a e s = EPanic EPUnimplemented.
Proof.
  intros a e h s (l & E & C & <-) [x A]. unfold rcv_close. rewrite E. cbv beta iota zeta delta [new_chan]. rewrite C.
  rewrite detach_attaching; [reflexivity|]. exists x. exact A.
Qed.

Lemma accept_panics : forall frm r a s q, attach_remote_sender frm r a s = EPanic q ->
  q = EPMissingLink /\ exists l, nth_error (s_snds s) a = Some l /\ vacant (sn_id l) s.
Proof.
  intros frm r a s q. unfold attach_remote_sender, vacant. destruct (nth_error (s_snds s) a) as [l|]; [|discriminate]. cbv zeta.
  match goal with |- context [slab_get (s_links ?s) ?k] => destruct (slab_get (s_links s) k) eqn:E end; [discriminate|].
  intros [= <-]. split; [reflexivity|]. exists l. split; [reflexivity|]. revert E.
  destruct (attach_source frm) as [src|]; [destruct (source_address src)|]; auto.
Qed.
Lemma accept_vacant : forall frm r a l s, nth_error (s_snds s) a = Some l -> vacant (sn_id l) s -> attach_remote_sender frm r a s = EPanic EPMissingLink.
Proof.
  intros frm r a l s E V. unfold attach_remote_sender, vacant in *. rewrite E. cbv zeta.
  match goal with |- context [slab_get (s_links ?s) ?k] => replace (slab_get (s_links s) k) with (@None link); [reflexivity|] end.
  destruct (attach_source frm) as [src|]; [destruct (source_address src)|]; auto.
Qed.

Lemma confirm_credit : forall a r s b, option_map rc_credit (nth_error (s_rcvs (confirm_receiver a r s)) b) = option_map rc_credit (nth_error (s_rcvs s) b).
Proof.
  intros a r s b. unfold confirm_receiver. destruct (nth_error (s_rcvs s) a) as [l|]; [|reflexivity]. cbv zeta.
  destruct (slab_get (s_links s) (rc_handle l)) as [[| | | |[[]|]| | |]|] eqn:E; try reflexivity.
  unfold put_link. rewrite E. reflexivity.
Qed.
Lemma credit_panics : forall p a n s q, set_link_credit p a n s = EPanic q ->
  p = Debug /\ q = EPOverflow /\ exists l, nth_error (s_rcvs s) a = Some l /\ rc_credit l + n >= 2 ^ 32.
Proof.
  intros p a n s q. unfold set_link_credit. destruct (nth_error (s_rcvs s) a) as [l|]; [|discriminate].
  destruct (checked_add p (rc_credit l) n) eqn:E; [discriminate|]. cbn [ebind]. intros [= <-].
  apply add_panics in E as (-> & -> & H). eauto 6.
Qed.
Lemma credit_overflows : forall a n l s, nth_error (s_rcvs s) a = Some l -> rc_credit l + n >= 2 ^ 32 -> set_link_credit Debug a n s = EPanic EPOverflow.
Proof. intros a n l s E H. unfold set_link_credit. rewrite E, add_overflows by exact H. reflexivity. Qed.

(** ** A transfer *)
Lemma transfer_panics : forall p tr a s q i, lk_inv [] s -> few_links s -> slab_get (s_links s) i = Some (REstablished a) ->
  rcv_transfer p tr a s = EPanic q ->
  p = Debug /\ q = EPOverflow /\ transfer_more (tr_head tr) = false /\ exists l, nth_error (s_rcvs s) a = Some l /\ rc_dc l + 1 >= 2 ^ 32.
Proof.
  intros p tr a s q i (_ & R & _) F Hi.
  assert (B : slots_fit s) by (unfold slots_fit; exact F).
  assert (Ha : holds_rcv a (REstablished a) = true) by (cbn [holds_rcv]; apply Nat.eqb_refl).
  destruct (R B i _ a Hi Ha) as (l & El & Eh & _). clear R B Ha.
  assert (NC : forall s1 e, s_links s1 = s_links s -> option_map rc_handle (nth_error (s_rcvs s1) a) = Some (rc_handle l) ->
            forall q, ebind (rcv_close a (Some e) s1) (fun s2 => EOk (s2, ANone)) = EPanic q -> False).
  { intros s1 e E1 E2 q1 H. destruct (rcv_close a (Some e) s1) as [s2|q2] eqn:C; [discriminate|]. apply close_panics in C as [_ (h & (l1 & G1 & _ & G2) & G)].
    rewrite G1 in E2. cbn [option_map] in E2. apply Some_inj in E2. destruct G as [x G]. rewrite E1, <- G2, E2, Eh, Hi in G. discriminate G. }
  unfold rcv_transfer. cbv zeta. rewrite El.
  destruct (rc_credit l =? 0). { intros H. exfalso. eapply NC; [| |exact H]; [reflexivity | rewrite El; reflexivity]. }
  set (s1 := if transfer_more (tr_head tr) then s else upd_rcv a (set_rc_credit (rc_credit l - 1)) s).
  assert (L1 : s_links s1 = s_links s) by (subst s1; destruct (transfer_more (tr_head tr)); frw; reflexivity).
  assert (U : forall f s2, (forall l, rc_handle (f l) = rc_handle l) -> option_map rc_handle (nth_error (s_rcvs s2) a) = Some (rc_handle l) ->
            option_map rc_handle (nth_error (s_rcvs (upd_rcv a f s2)) a) = Some (rc_handle l)).
  { intros f s2 Hf H2. unfold upd_rcv. destruct (nth_error (s_rcvs s2) a) as [l2|] eqn:E2; [|discriminate].
    cbn [option_map] in *. st_cbn. rewrite nth_set_nth_eq by (apply nth_error_Some; congruence). cbn [option_map]. rewrite Hf. exact H2. }
  assert (H1 : option_map rc_handle (nth_error (s_rcvs s1) a) = Some (rc_handle l)).
  { subst s1. destruct (transfer_more (tr_head tr)); [|apply U; [reflexivity|]]; rewrite El; reflexivity. }
  destruct (rc_partial l) as [body|].
  - match goal with |- context [if ?b then _ else _] => destruct b end.
    { intros H. exfalso. eapply NC; [| |exact H]; assumption. }
    match goal with |- context [match ?m with None => _ | Some _ => _ end] => destruct m end;
      [|intros H; exfalso; eapply NC; [| |exact H]; assumption].
    destruct (transfer_more (tr_head tr)); [discriminate|].
    destruct (checked_add p (rc_dc l) 1) eqn:E; [|cbn [ebind]; intros [= <-]; apply add_panics in E as (-> & -> & H); eauto 8].
    cbn [ebind]. destruct (rev (rc_queue l)) as [|[d first] prev]; [|discriminate].
    intros H. exfalso. eapply NC; [| |exact H]; [frw; assumption | apply U; [reflexivity|assumption]].
  - destruct (transfer_delivery_id (tr_head tr)); [|intros H; exfalso; eapply NC; [| |exact H]; assumption].
    destruct (transfer_more (tr_head tr)).
    { match goal with |- context [let '(_, _) := ?m in _] => destruct m end. discriminate. }
    destruct (checked_add p (rc_dc l) 1) eqn:E; [|cbn [ebind]; intros [= <-]; apply add_panics in E as (-> & -> & H); eauto 8].
    cbn [ebind]. match goal with |- context [let '(_, _) := ?m in _] => destruct m end. discriminate.
Qed.

(** ** All events *)
Lemma only : forall p e s q, reachable p s -> few_links s -> step p e s = EPanic q -> panics p s e q.
Proof.
  intros p e s q Rs F H. pose proof (lk_reachable _ _ Rs) as LI. destruct e; cbn [step] in H; try discriminate H;
    try solve [repeat match type of H with context [match ?m with _ => _ end] => destruct m end; discriminate H].
  - destruct (ses_handle_frame p f s) as [[s1 r]|q1] eqn:E; [discriminate|]. cbn [ebind] in H. injection H as <-.
    unfold ses_handle_frame in E. destruct (s_error s) eqn:Er; [discriminate|]. destruct f; try discriminate E.
    + repeat match type of E with context [match ?m with _ => _ end] => destruct m end; discriminate E.
    + destruct (map_get _ _) as [i|] eqn:Em; [|discriminate]. destruct (slab_get (s_links s) i) as [[]|] eqn:Es; try discriminate E.
      unfold emap in E. match type of E with context [rcv_transfer p ?t ?x s] => destruct (rcv_transfer p t x s) as [[]|] eqn:T end; [discriminate|].
      injection E as <-. destruct (transfer_panics _ _ _ _ _ _ LI F Es T) as (Dp & Dq & Hm & l & Hl & Hd). subst. eapply pn_count; eauto.
    + destruct (handle_detach _ s). discriminate E.
  - unfold noobs, emap, ses_detach_receiver in H. cbv beta iota zeta delta [new_chan] in H.
    match type of H with context [detach_receiver ?a ?b ?c ?d ?x] => destruct (detach_receiver a b c d x) eqn:E end; [discriminate|].
    injection H as <-. apply detach_panics in E as [A ->]. apply pn_detach. eapply attaching_same; [|exact A]. reflexivity.
  - unfold noobs, emap in H. destruct (set_link_credit p a n s) eqn:E; [discriminate|]. injection H as <-.
    apply credit_panics in E as (-> & -> & l & El & Hl). eapply pn_credit; eauto.
  - unfold noobs, emap in H. destruct (rcv_close a e s) eqn:E; [discriminate|]. injection H as <-.
    apply close_panics in E as (-> & h & O & A). eapply pn_close; eauto.
  - destruct (nth_error (s_ctl s) i) as [[k|]|] eqn:Ek; try discriminate H. unfold noobs, emap in H.
    match type of H with context [control_ok ?a ?b ?c ?x] => destruct (control_ok a b c x) eqn:E end; [discriminate|]. injection H as <-.
    destruct k; try discriminate E; cbn [control_ok] in E.
    + apply accept_panics in E as (-> & l & El & V). eapply pn_accept; eauto.
    + apply credit_panics in E as (-> & -> & l & El & Hl).
      match type of El with nth_error (s_rcvs (confirm_receiver ?a ?r ?x)) _ = _ => pose proof (confirm_credit a r x a) as C end.
      rewrite El in C. cbn [option_map] in C. st_cbn_in C.
      match type of C with _ = option_map _ ?m => destruct m as [l0|] eqn:E0 end; [|discriminate]. cbn [option_map] in C. apply Some_inj in C.
      eapply pn_first_credit; [reflexivity | exact Ek | exact E0 | rewrite <- C; exact Hl].
  - destruct (nth_error (s_ctl s) i) as [[k|]|] eqn:Ek; try discriminate H. unfold noobs, emap in H.
    match type of H with context [control_err ?a ?b ?x] => destruct (control_err a b x) eqn:E end; [discriminate|]. injection H as <-.
    destruct k; try discriminate E; cbn [control_err] in E; apply close_panics in E as (-> & h & O & A);
      (eapply pn_refuse; [exact Ek | cbn [about_receiver]; reflexivity | exact O | exact A]).
Qed.

Lemma panics_do : forall p e s q, panics p s e q -> (forall tr, e <> EvFrame (FTransfer tr)) -> step p e s = EPanic q.
Proof.
  intros p e s q H N. destruct H; cbn [step].
  - elim (N _ eq_refl).
  - subst p. erewrite credit_overflows by eassumption. reflexivity.
  - subst p. unfold called in *. match goal with H : nth_error (s_ctl s) i = _ |- _ => rewrite H end. cbn [control_ok].
    match goal with |- context [confirm_receiver ?x ?y ?z] => pose proof (confirm_credit x y z a) as C end. st_cbn_in C.
    match goal with H : nth_error (s_rcvs s) a = _ |- _ => rewrite H in C end.
    match type of C with option_map _ ?m = _ => destruct m as [l0|] eqn:E0 end; [|discriminate]. cbn [option_map] in C. apply Some_inj in C.
    erewrite credit_overflows; [reflexivity | exact E0 | rewrite C; assumption].
  - unfold called in *. match goal with H : nth_error (s_ctl s) i = _ |- _ => rewrite H end. cbn [control_ok].
    erewrite accept_vacant; [reflexivity | |]; [|eassumption]. eassumption.
  - unfold ses_detach_receiver. cbv beta iota zeta delta [new_chan]. rewrite detach_attaching; [reflexivity|].
    eapply attaching_same; [|eassumption]. reflexivity.
  - erewrite close_attaching by eassumption. reflexivity.
  - unfold called in *. match goal with H : nth_error (s_ctl s) i = _ |- _ => rewrite H end.
    destruct k; cbn [about_receiver] in *; try contradiction; subst; cbn [control_err];
      (erewrite close_attaching; [reflexivity | |]; eassumption).
Qed.
