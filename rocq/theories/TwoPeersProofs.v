(** * Proofs about two peers *)

From Verif Require Import Base Engine State Session TwoPeers SpecTwoPeers.
From Coq Require Import Lia ZifyBool ZifyNat ZifyN.

Lemma wsub_exact dc0 l s : s <= l -> l - s < two32 -> wsub ((dc0 + l) mod two32) ((dc0 + s) mod two32) = l - s.
Proof.
  unfold wsub. intros H1 H2. rewrite N.mod_mod by discriminate.
  pose proof (N.div_mod (dc0 + l) two32 ltac:(discriminate)) as A.
  pose proof (N.mod_lt (dc0 + l) two32 ltac:(discriminate)) as A2.
  pose proof (N.div_mod (dc0 + s) two32 ltac:(discriminate)) as B.
  pose proof (N.mod_lt (dc0 + s) two32 ltac:(discriminate)) as B2.
  set (q1 := (dc0 + l) / two32) in *. set (r1 := (dc0 + l) mod two32) in *.
  set (q2 := (dc0 + s) / two32) in *. set (r2 := (dc0 + s) mod two32) in *.
  clearbody q1 r1 q2 r2. unfold two32 in *.
  assert (C : q1 = q2 \/ q1 = q2 + 1) by lia.
  symmetry. destruct C as [->| ->].
  - apply N.mod_unique with 1; lia.
  - apply N.mod_unique with 0; lia.
Qed.
Lemma wadd_mod dc0 a b : wadd ((dc0 + a) mod two32) b = (dc0 + (a + b)) mod two32.
Proof. unfold wadd. rewrite N.add_mod_idemp_l by discriminate. f_equal. lia. Qed.

(** ** The invariant *)

(** The limits announced by the flows on the way rise from the sender's to the
    receiver's. *)
Fixpoint chain (R : N -> N -> Prop) (dc0 lo : N) (flows : list (N * N)) (hi : N) : Prop :=
  match flows with
  | [] => R lo hi
  | (dc, n) :: flows => exists l, lo <= l /\ wadd dc n = (dc0 + l) mod two32 /\ chain R dc0 l flows hi
  end.
(** Each of the frames on the way will find credit. *)
Fixpoint welcome (frames : list bool) (credit : N) : Prop :=
  match frames with
  | [] => True
  | more :: frames => 0 < credit /\ welcome frames (if more then credit else credit - 1)
  end.
Definition lasts (frames : list bool) : N := N.of_nat (length (filter negb frames)).

Lemma chain_le (R : N -> N -> Prop) dc0 flows : (forall a b, R a b -> a <= b) -> forall lo hi, chain R dc0 lo flows hi -> lo <= hi.
Proof.
  intros HR. induction flows as [|[dc n] flows IH]; intros lo hi; cbn [chain]; [auto|].
  intros [l [A [_ C]]]. apply IH in C. lia.
Qed.
Lemma chain_snoc (R R' : N -> N -> Prop) dc0 flows f n : forall lo hi hi', chain R dc0 lo flows hi ->
  (forall a, R a hi -> a <= f + n) -> R' (f + n) hi' -> chain R' dc0 lo (flows ++ [((dc0 + f) mod two32, n)]) hi'.
Proof.
  induction flows as [|[dc m] flows IH]; intros lo hi hi' C A B; cbn [chain app] in *.
  - exists (f + n). repeat split; auto. apply wadd_mod.
  - destruct C as [l [C1 [C2 C3]]]. exists l. repeat split; auto. eapply IH; eauto.
Qed.
Lemma welcome_snoc frames more credit : welcome frames credit -> lasts frames + 1 <= credit -> welcome (frames ++ [more]) credit.
Proof.
  revert credit. induction frames as [|m frames IH]; intros credit W L; cbn [app welcome] in *.
  - cbn in L. split; [lia|]. exact I.
  - destruct W as [W1 W2]. split; [exact W1|]. apply IH; [exact W2|]. unfold lasts in *. cbn [filter] in L.
    destruct m; cbn [negb length] in *; lia.
Qed.
Lemma welcome_more frames credit credit' : credit <= credit' -> welcome frames credit -> welcome frames credit'.
Proof.
  revert credit credit'. induction frames as [|m frames IH]; intros credit credit' L W; cbn [welcome] in *; [exact I|].
  destruct W as [W1 W2]. split; [lia|]. eapply IH; [|exact W2]. destruct m; lia.
Qed.
Lemma lasts_snoc frames more : lasts (frames ++ [more]) = lasts frames + if more then 0 else 1.
Proof. unfold lasts. rewrite filter_app, app_length. destruct more; cbn; lia. Qed.

Record inv (R : N -> N -> Prop) (dc0 : N) (exact : bool) (x : pair) (s f : N) : Prop := {
  iv_dc : pr_dc x = (dc0 + s) mod two32;
  iv_rdc : pr_rdc x = (dc0 + f) mod two32;
  iv_chain : chain R dc0 (s + pr_credit x) (pr_flows x) (f + pr_rcredit x);
  iv_small : pr_rcredit x < two32;
  iv_count : f + lasts (pr_frames x) + pr_open x <= s;
  iv_exact : exact = true -> f + lasts (pr_frames x) + pr_open x = s;
  iv_welcome : welcome (pr_frames x) (pr_rcredit x);
  iv_fine : pr_exceeded x = false
}.

Ltac nlia := repeat match goal with H : context [_ mod _] |- _ => clear H end; lia.

Lemma inv_step (R ok : N -> N -> Prop) dc0 exact e x s f :
  (forall a b, R a b -> a <= b) -> (forall a, R a a) ->
  (forall f c n, ok c n -> (forall a, R a (f + c) -> a <= f + n) /\ R (f + n) (f + c + n)) ->
  inv R dc0 exact x s f ->
  match e with PGrant n => ok (pr_rcredit x) n /\ pr_rcredit x + n < 2 ^ 32 | _ => True end ->
  (exact = true -> e <> PAbandon) ->
  exists s' f', inv R dc0 exact (pair_step e x) s' f'.
Proof.
  intros RL RR OK [D RD CH SM CN EX WE FI] G NAB.
  pose proof (chain_le R dc0 _ RL _ _ CH) as LE.
  destruct e as [|more| | |n|]; cbn [pair_step].
  - (* send *)
    destruct (pr_credit x =? 0) eqn:Z; [exists s, f; constructor; auto|].
    exists (s + 1), f. constructor; cbn; auto; try nlia.
    + rewrite D, wadd_mod. reflexivity.
    + replace (s + 1 + (pr_credit x - 1)) with (s + pr_credit x) by nlia. exact CH.
  - (* frame *)
    destruct (pr_open x =? 0) eqn:Z; [exists s, f; constructor; auto|].
    exists s, f. constructor; cbn; auto; rewrite ?lasts_snoc.
    + destruct more; nlia.
    + intros E. specialize (EX E). destruct more; nlia.
    + apply welcome_snoc; [exact WE|]. nlia.
  - (* abandon *)
    exists s, f. constructor; cbn; auto; [nlia|]. intros E. elim (NAB E eq_refl).
  - (* flow *)
    destruct (pr_flows x) as [|[dc n] flows] eqn:FL; [exists s, f; constructor; auto; rewrite FL; exact CH|].
    cbn [chain] in CH. destruct CH as [l [C1 [C2 C3]]].
    pose proof (chain_le R dc0 _ RL _ _ C3) as LE3.
    assert (W : wsub (wadd dc n) (pr_dc x) = l - s).
    { rewrite C2, D. apply wsub_exact; nlia. }
    exists s, f. constructor; cbn; auto. rewrite W. replace (s + (l - s)) with l by nlia. exact C3.
  - (* grant *)
    destruct G as [G1 G2]. change (2 ^ 32) with two32 in G2. destruct (OK f _ _ G1) as [O1 O2].
    assert (W : wadd (pr_rcredit x) n = pr_rcredit x + n) by (unfold wadd; apply N.mod_small; exact G2).
    exists s, f. constructor; cbn; rewrite ?W; auto.
    + rewrite RD. eapply chain_snoc; [exact CH|exact O1|]. replace (f + (pr_rcredit x + n)) with (f + pr_rcredit x + n) by nlia. exact O2.
    + eapply welcome_more; [|exact WE]. nlia.
  - (* receive *)
    destruct (pr_frames x) as [|more frames] eqn:FR; [exists s, f; constructor; auto; rewrite FR; auto|].
    cbn [welcome] in WE. destruct WE as [W1 W2]. destruct (pr_rcredit x =? 0) eqn:Z; [nlia|].
    unfold lasts in CN, EX. cbn [filter] in CN, EX.
    destruct more; cbn [negb length] in CN, EX.
    + exists s, f. constructor; cbn; auto; unfold lasts; auto.
    + exists s, (f + 1). constructor; cbn; auto; unfold lasts; try nlia.
      * rewrite RD, wadd_mod. reflexivity.
      * replace (f + 1 + (pr_rcredit x - 1)) with (f + pr_rcredit x) by nlia. exact CH.
Qed.

Lemma inv_init (R : N -> N -> Prop) dc0 exact : (forall a, R a a) -> dc0 < two32 -> inv R dc0 exact (pair_init dc0) 0 0.
Proof.
  intros RR L. constructor; cbn; auto; try nlia; rewrite ?N.add_0_r, ?N.mod_small by exact L; auto.
Qed.
Lemma inv_run (R ok : N -> N -> Prop) dc0 exact h : (forall a b, R a b -> a <= b) -> (forall a, R a a) ->
  (forall f c n, ok c n -> (forall a, R a (f + c) -> a <= f + n) /\ R (f + n) (f + c + n)) ->
  forall x s f, inv R dc0 exact x s f -> grants ok h x -> (exact = true -> no_abandon h) ->
  exists s' f', inv R dc0 exact (pair_run h x) s' f'.
Proof.
  intros RL RR OK. induction h as [|e h IH]; intros x s f I G NAB; cbn [pair_run]; [eauto|].
  destruct G as [G1 G2].
  destruct (inv_step R ok dc0 exact e x s f RL RR OK I G1) as [s' [f' I']].
  { intros E. specialize (NAB E). inversion NAB; assumption. }
  eapply IH; [exact I'|exact G2|]. intros E. specialize (NAB E). inversion NAB; assumption.
Qed.

Lemma never_exceeded dc0 h : dc0 < 2 ^ 32 -> grants (fun credit n => credit <= n) h (pair_init dc0) ->
  ~ exceeded (pair_run h (pair_init dc0)).
Proof.
  intros L G. change (2 ^ 32) with two32 in L.
  destruct (inv_run N.le (fun credit n => credit <= n) dc0 false h) with (x := pair_init dc0) (s := 0) (f := 0) as [s [f I]]; auto.
  - intros. reflexivity.
  - intros f c n H. split; [intros a A; nlia|nlia].
  - apply inv_init; [reflexivity|exact L].
  - discriminate.
  - unfold exceeded. rewrite (iv_fine _ _ _ _ _ _ I). discriminate.
Qed.
Lemma grants_weaken (ok ok' : N -> N -> Prop) h : (forall c n, ok c n -> ok' c n) -> forall x, grants ok h x -> grants ok' h x.
Proof.
  intros W. induction h as [|e h IH]; intros x; cbn [grants]; [auto|]. intros [A B]. split; [|apply IH, B].
  destruct e; auto. destruct A as [A1 A2]. auto.
Qed.
Lemma agree dc0 h : dc0 < 2 ^ 32 -> grants (fun credit _ => credit = 0) h (pair_init dc0) -> no_abandon h ->
  quiet (pair_run h (pair_init dc0)) ->
  pr_credit (pair_run h (pair_init dc0)) = pr_rcredit (pair_run h (pair_init dc0)).
Proof.
  intros L G NAB [Q1 [Q2 Q3]]. change (2 ^ 32) with two32 in L.
  destruct (inv_run eq (fun credit _ => credit = 0) dc0 true h) with (x := pair_init dc0) (s := 0) (f := 0) as [s [f I]]; auto.
  - intros a b ->. reflexivity.
  - intros f c n ->. split; [intros a ->; nlia|nlia].
  - apply inv_init; [reflexivity|exact L].
  - pose proof (iv_chain _ _ _ _ _ _ I) as C. pose proof (iv_exact _ _ _ _ _ _ I eq_refl) as E.
    rewrite Q1, Q3 in E. rewrite Q2 in C. cbn in C, E. nlia.
Qed.

