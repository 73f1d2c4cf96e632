(** * Lemmas about bytes, big-endian integers and slices *)

From Verif Require Import Base.
From Coq Require Import ZifyBool ZifyNat ZifyN.
Ltac Zify.zify_post_hook ::= Z.div_mod_to_equations.

Arguments N.add : simpl never.
Arguments N.sub : simpl never.
Arguments N.mul : simpl never.
Arguments N.div : simpl never.
Arguments N.modulo : simpl never.
Arguments N.pow : simpl never.
Arguments N.eqb : simpl never.
Arguments N.ltb : simpl never.
Arguments N.leb : simpl never.
Arguments N.of_nat : simpl never.
Arguments N.to_nat : simpl never.
Arguments Z.add : simpl never.
Arguments Z.sub : simpl never.
Arguments Z.mul : simpl never.
Arguments Z.pow : simpl never.
Arguments Z.modulo : simpl never.

Lemma blen_app a b : blen (a ++ b) = blen a + blen b.
Proof. unfold blen. rewrite app_length. lia. Qed.

Lemma blen_cons x a : blen (x :: a) = 1 + blen a.
Proof. unfold blen. cbn [length]. lia. Qed.

Lemma blen_nil : blen [] = 0.
Proof. reflexivity. Qed.

Lemma to_N_lt b : Byte.to_N b < 256.
Proof. pose proof (Byte.to_N_bounded b). lia. Qed.

Lemma byte_of_to_N n : Byte.to_N (byte_of n) = n mod 256.
Proof.
  unfold byte_of. destruct (Byte.of_N (n mod 256)) eqn:E.
  - apply Byte.to_of_N in E. exact E.
  - apply Byte.of_N_None_iff in E. pose proof (N.mod_lt n 256). lia.
Qed.

Lemma byte_of_small n : n < 256 -> Byte.to_N (byte_of n) = n.
Proof. intros H. rewrite byte_of_to_N. apply N.mod_small. exact H. Qed.

Lemma to_N_inj a b : Byte.to_N a = Byte.to_N b -> a = b.
Proof. intros H. pose proof (Byte.of_to_N a). pose proof (Byte.of_to_N b). congruence. Qed.

Lemma byte_of_of b : byte_of (Byte.to_N b) = b.
Proof.
  apply to_N_inj. rewrite byte_of_small; [reflexivity|apply to_N_lt].
Qed.

Lemma length_be k n : length (be k n) = k.
Proof.
  revert n. induction k as [|k IH]; intros n; cbn [be]; [reflexivity|].
  rewrite app_length, IH. cbn. lia.
Qed.

Lemma blen_be k n : blen (be k n) = N.of_nat k.
Proof. unfold blen. rewrite length_be. reflexivity. Qed.

Lemma be_val_app a b :
  be_val (a ++ b) = be_val a * 256 ^ N.of_nat (length b) + be_val b.
Proof.
  unfold be_val. rewrite fold_left_app.
  generalize (fold_left (fun acc x => acc * 256 + Byte.to_N x) a 0). intros acc.
  revert acc. induction b as [|x b IH] using rev_ind; intros acc.
  - cbn. rewrite N.pow_0_r. lia.
  - rewrite !fold_left_app. cbn [fold_left]. rewrite (IH acc).
    rewrite app_length. cbn [length].
    replace (N.of_nat (length b + 1)) with (N.succ (N.of_nat (length b))) by lia.
    rewrite N.pow_succ_r by lia. lia.
Qed.

Lemma be_val_nil : be_val [] = 0.
Proof. reflexivity. Qed.
Lemma be_val_one x : be_val [x] = Byte.to_N x.
Proof. unfold be_val. cbn. lia. Qed.

Lemma be_val_lt b : be_val b < 256 ^ N.of_nat (length b).
Proof.
  induction b as [|x b IH] using rev_ind.
  - cbn. lia.
  - rewrite be_val_app, be_val_one, app_length. cbn [length].
    replace (N.of_nat (length b + 1)) with (N.succ (N.of_nat (length b))) by lia.
    rewrite N.pow_succ_r by lia. change (N.of_nat 1) with 1. rewrite N.pow_1_r.
    pose proof (to_N_lt x). nia.
Qed.

Lemma be_val_be k n : be_val (be k n) = n mod 256 ^ N.of_nat k.
Proof.
  revert n. induction k as [|k IH]; intros n; cbn [be].
  - rewrite N.mod_1_r. reflexivity.
  - rewrite be_val_app, be_val_one, IH, byte_of_to_N.
    cbn [length]. change (N.of_nat 1) with 1. rewrite N.pow_1_r.
    replace (N.of_nat (S k)) with (N.succ (N.of_nat k)) by lia.
    rewrite N.pow_succ_r by lia.
    rewrite (N.mod_mul_r n 256) by (try apply N.pow_nonzero; lia). lia.
Qed.

Lemma be_val_be_small k n : n < 256 ^ N.of_nat k -> be_val (be k n) = n.
Proof. intros H. rewrite be_val_be. apply N.mod_small. exact H. Qed.

Lemma be_be_val b : be (length b) (be_val b) = b.
Proof.
  induction b as [|x b IH] using rev_ind; [reflexivity|].
  rewrite app_length. cbn [length]. replace (length b + 1)%nat with (S (length b)) by lia.
  cbn [be]. rewrite be_val_app, be_val_one. cbn [length].
  change (N.of_nat 1) with 1. rewrite N.pow_1_r.
  pose proof (to_N_lt x) as Hx.
  replace ((be_val b * 256 + Byte.to_N x) / 256) with (be_val b) by lia.
  rewrite IH. f_equal. f_equal. apply to_N_inj.
  rewrite byte_of_to_N. lia.
Qed.

Lemma be_inj k n m : n < 256 ^ N.of_nat k -> m < 256 ^ N.of_nat k -> be k n = be k m -> n = m.
Proof.
  intros Hn Hm H. rewrite <- (be_val_be_small k n Hn), <- (be_val_be_small k m Hm). congruence.
Qed.

Lemma pow256 k : 256 ^ N.of_nat k = N.of_nat (Nat.pow 256 k) .
Proof. rewrite Nat2N.inj_pow. reflexivity. Qed.

Lemma two_pow_8 k : (2 ^ (8 * Z.of_nat k) = Z.of_N (256 ^ N.of_nat k))%Z.
Proof.
  rewrite N2Z.inj_pow. rewrite nat_N_Z. change (Z.of_N 256) with (2 ^ 8)%Z.
  rewrite <- Z.pow_mul_r by lia. reflexivity.
Qed.

Lemma signed_roundtrip k z :
  (0 < k)%nat ->
  (- 2 ^ (8 * Z.of_nat k - 1) <= z < 2 ^ (8 * Z.of_nat k - 1))%Z ->
  signed_val k (be_signed k z) = z.
Proof.
  intros Hk Hz. unfold signed_val, be_signed.
  set (M := (2 ^ (8 * Z.of_nat k))%Z) in *.
  assert (HM : M = (2 * 2 ^ (8 * Z.of_nat k - 1))%Z).
  { unfold M. rewrite <- Z.pow_succ_r by lia. f_equal. lia. }
  assert (HM2 : Z.of_N (256 ^ N.of_nat k) = M) by (unfold M; rewrite two_pow_8; reflexivity).
  assert (Hpos : (0 < M)%Z) by (unfold M; apply Z.pow_pos_nonneg; lia).
  pose proof (Z.mod_pos_bound z M Hpos) as Hb.
  rewrite be_val_be_small by lia.
  rewrite Z2N.id by lia.
  set (H2 := (2 ^ (8 * Z.of_nat k - 1))%Z) in *. clearbody H2 M.
  destruct (Z.ltb_spec (z mod M) H2).
  - destruct (Z.lt_ge_cases z 0).
    + assert (z mod M = z + M)%Z by (symmetry; apply Z.mod_unique with (q := (-1)%Z); lia). lia.
    + apply Z.mod_small. lia.
  - destruct (Z.lt_ge_cases z 0).
    + assert (z mod M = z + M)%Z by (symmetry; apply Z.mod_unique with (q := (-1)%Z); lia). lia.
    + assert (z mod M = z)%Z by (apply Z.mod_small; lia). lia.
Qed.

Lemma signed_val_range k b :
  (0 < k)%nat -> length b = k ->
  (- 2 ^ (8 * Z.of_nat k - 1) <= signed_val k b < 2 ^ (8 * Z.of_nat k - 1))%Z.
Proof.
  intros Hk Hl. unfold signed_val.
  pose proof (be_val_lt b) as Hb. rewrite Hl in Hb.
  assert (HM : (2 ^ (8 * Z.of_nat k) = 2 * 2 ^ (8 * Z.of_nat k - 1))%Z).
  { rewrite <- Z.pow_succ_r by lia. f_equal. lia. }
  pose proof (two_pow_8 k) as H8.
  set (H2 := (2 ^ (8 * Z.of_nat k - 1))%Z) in *.
  set (M := (2 ^ (8 * Z.of_nat k))%Z) in *. clearbody H2 M.
  destruct (Z.ltb_spec (Z.of_N (be_val b)) H2); lia.
Qed.

(** ** beqb *)
Lemma byte_eqb_eq a b : Byte.eqb a b = true <-> a = b.
Proof. split; [apply Byte.byte_dec_bl|apply Byte.byte_dec_lb]. Qed.

Lemma beqb_eq a b : beqb a b = true <-> a = b.
Proof.
  revert b. induction a as [|x a IH]; intros [|y b]; cbn [beqb]; split; intros H; try congruence.
  - apply andb_true_iff in H. destruct H as [H1 H2].
    apply byte_eqb_eq in H1. apply IH in H2. congruence.
  - injection H as -> ->. rewrite (proj2 (byte_eqb_eq y y) eq_refl). apply IH. reflexivity.
Qed.

Lemma beqb_refl a : beqb a a = true.
Proof. apply beqb_eq. reflexivity. Qed.

Lemma beqb_neq a b : beqb a b = false <-> a <> b.
Proof.
  destruct (beqb a b) eqn:E; split; intros H; try congruence.
  - apply beqb_eq in E. congruence.
  - intros ->. rewrite beqb_refl in E. congruence.
Qed.

(** ** Slices *)
Lemma check_len_ok n inp : n <= blen inp -> check_len n inp = Ok tt.
Proof. intros H. unfold check_len. destruct (N.ltb_spec (blen inp) n); [lia|reflexivity]. Qed.

Lemma split_to_app a b : split_to (blen a) (a ++ b) = Ok (a, b).
Proof.
  unfold split_to. rewrite blen_app.
  destruct (N.leb_spec (blen a) (blen a + blen b)); [|lia].
  unfold blen. rewrite Nat2N.id, firstn_app, firstn_all, Nat.sub_diag.
  rewrite skipn_app, skipn_all, Nat.sub_diag. cbn. rewrite app_nil_r. reflexivity.
Qed.

Lemma split_to_app' n a b : n = blen a -> split_to n (a ++ b) = Ok (a, b).
Proof. intros ->. apply split_to_app. Qed.

Lemma advance_app' n a b : n = blen a -> advance n (a ++ b) = Ok b.
Proof.
  intros ->. unfold advance. rewrite blen_app.
  destruct (N.leb_spec (blen a) (blen a + blen b)); [|lia].
  unfold blen. rewrite Nat2N.id.
  rewrite skipn_app, skipn_all, Nat.sub_diag. reflexivity.
Qed.

Lemma split_to_inv n inp a b :
  split_to n inp = Ok (a, b) -> inp = a ++ b /\ blen a = n.
Proof.
  unfold split_to. destruct (N.leb_spec n (blen inp)) as [H|H]; intros E; [|discriminate].
  injection E as <- <-. split; [symmetry; apply firstn_skipn|].
  unfold blen in *. rewrite firstn_length. lia.
Qed.

Lemma split_to_total n inp : n <= blen inp -> exists a b, split_to n inp = Ok (a, b).
Proof.
  intros H. unfold split_to. destruct (N.leb_spec n (blen inp)); [eauto|lia].
Qed.

Lemma utf8_nil : utf8_valid [] = true.
Proof. reflexivity. Qed.
