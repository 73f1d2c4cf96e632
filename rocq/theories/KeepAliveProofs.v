(** * Proofs about keep-alive *)

From Coq Require Import ZArith Floats.SpecFloat.
From Verif Require Import Handshake KeepAlive SpecKeepAlive.
From Coq Require Import ZifyBool ZifyNat ZifyN Lia.
Open Scope Z_scope.

(** ** Rounding keeps powers of two below a number below it *)

Lemma digits_log2 p : Zpos (digits2_pos p) = Z.log2 (Zpos p) + 1.
Proof.
  induction p as [p IH|p IH|]; cbn [digits2_pos]; [| |reflexivity].
  - rewrite Pos2Z.inj_succ, IH. replace (Zpos p~1) with (2 * Zpos p + 1) by lia.
    rewrite Z.log2_succ_double by lia. lia.
  - rewrite Pos2Z.inj_succ, IH. replace (Zpos p~0) with (2 * Zpos p) by lia.
    rewrite Z.log2_double by lia. lia.
Qed.
Lemma Zdigits_log2 m : 0 < m -> Zdigits2 m = Z.log2 m + 1.
Proof. destruct m as [|p|p]; intros H; try lia. cbn [Zdigits2]. apply digits_log2. Qed.

Lemma shr_1_half r : 0 <= shr_m r -> shr_m (shr_1 r) = shr_m r / 2.
Proof.
  destruct r as [m b s]. cbn [shr_m shr_1]. intros H. destruct m as [|[p|p|]|p]; cbn [shr_m]; try reflexivity; try lia.
Qed.
Lemma shr_iter p : forall r, 0 <= shr_m r -> shr_m (SpecFloat.iter_pos shr_1 p r) = shr_m r / 2 ^ Zpos p.
Proof.
  induction p as [p IH|p IH|]; intros r H; cbn [SpecFloat.iter_pos].
  - assert (H1 : 0 <= shr_m (shr_1 r)) by (rewrite shr_1_half by exact H; apply Z.div_pos; lia).
    assert (H2 : 0 <= shr_m (SpecFloat.iter_pos shr_1 p (shr_1 r))).
    { rewrite IH by exact H1. apply Z.div_pos; [exact H1|]. apply Z.pow_pos_nonneg; lia. }
    rewrite IH, IH, shr_1_half by assumption.
    rewrite !Z.div_div by (try apply Z.pow_nonzero; try apply Z.mul_pos_pos; try apply Z.pow_pos_nonneg; lia).
    f_equal. replace (Zpos p~1) with (1 + Zpos p + Zpos p) by lia. rewrite !Z.pow_add_r, Z.pow_1_r by lia. ring.
  - assert (H2 : 0 <= shr_m (SpecFloat.iter_pos shr_1 p r)).
    { rewrite IH by exact H. apply Z.div_pos; [exact H|]. apply Z.pow_pos_nonneg; lia. }
    rewrite IH, IH by assumption.
    rewrite !Z.div_div by (try apply Z.pow_nonzero; try apply Z.pow_pos_nonneg; lia).
    f_equal. replace (Zpos p~0) with (Zpos p + Zpos p) by lia. rewrite !Z.pow_add_r by lia. reflexivity.
  - rewrite shr_1_half by exact H. reflexivity.
Qed.
Lemma log2_div m k : 0 < m -> 0 <= k <= Z.log2 m -> Z.log2 (m / 2 ^ k) = Z.log2 m - k.
Proof.
  intros H K. rewrite <- Z.shiftr_div_pow2 by lia. rewrite Z.log2_shiftr by exact H. lia.
Qed.

Lemma record_m m l : shr_m (shr_record_of_loc m l) = m.
Proof. destruct l as [|[]]; reflexivity. Qed.

Lemma shr_fexp_lg m e l : 0 < m -> 0 <= Z.log2 m + e ->
  let (r, e') := shr_fexp 24 128 m e l in 0 < shr_m r /\ Z.log2 (shr_m r) + e' = Z.log2 m + e.
Proof.
  intros H L. unfold shr_fexp. rewrite Zdigits_log2 by exact H. unfold fexp, emin.
  set (k := Z.max _ _ - e).
  assert (K : k = Z.log2 m - 23) by (subst k; lia). clearbody k.
  unfold shr. destruct k as [|k|k]; rewrite ?record_m; [auto| |auto].
  rewrite shr_iter; rewrite record_m; [|lia].
  assert (L2 : Z.log2 (m / 2 ^ Zpos k) = Z.log2 m - Zpos k) by (apply log2_div; lia).
  split; [|lia].
  assert (D : 0 <= m / 2 ^ Zpos k) by (apply Z.div_pos; [lia|apply Z.pow_pos_nonneg; lia]).
  destruct (Z.eq_dec (m / 2 ^ Zpos k) 0) as [E|E]; [|lia]. rewrite E in L2. cbn in L2. lia.
Qed.

Definition above (j : Z) (x : spec_float) : Prop :=
  match x with
  | S754_finite false m e => j <= Z.log2 (Zpos m) + e
  | S754_infinity false => True
  | _ => False
  end.

Lemma round_above m e l j : 0 < m -> 0 <= j <= Z.log2 m + e -> above j (binary_round_aux 24 128 false m e l).
Proof.
  intros H J. unfold binary_round_aux.
  pose proof (shr_fexp_lg m e l H ltac:(lia)) as A. destruct (shr_fexp 24 128 m e l) as [r e1]. destruct A as [A1 A2].
  set (m1 := round_nearest_even (shr_m r) (loc_of_shr_record r)).
  assert (M : shr_m r <= m1).
  { subst m1. unfold round_nearest_even. destruct (loc_of_shr_record r) as [|[]]; try lia. destruct (Z.even (shr_m r)); lia. }
  pose proof (Z.log2_le_mono _ _ M) as LM. clearbody m1.
  pose proof (shr_fexp_lg m1 e1 loc_Exact ltac:(lia) ltac:(lia)) as B.
  destruct (shr_fexp 24 128 m1 e1 loc_Exact) as [r2 e2]. destruct B as [B1 B2].
  destruct (shr_m r2) as [|m2|m2]; [lia| |lia].
  destruct (e2 <=? 128 - 24); cbn [above]; [lia|exact I].
Qed.

Lemma shift_pos_log d m : Z.log2 (Zpos (shift_pos d m)) = Z.log2 (Zpos m) + Zpos d.
Proof.
  rewrite shift_pos_correct.
  replace (Z.pow_pos 2 d) with (2 ^ Zpos d) by reflexivity.
  rewrite Z.mul_comm, Z.log2_mul_pow2 by lia. lia.
Qed.
Lemma of_u32_above x j : 0 <= j -> 2 ^ j <= Z.of_N x -> above j (f32_of_u32 x).
Proof.
  intros J H. unfold f32_of_u32. assert (P : 0 < Z.of_N x) by (assert (0 < 2 ^ j) by (apply Z.pow_pos_nonneg; lia); lia).
  destruct (Z.of_N x) as [|m|m]; try lia. cbn [binary_normalize]. unfold binary_round, shl_align.
  assert (L : j <= Z.log2 (Zpos m)) by (apply Z.log2_le_pow2; lia).
  destruct (_ - 0) as [|d|d] eqn:E.
  - apply round_above; lia.
  - apply round_above; lia.
  - apply round_above; [lia|]. rewrite shift_pos_log. lia.
Qed.
Lemma mul_above x y i j : 0 <= i + j -> above i x -> 0 <= i ->
  match y with S754_finite false m e => Z.log2 (Zpos m) + e = j | _ => False end ->
  above (i + j) (SFmul 24 128 x y).
Proof.
  intros S X I0 Y. destruct y as [| | |[] my ey]; try contradiction.
  destruct x as [|[]| |[] mx ex]; try contradiction; cbn [SFmul xorb above] in *; [exact I|].
  apply round_above; [lia|]. rewrite Pos2Z.inj_mul.
  pose proof (Z.log2_mul_below (Zpos mx) (Zpos my) ltac:(lia) ltac:(lia)). lia.
Qed.
Lemma div_above x y i j : above i x -> 0 <= i - j ->
  match y with S754_finite false m e => Z.log2 (Zpos m) + e < j | _ => False end ->
  above (i - j) (SFdiv 24 128 x y).
Proof.
  intros X S Y. destruct y as [| | |[] my ey]; try contradiction.
  destruct x as [|[]| |[] mx ex]; try contradiction; cbn [SFdiv xorb above] in *; [exact I|].
  unfold SFdiv_core_binary. rewrite !Zdigits_log2 by lia. unfold fexp, emin.
  set (e' := Z.min _ _).
  assert (E' : e' <= ex - ey /\ e' <= Z.max (Z.log2 (Zpos mx) + 1 + ex - (Z.log2 (Zpos my) + 1 + ey) - 24) (3 - 128 - 24))
    by (subst e'; lia).
  clearbody e'. set (s := ex - ey - e').
  replace (match s with Z0 => Zpos mx | Zpos _ => Z.shiftl (Zpos mx) s | Zneg _ => 0 end) with (Zpos mx * 2 ^ s).
  2: { assert (0 <= s) by (subst s; lia). destruct s as [|k|k] eqn:Es; [apply Z.mul_1_r| |lia].
       rewrite Z.shiftl_mul_pow2 by lia. reflexivity. }
  pose proof (Z_div_mod (Zpos mx * 2 ^ s) (Zpos my) ltac:(lia)) as D.
  destruct (Z.div_eucl (Zpos mx * 2 ^ s) (Zpos my)) as [q r]. destruct D as [D R].
  (* q >= 2 ^ (log2 mx + s - log2 my - 1) *)
  assert (Q : 2 ^ (Z.log2 (Zpos mx) + s - (Z.log2 (Zpos my) + 1)) <= q).
  { assert (0 <= s) by (subst s; lia).
    assert (A : 2 ^ (Z.log2 (Zpos mx) + s) <= Zpos mx * 2 ^ s).
    { rewrite Z.pow_add_r by (try apply Z.log2_nonneg; lia).
      apply Z.mul_le_mono_nonneg_r; [apply Z.pow_nonneg; lia|]. apply Z.log2_spec. lia. }
    assert (B : Zpos my < 2 ^ (Z.log2 (Zpos my) + 1)).
    { pose proof (Z.log2_spec (Zpos my) ltac:(lia)). replace (Z.log2 (Zpos my) + 1) with (Z.succ (Z.log2 (Zpos my))) by lia. lia. }
    set (a := Z.log2 (Zpos mx) + s) in *. set (b := Z.log2 (Zpos my) + 1) in *.
    assert (AB : 0 <= a - b) by (subst a b s; lia).
    assert (PW : 2 ^ a = 2 ^ (a - b) * 2 ^ b).
    { rewrite <- Z.pow_add_r by (try lia; subst b; pose proof (Z.log2_nonneg (Zpos my)); lia). f_equal. lia. }
    assert (PP : 0 < 2 ^ (a - b)) by (apply Z.pow_pos_nonneg; lia).
    destruct (Z.lt_ge_cases q (2 ^ (a - b))) as [LT|GE]; [|exact GE]. exfalso.
    assert (Zpos mx * 2 ^ s < 2 ^ (a - b) * Zpos my).
    { rewrite D. clear - R LT. nia. }
    assert (2 ^ (a - b) * Zpos my < 2 ^ (a - b) * 2 ^ b) by (apply Z.mul_lt_mono_pos_l; assumption).
    clear - A PW H0 H1. lia. }
  assert (AB : 0 <= Z.log2 (Zpos mx) + s - (Z.log2 (Zpos my) + 1)) by (subst s; lia).
  assert (QP : 0 < q).
  { assert (0 < 2 ^ (Z.log2 (Zpos mx) + s - (Z.log2 (Zpos my) + 1))) by (apply Z.pow_pos_nonneg; lia). lia. }
  apply round_above; [exact QP|].
  apply Z.log2_le_pow2 in Q; [|exact QP]. subst s. lia.
Qed.
Lemma to_usize_above x : above 0 x -> (1 <= f32_to_usize x)%N.
Proof.
  destruct x as [|[]| |[] m e]; cbn [above f32_to_usize]; try contradiction; intros H; [vm_compute; discriminate|].
  assert (1 <= if 0 <=? e then Zpos m * 2 ^ e else Zpos m / 2 ^ (- e)) as L.
  { destruct (0 <=? e) eqn:E.
    - assert (0 < 2 ^ e) by (apply Z.pow_pos_nonneg; lia). nia.
    - apply Z.div_le_lower_bound; [apply Z.pow_pos_nonneg; lia|]. rewrite Z.mul_1_r.
      apply Z.log2_le_pow2; lia. }
  set (v := if 0 <=? e then _ else _) in *. clearbody v. change (2 ^ 64 - 1)%N with 18446744073709551615%N. lia.
Qed.

(** ** Large and small time-outs *)
Lemma large_secs x : (2048 <= x)%N -> (1 <= timeout_remote_secs x)%N.
Proof.
  intros H. unfold timeout_remote_secs. replace (0 <? x)%N with true by lia.
  assert (A : above 11 (f32_of_u32 x)) by (apply of_u32_above; [lia|change (2 ^ 11) with 2048; lia]).
  assert (B : above (11 + -1) (SFmul 24 128 (f32_of_u32 x) f32_three_quarters)).
  { apply mul_above; [lia|exact A|lia|]. reflexivity. }
  assert (C : above (11 + -1 - 10) (SFdiv 24 128 (SFmul 24 128 (f32_of_u32 x) f32_three_quarters) f32_thousand)).
  { apply div_above; [exact B|lia|]. cbn [f32_thousand]. vm_compute. reflexivity. }
  apply to_usize_above in C. clear - C. lia.
Qed.

Close Scope Z_scope.

Lemma small_table : forallb (fun k => let x := N.of_nat k in
    (if x <? 1334 then keep_alive_interval x =? 0 else negb (keep_alive_interval x =? 0))
    && ((keep_alive_interval x =? 0) || (2 * keep_alive_interval x <=? x))) (seq 0 2048) = true.
Proof. vm_compute. reflexivity. Qed.
Lemma small x : x < 2048 ->
  (if x <? 1334 then keep_alive_interval x = 0 else keep_alive_interval x <> 0) /\ 2 * keep_alive_interval x <= x.
Proof.
  intros H. pose proof small_table as T. rewrite forallb_forall in T.
  specialize (T (N.to_nat x)). cbv beta zeta in T. rewrite N2Nat.id in T.
  assert (I : In (N.to_nat x) (seq 0 2048)) by (apply in_seq; lia).
  specialize (T I). set (k := keep_alive_interval x) in *. clearbody k. destruct (x <? 1334) eqn:E; lia.
Qed.
Lemma interval_small x : keep_alive_interval x <= 1000.
Proof. unfold keep_alive_interval. apply N.le_min_r. Qed.

Lemma interval_half x : 2 * keep_alive_interval x <= x.
Proof.
  destruct (N.lt_ge_cases x 2048) as [L|L]; [apply small; exact L|].
  pose proof (interval_small x). lia.
Qed.
Lemma interval_zero x : keep_alive_interval x = 0 <-> x < 1334.
Proof.
  destruct (N.lt_ge_cases x 2048) as [L|L].
  - pose proof (small x L) as [S _]. destruct (x <? 1334) eqn:E; [split; lia|]. split; [contradiction|lia].
  - split; [|lia]. intros Z. exfalso. pose proof (large_secs x L) as S. unfold keep_alive_interval in Z.
    rewrite N.shiftr_div_pow2 in Z. change (2 ^ 1) with 2 in Z.
    assert (500 <= timeout_remote_secs x * 1000 / 2) by (apply N.div_le_lower_bound; lia). lia.
Qed.

(** ** Over time *)

Lemma run_spaced i late polls : i <> 0 -> forall from last, every late last polls -> last < from + i ->
  spaced i (i + late) from (keep_alive_run i (from + i) polls) (List.last polls last).
Proof.
  intros I. induction polls as [|now polls IH]; intros from last E L; cbn [keep_alive_run].
  - cbn [spaced List.last]. lia.
  - destruct E as [E1 E2]. unfold keep_alive_poll. replace (i =? 0) with false by lia. cbn [negb andb].
    replace (List.last (now :: polls) last) with (List.last polls now) by (destruct polls as [|a l]; [reflexivity|]; cbn [List.last]; clear; revert a; induction l as [|b l IHl]; intros a; [reflexivity|cbn [List.last] in *; apply IHl]).
    destruct (from + i <=? now) eqn:D; cbn [app].
    + cbn [spaced]. split; [lia|]. apply IH; [exact E2|lia].
    + apply IH; [exact E2|lia].
Qed.
Lemma run_none deadline polls : keep_alive_run 0 deadline polls = [].
Proof. induction polls as [|now polls IH]; [reflexivity|exact IH]. Qed.

Lemma sent_spaced o start late polls : every late start polls -> 1334 <= asked o ->
  spaced (keep_alive_interval (asked o)) (keep_alive_interval (asked o) + late) start
    (keep_alive_sent o start polls) (List.last polls start).
Proof.
  intros E A. unfold keep_alive_sent. change (rc_idle_time_out (remote_new o)) with (asked o).
  assert (I : keep_alive_interval (asked o) <> 0) by (intros Z; apply interval_zero in Z; lia).
  apply run_spaced; [exact I|exact E|lia].
Qed.
Lemma spaced_weaken lo hi hi' l : hi <= hi' -> forall from stop, spaced lo hi from l stop -> spaced 0 hi' from l stop.
Proof.
  intros H. induction l as [|t l IH]; intros from stop; cbn [spaced]; [lia|]. intros [A B]. split; [lia|apply IH; exact B].
Qed.
Lemma sent_in_time o start late polls : every late start polls -> 1334 <= asked o -> 2 * late <= asked o ->
  spaced 0 (asked o) start (keep_alive_sent o start polls) (List.last polls start).
Proof.
  intros E A L. eapply spaced_weaken; [|apply sent_spaced; eassumption].
  pose proof (interval_half (asked o)). lia.
Qed.
Lemma sent_none o start polls : asked o < 1334 -> keep_alive_sent o start polls = [].
Proof.
  intros A. unfold keep_alive_sent. change (rc_idle_time_out (remote_new o)) with (asked o).
  apply interval_zero in A. rewrite A. apply run_none.
Qed.
