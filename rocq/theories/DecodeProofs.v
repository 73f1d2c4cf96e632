(** * What every decoder guarantees on arbitrary input

    One predicate, [gx], says at once that a decoder consumes a prefix of its
    input, that the result does not change when bytes are appended, that it
    never runs out of fuel, which panics are possible and what is known of the
    result.  It relates two decoders so that recursion budgets may differ. *)

From Verif Require Import Base BaseProofs Types Encode Decode Spec EncodeProofs Roundtrip VariantRoundtrip.
From Coq Require Import ZifyBool ZifyNat ZifyN.

Definition gx {A} (Q : panic -> Prop) (n n' : nat) (P : A -> nat -> Prop)
           (d d' : parser A) : Prop :=
  forall inp, (length inp < n)%nat ->
  match d inp with
  | Ok (a, rest) =>
      exists pre, inp = pre ++ rest /\ P a (length pre) /\
        forall x, (length (inp ++ x) < n')%nat -> d' (inp ++ x) = Ok (a, rest ++ x)
  | Err _ => True
  | Panic q => Q q
  | NoFuel => False
  end.

Lemma gx_weaken {A} Q n n' (P P' : A -> nat -> Prop) d d' :
  gx Q n n' P d d' -> (forall a c, P a c -> P' a c) -> gx Q n n' P' d d'.
Proof.
  intros H HP inp Hi. specialize (H inp Hi).
  destruct (d inp) as [[a rest]| | |]; auto.
  destruct H as [pre [E [Hp Hx]]]. eauto.
Qed.

Lemma gx_panics {A} (Q Q' : panic -> Prop) n n' (P : A -> nat -> Prop) d d' :
  gx Q n n' P d d' -> (forall q, Q q -> Q' q) -> gx Q' n n' P d d'.
Proof.
  intros H HQ inp Hi. specialize (H inp Hi).
  destruct (d inp) as [[a rest]| | |]; auto.
Qed.

Lemma gx_ret {A} Q n n' (P : A -> nat -> Prop) a :
  P a 0%nat -> gx Q n n' P (fun inp => Ok (a, inp)) (fun inp => Ok (a, inp)).
Proof.
  intros H inp Hi. exists []. cbn [app length]. auto.
Qed.

Lemma gx_err {A} Q n n' (P : A -> nat -> Prop) e d' : gx Q n n' P (fun _ => Err e) d'.
Proof. intros inp Hi. exact I. Qed.

Lemma gx_bind {A B} Q n n' (P : A -> nat -> Prop) (S : B -> nat -> Prop) d1 d1' d2 d2' :
  gx Q n n' P d1 d1' ->
  (forall a c, P a c -> gx Q (n - c) (n' - c) (fun b c' => S b (c + c')%nat) (d2 a) (d2' a)) ->
  gx Q n n' S (fun inp => '(a, inp0) <- d1 inp ;; d2 a inp0)
              (fun inp => '(a, inp0) <- d1' inp ;; d2' a inp0).
Proof.
  intros H1 H2 inp Hi. specialize (H1 inp Hi).
  destruct (d1 inp) as [[a rest]| | |]; cbn [bind]; auto.
  destruct H1 as [pre [-> [Hp Hx]]].
  rewrite app_length in Hi. specialize (H2 a _ Hp rest ltac:(lia)).
  destruct (d2 a rest) as [[b rest']| | |]; auto.
  destruct H2 as [pre' [-> [Hs Hx']]].
  exists (pre ++ pre'). split; [rewrite app_assoc; reflexivity|]. split.
  - rewrite app_length. exact Hs.
  - intros x Hl. rewrite Hx by exact Hl. cbn [bind]. apply Hx'.
    rewrite !app_length in Hl. rewrite !app_length. lia.
Qed.

(** A step that does not touch the input. *)
Lemma gx_res {A B} (Q : panic -> Prop) n n' (S : B -> nat -> Prop) (m : res A) d2 d2' :
  (forall q, m = Panic q -> Q q) -> m <> NoFuel ->
  (forall a, m = Ok a -> gx Q n n' S (d2 a) (d2' a)) ->
  gx Q n n' S (fun inp => a <- m ;; d2 a inp) (fun inp => a <- m ;; d2' a inp).
Proof.
  intros HQ HN H inp Hi. destruct m as [a| | |]; cbn [bind]; auto.
  apply (H a eq_refl inp Hi).
Qed.

Lemma blen_prefix_app (a x : bytes) : blen a <= blen (a ++ x).
Proof. rewrite blen_app. lia. Qed.

Lemma gx_check {B} Q n n' (S : B -> nat -> Prop) k d2 d2' :
  gx Q n n' S d2 d2' ->
  gx Q n n' S (fun inp => _ <- check_len k inp ;; d2 inp) (fun inp => _ <- check_len k inp ;; d2' inp).
Proof.
  intros H inp Hi. unfold check_len at 1. destruct (N.ltb_spec (blen inp) k); cbn [bind]; [exact I|].
  specialize (H inp Hi). destruct (d2 inp) as [[b rest]| | |]; auto.
  destruct H as [pre [E [Hs Hx]]]. exists pre. split; [exact E|]. split; [exact Hs|].
  intros x Hl. rewrite check_len_ok by (pose proof (blen_prefix_app inp x); lia).
  cbn [bind]. apply Hx, Hl.
Qed.

Lemma gx_take {B} Q n n' (S : B -> nat -> Prop) k d2 d2' :
  (forall a, blen a = k ->
     gx Q (n - length a) (n' - length a) (fun b c => S b (length a + c)%nat) (d2 a) (d2' a)) ->
  gx Q n n' S (fun inp => _ <- check_len k inp ;; '(a, inp0) <- split_to k inp ;; d2 a inp0)
              (fun inp => _ <- check_len k inp ;; '(a, inp0) <- split_to k inp ;; d2' a inp0).
Proof.
  intros H inp Hi. unfold check_len at 1. destruct (N.ltb_spec (blen inp) k); cbn [bind]; [exact I|].
  destruct (split_to_total k inp ltac:(assumption)) as [a [rest E]]. rewrite E. cbn [bind].
  apply split_to_inv in E. destruct E as [-> Hk]. subst k.
  rewrite app_length in Hi. specialize (H a eq_refl rest ltac:(lia)).
  destruct (d2 a rest) as [[b rest']| | |]; auto.
  destruct H as [pre [-> [Hs Hx]]]. exists (a ++ pre). split; [rewrite app_assoc; reflexivity|].
  split; [rewrite app_length; exact Hs|].
  intros x Hl. rewrite <- !app_assoc. rewrite check_len_ok by (rewrite blen_app; lia). cbn [bind].
  rewrite split_to_app. cbn [bind]. rewrite app_assoc. apply Hx.
  rewrite !app_length in Hl. rewrite !app_length. lia.
Qed.

(** ** Readers *)
Lemma gx_be_read Q n n' k :
  gx Q n n' (fun a c => length a = k /\ c = k) (be_read k) (be_read k).
Proof.
  intros inp Hi. unfold be_read at 1, check_len. destruct (N.ltb_spec (blen inp) (N.of_nat k)); [exact I|].
  cbn [bind]. destruct (split_to_total (N.of_nat k) inp ltac:(assumption)) as [a [rest E]]. rewrite E.
  apply split_to_inv in E. destruct E as [-> Hk]. unfold blen in Hk.
  exists a. split; [reflexivity|]. split; [lia|].
  intros x _. rewrite <- app_assoc. apply be_read_app. lia.
Qed.

Lemma gx_read_byte Q n n' : gx Q n n' (fun _ c => c = 1%nat) read_byte read_byte.
Proof.
  intros [|b inp] Hi; [exact I|]. rewrite read_byte_cons. exists [b].
  split; [reflexivity|]. split; [reflexivity|]. intros x _.
  rewrite <- app_comm_cons. apply read_byte_cons.
Qed.

Lemma gx_read_un Q n n' k :
  gx Q n n' (fun v c => v < 256 ^ N.of_nat k /\ c = k) (read_un k) (read_un k).
Proof.
  unfold read_un. eapply gx_bind; [apply gx_be_read|]. cbn beta.
  intros a c [Ha ->]. apply gx_ret. split; [|lia].
  pose proof (be_val_lt a). rewrite Ha in *. assumption.
Qed.

Lemma gx_read_in Q n n' k :
  (0 < k)%nat ->
  gx Q n n' (fun z c => (- 2 ^ (8 * Z.of_nat k - 1) <= z < 2 ^ (8 * Z.of_nat k - 1))%Z /\ c = k)
     (read_in k) (read_in k).
Proof.
  intros Hk. unfold read_in. eapply gx_bind; [apply gx_be_read|]. cbn beta.
  intros a c [Ha ->]. apply gx_ret. split; [|lia]. apply signed_val_range; assumption.
Qed.

Lemma gx_read_bytes Q n n' k :
  gx Q n n' (fun a c => c = (k + length a)%nat /\ blen a < 256 ^ N.of_nat k) (read_bytes k) (read_bytes k).
Proof.
  unfold read_bytes. eapply gx_bind; [apply gx_read_un|]. cbn beta.
  intros sz c [Hs ->].
  apply gx_weaken with (P := fun b c' => c' = length b /\ blen b = sz).
  - intros inp Hi. unfold check_len at 1. destruct (N.ltb_spec (blen inp) sz); cbn [bind]; [exact I|].
    destruct (split_to_total sz inp ltac:(assumption)) as [a [rest E]]. rewrite E.
    apply split_to_inv in E. destruct E as [-> Hk].
    exists a. split; [reflexivity|]. split; [auto|]. intros x _. rewrite <- app_assoc.
    rewrite check_len_ok by (rewrite blen_app; lia). cbn [bind]. apply split_to_app'. congruence.
  - intros b c [-> Hb]. split; [reflexivity|]. lia.
Qed.

Lemma gx_decode_with {A} Q n n' (S : A -> nat -> Prop) dec dec' :
  (forall b, gx Q (n - 1) (n' - 1) (fun a c => S a (1 + c)%nat) (dec b) (dec' b)) ->
  gx Q n n' S (decode_with dec) (decode_with dec').
Proof.
  intros H. unfold decode_with. eapply gx_bind; [apply gx_read_byte|]. cbn beta.
  intros b c ->. apply H.
Qed.

(** ** Primitive types *)
Ltac by_format fmt := destruct fmt; try apply gx_err.

Lemma gx_bool Q n n' fmt : gx Q n n' (fun _ _ => True) (dec_bool fmt) (dec_bool fmt).
Proof.
  by_format fmt; unfold dec_bool; try (apply gx_ret; exact I).
  eapply gx_bind; [apply gx_read_byte|]. intros b c _. apply gx_ret. exact I.
Qed.
Lemma gx_u8 Q n n' fmt : gx Q n n' (fun v c => unsigned 8 v /\ c = 1%nat) (dec_u8 fmt) (dec_u8 fmt).
Proof. by_format fmt. unfold dec_u8. eapply gx_weaken; [apply gx_read_un|]. intros; assumption. Qed.
Lemma gx_u16 Q n n' fmt : gx Q n n' (fun v c => unsigned 16 v /\ c = 2%nat) (dec_u16 fmt) (dec_u16 fmt).
Proof. by_format fmt. unfold dec_u16. eapply gx_weaken; [apply gx_read_un|]. intros; assumption. Qed.
Lemma unsigned_widen k m v : v < 256 ^ N.of_nat k -> 256 ^ N.of_nat k <= 2 ^ m -> unsigned m v.
Proof. unfold unsigned. lia. Qed.
Definition sz_le {A} (sz : A -> N) (a : A) (c : nat) : Prop := sz a <= 1 + N.of_nat c.
Lemma gx_u32 Q n n' fmt :
  gx Q n n' (fun v c => unsigned 32 v /\ sz_le sz_u32 v c) (dec_u32 fmt) (dec_u32 fmt).
Proof.
  by_format fmt; unfold dec_u32.
  - apply gx_ret. split; [reflexivity|]. unfold sz_le, sz_u32. rewrite N.eqb_refl. lia.
  - eapply gx_weaken; [apply gx_read_un|]. cbn beta. intros a c [H ->].
    change (256 ^ N.of_nat 1) with 256 in H. unfold unsigned, sz_le, sz_u32.
    change (2 ^ 32) with 4294967296. split; [lia|].
    destruct (N.eqb_spec a 0); [lia|]. destruct (N.ltb_spec 255 a); lia.
  - eapply gx_weaken; [apply gx_read_un|]. cbn beta. intros a c [H ->].
    split; [exact H|]. unfold sz_le, sz_u32. destruct (a =? 0), (255 <? a); lia.
Qed.
Lemma gx_u64 Q n n' fmt :
  gx Q n n' (fun v c => unsigned 64 v /\ sz_le sz_u64 v c) (dec_u64 fmt) (dec_u64 fmt).
Proof.
  by_format fmt; unfold dec_u64.
  - apply gx_ret. split; [reflexivity|]. unfold sz_le, sz_u64. rewrite N.eqb_refl. lia.
  - eapply gx_weaken; [apply gx_read_un|]. cbn beta. intros a c [H ->].
    change (256 ^ N.of_nat 1) with 256 in H. unfold unsigned, sz_le, sz_u64.
    change (2 ^ 64) with 18446744073709551616. split; [lia|].
    destruct (N.eqb_spec a 0); [lia|]. destruct (N.ltb_spec 255 a); lia.
  - eapply gx_weaken; [apply gx_read_un|]. cbn beta. intros a c [H ->].
    split; [exact H|]. unfold sz_le, sz_u64. destruct (a =? 0), (255 <? a); lia.
Qed.
Lemma gx_i8 Q n n' fmt : gx Q n n' (fun v c => signed 8 v /\ c = 1%nat) (dec_i8 fmt) (dec_i8 fmt).
Proof. by_format fmt. unfold dec_i8. eapply gx_weaken; [apply gx_read_in; lia|]. intros; assumption. Qed.
Lemma gx_i16 Q n n' fmt : gx Q n n' (fun v c => signed 16 v /\ c = 2%nat) (dec_i16 fmt) (dec_i16 fmt).
Proof. by_format fmt. unfold dec_i16. eapply gx_weaken; [apply gx_read_in; lia|]. intros; assumption. Qed.
Lemma gx_i32 Q n n' fmt :
  gx Q n n' (fun v c => signed 32 v /\ sz_le sz_i32 v c) (dec_i32 fmt) (dec_i32 fmt).
Proof.
  by_format fmt; unfold dec_i32; (eapply gx_weaken; [apply gx_read_in; lia|]); cbn beta;
    intros a c [H ->].
  - change (2 ^ (8 * Z.of_nat 1 - 1))%Z with 128%Z in H. unfold signed, sz_le, sz_i32, wide_i.
    change (2 ^ (32 - 1))%Z with 2147483648%Z. split; [lia|].
    replace ((127 <? a) || (a <? -128))%Z with false by lia. lia.
  - split; [exact H|]. unfold sz_le, sz_i32. destruct (wide_i a); lia.
Qed.
Lemma gx_i64 Q n n' fmt :
  gx Q n n' (fun v c => signed 64 v /\ sz_le sz_i64 v c) (dec_i64 fmt) (dec_i64 fmt).
Proof.
  by_format fmt; unfold dec_i64; (eapply gx_weaken; [apply gx_read_in; lia|]); cbn beta;
    intros a c [H ->].
  - change (2 ^ (8 * Z.of_nat 1 - 1))%Z with 128%Z in H. unfold signed, sz_le, sz_i64, wide_i.
    change (2 ^ (64 - 1))%Z with 9223372036854775808%Z. split; [lia|].
    replace ((127 <? a) || (a <? -128))%Z with false by lia. lia.
  - split; [exact H|]. unfold sz_le, sz_i64. destruct (wide_i a); lia.
Qed.
Lemma gx_f32 Q n n' fmt : gx Q n n' (fun v c => unsigned 32 v /\ c = 4%nat) (dec_f32 fmt) (dec_f32 fmt).
Proof. by_format fmt. unfold dec_f32. eapply gx_weaken; [apply gx_read_un|]. intros; assumption. Qed.
Lemma gx_f64 Q n n' fmt : gx Q n n' (fun v c => unsigned 64 v /\ c = 8%nat) (dec_f64 fmt) (dec_f64 fmt).
Proof. by_format fmt. unfold dec_f64. eapply gx_weaken; [apply gx_read_un|]. intros; assumption. Qed.
Lemma gx_char Q n n' fmt : gx Q n n' (fun v c => scalar v /\ c = 4%nat) (dec_char fmt) (dec_char fmt).
Proof.
  by_format fmt. unfold dec_char. eapply gx_bind; [apply gx_read_un|]. cbn beta. intros v c [_ ->].
  destruct (is_scalar v) eqn:E; [|apply gx_err]. apply gx_ret. split; [|lia].
  apply is_scalar_spec, E.
Qed.
Lemma gx_datetime Q n n' fmt :
  gx Q n n' (fun t c => instant t /\ wire_instant t /\ c = 8%nat) (dec_datetime fmt) (dec_datetime fmt).
Proof.
  by_format fmt. unfold dec_datetime. eapply gx_bind; [apply gx_read_in; lia|]. cbn beta.
  intros z c [_ ->]. apply gx_res.
  - unfold datetime_from_millis. intros q. destruct (Z.ltb _ _); destruct (timestamp_opt _ _); discriminate.
  - unfold datetime_from_millis. destruct (Z.ltb _ _); destruct (timestamp_opt _ _); discriminate.
  - intros t E. apply from_millis_wire in E. apply gx_ret. split; [tauto|]. split; [tauto|lia].
Qed.
Lemma gx_uuid Q n n' fmt : gx Q n n' (fun b c => length b = 16%nat /\ c = 16%nat) (dec_uuid fmt) (dec_uuid fmt).
Proof. by_format fmt. unfold dec_uuid. apply gx_be_read. Qed.

Lemma sz_var_le k b : (0 < k)%nat -> blen b < 256 ^ N.of_nat k -> (k = 1 \/ k = 4)%nat ->
  sz_var b <= 1 + N.of_nat (k + length b).
Proof.
  intros _ H Hk. unfold sz_var, blen in *. destruct Hk as [-> | ->].
  - change (256 ^ N.of_nat 1) with 256 in H. destruct (N.ltb_spec 255 (N.of_nat (length b))); lia.
  - destruct (N.ltb_spec 255 (N.of_nat (length b))); lia.
Qed.

Lemma len32_le k b : blen b < 256 ^ N.of_nat k -> (k = 1 \/ k = 4)%nat -> blen b < 2 ^ 32.
Proof.
  intros H [-> | ->]; [|exact H]. change (256 ^ N.of_nat 1) with 256 in H.
  change (2 ^ 32) with 4294967296. lia.
Qed.

Lemma gx_binary Q n n' fmt :
  gx Q n n' (fun b c => blen b < 2 ^ 32 /\ sz_le sz_var b c) (dec_binary fmt) (dec_binary fmt).
Proof.
  by_format fmt; unfold dec_binary; (eapply gx_weaken; [apply gx_read_bytes|]); cbn beta;
    intros a c [-> H]; (split; [eapply len32_le; eauto|apply sz_var_le; auto; lia]).
Qed.

Lemma gx_utf8 Q n n' k : (k = 1 \/ k = 4)%nat ->
  gx Q n n' (fun b c => text b /\ blen b < 2 ^ 32 /\ sz_le sz_var b c)
     (fun inp => '(b, inp) <- read_bytes k inp ;; s <- check_utf8 b ;; Ok (s, inp))
     (fun inp => '(b, inp) <- read_bytes k inp ;; s <- check_utf8 b ;; Ok (s, inp)).
Proof.
  intros Hk. eapply gx_bind; [apply gx_read_bytes|]. cbn beta. intros b c [-> H].
  apply gx_res; unfold check_utf8; destruct (utf8_valid b) eqn:E; try discriminate.
  intros a Ea. injection Ea as <-. apply gx_ret. split; [exact E|].
  split; [eapply len32_le; eauto|]. rewrite Nat.add_0_r. apply sz_var_le; auto; lia.
Qed.
Lemma gx_string Q n n' fmt :
  gx Q n n' (fun b c => text b /\ blen b < 2 ^ 32 /\ sz_le sz_var b c) (dec_string fmt) (dec_string fmt).
Proof. by_format fmt; unfold dec_string; apply gx_utf8; auto. Qed.
Lemma gx_symbol Q n n' fmt :
  gx Q n n' (fun b c => text b /\ blen b < 2 ^ 32 /\ sz_le sz_var b c) (dec_symbol fmt) (dec_symbol fmt).
Proof. by_format fmt; unfold dec_symbol; apply gx_utf8; auto. Qed.

Lemma gx_descriptor Q n n' fmt :
  gx Q n n' (fun d c => legal_descriptor d /\ sz_descriptor d <= 2 + N.of_nat c)
     (dec_descriptor fmt) (dec_descriptor fmt).
Proof.
  by_format fmt; unfold dec_descriptor.
  1,2: eapply gx_bind; [apply gx_u64|]; cbn beta; intros a c [H H2]; apply gx_ret;
    (split; [exact H|]); unfold sz_le, sz_descriptor in *; lia.
  all: eapply gx_bind; [apply gx_symbol|]; cbn beta; intros a c [H [H2 H3]]; apply gx_ret;
    (split; [exact H|]); unfold sz_le, sz_descriptor in *; lia.
Qed.

Lemma gx_ctor Q n n' fmt :
  gx Q n n' (fun k c => legal_ctor k /\ sz_ctor k <= 1 + N.of_nat c /\
                        match k with CFormatCode b => b <> x00 | CDescribed _ _ => True end)
     (dec_ctor fmt) (dec_ctor fmt).
Proof.
  destruct (Byte.eqb fmt x00) eqn:E.
  - apply byte_eqb_eq in E. subst fmt. unfold dec_ctor.
    apply gx_bind with (P := fun d c => legal_descriptor d /\ sz_descriptor d <= 1 + N.of_nat c).
    + apply gx_decode_with. intros b. eapply gx_weaken; [apply gx_descriptor|]. cbn beta.
      intros d c [H1 H2]. split; [exact H1|lia].
    + cbn beta. intros d c [H1 H2]. eapply gx_bind; [apply gx_read_byte|]. cbn beta.
      intros b c' ->. apply gx_ret. cbn [legal_ctor sz_ctor]. split; [exact H1|]. split; [lia|exact I].
  - assert (Hn : fmt <> x00) by (intros ->; discriminate E).
    assert (Ed : dec_ctor fmt = fun inp => Ok (CFormatCode fmt, inp))
      by (clear E; destruct fmt; try reflexivity; contradiction).
    rewrite Ed. apply gx_ret. cbn [legal_ctor sz_ctor]. split; [exact I|]. split; [lia|exact Hn].
Qed.
