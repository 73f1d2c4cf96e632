(** * Announced size = written size, for values; induction on values *)

From Verif Require Import Base BaseProofs Types Encode Spec.
From Coq Require Import ZifyBool ZifyNat ZifyN.

(** ** Induction principles for the nested types *)
Section variant_ind.
  Variable P : variant -> Prop.
  Hypothesis Hscalar : forall v,
    match v with VList _ | VMap _ | VDescribed _ _ => False | _ => True end -> P v.
  Hypothesis Hlist : forall l, Forall P l -> P (VList l).
  Hypothesis Hmap : forall m, Forall (fun kv => P (fst kv) /\ P (snd kv)) m -> P (VMap m).
  Hypothesis Hdesc : forall d v, P v -> P (VDescribed d v).

  Fixpoint variant_ind' (v : variant) : P v :=
    match v as v return P v with
    | VList l =>
        Hlist l ((fix go (l : list variant) : Forall P l :=
                    match l with
                    | [] => Forall_nil _
                    | x :: t => Forall_cons _ (variant_ind' x) (go t)
                    end) l)
    | VMap m =>
        Hmap m ((fix go (m : list (variant * variant))
                  : Forall (fun kv => P (fst kv) /\ P (snd kv)) m :=
                    match m with
                    | [] => Forall_nil _
                    | (k, x) :: t =>
                        Forall_cons (k, x) (conj (variant_ind' k) (variant_ind' x)) (go t)
                    end) m)
    | VDescribed d v => Hdesc d v (variant_ind' v)
    | v => Hscalar v I
    end.
End variant_ind.

(** ** Sizes *)
Lemma sum_by_flat {A} (f : A -> N) (e : A -> bytes) l :
  Forall (fun x => blen (e x) = f x) l -> blen (flat_map e l) = sum_by f l.
Proof.
  induction 1 as [|x l Hx _ IH]; [reflexivity|].
  cbn [flat_map]. rewrite blen_app, Hx, IH. reflexivity.
Qed.

Lemma blen_enc_u32 n : blen (enc_u32 n) = sz_u32 n.
Proof.
  unfold enc_u32, sz_u32. destruct (n =? 0); [reflexivity|].
  destruct (255 <? n); rewrite blen_cons, blen_be; reflexivity.
Qed.
Lemma blen_enc_u64 n : blen (enc_u64 n) = sz_u64 n.
Proof.
  unfold enc_u64, sz_u64. destruct (n =? 0); [reflexivity|].
  destruct (255 <? n); rewrite blen_cons, blen_be; reflexivity.
Qed.
Lemma blen_be_signed k z : blen (be_signed k z) = N.of_nat k.
Proof. apply blen_be. Qed.
Lemma blen_enc_i32 z : blen (enc_i32 z) = sz_i32 z.
Proof.
  unfold enc_i32, sz_i32. destruct (wide_i z); rewrite blen_cons, blen_be_signed; reflexivity.
Qed.
Lemma blen_enc_i64 z : blen (enc_i64 z) = sz_i64 z.
Proof.
  unfold enc_i64, sz_i64. destruct (wide_i z); rewrite blen_cons, blen_be_signed; reflexivity.
Qed.
Lemma blen_enc_var c8 c32 b : blen (enc_var c8 c32 b) = sz_var b.
Proof.
  unfold enc_var, sz_var. rewrite blen_app.
  destruct (255 <? blen b); rewrite blen_cons, blen_be; lia.
Qed.
Lemma blen_enc_descriptor d : blen (enc_descriptor d) = sz_descriptor d.
Proof.
  unfold enc_descriptor, sz_descriptor. rewrite blen_cons.
  destruct d; [rewrite blen_enc_u64|unfold enc_symbol; rewrite blen_enc_var]; reflexivity.
Qed.
Lemma blen_enc_ctor c : blen (enc_ctor c) = sz_ctor c.
Proof.
  destruct c; cbn [enc_ctor sz_ctor]; [reflexivity|].
  rewrite blen_app, blen_enc_descriptor, blen_cons, blen_nil. lia.
Qed.
Lemma blen_enc_array a : blen (enc_array a) = sz_array a.
Proof.
  unfold enc_array, sz_array. rewrite !blen_app, blen_enc_ctor.
  destruct (255 <? _); rewrite blen_cons, blen_app, !blen_be; lia.
Qed.
Lemma blen_enc_compound c8 c32 size count b :
  blen b = size -> blen (enc_compound c8 c32 size count ++ b) = sz_compound size.
Proof.
  intros <-. unfold enc_compound, sz_compound. rewrite blen_app.
  destruct (255 <? _); rewrite blen_cons, blen_app, !blen_be; lia.
Qed.
Lemma blen_enc_pairs {K V} (szk : K -> N) (szv : V -> N) ek ev (m : list (K * V)) :
  Forall (fun kv => blen (ek (fst kv)) = szk (fst kv) /\ blen (ev (snd kv)) = szv (snd kv)) m ->
  blen (enc_pairs ek ev m) = pairs_size szk szv m.
Proof.
  intros H. unfold enc_pairs, pairs_size. apply sum_by_flat.
  eapply Forall_impl; [|exact H]. intros [k v] [Hk Hv]. cbn [fst snd] in *.
  rewrite blen_app, Hk, Hv. reflexivity.
Qed.
Lemma blen_enc_map {K V} (szk : K -> N) (szv : V -> N) ek ev (m : list (K * V)) :
  Forall (fun kv => blen (ek (fst kv)) = szk (fst kv) /\ blen (ev (snd kv)) = szv (snd kv)) m ->
  blen (enc_map szk szv ek ev m) = sz_map szk szv m.
Proof.
  intros H. unfold enc_map, sz_map. apply blen_enc_compound.
  apply blen_enc_pairs. exact H.
Qed.

(** Fixed-size byte arrays really have their size (Rust's [[u8; N]]). *)
Fixpoint fixed_ok (v : variant) : Prop :=
  match v with
  | VDecimal32 b => length b = 4%nat
  | VDecimal64 b => length b = 8%nat
  | VDecimal128 b | VUuid b => length b = 16%nat
  | VList l => (fix go l := match l with [] => True | x :: t => fixed_ok x /\ go t end) l
  | VMap m => (fix go (m : list (variant * variant)) :=
                 match m with [] => True | (k, x) :: t => fixed_ok k /\ fixed_ok x /\ go t end) m
  | VDescribed _ v => fixed_ok v
  | _ => True
  end.

Lemma legal_fixed v : legal v -> fixed_ok v.
Proof.
  induction v as [v Hs|l IH|m IH|d v IH] using variant_ind'; intros H.
  - destruct v; try exact I; try contradiction; inversion H; assumption.
  - inversion H as [| | | | | | | | | | | | | | | | | | | | |l' Hl| | | |]; subst.
    cbn. induction IH as [|x t Hx _ IHt]; [exact I|].
    inversion Hl; subst. split; [auto|]. apply IHt; [constructor|]; assumption.
  - inversion H as [| | | | | | | | | | | | | | | | | | | | | |m' Hl _ _| | |]; subst.
    cbn. clear - IH Hl. induction IH as [|[k x] t Hx _ IHt]; [exact I|].
    inversion Hl as [|? ? [Hk Hv] Ht]; subst. cbn [fst snd] in *. destruct Hx.
    split; [auto|]. split; [auto|]. apply IHt. exact Ht.
  - inversion H; subst. cbn. auto.
Qed.

Lemma blen_enc_variant v : fixed_ok v -> blen (enc_variant v) = sz_variant v.
Proof.
  induction v as [v Hs|l IH|m IH|d v IH] using variant_ind'; intros H.
  - destruct v; try contradiction; cbn [enc_variant sz_variant fixed_ok] in *;
      unfold enc_null, enc_bool, enc_u8, enc_u16, enc_i8, enc_i16, enc_f32, enc_f64,
        enc_char, enc_datetime, enc_uuid, enc_binary, enc_string, enc_symbol,
        sz_bool, sz_u8, sz_u16, sz_i8, sz_i16, sz_f32, sz_f64, sz_char, sz_datetime, sz_uuid;
      rewrite ?blen_cons, ?blen_nil, ?blen_be, ?blen_be_signed, ?blen_enc_var, ?blen_enc_array;
      try reflexivity; try (unfold blen; rewrite H; reflexivity).
    + apply blen_enc_u32.
    + apply blen_enc_u64.
    + apply blen_enc_i32.
    + apply blen_enc_i64.
    + rewrite blen_app, blen_enc_descriptor. reflexivity.
  - cbn [enc_variant sz_variant]. apply blen_enc_compound. apply sum_by_flat.
    cbn in H. induction IH as [|x t Hx _ IHt]; constructor; [apply Hx|apply IHt]; tauto.
  - cbn [enc_variant sz_variant]. apply blen_enc_map.
    cbn in H. induction IH as [|[k x] t [Hk Hx] _ IHt]; constructor.
    + cbn [fst snd] in *. split; [apply Hk|apply Hx]; tauto.
    + apply IHt. tauto.
  - cbn [enc_variant sz_variant]. rewrite blen_app, blen_enc_descriptor, IH by exact H.
    reflexivity.
Qed.

Lemma size_variant v : legal v -> blen (enc_variant v) = sz_variant v.
Proof. intros H. apply blen_enc_variant, legal_fixed, H. Qed.

Lemma enc_variant_nonempty v : 1 <= sz_variant v.
Proof.
  destruct v; cbn [sz_variant];
    unfold sz_bool, sz_u8, sz_u16, sz_u32, sz_u64, sz_i8, sz_i16, sz_i32, sz_i64,
      sz_f32, sz_f64, sz_char, sz_datetime, sz_uuid, sz_var, sz_compound, sz_map,
      sz_compound, sz_array, sz_descriptor;
    repeat match goal with |- context [if ?c then _ else _] => destruct c end; lia.
Qed.
