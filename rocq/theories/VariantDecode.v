(** * The value decoder on arbitrary input *)

From Verif Require Import Base BaseProofs Types Encode Decode Spec EncodeProofs Roundtrip
  VariantRoundtrip DecodeProofs.
From Coq Require Import ZifyBool ZifyNat ZifyN.

(** The only panics: overflow of the size arithmetic (with overflow checks), and
    a map used as a map key. *)
Definition overflow_only (p : profile) (q : panic) : Prop := q = POverflow /\ p = Debug.
Definition value_panic (p : profile) (q : panic) : Prop :=
  overflow_only p q \/ q = PHashMapKey.

(** ** Compound headers *)
Lemma gx_compound8 (Q : panic -> Prop) p n n' :
  (forall q, overflow_only p q -> Q q) ->
  gx Q n n' (fun h c => c = 2%nat /\ fst h < 256 /\ snd h < 256)
     (decode_compound8 p) (decode_compound8 p).
Proof.
  intros HQ [|b0 [|b1 inp]] Hi; try exact I.
  unfold decode_compound8 at 1. rewrite check_len_ok by (rewrite !blen_cons; lia).
  cbn [bind index nth_error]. pose proof (to_N_lt b0). pose proof (to_N_lt b1).
  unfold usub. destruct (N.leb_spec 1 (Byte.to_N b0)) as [Hle|Hlt]; cbn [bind].
  - change (b0 :: b1 :: inp) with ([b0; b1] ++ inp). rewrite advance_app' by reflexivity. cbn [bind].
    exists [b0; b1]. split; [reflexivity|]. split; [cbn [length fst snd]; lia|].
    intros x _. unfold decode_compound8. rewrite <- app_assoc. cbn [app].
    rewrite check_len_ok by (rewrite !blen_cons; lia). cbn [bind index nth_error]. unfold usub.
    destruct (N.leb_spec 1 (Byte.to_N b0)); [|lia]. cbn [bind].
    change (b0 :: b1 :: inp ++ x) with ([b0; b1] ++ inp ++ x). rewrite advance_app' by reflexivity.
    reflexivity.
  - destruct p; cbn [bind].
    + apply HQ. split; reflexivity.
    + change (b0 :: b1 :: inp) with ([b0; b1] ++ inp). rewrite advance_app' by reflexivity. cbn [bind].
      exists [b0; b1]. split; [reflexivity|]. split; [cbn [length fst snd]; lia|].
      intros x _. unfold decode_compound8. rewrite <- app_assoc. cbn [app].
      rewrite check_len_ok by (rewrite !blen_cons; lia). cbn [bind index nth_error]. unfold usub.
      destruct (N.leb_spec 1 (Byte.to_N b0)); [lia|]. cbn [bind].
      change (b0 :: b1 :: inp ++ x) with ([b0; b1] ++ inp ++ x). rewrite advance_app' by reflexivity.
      reflexivity.
Qed.

Lemma split8 (inp : bytes) : 8 <= blen inp ->
  exists a b rest, inp = a ++ b ++ rest /\ length a = 4%nat /\ length b = 4%nat.
Proof.
  intros H. exists (firstn 4 inp), (firstn 4 (skipn 4 inp)), (skipn 4 (skipn 4 inp)).
  rewrite !firstn_skipn. split; [reflexivity|]. unfold blen in H.
  rewrite !firstn_length, skipn_length. lia.
Qed.

Lemma compound32_eq p a b rest : length a = 4%nat -> length b = 4%nat ->
  decode_compound32 p (a ++ b ++ rest) =
  (size <- usub p (2 ^ 32) (be_val a) 4 ;; Ok ((size, be_val b), rest)).
Proof.
  intros Ha Hb. unfold decode_compound32.
  rewrite check_len_ok by (rewrite !blen_app; unfold blen; rewrite Ha, Hb; lia). cbn [bind].
  rewrite (firstn_exact 4), (skipn_exact 4), (firstn_exact 4) by assumption.
  destruct (usub _ _ _ _); cbn [bind]; try reflexivity.
  rewrite app_assoc, advance_app' by (rewrite blen_app; unfold blen; rewrite Ha, Hb; reflexivity).
  reflexivity.
Qed.

Lemma gx_compound32 (Q : panic -> Prop) p n n' :
  (forall q, overflow_only p q -> Q q) ->
  gx Q n n' (fun h c => c = 8%nat /\ fst h < 2 ^ 32 /\ snd h < 2 ^ 32)
     (decode_compound32 p) (decode_compound32 p).
Proof.
  intros HQ inp Hi. destruct (N.lt_ge_cases (blen inp) 8) as [Hlt|Hge].
  { unfold decode_compound32, check_len. destruct (N.ltb_spec (blen inp) 8); [exact I|lia]. }
  destruct (split8 inp Hge) as [a [b [rest [-> [Ha Hb]]]]].
  rewrite compound32_eq by assumption.
  pose proof (be_val_lt a) as Va. pose proof (be_val_lt b) as Vb. rewrite Ha, Hb in *.
  change (256 ^ N.of_nat 4) with (2 ^ 32) in *.
  unfold usub. destruct (N.leb_spec 4 (be_val a)) as [Hle|Hlt]; cbn [bind].
  - exists (a ++ b). split; [rewrite app_assoc; reflexivity|].
    split; [rewrite app_length, Ha, Hb; cbn [fst snd]; lia|].
    intros x _. rewrite <- !app_assoc, compound32_eq by assumption. unfold usub.
    destruct (N.leb_spec 4 (be_val a)); [reflexivity|lia].
  - destruct p; cbn [bind].
    + apply HQ. split; reflexivity.
    + exists (a ++ b). split; [rewrite app_assoc; reflexivity|].
      split; [rewrite app_length, Ha, Hb; cbn [fst snd]; lia|].
      intros x _. rewrite <- !app_assoc, compound32_eq by assumption. unfold usub.
      destruct (N.leb_spec 4 (be_val a)); [lia|reflexivity].
Qed.

Definition hdr_ok (h : N * N) (c : nat) : Prop :=
  fst h < 2 ^ 32 /\ snd h < 2 ^ 32.
Lemma small32 n : n < 256 -> n < 2 ^ 32.
Proof. change (2 ^ 32) with 4294967296. lia. Qed.

Lemma gx_list_header (Q : panic -> Prop) p n n' fmt :
  (forall q, overflow_only p q -> Q q) ->
  gx Q n n' (fun h c => hdr_ok h c /\ ((c = 0)%nat /\ snd h = 0 \/ (2 <= c)%nat))
     (dec_list_header p fmt) (dec_list_header p fmt).
Proof.
  intros HQ. by_format fmt; unfold dec_list_header.
  - apply gx_ret. split; [split; reflexivity|auto].
  - eapply gx_weaken; [apply gx_compound8, HQ|]. cbn beta. intros h c [-> [H1 H2]].
    split; [split; apply small32; assumption|auto].
  - eapply gx_weaken; [apply gx_compound32, HQ|]. cbn beta. intros h c [-> [H1 H2]].
    split; [split; assumption|lia].
Qed.
Lemma gx_map_header (Q : panic -> Prop) p n n' fmt :
  (forall q, overflow_only p q -> Q q) ->
  gx Q n n' (fun h c => hdr_ok h c /\ (2 <= c)%nat)
     (dec_map_header p fmt) (dec_map_header p fmt).
Proof.
  intros HQ. by_format fmt; unfold dec_map_header.
  - eapply gx_weaken; [apply gx_compound8, HQ|]. cbn beta. intros h c [-> [H1 H2]].
    split; [split; apply small32; assumption|auto].
  - eapply gx_weaken; [apply gx_compound32, HQ|]. cbn beta. intros h c [-> [H1 H2]].
    split; [split; assumption|lia].
Qed.
Lemma gx_array_header (Q : panic -> Prop) p n n' fmt :
  (forall q, overflow_only p q -> Q q) ->
  gx Q n n' (fun h c => hdr_ok h c /\ (2 <= c)%nat)
     (dec_array_header p fmt) (dec_array_header p fmt).
Proof.
  intros HQ. by_format fmt; unfold dec_array_header.
  - eapply gx_weaken; [apply gx_compound8, HQ|]. cbn beta. intros h c [-> [H1 H2]].
    split; [split; apply small32; assumption|auto].
  - eapply gx_weaken; [apply gx_compound32, HQ|]. cbn beta. intros h c [-> [H1 H2]].
    split; [split; assumption|lia].
Qed.

(** ** Loops *)
Inductive seq {A} (P : A -> nat -> Prop) : list A -> nat -> Prop :=
| seq_nil : seq P [] 0
| seq_cons a l c c' : P a c -> seq P l c' -> seq P (a :: l) (c + c').

Lemma gx_dec_n {A} (Q : panic -> Prop) n n' (P : A -> nat -> Prop) d d' :
  gx Q n n' P d d' ->
  forall fuel fuel' count inp,
  (length inp < n)%nat ->
  (forall a c, P a c -> (1 <= c)%nat) /\ (length inp < fuel)%nat \/ count <= N.of_nat fuel ->
  match dec_n d fuel count inp with
  | Ok (l, rest) =>
      exists pre, inp = pre ++ rest /\ seq P l (length pre) /\ N.of_nat (length l) = count /\
        forall x, (length (inp ++ x) < n')%nat ->
        (forall a c, P a c -> (1 <= c)%nat) /\ (length (inp ++ x) < fuel')%nat
          \/ count <= N.of_nat fuel' ->
        dec_n d' fuel' count (inp ++ x) = Ok (l, rest ++ x)
  | Err _ => True
  | Panic q => Q q
  | NoFuel => False
  end.
Proof.
  intros H. induction fuel as [|fuel IH]; intros fuel' count inp Hi Hf.
  - destruct Hf as [[_ Hf]|Hf]; [lia|].
    assert (count = 0) by lia. subst count. cbn [dec_n]. rewrite N.eqb_refl.
    exists []. cbn [app length]. split; [reflexivity|]. split; [constructor|].
    split; [reflexivity|]. intros x _ _.
    destruct fuel'; cbn [dec_n]; rewrite N.eqb_refl; reflexivity.
  - cbn [dec_n]. destruct (N.eqb_spec count 0) as [->|Hc].
    + exists []. cbn [app length]. split; [reflexivity|]. split; [constructor|].
      split; [reflexivity|]. intros x _ _.
      destruct fuel'; cbn [dec_n]; rewrite N.eqb_refl; reflexivity.
    + specialize (H inp Hi). destruct (d inp) as [[a rest]| | |]; cbn [bind]; auto.
      destruct H as [pre [-> [Hp Hx]]]. rewrite app_length in Hi, Hf.
      specialize (IH (pred fuel') (count - 1) rest ltac:(lia)).
      lapply IH.
      2:{ destruct Hf as [[Hf1 Hf2]|Hf]; [left|right; lia].
          split; [exact Hf1|]. specialize (Hf1 _ _ Hp). lia. }
      clear IH. intros IH.
      destruct (dec_n d fuel (count - 1) rest) as [[l rest']| | |]; cbn [bind]; auto.
      destruct IH as [pre' [-> [Hs [Hn Hx']]]].
      exists (pre ++ pre'). split; [rewrite app_assoc; reflexivity|].
      split; [rewrite app_length; constructor; assumption|].
      split; [cbn [length]; lia|].
      intros x Hl Hf'. rewrite !app_length in Hl.
      destruct fuel' as [|fuel'].
      { destruct Hf' as [[_ Hf']|Hf']; lia. }
      cbn [dec_n]. destruct (N.eqb_spec count 0); [lia|].
      rewrite Hx by (rewrite !app_length; lia). cbn [bind]. cbn [pred] in Hx'.
      rewrite Hx'.
      * reflexivity.
      * rewrite !app_length. lia.
      * destruct Hf' as [[Hf1 Hf2]|Hf']; [left|right; lia].
        split; [exact Hf1|]. specialize (Hf1 _ _ Hp). rewrite !app_length in *. lia.
Qed.

Lemma gx_map_loop {K V} (Q : panic -> Prop) n n' (PK : K -> nat -> Prop) (PV : V -> nat -> Prop)
      (Inv : list (K * V) -> nat -> Prop) hash_ok eqb dk dk' dv dv' :
  Q PHashMapKey \/ (forall k, hash_ok k = true) ->
  gx Q n n' PK dk dk' -> gx Q n n' PV dv dv' ->
  (forall k c, PK k c -> (1 <= c)%nat) ->
  (forall m c k ck v cv, Inv m c -> PK k ck -> PV v cv -> hash_ok k = true ->
     Inv (map_insert eqb k v m) (c + ck + cv)%nat) ->
  forall fuel fuel' count acc c0 inp,
  (length inp < n)%nat -> (length inp < fuel)%nat -> Inv acc c0 ->
  match dec_map_loop hash_ok eqb dk dv fuel count acc inp with
  | Ok (m, rest) =>
      exists pre, inp = pre ++ rest /\ Inv m (c0 + length pre)%nat /\
        forall x, (length (inp ++ x) < n')%nat -> (length (inp ++ x) < fuel')%nat ->
        dec_map_loop hash_ok eqb dk' dv' fuel' count acc (inp ++ x) = Ok (m, rest ++ x)
  | Err _ => True
  | Panic q => Q q
  | NoFuel => False
  end.
Proof.
  intros HQ Hk Hv Hpos Hinv.
  induction fuel as [|fuel IH]; intros fuel' count acc c0 inp Hi Hf Ha; [lia|].
  cbn [dec_map_loop]. destruct (N.eqb_spec count 0) as [->|Hc].
  - exists []. cbn [app length]. split; [reflexivity|]. rewrite Nat.add_0_r. split; [exact Ha|].
    intros x _ Hf'. destruct fuel'; [lia|]. cbn [dec_map_loop]. rewrite N.eqb_refl. reflexivity.
  - pose proof (Hk inp Hi) as H1. destruct (dk inp) as [[k rest]| | |]; cbn [bind]; auto.
    destruct H1 as [pre [-> [Hpk Hxk]]]. rewrite app_length in Hi, Hf.
    pose proof (Hv rest ltac:(lia)) as H2. destruct (dv rest) as [[v rest2]| | |]; cbn [bind]; auto.
    destruct H2 as [pre2 [-> [Hpv Hxv]]]. rewrite app_length in Hi, Hf.
    destruct (hash_ok k) eqn:Hh.
    2:{ destruct HQ as [HQ|HQ]; [exact HQ|]. rewrite HQ in Hh. discriminate. }
    pose proof (Hpos _ _ Hpk) as Hp1.
    specialize (IH (pred fuel') (count - 1) (map_insert eqb k v acc)
                  (c0 + length pre + length pre2)%nat rest2 ltac:(lia) ltac:(lia)
                  (Hinv _ _ _ _ _ _ Ha Hpk Hpv Hh)).
    destruct (dec_map_loop hash_ok eqb dk dv fuel (count - 1) (map_insert eqb k v acc) rest2)
      as [[m rest3]| | |]; auto.
    destruct IH as [pre3 [-> [Hm Hx3]]].
    exists (pre ++ pre2 ++ pre3). split; [rewrite !app_assoc; reflexivity|].
    split. { rewrite !app_length. rewrite !Nat.add_assoc. exact Hm. }
    intros x Hl Hf'. rewrite !app_length in Hl, Hf'.
    destruct fuel' as [|fuel']; [lia|]. cbn [dec_map_loop pred] in *.
    destruct (N.eqb_spec count 0); [lia|].
    rewrite Hxk by (rewrite !app_length; lia). cbn [bind].
    rewrite Hxv by (rewrite !app_length; lia). cbn [bind]. rewrite Hh.
    apply Hx3; rewrite !app_length; lia.
Qed.

(** ** Generic compounds *)
Lemma gx_list {A} (Q : panic -> Prop) p n n' (P : A -> nat -> Prop) d d' fmt :
  (forall q, overflow_only p q -> Q q) ->
  (forall a c, P a c -> (1 <= c)%nat) ->
  gx Q n n' P d d' ->
  gx Q n n' (fun l c => exists c', seq P l c' /\ ((c' + 2 <= c)%nat \/ l = []))
     (dec_list p d fmt) (dec_list p d' fmt).
Proof.
  intros HQ Hpos H. unfold dec_list. eapply gx_bind; [apply gx_list_header, HQ|]. cbn beta.
  intros [sz count] c [[H1 H2] H3]. cbn [fst snd] in *. intros inp Hi.
  pose proof (gx_dec_n Q n n' P d d' H (S (length inp))) as G.
  destruct (dec_n d (S (length inp)) count inp) as [[l rest]| | |] eqn:E.
  - specialize (G (S (length inp)) count inp ltac:(lia) ltac:(left; split; [exact Hpos|lia])) as G1.
    rewrite E in G1. destruct G1 as [pre [-> [Hs [Hn _]]]].
    exists pre. split; [reflexivity|]. split.
    + exists (length pre). split; [exact Hs|].
      destruct H3 as [[-> Hz]|H3]; [right|left; lia].
      destruct l; [reflexivity|]. cbn [length] in Hn. lia.
    + intros x Hl. specialize (G (S (length ((pre ++ rest) ++ x))) count (pre ++ rest) ltac:(lia)
         ltac:(left; split; [exact Hpos|lia])).
      rewrite E in G. destruct G as [pre' [_ [_ [_ G]]]]. apply G; [lia|left; split; [exact Hpos|lia]].
  - exact I.
  - specialize (G 0%nat count inp ltac:(lia) ltac:(left; split; [exact Hpos|lia])).
    rewrite E in G. exact G.
  - specialize (G 0%nat count inp ltac:(lia) ltac:(left; split; [exact Hpos|lia])).
    rewrite E in G. exact G.
Qed.

Lemma gx_hashmap {K V} (Q : panic -> Prop) p n n' (PK : K -> nat -> Prop) (PV : V -> nat -> Prop)
      (Inv : list (K * V) -> nat -> Prop) hash_ok eqb dk dk' dv dv' fmt :
  (forall q, overflow_only p q -> Q q) ->
  Q PHashMapKey \/ (forall k, hash_ok k = true) ->
  gx Q n n' PK dk dk' -> gx Q n n' PV dv dv' ->
  (forall k c, PK k c -> (1 <= c)%nat) ->
  Inv [] 0%nat ->
  (forall m c k ck v cv, Inv m c -> PK k ck -> PV v cv -> hash_ok k = true ->
     Inv (map_insert eqb k v m) (c + ck + cv)%nat) ->
  gx Q n n' (fun m c => exists c', Inv m c' /\ (c' + 2 <= c)%nat)
     (dec_hashmap p hash_ok eqb dk dv fmt) (dec_hashmap p hash_ok eqb dk' dv' fmt).
Proof.
  intros HQ HQ2 Hk Hv Hpos H0 Hinv. unfold dec_hashmap.
  eapply gx_bind; [apply gx_map_header, HQ|]. cbn beta.
  intros [size count] c [_ Hc]. apply gx_take. intros a Ha inp Hi.
  destruct (Nat.lt_ge_cases (length a) n) as [Hn|Hn]; [|lia].
  pose proof (gx_map_loop Q n n' PK PV Inv hash_ok eqb dk dk' dv dv' HQ2 Hk Hv Hpos Hinv
    (S (length a)) (S (length a)) (count / 2) [] 0%nat a Hn ltac:(lia) H0) as G.
  destruct (dec_map_loop hash_ok eqb dk dv (S (length a)) (count / 2) [] a)
    as [[m rest]| | |]; cbn [bind]; auto.
  destruct G as [pre [E [Hm Hx]]]. exists []. split; [reflexivity|]. split.
  - exists (length pre). split; [exact Hm|]. rewrite E, app_length. cbn [length]. lia.
  - intros x Hl. specialize (Hx []). rewrite !app_nil_r in Hx. rewrite app_length in Hl.
    rewrite Hx by lia. reflexivity.
Qed.

Lemma gx_pair {K V} (Q : panic -> Prop) n n' (PK : K -> nat -> Prop) (PV : V -> nat -> Prop) dk dk' dv dv' :
  gx Q n n' PK dk dk' -> (forall m m', gx Q m m' PV dv dv') ->
  gx Q n n' (fun kv c => exists c1 c2, c = (c1 + c2)%nat /\ PK (fst kv) c1 /\ PV (snd kv) c2)
     (dec_pair dk dv) (dec_pair dk' dv').
Proof.
  intros Hk Hv. unfold dec_pair. eapply gx_bind; [exact Hk|]. cbn beta. intros k c Hc.
  eapply gx_bind; [apply Hv|]. cbn beta. intros v c' Hc'. apply gx_ret.
  exists c, c'. rewrite Nat.add_0_r. auto.
Qed.

Lemma gx_vecmap {K V} (Q : panic -> Prop) p n n' (P : K * V -> nat -> Prop) dk dk' dv dv' fmt :
  (forall q, overflow_only p q -> Q q) ->
  gx Q n n' P (dec_pair dk dv) (dec_pair dk' dv') ->
  (forall a c, P a c -> (1 <= c)%nat) ->
  gx Q n n' (fun m c => exists c', seq P m c' /\ (c' + 2 <= c)%nat)
     (dec_vecmap p dk dv fmt) (dec_vecmap p dk' dv' fmt).
Proof.
  intros HQ H Hpos. unfold dec_vecmap.
  eapply gx_bind; [apply gx_map_header, HQ|]. cbn beta.
  intros [size count] c [_ Hc]. apply gx_take. intros a Ha inp Hi.
  destruct (Nat.lt_ge_cases (length a) n) as [Hn|Hn]; [|lia].
  pose proof (gx_dec_n Q n n' P _ _ H (S (length a)) (S (length a)) (count / 2) a Hn
    ltac:(left; split; [exact Hpos|lia])) as G.
  destruct (dec_n (dec_pair dk dv) (S (length a)) (count / 2) a) as [[m rest]| | |]; cbn [bind]; auto.
  destruct G as [pre [E [Hm [_ Hx]]]]. exists []. split; [reflexivity|]. split.
  - exists (length pre). split; [exact Hm|]. rewrite E, app_length. cbn [length]. lia.
  - intros x Hl. specialize (Hx []). rewrite !app_nil_r in Hx. rewrite app_length in Hl.
    rewrite Hx; [reflexivity|lia|left; split; [exact Hpos|lia]].
Qed.

Lemma gx_vec {A} (Q : panic -> Prop) p n n' (P : A -> nat -> Prop) d d' fmt :
  (forall q, overflow_only p q -> Q q) ->
  (forall b, gx Q n n' P (d b) (d' b)) ->
  gx Q n n' (fun l c => exists c', seq P l c' /\ (c' + 3 <= c)%nat)
     (dec_vec p d fmt) (dec_vec p d' fmt).
Proof.
  intros HQ H. unfold dec_vec.
  eapply gx_bind; [apply gx_array_header, HQ|]. cbn beta.
  intros [size count] c [_ Hc]. apply gx_check.
  apply gx_bind with (P := fun _ c => (1 <= c)%nat).
  { apply gx_decode_with. intros b. eapply gx_weaken; [apply gx_ctor|]. cbn beta. intros; lia. }
  cbn beta. intros [code|de b] c' Hc'; [|apply gx_err].
  intros inp Hi.
  pose proof (gx_dec_n Q n n' P _ _ (H code) (N.to_nat count) (N.to_nat count) count inp
    ltac:(lia) ltac:(right; lia)) as G.
  destruct (dec_n (d code) (N.to_nat count) count inp) as [[l rest]| | |]; auto.
  destruct G as [pre [-> [Hs [_ Hx]]]]. exists pre. split; [reflexivity|]. split.
  - exists (length pre). split; [exact Hs|lia].
  - intros x Hl. apply Hx; [lia|right; lia].
Qed.

Lemma gx_multiple {A} (Q : panic -> Prop) p n n' (P : A -> nat -> Prop) d d' fmt :
  (forall q, overflow_only p q -> Q q) ->
  (forall b, gx Q n n' P (d b) (d' b)) ->
  gx Q n n' (fun l c => exists c', seq P l c' /\ (c' <= c)%nat)
     (dec_multiple p d fmt) (dec_multiple p d' fmt).
Proof.
  intros HQ H.
  destruct (Byte.eqb fmt x00) eqn:E0.
  { apply byte_eqb_eq in E0. subst fmt. unfold dec_multiple. cbn [dec_descriptor].
    intros inp Hi. exact I. }
  destruct (Byte.eqb fmt xe0 || Byte.eqb fmt xf0) eqn:E.
  - assert (Ed : forall d : byte -> parser A, dec_multiple p d fmt = dec_vec p d fmt).
    { intros d0. apply orb_true_iff in E. destruct E as [E|E]; apply byte_eqb_eq in E; subst fmt; reflexivity. }
    rewrite !Ed. eapply gx_weaken; [apply gx_vec; eassumption|]. cbn beta.
    intros l c [c' [Hs Hc]]. exists c'. split; [exact Hs|lia].
  - assert (Ed : forall d : byte -> parser A,
       dec_multiple p d fmt = fun inp => '(a, inp) <- d fmt inp ;; Ok ([a], inp)).
    { intros d0. destruct fmt; try discriminate E; try discriminate E0; reflexivity. }
    rewrite !Ed. eapply gx_bind; [apply H|]. cbn beta. intros a c Hc. apply gx_ret.
    exists (c + 0)%nat. split; [|lia]. apply seq_cons; [exact Hc|constructor].
Qed.

Lemma gx_option {A} (Q : panic -> Prop) n n' (P : A -> nat -> Prop) d d' fmt :
  (forall b, gx Q n n' P (d b) (d' b)) ->
  gx Q n n' (fun o c => match o with None => True | Some a => P a c end)
     (dec_option d fmt) (dec_option d' fmt).
Proof.
  intros H. destruct (Byte.eqb fmt x40) eqn:E.
  - apply byte_eqb_eq in E. subst fmt. unfold dec_option. apply gx_ret. exact I.
  - assert (Ed : forall d : byte -> parser A,
       dec_option d fmt = fun inp => '(a, inp) <- d fmt inp ;; Ok (Some a, inp)).
    { intros d0. destruct fmt; try discriminate E; reflexivity. }
    rewrite !Ed. eapply gx_bind; [apply H|]. cbn beta. intros a c Hc. apply gx_ret.
    rewrite Nat.add_0_r. exact Hc.
Qed.

Lemma gx_array (Q : panic -> Prop) p n n' fmt :
  (forall q, overflow_only p q -> Q q) ->
  gx Q n n' (fun a c => unsigned 32 (a_count a) /\ legal_ctor (a_ctor a) /\
       match a_ctor a with CFormatCode b => b <> x00 | CDescribed _ _ => True end /\
       sz_array a <= 9 + N.of_nat c - 2 /\ (2 <= c)%nat)
     (dec_array p fmt) (dec_array p fmt).
Proof.
  intros HQ. unfold dec_array.
  eapply gx_bind; [apply gx_array_header, HQ|]. cbn beta.
  intros [size count] c [[_ Hcnt] Hc]. cbn [fst snd] in Hcnt. apply gx_take. intros a Ha inp Hi.
  assert (G : gx Q (S (length a)) (S (length a)) (fun k c => legal_ctor k /\ sz_ctor k <= N.of_nat c /\
                        match k with CFormatCode b => b <> x00 | CDescribed _ _ => True end)
                (decode_with dec_ctor) (decode_with dec_ctor)).
  { apply gx_decode_with. intros b. eapply gx_weaken; [apply gx_ctor|]. cbn beta.
    intros k c' [H1 [H2 H3]]. split; [exact H1|]. split; [lia|exact H3]. }
  specialize (G a ltac:(lia)). destruct (decode_with dec_ctor a) as [[k payload]| | |]; cbn [bind]; auto.
  destruct G as [pre [-> [[H1 [H2 H3]] _]]].
  exists []. split; [reflexivity|]. cbn [a_count a_ctor]. split; [|reflexivity].
  split; [exact Hcnt|]. split; [exact H1|]. split; [exact H3|].
  rewrite app_length in *. cbn [length].
  unfold sz_array. cbn [a_ctor a_payload]. unfold blen. destruct (255 <? _); lia.
Qed.

(** ** The value decoder *)
Definition PV (v : variant) (c : nat) : Prop :=
  (1 <= c)%nat /\ legal v /\ wire_form (fun _ => True)
    (fun a => match a_ctor a with CFormatCode b => b <> x00 | CDescribed _ _ => True end) v
  /\ sz_variant v <= 3 * N.of_nat c.

Lemma noncompound_dec p f b inp v rest :
  dec_variant p (S f) (b :: inp) = Ok (v, rest) -> compound_kind b = KOther -> is_compound v = false.
Proof.
  cbn [dec_variant]. rewrite read_byte_cons. cbn [bind].
  destruct b; intros H Hc; try discriminate Hc; try discriminate H;
    try (injection H as <- <-; reflexivity);
    try (repeat match type of H with
         | bind ?m _ = _ => destruct m as [[? ?]| | |]; cbn [bind] in H; try discriminate H
         end; injection H as <- <-; reflexivity).
  destruct (decode_with dec_descriptor inp) as [[d inp0]| | |]; cbn [bind] in H; try discriminate H.
  destruct (check_len 1 inp0); cbn [bind] in H; try discriminate H.
  destruct (index 0 inp0) as [code| | |]; cbn [bind] in H; try discriminate H.
  destruct (compound_kind code);
    repeat match type of H with
         | bind ?m _ = _ => destruct m as [[? ?]| | |] || destruct m; cbn [bind] in H; try discriminate H
         end; cbv zeta in H;
    repeat match type of H with
         | bind ?m _ = _ => destruct m as [[? ?]| | |] || destruct m; cbn [bind] in H; try discriminate H
         end; injection H as <- <-; reflexivity.
Qed.
