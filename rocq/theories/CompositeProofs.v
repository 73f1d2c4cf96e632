(** * Composite types: size, round trip and the treatment of missing fields *)

From Verif Require Import Codec Spec Protocol SpecProtocol.
From Verif Require Import BaseProofs EncodeProofs Roundtrip VariantRoundtrip CodecProofs EnumProofs.
From Coq Require Import ZifyBool ZifyNat ZifyN.

(** The fields have good codecs, and [W] says when a tuple of values is legal. *)
Inductive good_fields : forall {T}, fields T -> (T -> Prop) -> Prop :=
| GF_nil : good_fields FNil anything
| GF_opt {A T} (C : codec A) (fs : fields T) w W :
    good C w -> nonnull C w -> good_fields fs W ->
    good_fields (FOpt C fs) (fun t => optional w (fst t) /\ W (snd t))
| GF_req {A T} (C : codec A) (fs : fields T) w W :
    good C w -> refuses_null C -> good_fields fs W ->
    good_fields (FReq C fs) (fun t => w (fst t) /\ W (snd t))
| GF_def {A T} (C : codec A) d (fs : fields T) w W :
    good C w -> nonnull C w -> good_fields fs W ->
    good_fields (FDef C d fs) (fun t => w (fst t) /\ W (snd t)).

(** The wire forms of the fields, and what is seen of a tuple. *)
Fixpoint items_f {T} (fs : fields T) : T -> list bytes :=
  match fs with
  | FNil => fun _ => []
  | FOpt C fs => fun t => c_enc (option_c C) (fst t) :: items_f fs (snd t)
  | FReq C fs => fun t => c_enc C (fst t) :: items_f fs (snd t)
  | FDef C _ fs => fun t => c_enc C (fst t) :: items_f fs (snd t)
  end.
Fixpoint seen_f {T} (fs : fields T) : (nat -> bool) -> T -> option T :=
  match fs with
  | FNil => fun _ _ => Some tt
  | FOpt C fs => fun s t =>
      match seen_f fs (fun i => s (S i)) (snd t) with
      | Some r => Some (if s 0%nat then fst t else None, r) | None => None
      end
  | FReq C fs => fun s t =>
      match seen_f fs (fun i => s (S i)) (snd t) with
      | Some r => if s 0%nat then Some (fst t, r) else None | None => None
      end
  | FDef C d fs => fun s t =>
      match seen_f fs (fun i => s (S i)) (snd t) with
      | Some r => Some (if s 0%nat then fst t else d, r) | None => None
      end
  end.

Lemma sz_fields_ok {T} (fs : fields T) W : good_fields fs W ->
  forall t, W t -> blen (enc_fields fs t) = sz_fields fs t
                   /\ enc_fields fs t = concat (items_f fs t)
                   /\ N.of_nat (length (items_f fs t)) = field_count fs.
Proof.
  induction 1 as [|A T C fs w W G Hn F IH|A T C fs w W G Hn F IH|A T C d fs w W G Hn F IH].
  - intros t _. repeat split.
  - intros t [H1 H2]. destruct (IH _ H2) as [I1 [I2 I3]].
    cbn [enc_fields sz_fields items_f field_count length concat]. rewrite blen_app, I1, I2.
    rewrite (g_size (good_option C w G Hn)) by exact H1. repeat split. lia.
  - intros t [H1 H2]. destruct (IH _ H2) as [I1 [I2 I3]].
    cbn [enc_fields sz_fields items_f field_count length concat]. rewrite blen_app, I1, I2.
    rewrite (g_size G) by exact H1. repeat split. lia.
  - intros t [H1 H2]. destruct (IH _ H2) as [I1 [I2 I3]].
    cbn [enc_fields sz_fields items_f field_count length concat]. rewrite blen_app, I1, I2.
    rewrite (g_size G) by exact H1. repeat split. lia.
Qed.

(** The option around a value that is present. *)
Lemma rt_some {A} (C : codec A) w p a rest :
  good C w -> nonnull C w -> w a -> blen (c_enc C a ++ rest) < 2 ^ 32 ->
  decode_with (c_dec (option_c C) p) (c_enc C a ++ rest) = Ok (Some a, rest).
Proof.
  intros G Hn Ha Hs. apply (g_rt (good_option C w G Hn) p (Some a) rest Ha).
  cbn [option_c c_sz]. rewrite <- (g_size G a Ha). rewrite blen_app in Hs. lia.
Qed.
Lemma rt_none {A} (C : codec A) p rest :
  decode_with (c_dec (option_c C) p) (x40 :: rest) = Ok (None, rest).
Proof. rewrite decode_with_cons. reflexivity. Qed.

(** What the field decoder makes of any prefix of the fields, with any of them
    null, whatever follows. *)
Lemma dec_fields_seen {T} (fs : fields T) W p : good_fields fs W ->
  forall t n s junk, W t -> blen (fields_wire s n (items_f fs t) ++ junk) < 2 ^ 32 ->
  match seen_f fs (fun i => (i <? n)%nat && s i) t with
  | Some y => dec_fields p fs (N.of_nat n) (fields_wire s n (items_f fs t) ++ junk) = Ok y
  | None => exists e, dec_fields p fs (N.of_nat n) (fields_wire s n (items_f fs t) ++ junk) = Err e
  end.
Proof.
  intros G. induction G as [|A T C fs w W G Hn F IH|A T C fs w W G Hn F IH|A T C d fs w W G Hn F IH];
    intros t n s junk Ht Hs.
  - destruct n; reflexivity.
  - destruct t as [o t], Ht as [H1 H2]. cbn [fst snd items_f seen_f dec_fields] in *.
    destruct n as [|n].
    + specialize (IH t 0%nat (fun i => s (S i)) junk H2 Hs).
      cbn [fields_wire app] in *. change (0 <? N.of_nat 0) with false. cbv iota.
      change (fun i => (i <? 0)%nat && s (S i)) with (fun i : nat => (S i <? 0)%nat && s (S i)) in IH.
      destruct (seen_f fs _ t) as [r|].
      * rewrite IH. reflexivity.
      * destruct IH as [e ->]. exists e. reflexivity.
    + cbn [fields_wire] in *. rewrite <- app_assoc in *.
      set (tail := fields_wire (fun i => s (S i)) n (items_f fs t) ++ junk) in *.
      assert (Htail : blen tail < 2 ^ 32) by (rewrite blen_app in Hs; lia).
      specialize (IH t n (fun i => s (S i)) junk H2 Htail). fold tail in IH.
      change (fun i => (i <? n)%nat && s (S i)) with (fun i : nat => (S i <? S n)%nat && s (S i)) in IH.
      replace (0 <? N.of_nat (S n)) with true by lia. cbv iota.
      replace (N.of_nat (S n) - 1) with (N.of_nat n) by lia.
      assert (R : decode_with (c_dec (option_c C) p)
                ((if s 0%nat then c_enc (option_c C) o else [x40]) ++ tail)
                = Ok (if s 0%nat then o else None, tail)).
      { destruct (s 0%nat); [|apply rt_none]. destruct o as [a|]; [|apply rt_none].
        apply (rt_some C w); assumption. }
      rewrite R. cbn [bind]. change ((0 <? S n)%nat && s 0%nat) with (s 0%nat).
      destruct (seen_f fs _ t) as [r|].
      * rewrite IH. reflexivity.
      * destruct IH as [e ->]. exists e. reflexivity.
  - destruct t as [a t], Ht as [H1 H2]. cbn [fst snd items_f seen_f dec_fields] in *.
    destruct n as [|n].
    + change (0 <? N.of_nat 0) with false. cbv iota.
      change ((0 <? 0)%nat && s 0%nat) with false.
      destruct (seen_f fs _ t) as [r|]; exists RequiredFieldOmitted; reflexivity.
    + cbn [fields_wire] in *. rewrite <- app_assoc in *.
      set (tail := fields_wire (fun i => s (S i)) n (items_f fs t) ++ junk) in *.
      assert (Htail : blen tail < 2 ^ 32) by (rewrite blen_app in Hs; lia).
      specialize (IH t n (fun i => s (S i)) junk H2 Htail). fold tail in IH.
      change (fun i => (i <? n)%nat && s (S i)) with (fun i : nat => (S i <? S n)%nat && s (S i)) in IH.
      replace (0 <? N.of_nat (S n)) with true by lia. cbv iota.
      replace (N.of_nat (S n) - 1) with (N.of_nat n) by lia.
      change ((0 <? S n)%nat && s 0%nat) with (s 0%nat).
      destruct (s 0%nat).
      * rewrite (g_rt G) by (auto; rewrite <- (g_size G a H1); rewrite blen_app in Hs; lia).
        cbn [bind]. destruct (seen_f fs _ t) as [r|].
        -- rewrite IH. reflexivity.
        -- destruct IH as [e ->]. exists e. reflexivity.
      * cbn [app]. destruct (Hn p tail) as [e E]. rewrite E.
        destruct (seen_f fs _ t) as [r|]; exists e; reflexivity.
  - destruct t as [a t], Ht as [H1 H2]. cbn [fst snd items_f seen_f dec_fields] in *.
    destruct n as [|n].
    + specialize (IH t 0%nat (fun i => s (S i)) junk H2 Hs).
      cbn [fields_wire app] in *. change (0 <? N.of_nat 0) with false. cbv iota.
      change (fun i => (i <? 0)%nat && s (S i)) with (fun i : nat => (S i <? 0)%nat && s (S i)) in IH.
      destruct (seen_f fs _ t) as [r|].
      * rewrite IH. reflexivity.
      * destruct IH as [e ->]. exists e. reflexivity.
    + cbn [fields_wire] in *. rewrite <- app_assoc in *.
      set (tail := fields_wire (fun i => s (S i)) n (items_f fs t) ++ junk) in *.
      assert (Htail : blen tail < 2 ^ 32) by (rewrite blen_app in Hs; lia).
      specialize (IH t n (fun i => s (S i)) junk H2 Htail). fold tail in IH.
      change (fun i => (i <? n)%nat && s (S i)) with (fun i : nat => (S i <? S n)%nat && s (S i)) in IH.
      replace (0 <? N.of_nat (S n)) with true by lia. cbv iota.
      replace (N.of_nat (S n) - 1) with (N.of_nat n) by lia.
      assert (R : decode_with (c_dec (option_c C) p)
                ((if s 0%nat then c_enc C a else [x40]) ++ tail)
                = Ok (if s 0%nat then Some a else None, tail)).
      { destruct (s 0%nat); [|apply rt_none]. apply (rt_some C w); assumption. }
      rewrite R. cbn [bind]. change ((0 <? S n)%nat && s 0%nat) with (s 0%nat).
      destruct (seen_f fs _ t) as [r|].
      * rewrite IH. destruct (s 0%nat); reflexivity.
      * destruct IH as [e ->]. exists e. reflexivity.
Qed.

Lemma seen_ext {T} (fs : fields T) : forall t s1 s2,
  (forall i, s1 i = s2 i) -> seen_f fs s1 t = seen_f fs s2 t.
Proof.
  induction fs as [|A T C fs IH|A T C fs IH|A T C d fs IH]; intros t s1 s2 H; cbn [seen_f];
    [reflexivity| | |]; rewrite (IH (snd t) (fun i => s1 (S i)) (fun i => s2 (S i))) by (intros; apply H);
    rewrite (H 0%nat); reflexivity.
Qed.
Lemma seen_all {T} (fs : fields T) : forall t s,
  (forall i, N.of_nat i < field_count fs -> s i = true) -> seen_f fs s t = Some t.
Proof.
  induction fs as [|A T C fs IH|A T C fs IH|A T C d fs IH]; intros t s H; cbn [seen_f field_count] in *;
    [destruct t; reflexivity| | |]; rewrite (IH (snd t) (fun i => s (S i))) by (intros; apply H; lia);
    rewrite (H 0%nat) by lia; destruct t; reflexivity.
Qed.
Lemma wire_all items : forall n s, (length items <= n)%nat -> (forall i, (i < length items)%nat -> s i = true) ->
  fields_wire s n items = concat items.
Proof.
  induction items as [|x items IH]; intros n s Hn Hs; [destruct n; reflexivity|].
  destruct n as [|n]; [cbn in Hn; lia|]. cbn [fields_wire concat length] in *.
  rewrite (Hs 0%nat) by lia. rewrite IH; [reflexivity|lia|]. intros i Hi. apply Hs. lia.
Qed.

(** ** Composite types *)
Definition good_comp {A} (K : comp A) (w : A -> Prop) : Prop :=
  exists W, good_fields (k_fields K) W /\ (forall x, w x -> W (k_to K x))
            /\ (forall x, k_of K (k_to K x) = x)
            /\ 1 <= k_code K < 256 /\ field_count (k_fields K) < 256.

Lemma list_form_header count content wire rest p :
  list_form count content wire ->
  exists b tl, wire ++ rest = b :: tl
    /\ dec_list_header p b tl = Ok ((blen content, count), content ++ rest).
Proof.
  intros [-> ->|H1 H2|H1 H2].
  - exists x45, rest. split; reflexivity.
  - rewrite <- app_comm_cons, <- !app_assoc. do 2 eexists. split; [reflexivity|].
    cbn [dec_list_header]. apply compound8_rt; lia.
  - rewrite <- app_comm_cons, <- !app_assoc. do 2 eexists. split; [reflexivity|].
    cbn [dec_list_header]. apply compound32_rt; lia.
Qed.
Lemma list_form_small count content wire : list_form count content wire -> blen content < 2 ^ 32.
Proof. intros [-> ->|H1 H2|H1 H2]; [reflexivity| |]; lia. Qed.

Lemma dec_inner_list {A} (K : comp A) p count content wire rest :
  list_form count content wire ->
  dec_inner K p (wire ++ rest) =
  t <- dec_fields p (k_fields K) count content ;; Ok (k_of K t, rest).
Proof.
  intros H. destruct (list_form_header count content wire rest p H) as [b [tl [E Hd]]].
  unfold dec_inner. rewrite E, read_byte_cons. cbn [bind]. rewrite Hd. cbn [bind].
  rewrite check_len_ok by (rewrite blen_app; lia). cbn [bind].
  rewrite split_to_app' by reflexivity. reflexivity.
Qed.

(** The written form: descriptor, then the list of all the fields. *)
Lemma enc_inner_form {A} (K : comp A) w x :
  good_comp K w -> w x -> sz_inner K x < 2 ^ 32 ->
  exists dl wire, enc_inner K x = x00 :: dl ++ wire
    /\ (forall rest, decode_with dec_descriptor (dl ++ rest) = Ok (DUlong (k_code K), rest))
    /\ list_form (field_count (k_fields K)) (concat (items_f (k_fields K) (k_to K x))) wire.
Proof.
  intros [W [F [HW [Hof [Hc Hn]]]]] Hx Hs. unfold sz_inner in Hs.
  destruct (sz_fields_ok _ _ F (k_to K x) (HW x Hx)) as [S1 [S2 S3]].
  assert (Hd : forall rest, exists tl, enc_descriptor (DUlong (k_code K)) = x00 :: tl
               /\ decode_with dec_descriptor (tl ++ rest) = Ok (DUlong (k_code K), rest)).
  { intros rest. apply rt_descriptor.
    - cbn [legal_descriptor]. unfold unsigned. change (2 ^ 64) with 18446744073709551616. lia.
    - cbn [wire_descriptor]. lia.
    - unfold sz_descriptor, sz_u64. change (2 ^ 32) with 4294967296.
      destruct (k_code K =? 0), (255 <? k_code K); lia. }
  destruct (enc_descriptor (DUlong (k_code K))) as [|b dl] eqn:E.
  { destruct (Hd []) as [tl [E' _]]. discriminate. }
  assert (b = x00) as -> by (destruct (Hd []) as [tl [E' _]]; congruence).
  exists dl. eexists. split; [|split].
  - unfold enc_inner. rewrite E. cbn [app]. reflexivity.
  - intros rest. destruct (Hd rest) as [tl [E' R]]. injection E' as <-. exact R.
  - rewrite <- S1, S2 in Hs. cbv zeta in Hs |- *. rewrite <- S1, S2.
    set (content := concat (items_f (k_fields K) (k_to K x))) in *.
    change (2 ^ 32) with 4294967296 in *. destruct (255 <? _) eqn:B.
    + rewrite <- app_comm_cons, <- app_assoc. apply list_form32; change (2 ^ 32) with 4294967296; lia.
    + rewrite <- app_comm_cons, <- app_assoc. apply list_form8; lia.
Qed.

Lemma blen_enc_inner {A} (K : comp A) w x :
  good_comp K w -> w x -> blen (enc_inner K x) = sz_inner K x.
Proof.
  intros [W [F [HW [Hof [Hc Hn]]]]] Hx.
  destruct (sz_fields_ok _ _ F (k_to K x) (HW x Hx)) as [S1 _].
  unfold enc_inner, sz_inner. rewrite !blen_app, S1.
  assert (D : blen (enc_descriptor (DUlong (k_code K))) = 3).
  { rewrite blen_enc_descriptor. unfold sz_descriptor, sz_u64.
    replace (k_code K =? 0) with false by lia. replace (255 <? k_code K) with false by lia. reflexivity. }
  rewrite D. destruct (255 <? _); rewrite blen_cons, blen_app, !blen_be; lia.
Qed.

Lemma dec_inner_rt {A} (K : comp A) w x wire p rest :
  good_comp K w -> w x ->
  list_form (field_count (k_fields K)) (concat (items_f (k_fields K) (k_to K x))) wire ->
  dec_inner K p (wire ++ rest) = Ok (x, rest).
Proof.
  intros [W [F [HW [Hof [Hc Hn]]]]] Hx L. rewrite (dec_inner_list K p _ _ wire rest L).
  destruct (sz_fields_ok _ _ F (k_to K x) (HW x Hx)) as [_ [_ S3]].
  pose proof (dec_fields_seen _ _ p F (k_to K x) (length (items_f (k_fields K) (k_to K x)))
                (fun _ => true) [] (HW x Hx)) as D.
  rewrite wire_all in D by (auto; lia). rewrite app_nil_r in D.
  specialize (D (list_form_small _ _ _ L)). rewrite seen_all in D.
  - rewrite S3 in D. rewrite D. cbn [bind]. rewrite Hof. reflexivity.
  - intros i Hi. rewrite <- S3 in Hi. rewrite andb_true_r. apply Nat.ltb_lt. lia.
Qed.

Lemma desc_is_ulong n code name : desc_is (DUlong n) code name = (n =? code).
Proof. reflexivity. Qed.

Lemma good_comp_c {A} (K : comp A) w : good_comp K w -> good (comp_c K) w.
Proof.
  intros G. constructor; cbn [comp_c c_sz c_enc].
  - intros x Hx. apply (blen_enc_inner K w); assumption.
  - intros x _. unfold sz_inner. destruct (255 <? _); lia.
  - intros p x rest Hx Hs. destruct (enc_inner_form K w x G Hx Hs) as [dl [wire [E [Hd L]]]].
    rewrite E, <- app_comm_cons, <- app_assoc, decode_with_cons. cbn [comp_c c_dec].
    unfold dec_described. change (Byte.eqb x00 x00) with true. cbv iota.
    rewrite Hd. cbn [bind].
    rewrite desc_is_ulong, N.eqb_refl. apply (dec_inner_rt K w); assumption.
Qed.
Lemma nonnull_comp {A} (K : comp A) w : nonnull (comp_c K) w.
Proof.
  intros x _. cbn [comp_c c_enc]. unfold enc_inner. cbn [enc_descriptor].
  do 2 eexists. split; [reflexivity|discriminate].
Qed.

Definition good_seen {A} (K : comp A) (w : A -> Prop) (items : A -> list bytes)
           (seen : (nat -> bool) -> A -> option A) : Prop :=
  forall p x n sent junk wire rest, w x ->
  list_form (N.of_nat n) (fields_wire sent n (items x) ++ junk) wire ->
  match seen (fun i => (i <? n)%nat && sent i) x with
  | Some y => dec_inner K p (wire ++ rest) = Ok (y, rest)
  | None => exists e, dec_inner K p (wire ++ rest) = Err e
  end.

Lemma good_seen_comp {A} (K : comp A) w items seen :
  good_comp K w ->
  (forall x, items x = items_f (k_fields K) (k_to K x)) ->
  (forall s x, seen s x = option_map (k_of K) (seen_f (k_fields K) s (k_to K x))) ->
  good_seen K w items seen.
Proof.
  intros [W [F [HW [Hof [Hc Hn]]]]] Hi Hse p x n sent junk wire rest Hx L.
  rewrite (dec_inner_list K p _ _ wire rest L), Hse. rewrite Hi in *.
  pose proof (dec_fields_seen _ _ p F (k_to K x) n sent junk (HW x Hx) (list_form_small _ _ _ L)) as D.
  destruct (seen_f _ _ _) as [y|]; cbn [option_map].
  - rewrite D. reflexivity.
  - destruct D as [e ->]. exists e. reflexivity.
Qed.

(** ** Tactics for the generated file *)
Lemma optional_anything {A} (o : option A) : optional anything o.
Proof. destruct o; exact I. Qed.
Global Hint Resolve nonnull_comp : good.
Ltac legal_tac :=
  intros x H; cbn [k_to fst snd];
  repeat match goal with
  | |- _ /\ _ => split
  | H : _ /\ _ |- _ => destruct H
  end;
  first [assumption | exact I | apply optional_anything].
Ltac good_fields_tac :=
  match goal with
  | |- good_fields FNil _ => apply GF_nil
  | |- good_fields (FOpt _ _) _ =>
      eapply GF_opt; [solve [eauto with good nocore] | solve [eauto with good nocore] | good_fields_tac]
  | |- good_fields (FReq _ _) _ =>
      eapply GF_req; [solve [eauto with good nocore] | solve [eauto with good nocore] | good_fields_tac]
  | |- good_fields (FDef _ _ _) _ =>
      eapply GF_def; [solve [eauto with good nocore] | solve [eauto with good nocore] | good_fields_tac]
  end.
Ltac prove_good_comp :=
  match goal with |- good_comp ?K ?w =>
    unfold good_comp, K, w; cbn [k_fields k_to k_of k_code];
    eexists; split; [good_fields_tac|];
    split; [legal_tac|]; split; [intros []; reflexivity|]; split; [lia|];
    cbn [field_count]; lia
  end.
Ltac items_tac := intros x; reflexivity.
Ltac seen_tac :=
  intros s x;
  match goal with |- _ = option_map (k_of ?K) _ => unfold K end;
  cbn [k_fields k_to k_of seen_f fst snd];
  repeat match goal with |- context [negb (s ?i)] => destruct (s i) end;
  reflexivity.

Ltac union_case K w G :=
  match goal with
  | |- decode_with (c_dec ?U ?p) (enc_inner K ?x ++ ?rest) = _ =>
      let dl := fresh in let wire := fresh in let E := fresh in let Hd := fresh in let L := fresh in
      destruct (enc_inner_form K w x G ltac:(assumption) ltac:(assumption)) as [dl [wire [E [Hd L]]]];
      rewrite E, <- app_comm_cons, <- app_assoc, decode_with_cons;
      unfold U; cbn [c_dec]; unfold dec_described at 1; change (Byte.eqb x00 x00) with true; cbv iota;
      rewrite Hd; cbn [bind]; rewrite !desc_is_ulong; cbn [K k_code N.eqb Pos.eqb];
      rewrite (dec_inner_rt K w x wire p rest G ltac:(assumption) L); reflexivity
  end.
