(** * Messages: sections, sizes, round trip, the remembered size *)

From Verif Require Import Framing Spec SpecProtocol SpecFraming.
From Verif Require Import BaseProofs EncodeProofs Roundtrip VariantRoundtrip CodecProofs EnumProofs
  CompositeProofs ProtocolGood.
From Coq Require Import ZifyBool ZifyNat ZifyN.

(** ** Sections *)
Lemma rt_code code : 1 <= code < 256 -> exists dl, enc_descriptor (DUlong code) = x00 :: dl
  /\ blen (enc_descriptor (DUlong code)) = 3
  /\ forall rest, decode_with dec_descriptor (dl ++ rest) = Ok (DUlong code, rest).
Proof.
  intros Hc.
  assert (D : blen (enc_descriptor (DUlong code)) = 3).
  { rewrite blen_enc_descriptor. unfold sz_descriptor, sz_u64.
    replace (code =? 0) with false by lia. replace (255 <? code) with false by lia. reflexivity. }
  assert (R : forall rest, exists tl, enc_descriptor (DUlong code) = x00 :: tl
            /\ decode_with dec_descriptor (tl ++ rest) = Ok (DUlong code, rest)).
  { intros rest. apply rt_descriptor.
    - cbn [legal_descriptor]. unfold unsigned. change (2 ^ 64) with 18446744073709551616. lia.
    - cbn [wire_descriptor]. lia.
    - rewrite <- blen_enc_descriptor, D. reflexivity. }
  destruct (R []) as [dl [E _]]. exists dl. split; [exact E|]. split; [exact D|].
  intros rest. destruct (R rest) as [tl [E' H]]. rewrite E in E'. injection E' as <-. exact H.
Qed.

Lemma blen_enc_restricted {A} (C : codec A) w code a :
  good C w -> w a -> 1 <= code < 256 -> blen (enc_restricted C code a) = sz_restricted C a.
Proof.
  intros G Ha Hc. unfold enc_restricted, sz_restricted. rewrite blen_app, (g_size G a Ha).
  destruct (rt_code code Hc) as [dl [_ [D _]]]. rewrite D. reflexivity.
Qed.

Ltac restricted_case C w G code :=
  match goal with
  | |- decode_with (c_dec section_c ?p) (enc_restricted C code ?a ++ ?rest) = _ =>
      let dl := fresh in let E := fresh in let D := fresh in let R := fresh in
      destruct (rt_code code ltac:(lia)) as [dl [E [D R]]];
      unfold enc_restricted, sz_restricted in *; rewrite E in *;
      rewrite <- app_assoc; cbn [app]; rewrite decode_with_cons;
      unfold section_c; cbn [c_dec]; unfold dec_described at 1;
      change (Byte.eqb x00 x00) with true; cbv iota;
      rewrite R; cbn [bind]; rewrite !desc_is_ulong; cbn [N.eqb Pos.eqb];
      unfold dec_restricted; rewrite (g_rt G) by (try assumption; try exact I; lia); reflexivity
  end.

Lemma good_section : good section_c legal_section.
Proof.
  constructor.
  - intros [x|m|m|m|b|l|v|m|x] H; cbn [section_c c_sz c_enc legal_section] in *.
    + apply (blen_enc_inner _ _ _ goodk_header H).
    + apply (blen_enc_restricted _ _ _ _ good_symbol_map H). lia.
    + apply (blen_enc_restricted _ _ _ _ good_symbol_map H). lia.
    + apply (blen_enc_restricted _ _ _ _ good_string_map H). lia.
    + apply (blen_enc_restricted _ _ _ _ good_binary I). lia.
    + apply (blen_enc_restricted _ _ _ _ good_list H). lia.
    + apply (blen_enc_restricted _ _ _ _ good_variant H). lia.
    + apply (blen_enc_restricted _ _ _ _ good_fields_c H). lia.
    + apply (blen_enc_inner _ _ _ goodk_properties H).
  - intros [x|m|m|m|b|l|v|m|x] H; cbn [section_c c_sz legal_section] in *;
      try (unfold sz_restricted; lia).
    + exact (g_pos good_header x H).
    + exact (g_pos good_properties x H).
  - intros p [x|m|m|m|b|l|v|m|x] rest H Hs; cbn [section_c c_sz c_enc legal_section] in *.
    + union_case header_k legal_header goodk_header.
    + restricted_case symbol_map_c legal_pairs good_symbol_map 113.
    + restricted_case symbol_map_c legal_pairs good_symbol_map 114.
    + restricted_case string_map_c legal_pairs good_string_map 116.
    + restricted_case binary_c (@anything bytes) good_binary 117.
    + restricted_case list_c (Forall legal_value) good_list 118.
    + restricted_case variant_c legal_value good_variant 119.
    + restricted_case fields_c legal_fields good_fields_c 120.
    + union_case properties_k legal_properties goodk_properties.
Qed.

(** ** A message as a list of sections *)
Definition opt_list {A} (o : option A) : list A := match o with Some a => [a] | None => [] end.
Definition sections_of (m : message) : list section :=
  match m with
  | Msg s nested _ =>
      map SHeader (opt_list (ms_header s))
      ++ map SDeliveryAnnotations (opt_list (ms_delivery_annotations s))
      ++ map SMessageAnnotations (opt_list (ms_message_annotations s))
      ++ map SProperties (opt_list (ms_properties s))
      ++ map SApplicationProperties (opt_list (ms_application_properties s))
      ++ map SData (ms_data s)
      ++ map SSequence (ms_sequence s)
      ++ map SValue (opt_list (ms_value s))
      ++ map SData (map tb_enc nested)
      ++ map SFooter (opt_list (ms_footer s))
  end.

Section message_ind.
  Variable P : message -> Prop.
  Variable Q : transfer_body -> Prop.
  Hypothesis Hmsg : forall s nested cache, Forall Q nested -> P (Msg s nested cache).
  Hypothesis Hdata : forall d, Q (TBData d).
  Hypothesis Hnest : forall m, P m -> Q (TBMessage m).
  Fixpoint message_ind' (m : message) : P m :=
    match m with
    | Msg s nested cache =>
        Hmsg s nested cache
          ((fix go (l : list transfer_body) : Forall Q l :=
              match l with
              | [] => Forall_nil _
              | TBData d :: t => Forall_cons _ (Hdata d) (go t)
              | TBMessage m :: t => Forall_cons _ (Hnest m (message_ind' m)) (go t)
              end) nested)
    end.
End message_ind.

Lemma flat_map_map {A B C} (f : B -> list C) (g : A -> B) l :
  flat_map f (map g l) = flat_map (fun a => f (g a)) l.
Proof. induction l as [|a l IH]; [reflexivity|]. cbn. rewrite IH. reflexivity. Qed.
Lemma flat_map_opt {A} (f : A -> bytes) (o : option A) : flat_map f (opt_list o) = opt_b f o.
Proof. destruct o; [apply app_nil_r|reflexivity]. Qed.
Lemma flat_map_ext' {A B} (f g : A -> list B) l :
  Forall (fun a => f a = g a) l -> flat_map f l = flat_map g l.
Proof. induction 1 as [|a l H _ IH]; [reflexivity|]. cbn. rewrite H, IH. reflexivity. Qed.
Lemma sum_by_map {A B} (f : B -> N) (g : A -> B) l : sum_by f (map g l) = sum_by (fun a => f (g a)) l.
Proof. induction l as [|a l IH]; [reflexivity|]. cbn [map]. unfold sum_by in *. cbn [fold_right]. rewrite IH. reflexivity. Qed.
Lemma sum_by_app {A} (f : A -> N) a b : sum_by f (a ++ b) = sum_by f a + sum_by f b.
Proof. induction a as [|x a IH]; [reflexivity|]. unfold sum_by in *. cbn [app fold_right]. rewrite IH. lia. Qed.
Lemma sum_by_opt {A} (f : A -> N) (o : option A) : sum_by f (opt_list o) = opt_n f o.
Proof. destruct o; [apply N.add_0_r|reflexivity]. Qed.
Lemma sum_by_ext {A} (f g : A -> N) l : Forall (fun a => f a = g a) l -> sum_by f l = sum_by g l.
Proof. induction 1 as [|a l H _ IH]; [reflexivity|]. unfold sum_by in *. cbn [fold_right]. rewrite H, IH. reflexivity. Qed.

Lemma enc_nested_data d n : n = blen d -> enc_nested n d = enc_restricted binary_c 117 d.
Proof.
  intros ->. unfold enc_nested, enc_restricted. cbn [binary_c c_enc]. unfold enc_binary, enc_var.
  destruct (255 <? blen d); reflexivity.
Qed.
Lemma sz_nested_data d n : n = blen d -> sz_nested n = sz_restricted binary_c d.
Proof.
  intros ->. unfold sz_nested, sz_restricted. cbn [binary_c c_sz]. unfold sz_var.
  destruct (255 <? blen d); lia.
Qed.

Lemma legal_sections m : sound_message m -> Forall legal_section (sections_of m).
Proof.
  intros [s nested cache Hl Hn _]. destruct Hl as [H1 [H2 [H3 [H4 [H5 [H6 [H7 H8]]]]]]].
  assert (O : forall A (P : A -> Prop) (f : A -> section) o,
            (forall a, P a -> legal_section (f a)) -> optional P o -> Forall legal_section (map f (opt_list o))).
  { intros A P f [a|] Hf Ho; cbn; auto. }
  assert (D : forall l, Forall legal_section (map SData l)).
  { intros l. apply Forall_map, Forall_forall. intros; exact I. }
  cbn [sections_of]. repeat (apply Forall_app; split); auto.
  - apply (O _ _ SHeader _ (fun a H => H) H1).
  - apply (O _ _ SDeliveryAnnotations _ (fun a H => H) H2).
  - apply (O _ _ SMessageAnnotations _ (fun a H => H) H3).
  - apply (O _ _ SProperties _ (fun a H => H) H4).
  - apply (O _ _ SApplicationProperties _ (fun a H => H) H5).
  - apply Forall_map. exact H7.
  - apply (O _ _ SValue _ (fun a H => H) H8).
  - apply (O _ _ SFooter _ (fun a H => H) H6).
Qed.

(** The sizes announced and the bytes written. *)
Lemma message_facts m : sound_message m ->
  blen (msg_enc m) = msg_size m /\ msg_enc m = flat_map (c_enc section_c) (sections_of m)
  /\ calc_size (msg_parts m) (sum_by (fun b => sz_nested (tb_size b)) (msg_nested m)) = blen (msg_enc m).
Proof.
  revert m.
  apply (message_ind' (fun m => sound_message m ->
     blen (msg_enc m) = msg_size m /\ msg_enc m = flat_map (c_enc section_c) (sections_of m)
     /\ calc_size (msg_parts m) (sum_by (fun b => sz_nested (tb_size b)) (msg_nested m)) = blen (msg_enc m))
     (fun b => sound_body b -> blen (tb_enc b) = tb_size b)); [|reflexivity|].
  2:{ intros m IH H. inversion H; subst. apply IH. assumption. }
  intros s nested cache IH H.
  assert (E : msg_enc (Msg s nested cache) = flat_map (c_enc section_c) (sections_of (Msg s nested cache))).
  { cbn [msg_enc sections_of]. rewrite !flat_map_app, !flat_map_map, !flat_map_opt.
    assert (F : flat_map (fun b => enc_nested (tb_size b) (tb_enc b)) nested
                = flat_map (fun a => c_enc section_c (SData (tb_enc a))) nested).
    { apply flat_map_ext'.
      inversion H as [s' n' c' _ Hn _]; subst. rewrite Forall_forall in *. intros b Hb.
      apply enc_nested_data. symmetry. apply IH; auto. }
    rewrite F. reflexivity. }
  assert (Z : calc_size s (sum_by (fun b => sz_nested (tb_size b)) nested) = blen (msg_enc (Msg s nested cache))).
  { rewrite E. erewrite sum_by_flat with (f := c_sz section_c).
    - cbn [sections_of]. rewrite !sum_by_app, !sum_by_map, !sum_by_opt. unfold calc_size.
      cbn [section_c c_sz].
      assert (S : sum_by (fun b => sz_nested (tb_size b)) nested
                  = sum_by (fun b => sz_restricted binary_c (tb_enc b)) nested).
      { apply sum_by_ext. inversion H as [s' n' c' _ Hn _]; subst.
        rewrite Forall_forall in *. intros b Hb. apply sz_nested_data. symmetry. apply IH; auto. }
      rewrite S. 
      repeat match goal with
      | |- context [opt_n (fun a => ?f a) ?o] => progress change (opt_n (fun a => f a) o) with (opt_n f o)
      end.
      change (sum_by (fun a : bytes => sz_restricted binary_c a) (ms_data s))
        with (sum_by (sz_restricted binary_c) (ms_data s)).
      change (sum_by (fun a : list variant => sz_restricted list_c a) (ms_sequence s))
        with (sum_by (sz_restricted list_c) (ms_sequence s)).
      lia.
    - eapply Forall_impl; [|exact (legal_sections _ H)]. intros x Hx. apply (g_size good_section), Hx. }
  split; [|split; [exact E|exact Z]].
  cbn [msg_size]. inversion H as [s' n' c' _ _ [Hc|Hc]]; subst s' n' c'.
  - rewrite Hc at 2. cbn [N.eqb]. symmetry. exact Z.
  - destruct (N.eqb_spec cache 0) as [H0|H0]; [symmetry; exact Z|]. symmetry. exact Hc.
Qed.

Lemma body_size b : sound_body b -> blen (tb_enc b) = tb_size b.
Proof. intros [d|m H]; [reflexivity|]. apply (message_facts m H). Qed.

(** ** Round trip *)
Lemma dec_sections_rt p l : forall acc fuel, Forall legal_section l ->
  blen (flat_map (c_enc section_c) l) < 2 ^ 32 -> (length l <= fuel)%nat ->
  dec_sections p fuel acc (flat_map (c_enc section_c) l) = Ok (fold_left (fun s x => put_section x s) l acc).
Proof.
  induction l as [|x l IH]; intros acc fuel H Hs Hf; [destruct fuel; reflexivity|].
  inversion H as [|x' l' Hx Hl]; subst. cbn [flat_map] in *. rewrite blen_app in Hs.
  destruct fuel as [|fuel]; [cbn in Hf; lia|].
  assert (Hne : exists b tl, c_enc section_c x ++ flat_map (c_enc section_c) l = b :: tl).
  { pose proof (g_size good_section x Hx) as S. pose proof (g_pos good_section x Hx).
    destruct (c_enc section_c x) as [|b tl]; [rewrite blen_nil in S; lia|]. do 2 eexists. reflexivity. }
  destruct Hne as [b [tl Hne]]. cbn [dec_sections]. rewrite Hne. rewrite <- Hne.
  rewrite (g_rt good_section) by (auto; rewrite <- (g_size good_section x Hx); lia).
  cbn [bind fold_left]. apply IH; [assumption|lia|cbn in Hf; lia].
Qed.

Lemma put_sections m :
  fold_left (fun s x => put_section x s) (sections_of m) parts0 = msg_parts (received_message m).
Proof.
  destruct m as [[fmt hdr da ma pr ap ft data seq val] nested cache].
  cbn [sections_of ms_header ms_delivery_annotations ms_message_annotations ms_properties
       ms_application_properties ms_data ms_sequence ms_value ms_footer].
  rewrite !fold_left_app.
  assert (D : forall l s, fold_left (fun s x => put_section x s) (map SData l) s
            = match s with mk_parts f h d m p a t da q v => mk_parts f h d m p a t (da ++ l) q v end).
  { induction l as [|b l IH]; intros [f h d m p a t dat q v].
    - cbn. rewrite app_nil_r. reflexivity.
    - cbn [map fold_left]. rewrite IH. cbn [put_section]. rewrite <- app_assoc. reflexivity. }
  assert (Q : forall l s, fold_left (fun s x => put_section x s) (map SSequence l) s
            = match s with mk_parts f h d m p a t da q v => mk_parts f h d m p a t da (q ++ l) v end).
  { induction l as [|b l IH]; intros [f h d m p a t dat q v].
    - cbn. rewrite app_nil_r. reflexivity.
    - cbn [map fold_left]. rewrite IH. cbn [put_section]. rewrite <- app_assoc. reflexivity. }
  rewrite !D, !Q.
  destruct hdr, da, ma, pr, ap, val, ft; reflexivity.
Qed.

Lemma length_sections l : Forall legal_section l -> (length l <= length (flat_map (c_enc section_c) l))%nat.
Proof.
  intros H. apply length_flat_map_le. eapply Forall_impl; [|exact H]. intros x Hx.
  pose proof (g_size good_section x Hx) as S. pose proof (g_pos good_section x Hx). unfold blen in S. lia.
Qed.

Lemma message_round_trip p m :
  sound_message m -> blen (msg_enc m) < 2 ^ 32 ->
  dec_message p (msg_enc m) = Ok (received_message m).
Proof.
  intros H Hs. destruct (message_facts m H) as [_ [E _]]. unfold dec_message. rewrite E in *.
  pose proof (legal_sections m H) as L.
  rewrite dec_sections_rt; [|exact L|exact Hs|apply length_sections, L].
  rewrite put_sections. destruct m as [[fmt hdr da ma pr ap ft data seq val] nested cache]. reflexivity.
Qed.
