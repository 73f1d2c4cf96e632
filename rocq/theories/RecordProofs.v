(** * Proofs about lists of composites and arrays of maps: C68 *)

From Verif Require Import Base BaseProofs Types Encode Decode Arrays Spec ArrayProofs EncodeProofs Roundtrip
  VariantRoundtrip PanicProofs ValueTheorems SpecRecords.

Section Records.
Context {A : Type} (C : composite A).
Let item (a : A) : variant := VDescribedCompound (co_descr C) (co_enc C a).
Let wr (a : A) : bytes := enc_descriptor (co_descr C) ++ co_enc C a.

Lemma blen_descr d : legal_descriptor d -> blen (enc_descriptor d) = sz_descriptor d.
Proof.
  intros H. pose proof (size_variant (VDescribedCompound d []) (L_DescribedCompound d [] H)) as E.
  cbn [enc_variant sz_variant] in E. rewrite app_nil_r in E. change (blen []) with 0 in E. lia.
Qed.

Lemma item_rt p a rest : usable (co_descr C) -> keeps C a -> blen (wr a) < 2 ^ 32 ->
  dec_record p C (wr a ++ rest) = Ok (a, rest).
Proof.
  intros [L W] [F [_ R]] B. unfold dec_record.
  assert (E : decode_variant p (wr a ++ rest) = Ok (item a, rest)).
  { change (wr a) with (enc_variant (item a)). apply decode_encode_variant; [constructor; exact L| |exact B].
    apply W_DescribedCompound; assumption. }
  rewrite E. cbn [bind]. unfold item.
  replace (descriptor_eqb (co_descr C) (co_descr C)) with true.
  - unfold described_decode. specialize (R []). rewrite app_nil_r in R. rewrite R. reflexivity.
  - symmetry. unfold descriptor_eqb. destruct (co_descr C); [apply N.eqb_refl|].
    clear. induction s as [|b s IH]; [reflexivity|]. cbn [beqb]. rewrite IH, Bool.andb_true_r. destruct b; reflexivity.
Qed.

Lemma blen_items l : usable (co_descr C) -> Forall (keeps C) l -> blen (flat_map wr l) = items_sz C l.
Proof.
  intros [L _] H. unfold items_sz. induction H as [|a l [_ [S _]] _ IH]; [reflexivity|].
  cbn [flat_map]. rewrite blen_app, IH. unfold wr at 1. rewrite blen_app, S, blen_descr by exact L. cbn [sum_by]. fold (sum_by (fun a0 => co_sz C a0 + sz_descriptor (co_descr C)) l). lia.
Qed.

Lemma dec_record_same p a inp rest : dec_record p C inp = Ok (a, rest) <->
  exists v, decode_variant p inp = Ok (v, rest)
    /\ exists data, v = VDescribedCompound (co_descr C) data /\ described_decode (co_dec C) data = Ok a.
Proof.
  unfold dec_record. split.
  - destruct (decode_variant p inp) as [[v r]|e|pn|]; cbn [bind]; try discriminate.
    destruct v; try discriminate. destruct (descriptor_eqb (co_descr C) d) eqn:D; [|discriminate].
    destruct (described_decode (co_dec C) data) as [a'|e|pn|] eqn:R; cbn [bind]; try discriminate.
    intros Q. assert (a' = a /\ r = rest) as [-> ->] by (split; congruence).
    exists (VDescribedCompound d data). split; [reflexivity|]. exists data. split; [|exact R].
    f_equal. symmetry. clear - D. unfold descriptor_eqb in D. destruct (co_descr C) as [n|x], d as [m|y]; try discriminate.
    + apply N.eqb_eq in D. congruence.
    + f_equal. revert y D. induction x as [|b x IH]; intros [|c y] D; try discriminate; [reflexivity|].
      cbn [beqb] in D. apply andb_prop in D. destruct D as [D1 D2]. rewrite (IH y D2). f_equal. apply Byte.byte_dec_bl, D1.
  - intros [v [-> [data [-> R]]]]. cbn [bind].
    replace (descriptor_eqb (co_descr C) (co_descr C)) with true.
    + rewrite R. reflexivity.
    + symmetry. unfold descriptor_eqb. destruct (co_descr C); [apply N.eqb_refl|].
      clear. induction s as [|b s IH]; [reflexivity|]. cbn [beqb]. rewrite IH, Bool.andb_true_r. destruct b; reflexivity.
Qed.

Lemma dec_n_same p : forall fuel count inp l rest, dec_n (dec_record p C) fuel count inp = Ok (l, rest) <->
  exists vs, dec_n (decode_variant p) fuel count inp = Ok (vs, rest)
    /\ Forall2 (fun v a => exists data, v = VDescribedCompound (co_descr C) data /\ described_decode (co_dec C) data = Ok a) vs l.
Proof.
  induction fuel as [|fuel IH]; intros count inp l rest; cbn [dec_n].
  - destruct (count =? 0).
    + split.
      * intros Q. assert (l = [] /\ inp = rest) as [-> ->] by (split; congruence). exists []. split; [reflexivity|constructor].
      * intros [vs [Q F]]. assert (vs = [] /\ inp = rest) as [-> ->] by (split; congruence). inversion F. reflexivity.
    + split; [discriminate|intros [vs [Q _]]; discriminate].
  - destruct (count =? 0).
    + split.
      * intros Q. assert (l = [] /\ inp = rest) as [-> ->] by (split; congruence). exists []. split; [reflexivity|constructor].
      * intros [vs [Q F]]. assert (vs = [] /\ inp = rest) as [-> ->] by (split; congruence). inversion F. reflexivity.
    + split.
      * destruct (dec_record p C inp) as [[a i1]|e|pn|] eqn:D; cbn [bind]; try discriminate.
        destruct (dec_n (dec_record p C) fuel (count - 1) i1) as [[l' i2]|e|pn|] eqn:N; cbn [bind]; try discriminate.
        intros Q. assert (a :: l' = l /\ i2 = rest) as [<- ->] by (split; congruence).
        apply dec_record_same in D. destruct D as [v [Dv G]]. apply IH in N. destruct N as [vs [Nv F]].
        exists (v :: vs). rewrite Dv. cbn [bind]. rewrite Nv. split; [reflexivity|constructor; assumption].
      * intros [vs [Q F]]. destruct (decode_variant p inp) as [[v i1]|e|pn|] eqn:D; cbn [bind] in Q; try discriminate.
        destruct (dec_n (decode_variant p) fuel (count - 1) i1) as [[vs' i2]|e|pn|] eqn:N; cbn [bind] in Q; try discriminate.
        assert (v :: vs' = vs /\ i2 = rest) as [<- ->] by (split; congruence).
        inversion F as [|? a ? l' G F']; subst.
        assert (E : dec_record p C inp = Ok (a, i1)) by (apply dec_record_same; exists v; split; [exact D|exact G]).
        rewrite E. cbn [bind].
        assert (E2 : dec_n (dec_record p C) fuel (count - 1) i1 = Ok (l', rest)) by (apply IH; exists vs'; split; assumption).
        rewrite E2. reflexivity.
Qed.

Lemma records_same p inp l rest : decode_with (dec_records p C) inp = Ok (l, rest) <->
  exists vs, decode_with (dec_list p (decode_variant p)) inp = Ok (vs, rest)
    /\ Forall2 (fun v a => exists data, v = VDescribedCompound (co_descr C) data /\ described_decode (co_dec C) data = Ok a) vs l.
Proof.
  destruct inp as [|b inp].
  - unfold decode_with. cbn [bind read_byte check_len]. split; [discriminate|intros [vs [Q _]]; discriminate].
  - rewrite !decode_with_cons. unfold dec_records, dec_list.
    destruct (dec_list_header p b inp) as [[[sz count] i]|e|pn|]; cbn [bind];
      try (split; [discriminate|intros [vs [Q _]]; discriminate]).
    apply dec_n_same.
Qed.

Lemma records_rt p l rest : usable (co_descr C) -> Forall (keeps C) l -> sz_records C l < 2 ^ 32 ->
  decode_with (dec_records p C) (enc_records C l ++ rest) = Ok (l, rest) /\ blen (enc_records C l) = sz_records C l.
Proof.
  intros U K Hs. pose proof (blen_items l U K) as HB.
  split; [|unfold enc_records, sz_records; apply blen_enc_compound; exact HB].
  unfold enc_records. fold wr. unfold sz_records, sz_compound in Hs. rewrite <- app_assoc.
  destruct (enc_compound_cons xc0 xd0 (items_sz C l) (N.of_nat (length l))) as [c [tl [E Hc]]].
  rewrite E. change (fun a => enc_descriptor (co_descr C) ++ co_enc C a) with wr.
  assert (Hcount : (length l <= length (flat_map wr l))%nat).
  { apply length_flat_map_le. eapply Forall_impl; [|exact K]. intros a _. unfold wr, enc_descriptor. cbn [app length]. lia. }
  assert (Hloop : forall inp fuel, (length l <= fuel)%nat ->
    dec_n (dec_record p C) fuel (N.of_nat (length l)) (flat_map wr l ++ inp) = Ok (l, inp)).
  { intros inp fl Hfl. apply dec_n_rt; [|exact Hfl].
    pose proof (Forall_in_flat wr l) as Hin. rewrite Forall_forall in K, Hin |- *.
    intros x Hx r. apply item_rt; [exact U|apply K, Hx|]. specialize (Hin x Hx). cbn beta in Hin. unfold blen in HB |- *.
    destruct (255 <? items_sz C l + 1); lia. }
  unfold blen in HB.
  destruct Hc as [[Hsz' [-> ->]]|[Hsz' [-> ->]]]; rewrite Hsz' in Hs;
    rewrite <- app_comm_cons, decode_with_cons; unfold dec_records, dec_list; cbn [dec_list_header];
    rewrite <- app_assoc.
  - rewrite compound32_rt by lia. cbn [bind]. apply Hloop. rewrite app_length. lia.
  - rewrite compound8_rt by lia. cbn [bind]. apply Hloop. rewrite app_length. lia.
Qed.
End Records.

(** ** Arrays of maps *)
Section Maps.
Context {K V : Type} (M : map_ty K V).

Lemma keeps_pairs m : keeps_map M m -> blen (enc_pairs (mt_ek M) (mt_ev M) m) = pairs_size (mt_szk M) (mt_szv M) m
  /\ (2 * length m <= length (enc_pairs (mt_ek M) (mt_ev M) m))%nat.
Proof.
  intros [H _]. split.
  - apply blen_enc_pairs. eapply Forall_impl; [|exact H]. intros kv [_ [_ [A [B _]]]]. split; assumption.
  - induction H as [|[k v] m [_ [_ [A [B [P P2]]]]] _ IH]; [cbn; lia|]. unfold enc_pairs in *. cbn [flat_map length fst snd] in *.
    rewrite !app_length. unfold blen in A, B. lia.
Qed.

Lemma blen_maps l : Forall (keeps_map M) l -> blen (flat_map (map_array_enc M) l) = sum_by (map_array_sz M) l.
Proof.
  induction 1 as [|m l Hm _ IH]; [reflexivity|]. cbn [flat_map]. rewrite blen_app, IH. unfold map_array_enc.
  rewrite !blen_app, !blen_be. rewrite (proj1 (keeps_pairs m Hm)). cbn [sum_by]. fold (sum_by (map_array_sz M) l).
  unfold map_array_sz at 2. lia.
Qed.

Lemma map_elem_rt p m rest : keeps_map M m -> map_array_sz M m < 2 ^ 32 ->
  dec_map_of p M xd1 (map_array_enc M m ++ rest) = Ok (m, rest).
Proof.
  intros Hm Hs. destruct (keeps_pairs m Hm) as [HB HL]. unfold map_array_sz in Hs.
  unfold dec_map_of, dec_hashmap, map_array_enc. cbn [dec_map_header]. rewrite <- !app_assoc.
  unfold blen in HB. rewrite compound32_rt by lia. cbn [bind].
  rewrite check_len_ok by (rewrite blen_app; unfold blen; lia). cbn [bind].
  rewrite split_to_app' by (unfold blen; lia). cbn [bind].
  replace (N.of_nat (length m) * 2 / 2) with (N.of_nat (length m)) by (rewrite N.div_mul; lia).
  destruct Hm as [H1 [H2 H3]]. rewrite <- (app_nil_r (enc_pairs (mt_ek M) (mt_ev M) m)).
  rewrite (dec_map_loop_rt (mt_hash M) (mt_eqb M) (mt_ek M) (mt_ev M) _ _ m) with (acc := []); [reflexivity| |exact H2| |exact H3].
  - eapply Forall_impl; [|exact H1]. intros kv [X [Y _]]. split; assumption.
  - rewrite app_nil_r. lia.
Qed.

Lemma maps_rt p l rest : Forall (keeps_map M) l -> sz_maps M l < 2 ^ 32 ->
  decode_with (dec_vec p (dec_map_of p M)) (enc_maps M l ++ rest) = Ok (l, rest)
  /\ blen (enc_maps M l) = sz_maps M l /\ array_decode (dec_map_of p M) (maps_array M l) = Ok l
  /\ enc_maps M l = enc_array (maps_array M l).
Proof.
  intros H Hs. pose proof (blen_maps l H) as HB. unfold enc_maps, sz_maps in *.
  assert (HL : N.of_nat (length l) <= sum_by (map_array_sz M) l).
  { clear. induction l as [|m l IH]; [cbn; lia|]. cbn [sum_by length]. fold (sum_by (map_array_sz M) l). unfold map_array_sz at 1. lia. }
  rewrite <- HB in *. set (content := flat_map (map_array_enc M) l) in *.
  assert (Hcode : forall r, decode_with dec_ctor ([xd1] ++ r) = Ok (CFormatCode xd1, r)) by (intros r; cbn [app]; rewrite decode_with_cons; reflexivity).
  assert (Hn : forall r, dec_n (dec_map_of p M xd1) (N.to_nat (N.of_nat (length l))) (N.of_nat (length l)) (content ++ r) = Ok (l, r)).
  { intros r. apply dec_n_rt; [|lia].
    pose proof (sum_by_in (map_array_sz M) l) as Hin. rewrite Forall_forall in H, Hin |- *.
    intros m Hx r'. apply map_elem_rt; [apply H, Hx|]. specialize (Hin m Hx). cbn beta in Hin. rewrite <- HB in Hin.
    destruct (255 <? blen content + 1 + 1); lia. }
  split; [|split; [|split]].
  - rewrite <- !app_assoc.
    destruct (N.ltb_spec 255 (blen content + 1 + 1)) as [Hb|Hb]; rewrite <- app_comm_cons, decode_with_cons;
      unfold dec_vec; cbn [dec_array_header]; rewrite <- app_assoc.
    + replace (blen content + 4 + 1) with ((blen content + 1) + 4) by lia.
      rewrite compound32_rt by lia. cbn [bind].
      rewrite check_len_ok by (rewrite !blen_app; change (blen [xd1]) with 1; lia). cbn [bind].
      rewrite Hcode. cbn [bind]. apply Hn.
    + rewrite compound8_rt by lia. cbn [bind].
      rewrite check_len_ok by (rewrite !blen_app; change (blen [xd1]) with 1; lia). cbn [bind].
      rewrite Hcode. cbn [bind]. apply Hn.
  - rewrite !blen_app. destruct (255 <? _); rewrite blen_cons, blen_app, !blen_be; unfold blen; cbn [length]; lia.
  - unfold array_decode, maps_array. cbn [a_ctor a_count a_payload ctor_format]. fold content.
    specialize (Hn []). rewrite app_nil_r in Hn. rewrite Hn. reflexivity.
  - unfold enc_array, maps_array. cbn [a_ctor a_payload a_count sz_ctor enc_ctor]. fold content.
    replace (blen content + 4 + 1) with (4 + 1 + blen content) by lia.
    replace (1 + 1 + blen content) with (blen content + 1 + 1) by lia. reflexivity.
Qed.
End Maps.
