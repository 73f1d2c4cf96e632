(** * The size of transfer frames *)

From Verif Require Import BaseProofs EncodeProofs.
From Verif Require Export TagProofs.
From Coq Require Import ZifyBool ZifyNat ZifyN.

Definition opt_len (o : option bytes) : N := match o with Some b => blen b | None => 0 end.

Lemma opt_u32_le : forall o, blen (c_enc (option_c u32_c) o) <= 5.
Proof.
  intros [n|]; [|vm_compute; discriminate]. cbn [option_c c_enc u32_c]. unfold enc_u32.
  destruct (n =? 0); [|destruct (255 <? n)]; rewrite ?blen_cons, ?blen_be, ?blen_nil; lia.
Qed.
Lemma opt_binary_le : forall o, blen (c_enc (option_c binary_c) o) <= 5 + opt_len o.
Proof.
  intros [b|]; [|vm_compute; discriminate]. cbn [option_c c_enc binary_c opt_len]. unfold enc_binary.
  rewrite blen_enc_var. unfold sz_var. destruct (255 <? blen b); lia.
Qed.
Lemma opt_bool_le : forall o, blen (c_enc (option_c bool_c) o) = 1.
Proof. intros [b|]; reflexivity. Qed.

(** The performative of a transfer as the library makes them. *)
Lemma head_le : forall h id tag fmt stl more st b,
  st = None \/ st = Some (DSAccepted mk_accepted) ->
  blen (enc_inner transfer_k (mk_transfer h id tag fmt stl more None st false false b)) <= 44 + opt_len tag.
Proof.
  intros h id tag fmt stl more st b Hst. unfold enc_inner. cbv zeta.
  match goal with |- context [255 <? ?c + 1] => set (content := c) end.
  rewrite !blen_app. change (blen (enc_descriptor (DUlong (k_code transfer_k)))) with 3.
  match goal with |- 3 + (blen ?x + _) <= _ => assert (X : blen x <= 9); [|generalize dependent (blen x)] end.
  { destruct (255 <? content + 1); rewrite ?blen_cons, ?blen_app, ?blen_be; lia. }
  intros hd X. clearbody content.
  cbn [k_fields k_to transfer_k enc_fields fst snd transfer_handle transfer_delivery_id
    transfer_delivery_tag transfer_message_format transfer_settled transfer_more
    transfer_rcv_settle_mode transfer_state transfer_resume transfer_aborted transfer_batchable].
  rewrite !blen_app.
  assert (H1 : blen (c_enc u32_c h) <= 5) by exact (opt_u32_le (Some h)).
  assert (H2 := opt_u32_le id). assert (H3 := opt_binary_le tag). assert (H4 := opt_u32_le fmt).
  assert (H5 := opt_bool_le stl).
  assert (H6 : blen (c_enc (option_c delivery_state_c) st) <= 6)
    by (destruct Hst as [->| ->]; vm_compute; discriminate).
  assert (B : forall x, blen (c_enc bool_c x) = 1) by reflexivity. rewrite !B.
  change (blen (c_enc (option_c receiver_settle_mode_c) None)) with 1. rewrite blen_nil.
  lia.
Qed.

Definition frame_len (ch : N) (t : transfer_t) : N := blen (enc_amqp_frame (mk_frame ch (FTransfer t))).
Lemma frame_len_eq : forall ch t,
  frame_len ch t = 8 + blen (enc_inner transfer_k (tr_head t)) + blen (body_of t).
Proof.
  intros ch t. unfold frame_len, enc_amqp_frame. cbn [fr_channel fr_body enc_frame]. unfold enc_transfer.
  rewrite !blen_app, !blen_be, !blen_cons, blen_nil. unfold body_of, opt_b.
  destruct (tr_body t); rewrite ?blen_nil; lia.
Qed.

Lemma more_ts_fit : forall fuel max h fmt b ch,
  Forall (fun t => frame_len ch t <= 52 + max) (more_ts fuel max h fmt b).
Proof.
  unfold more_ts. induction fuel as [|fuel IH]; intros; cbn [more_frames]; [constructor|].
  destruct b as [|x b]; [constructor|]. cbn [transfers flat_map app]. constructor; [|apply IH].
  rewrite frame_len_eq. cbn [tr_head body_of tr_body tb_enc].
  match goal with |- context [blen (enc_inner transfer_k (mk_transfer h ?i ?t ?f ?a ?m ?c ?d ?e ?g ?z))] =>
    assert (X := head_le h i t f a m d z ltac:(auto)) end.
  cbn [opt_len] in X.
  match goal with |- context [firstn ?n ?l] => assert (Y : blen (firstn n l) <= max) end.
  { unfold blen. rewrite firstn_length. lia. }
  lia.
Qed.

Lemma delivery_ts_fit : forall mfs h id tag body st fmt ch, honest body ->
  Forall (fun t => frame_len ch t <= 52 + blen tag + chunk_size mfs)
         (delivery_ts mfs h id tag body st fmt).
Proof.
  intros mfs h id tag body st fmt ch Hh. unfold delivery_ts, transfer_frames. cbv zeta.
  set (state := if st then Some (DSAccepted mk_accepted) else None).
  assert (Hs : state = None \/ state = Some (DSAccepted mk_accepted)) by (unfold state; destruct st; auto).
  destruct (N.ltb_spec (chunk_size mfs) (tb_size body)) as [L|L].
  - cbn [transfers flat_map app].
    change (flat_map (fun f => match f with FTransfer t => [t] | _ => [] end)) with transfers.
    constructor.
    + rewrite frame_len_eq. cbn [tr_head body_of tr_body tb_enc].
      match goal with |- context [blen (enc_inner transfer_k (mk_transfer h ?i ?t ?f ?a ?m ?c ?d ?e ?g ?z))] =>
        assert (X := head_le h i t f a m d z Hs) end. cbn [opt_len] in X.
      match goal with |- context [firstn ?n ?l] => assert (Y : blen (firstn n l) <= chunk_size mfs) end.
      { unfold blen. rewrite firstn_length. lia. }
      lia.
    + eapply Forall_impl; [|apply more_ts_fit]. cbn beta. intros t Ht.
      instantiate (1 := ch) in Ht. lia.
  - cbn [transfers flat_map app]. constructor; [|constructor].
    rewrite frame_len_eq. cbn [tr_head body_of tr_body].
    match goal with |- context [blen (enc_inner transfer_k (mk_transfer h ?i ?t ?f ?a ?m ?c ?d ?e ?g ?z))] =>
      assert (X := head_le h i t f a m d z Hs) end. cbn [opt_len] in X.
    unfold honest in Hh. lia.
Qed.

(** The tag of every completed send is the one given, or has four bytes. *)
Lemma auto_tag_len : forall p s t tk d, reachable p s -> send_done s t tk d -> tk_tag tk = None ->
  blen (dl_tag d) = 4.
Proof.
  intros p s t tk d R (Et & i & Es & Ed) Hn.
  destruct (tags_reachable _ _ (tk_link tk) R) as (G & _ & _ & HG & Hin & _).
  assert (X := Hin _ _ Et eq_refl Hn). rewrite Es in X. apply In_nth_error in X as [n Hg].
  destruct (HG _ _ Hg) as (k' & Et' & _ & _ & Hk). rewrite Et in Et'. injection Et' as <-.
  unfold tag_of in Hk. rewrite Es in Hk. destruct Hk as (d' & Ed' & Eg). rewrite Ed in Ed'.
  injection Ed' as <-. rewrite Eg, blen_be. reflexivity.
Qed.

Lemma transfers_fit : forall p s, reachable p s -> 2048 < s_mfs s ->
  (forall t tk, nth_error (s_tasks s) t = Some tk ->
     honest (tk_body tk) /\ (forall tag, tk_tag tk = Some tag -> blen tag <= 1996)) ->
  forall ch t, In t (transfers (s_out s)) -> frame_len ch t <= s_mfs s.
Proof.
  intros p s R Hm Ht ch t Hin. assert (R' := R).
  apply wire_reachable in R' as (order & ND & Nn & Ti & gs & C & L & G).
  rewrite C in Hin. apply in_concat in Hin as (g & Hg & Hin). apply In_nth_error in Hg as [k Eg].
  destruct (nth_error order k) as [u|] eqn:Ek;
    [|apply nth_error_None in Ek; apply nth_lt in Eg; lia].
  destruct (G _ _ _ Ek Eg) as (tk & l & i & d & E1 & E2 & E3 & E4 & Hi & Hsd & Hx & ->).
  destruct (Ht _ _ E1) as [Hh Hg].
  assert (Hl : blen (dl_tag d) <= 1996).
  { destruct (tk_tag tk) as [x|] eqn:Etag; [rewrite (Hx x eq_refl); auto|].
    rewrite (auto_tag_len p s u tk d R); [lia| |exact Etag]. split; eauto. }
  assert (F := delivery_ts_fit (s_mfs s) (as_u32 (sn_id l)) (dl_id d) (dl_tag d) (tk_body tk)
                 (tk_settled tk) (tk_format tk) ch Hh).
  rewrite Forall_forall in F. specialize (F _ Hin). unfold chunk_size in F.
  destruct (N.ltb_spec 2048 (s_mfs s)); lia.
Qed.
