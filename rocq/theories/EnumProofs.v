(** * Codecs of the enumerations, message ids, conditions and distribution modes *)

From Coq Require Import Strings.String.
From Verif Require Import Protocol Spec SpecProtocol.
From Verif Require Import BaseProofs EncodeProofs Roundtrip VariantRoundtrip CodecProofs.
From Coq Require Import ZifyBool ZifyNat ZifyN.


Lemma decode_with_ok {A} (d : byte -> parser A) inp r :
  decode_with d inp = Ok r -> exists b tl, inp = b :: tl /\ d b tl = Ok r.
Proof.
  destruct inp as [|b tl]; [discriminate|]. rewrite decode_with_cons. eauto.
Qed.

Lemma good_enum {A B} (base : codec B) wB sz (to : A -> B) of :
  good base wB -> (forall a, wB (to a)) -> (forall a, of (to a) = Some a) ->
  (forall a, sz a = c_sz base (to a)) -> good (enum_c base sz to of) anything.
Proof.
  intros G Hw Ho Hs. constructor; cbn [enum_c c_sz c_enc].
  - intros a _. rewrite Hs. apply (g_size G), Hw.
  - intros a _. rewrite Hs. apply (g_pos G), Hw.
  - intros p a rest _ Hlt. rewrite Hs in Hlt.
    pose proof (g_rt G p (to a) rest (Hw a) Hlt) as R.
    destruct (decode_with_ok _ _ _ R) as [b [tl [E R']]]. rewrite E, decode_with_cons.
    cbn [enum_c c_dec]. rewrite R'. cbn [bind]. rewrite Ho. reflexivity.
Qed.
Lemma nonnull_enum {A B} (base : codec B) wB sz (to : A -> B) of :
  nonnull base wB -> (forall a, wB (to a)) -> nonnull (enum_c base sz to of) anything.
Proof. intros H Hw a _. apply (H (to a) (Hw a)). Qed.
Lemma refuses_enum {A B} (base : codec B) sz (to : A -> B) of :
  refuses_null base -> refuses_null (enum_c base sz to of).
Proof.
  intros H p inp. destruct (H p inp) as [e E]. exists e. rewrite decode_with_cons in E.
  rewrite decode_with_cons. cbn [enum_c c_dec]. rewrite E. reflexivity.
Qed.

Ltac enum_tac base_good :=
  apply (good_enum _ _ _ _ _ base_good); intros []; vm_compute; reflexivity.

Lemma good_role : good role_c anything.
Proof. apply (good_enum _ _ _ _ _ good_bool); intros []; vm_compute; auto. Qed.
Lemma good_sender_settle_mode : good sender_settle_mode_c anything.
Proof. enum_tac good_u8. Qed.
Lemma good_receiver_settle_mode : good receiver_settle_mode_c anything.
Proof. enum_tac good_u8. Qed.
Lemma good_sasl_code : good sasl_code_c anything.
Proof. enum_tac good_u8. Qed.
Lemma good_terminus_durability : good terminus_durability_c anything.
Proof. enum_tac good_u32. Qed.
Lemma good_amqp_error : good amqp_error_c anything.
Proof. enum_tac good_symbol. Qed.
Lemma good_connection_error : good connection_error_c anything.
Proof. enum_tac good_symbol. Qed.
Lemma good_session_error : good session_error_c anything.
Proof. enum_tac good_symbol. Qed.
Lemma good_link_error : good link_error_c anything.
Proof. enum_tac good_symbol. Qed.
Lemma good_terminus_expiry_policy : good terminus_expiry_policy_c anything.
Proof. enum_tac good_symbol. Qed.

Lemma nonnull_role : nonnull role_c anything.
Proof. apply (nonnull_enum _ _ _ _ _ nonnull_bool). intros []; exact I. Qed.
Lemma nonnull_sender_settle_mode : nonnull sender_settle_mode_c anything.
Proof. apply (nonnull_enum _ _ _ _ _ nonnull_u8). intros []; vm_compute; reflexivity. Qed.
Lemma nonnull_receiver_settle_mode : nonnull receiver_settle_mode_c anything.
Proof. apply (nonnull_enum _ _ _ _ _ nonnull_u8). intros []; vm_compute; reflexivity. Qed.
Lemma nonnull_terminus_durability : nonnull terminus_durability_c anything.
Proof. apply (nonnull_enum _ _ _ _ _ nonnull_u32). intros []; vm_compute; reflexivity. Qed.
Lemma nonnull_terminus_expiry_policy : nonnull terminus_expiry_policy_c anything.
Proof. apply (nonnull_enum _ _ _ _ _ nonnull_symbol). intros []; vm_compute; reflexivity. Qed.
Lemma refuses_role : refuses_null role_c. Proof. apply refuses_enum, refuses_bool. Qed.
Lemma refuses_sasl_code : refuses_null sasl_code_c. Proof. apply refuses_enum, refuses_u8. Qed.

(** ** Message ids *)
Lemma good_message_id : good message_id_c legal_message_id.
Proof.
  constructor.
  - intros [n|b|b|s] H; cbn [message_id_c c_sz c_enc].
    + apply blen_enc_u64.
    + apply (g_size good_uuid), H.
    + apply blen_enc_var.
    + apply blen_enc_var.
  - intros [n|b|b|s] H; cbn [message_id_c c_sz].
    + apply (g_pos good_u64 n), H.
    + unfold sz_uuid. lia.
    + apply sz_var_pos.
    + apply sz_var_pos.
  - intros p [n|b|b|s] rest H Hs; cbn [message_id_c c_sz c_enc] in *.
    + pose proof (rt_u64 n rest H) as R. unfold enc_u64 in *.
      destruct (n =? 0); [|destruct (255 <? n)]; cbn [app] in *;
        rewrite decode_with_cons in R; rewrite decode_with_cons; cbn [message_id_c c_dec]; rewrite R; reflexivity.
    + pose proof (rt_uuid b rest H) as R. unfold enc_uuid in *. cbn [app] in *.
      rewrite decode_with_cons in R. rewrite decode_with_cons. cbn [message_id_c c_dec]. rewrite R. reflexivity.
    + pose proof (rt_binary b rest) as R. pose proof (sz_var_bound b).
      specialize (R ltac:(lia)). unfold enc_binary, enc_var in *.
      destruct (255 <? blen b); cbn [app] in *;
        rewrite decode_with_cons in R; rewrite decode_with_cons; cbn [message_id_c c_dec]; rewrite R; reflexivity.
    + pose proof (rt_string s rest H) as R. pose proof (sz_var_bound s).
      specialize (R ltac:(lia)). unfold enc_string, enc_var in *.
      destruct (255 <? blen s); cbn [app] in *;
        rewrite decode_with_cons in R; rewrite decode_with_cons; cbn [message_id_c c_dec]; rewrite R; reflexivity.
Qed.
Lemma nonnull_message_id : nonnull message_id_c legal_message_id.
Proof.
  intros [n|b|b|s] H; cbn [message_id_c c_enc].
  - apply (nonnull_u64 n H).
  - apply (nonnull_uuid b H).
  - apply (nonnull_binary b I).
  - apply (nonnull_string s H).
Qed.

(** ** Error conditions and distribution modes *)
Lemma condition_symbol_size (c : error_condition) :
  exists s, c_enc error_condition_c c = enc_symbol s /\ c_sz error_condition_c c = sz_var s
            /\ (legal_condition c -> text s /\ condition_of_symbol s = c).
Proof.
  destruct c as [e|e|e|e|s].
  - exists (amqp_error_symbol e). split; [reflexivity|].
    destruct e; (split; [reflexivity|]); intros _; split; vm_compute; reflexivity.
  - exists (connection_error_symbol e). split; [reflexivity|].
    destruct e; (split; [reflexivity|]); intros _; split; vm_compute; reflexivity.
  - exists (session_error_symbol e). split; [reflexivity|].
    destruct e; (split; [reflexivity|]); intros _; split; vm_compute; reflexivity.
  - exists (link_error_symbol e). split; [reflexivity|].
    destruct e; (split; [reflexivity|]); intros _; split; vm_compute; reflexivity.
  - exists s. split; [reflexivity|]. split; [reflexivity|]. intros [Ht Hn]. split; [exact Ht|].
    unfold condition_of_symbol, amqp_error_try_from, connection_error_try_from,
      session_error_try_from, link_error_try_from.
    assert (N : forall k, In k known_conditions -> beqb s k = false).
    { intros k Hk. apply beqb_neq. intros ->. exact (Hn Hk). }
    unfold known_conditions in N. cbn [In] in N.
    repeat match goal with
    | |- context [beqb s ?k] => rewrite (N k) by tauto
    end. reflexivity.
Qed.
Lemma dec_symbol_map {A} (C : codec A) (of : bytes -> A) s a p rest :
  (forall fmt inp, c_dec C p fmt inp = map_res of (dec_symbol fmt inp)) ->
  text s -> of s = a -> sz_var s < 2 ^ 32 ->
  decode_with (c_dec C p) (enc_symbol s ++ rest) = Ok (a, rest).
Proof.
  intros Hd Ht Ho Hs. pose proof (rt_symbol s rest Ht) as R. pose proof (sz_var_bound s).
  specialize (R ltac:(lia)). destruct (decode_with_ok _ _ _ R) as [b [tl [E R']]].
  rewrite E, decode_with_cons, Hd, R'. unfold map_res. cbn [bind]. rewrite Ho. reflexivity.
Qed.
Lemma good_error_condition : good error_condition_c legal_condition.
Proof.
  constructor.
  - intros c _. destruct (condition_symbol_size c) as [s [E [Hs _]]]. rewrite E, Hs. apply blen_enc_var.
  - intros c _. destruct (condition_symbol_size c) as [s [_ [Hs _]]]. rewrite Hs. apply sz_var_pos.
  - intros p c rest Hl Hlt. destruct (condition_symbol_size c) as [s [E [Hs H]]].
    destruct (H Hl) as [Ht Hc]. rewrite E. rewrite Hs in Hlt.
    apply (dec_symbol_map error_condition_c condition_of_symbol s); auto.
Qed.
Lemma refuses_error_condition : refuses_null error_condition_c.
Proof. intros p inp. rewrite decode_with_cons. eexists. reflexivity. Qed.

Lemma distribution_symbol_size (m : distribution_mode) :
  exists s, c_enc distribution_mode_c m = enc_symbol s /\ c_sz distribution_mode_c m = sz_var s
            /\ (legal_distribution m -> text s /\ distribution_of_symbol s = m).
Proof.
  destruct m as [| |s].
  - exists (str "move"). split; [reflexivity|]. split; [reflexivity|]. split; vm_compute; reflexivity.
  - exists (str "copy"). split; [reflexivity|]. split; [reflexivity|]. split; vm_compute; reflexivity.
  - exists s. split; [reflexivity|]. split; [reflexivity|]. intros [Ht [H1 H2]]. split; [exact Ht|].
    unfold distribution_of_symbol. rewrite !(proj2 (beqb_neq _ _)) by assumption. reflexivity.
Qed.
Lemma good_distribution_mode : good distribution_mode_c legal_distribution.
Proof.
  constructor.
  - intros c _. destruct (distribution_symbol_size c) as [s [E [Hs _]]]. rewrite E, Hs. apply blen_enc_var.
  - intros c _. destruct (distribution_symbol_size c) as [s [_ [Hs _]]]. rewrite Hs. apply sz_var_pos.
  - intros p c rest Hl Hlt. destruct (distribution_symbol_size c) as [s [E [Hs H]]].
    destruct (H Hl) as [Ht Hc]. rewrite E. rewrite Hs in Hlt.
    apply (dec_symbol_map distribution_mode_c distribution_of_symbol s); auto.
Qed.
Lemma nonnull_distribution_mode : nonnull distribution_mode_c legal_distribution.
Proof.
  intros c _. destruct (distribution_symbol_size c) as [s [E _]]. rewrite E.
  unfold enc_symbol, enc_var. destruct (255 <? blen s); do 2 eexists; (split; [reflexivity|discriminate]).
Qed.

Global Hint Resolve good_role good_sender_settle_mode good_receiver_settle_mode good_sasl_code
  good_terminus_durability good_amqp_error good_connection_error good_session_error good_link_error
  good_terminus_expiry_policy good_message_id good_error_condition good_distribution_mode : good.
Global Hint Resolve nonnull_role nonnull_sender_settle_mode nonnull_receiver_settle_mode
  nonnull_terminus_durability nonnull_terminus_expiry_policy nonnull_message_id
  nonnull_distribution_mode : good.
Global Hint Resolve refuses_role refuses_sasl_code refuses_error_condition : good.
