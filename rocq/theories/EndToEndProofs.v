(** * From one application to the other: proofs *)

From Verif Require Import Base Framing SpecFraming StreamProofs ProtocolTheorems SendTheorems MarkProofs RecvTheorems RecvRun SpecEndToEnd.
From Coq Require Import Lia ZifyBool ZifyNat ZifyN.

Definition rcvd (t : transfer_t) : transfer_t := mk_transfer_t (tr_head t) (received_body (tr_body t)).

Lemma body_rcvd t : body_of (rcvd t) = body_of t.
Proof.
  unfold body_of, rcvd. cbn. destruct (tr_body t) as [b|]; [|reflexivity]. cbn.
  destruct (tb_enc b); reflexivity.
Qed.
Lemma bodies_rcvd ts : concat (map body_of (map rcvd ts)) = concat (map body_of ts).
Proof. rewrite map_map. f_equal. apply map_ext. exact body_rcvd. Qed.
Lemma transfers_app a b : transfers (a ++ b) = transfers a ++ transfers b.
Proof. unfold transfers. apply flat_map_app. Qed.
Lemma transfers_rcvd fs : transfers (map received_frame fs) = map rcvd (transfers fs).
Proof. induction fs as [|f fs IH]; [reflexivity|]. destruct f; try exact IH. cbn. unfold transfers in IH. rewrite IH. reflexivity. Qed.
Lemma on_handle_rcvd h ts : on_handle h (map rcvd ts) = map rcvd (on_handle h ts).
Proof.
  unfold on_handle. induction ts as [|t ts IH]; [reflexivity|]. cbn. destruct (transfer_handle (tr_head t) =? h); cbn; rewrite IH; reflexivity.
Qed.
Lemma read_back p max channel chunks fs rest : Forall (carried channel max) fs -> blen rest < 8 ->
  concat chunks = written channel fs ++ rest ->
  read_transfers p max chunks = map rcvd (transfers fs).
Proof.
  intros F R E. unfold read_transfers.
  rewrite (amqp_stream p max (map (mk_frame channel) fs) rest chunks).
  - cbn [rd_frames]. rewrite map_map. cbn [received_amqp_frame fr_body]. rewrite map_map. cbn.
    apply transfers_rcvd.
  - apply Forall_map. revert F. apply Forall_impl. intros f [H _]. exact H.
  - apply Forall_map. revert F. apply Forall_impl. intros f [_ H]. exact H.
  - exact R.
  - rewrite E. f_equal. unfold written. clear. induction fs as [|f fs IH]; [reflexivity|]. cbn [map flat_map]. rewrite <- IH. reflexivity.
Qed.

(** ** Prefixes of deliveries *)

Definition shaped (g : list transfer_t) : Prop := map says_more g = repeat true (length g - 1) ++ [false].

Lemma shaped_cons t g : shaped (t :: g) -> (g = [] /\ says_more t = false) \/ (says_more t = true /\ shaped g /\ g <> []).
Proof.
  unfold shaped. destruct g as [|u g]; cbn.
  - intros [= E]. left. auto.
  - intros [= E1 E2]. right. split; [exact E1|]. split; [|discriminate]. rewrite Nat.sub_0_r. cbn in E2.
    exact E2.
Qed.
Lemma grp_shaped g : shaped g -> forall cur ts, grp cur (g ++ ts) = let '(x, o) := grp [] ts in ((cur ++ g) :: x, o).
Proof.
  induction g as [|t g IH]; [intros H; discriminate H|].
  intros H cur ts. cbn [app grp]. destruct (shaped_cons _ _ H) as [[-> E]|[E [H' _]]]; rewrite E.
  - cbn. destruct (grp [] ts). reflexivity.
  - rewrite (IH H'). destruct (grp [] ts). rewrite <- app_assoc. reflexivity.
Qed.
Lemma grp_short g : shaped g -> forall T later cur, T ++ later = g -> later <> [] -> fst (grp cur T) = [].
Proof.
  induction g as [|t g IH]; intros H T later cur E NE.
  - destruct T; [reflexivity|discriminate E].
  - destruct T as [|u T]; [reflexivity|]. injection E as -> E. cbn [grp].
    destruct (shaped_cons _ _ H) as [[-> _]|[M [H' _]]].
    + destruct T; [|discriminate E]. cbn in E. contradiction.
    + rewrite M. apply (IH H' T later); assumption.
Qed.
Lemma groups_prefix gs : Forall shaped gs -> forall T later, T ++ later = concat gs ->
  exists k, groups T = firstn k gs /\ (later = [] -> k = length gs).
Proof.
  unfold groups. induction gs as [|g gs IH]; intros F T later E.
  - destruct T; [|discriminate E]. exists 0%nat. split; reflexivity.
  - inversion F as [|? ? Hg F']; subst. cbn [concat] in E.
    destruct (Nat.le_gt_cases (length g) (length T)) as [L|L].
    + assert (ET : T = g ++ skipn (length g) T).
      { rewrite <- (firstn_skipn (length g) T) at 1. f_equal.
        transitivity (firstn (length g) (T ++ later)); [rewrite firstn_app, (proj2 (Nat.sub_0_le _ _) L), firstn_O, app_nil_r; reflexivity|].
        rewrite E, firstn_app, Nat.sub_diag, firstn_O, app_nil_r. apply firstn_all. }
      set (T' := skipn (length g) T) in *. clearbody T'. subst T.
      rewrite <- app_assoc in E. apply app_inv_head in E. destruct (IH F' _ _ E) as [k [K1 K2]].
      exists (S k). rewrite (grp_shaped _ Hg). cbn. destruct (grp [] T') as [x o]. cbn in *. rewrite K1.
      split; [reflexivity|]. intros Z. rewrite (K2 Z). reflexivity.
    + exists 0%nat. assert (EG : exists l', T ++ l' = g /\ l' <> []).
      { exists (skipn (length T) g). split.
        - rewrite <- (firstn_skipn (length T) g) at 2. f_equal.
          transitivity (firstn (length T) (T ++ later)); [rewrite firstn_app, Nat.sub_diag, firstn_O, app_nil_r, firstn_all; reflexivity|].
          rewrite E, firstn_app, (proj2 (Nat.sub_0_le (length T) (length g))) by lia. rewrite firstn_O, app_nil_r. reflexivity.
        - intros Z. assert (length (skipn (length T) g) = 0%nat) by (rewrite Z; reflexivity). rewrite skipn_length in H. lia. }
      destruct EG as [l' [E' NE]]. split; [apply (grp_short g Hg T l'); assumption|].
      intros ->. rewrite app_nil_r in E. subst T. rewrite app_length in L. lia.
Qed.

(** ** The deliveries of one link *)

Definition begins_one (t : transfer_t) : bool :=
  match transfer_delivery_id (tr_head t) with Some _ => true | None => false end.
(** A send and its frames. *)
Definition sent_as (s : ses) (h : N) (t : nat) (g : list transfer_t) : Prop :=
  exists tk d l, send_done s t tk d /\ nth_error (s_snds s) (tk_link tk) = Some l /\ as_u32 (sn_id l) = h
    /\ marked tk g /\ one_delivery h (dl_id d) (dl_tag d) (tk_settled tk) (tb_enc (tk_body tk)) g.

Lemma on_handle_all h g : Forall (fun t => transfer_handle (tr_head t) = h) g -> on_handle h g = g.
Proof.
  unfold on_handle. induction 1 as [|t g E F IH]; [reflexivity|]. cbn. rewrite E, N.eqb_refl, IH. reflexivity.
Qed.
Lemma on_handle_none h h' g : h' <> h -> Forall (fun t => transfer_handle (tr_head t) = h') g -> on_handle h g = [].
Proof.
  intros NE. unfold on_handle. induction 1 as [|t g E F IH]; [reflexivity|]. cbn. rewrite E, (proj2 (N.eqb_neq _ _) NE). exact IH.
Qed.
Lemma on_handle_app h a b : on_handle h (a ++ b) = on_handle h a ++ on_handle h b.
Proof. apply filter_app. Qed.
Lemma select s h order gs : Forall2 (fun t g => exists h', sent_as s h' t g) order gs -> NoDup order ->
  exists sends gs', Forall2 (sent_as s h) sends gs' /\ on_handle h (concat gs) = concat gs' /\ NoDup sends
    /\ (forall t, In t sends -> In t order) /\ (forall t, In t order -> sent_over s h t -> In t sends).
Proof.
  induction 1 as [|t g order gs [h' S1] F IH]; intros ND.
  - exists [], []. split; [constructor|]. split; [reflexivity|]. split; [constructor|]. split; intros t []; contradiction.
  - inversion ND as [|? ? NI ND']; subst. destruct (IH ND') as [sends [gs' [F2 [C [ND2 [I1 I2]]]]]].
    pose proof S1 as S1'. destruct S1' as [tk [d [l [SD [NL [EH [MK OD]]]]]]]. pose proof OD as [_ [_ [FH _]]].
    destruct (N.eq_dec h' h) as [->|NE].
    + exists (t :: sends), (g :: gs'). split; [constructor; assumption|]. split.
      { cbn [concat]. rewrite on_handle_app, (on_handle_all _ _ FH), C. reflexivity. }
      split; [constructor; [intros I; apply NI, I1, I|exact ND2]|]. split.
      * intros u [->|I]; [left; reflexivity|right; apply I1, I].
      * intros u [->|I] SO; [left; reflexivity|right; apply I2; assumption].
    + exists sends, gs'. split; [exact F2|]. split.
      { cbn [concat]. rewrite on_handle_app, (on_handle_none _ _ _ NE FH). exact C. }
      split; [exact ND2|]. split; [intros u I; right; apply I1, I|].
      intros u [->|I] SO; [|apply I2; assumption]. exfalso. destruct SO as [tk' [d' [l' [[N1 _] [NL' E']]]]].
      destruct SD as [N2 _]. congruence.
Qed.
Lemma Forall2_nth {A B} (R : A -> B -> Prop) : forall l m, length l = length m ->
  (forall k a b, nth_error l k = Some a -> nth_error m k = Some b -> R a b) -> Forall2 R l m.
Proof.
  induction l as [|a l IH]; intros [|b m] L H; try discriminate L; constructor.
  - apply (H 0%nat); reflexivity.
  - apply IH; [injection L as L; exact L|]. intros k. apply (H (S k)).
Qed.
(** The deliveries of the link with handle [h] on the wire. *)
Lemma link_sends p s h : reachable p s -> (forall t tk, nth_error (s_tasks s) t = Some tk -> honest (tk_body tk)) ->
  exists sends gs, Forall2 (sent_as s h) sends gs /\ on_handle h (transfers (s_out s)) = concat gs /\ NoDup sends
    /\ (forall t, In t sends <-> sent_over s h t).
Proof.
  intros R HO. destruct (split_marked p s R HO) as [order [gs [E [L [ND [ALL W]]]]]].
  assert (F : Forall2 (fun t g => exists h', sent_as s h' t g) order gs).
  { apply Forall2_nth; [symmetry; exact L|]. intros k t g N1 N2.
    destruct (W k t g N1 N2) as [[tk [l [d [SD [NL [_ [_ OD]]]]]]] MK]. exists (as_u32 (sn_id l)), tk, d, l.
    pose proof (MK tk (proj1 SD)). auto 6. }
  destruct (select s h order gs F ND) as [sends [gs' [F2 [C [ND2 [I1 I2]]]]]].
  exists sends, gs'. split; [exact F2|]. split; [rewrite E; exact C|]. split; [exact ND2|].
  intros t. split.
  - intros I. clear - F2 I. induction F2 as [|u g sends gs S1 F2 IH]; [destruct I|].
    destruct I as [->|I]; [|apply IH, I]. destruct S1 as [tk [d [l [SD [NL [EH _]]]]]]. exists tk, d, l. auto.
  - intros SO. apply I2; [|exact SO]. destruct SO as [tk [d [l [SD _]]]]. exact (ALL _ _ _ SD).
Qed.
Lemma begins_in g h id tag st body : one_delivery h id tag st body g ->
  exists first, filter begins_one g = [first] /\ transfer_delivery_id (tr_head first) = Some id.
Proof.
  intros [_ [_ [_ [first [rest [-> [I [_ [_ F]]]]]]]]]. exists first. split; [|exact I].
  cbn. unfold begins_one at 1. rewrite I. f_equal. clear - F. induction F as [|t g [E _] F IH]; [reflexivity|].
  cbn. unfold begins_one at 1. rewrite E. exact IH.
Qed.
Lemma wire_ordered s h sends gs : Forall2 (sent_as s h) sends gs -> on_handle h (transfers (s_out s)) = concat gs ->
  wire_order s h sends.
Proof.
  intros F E. unfold wire_order. rewrite E. clear E. induction F as [|t g sends gs S1 F IH]; [constructor|].
  cbn [concat]. rewrite filter_app. destruct S1 as [tk [d [l [SD [_ [_ [_ OD]]]]]]].
  destruct (begins_in _ _ _ _ _ _ OD) as [first [E I]]. unfold begins_one in E. rewrite E. cbn [app].
  constructor; [exists tk, d; auto|exact IH].
Qed.
Lemma Forall_concat_shaped s h sends gs : Forall2 (sent_as s h) sends gs -> Forall shaped (map (map rcvd) gs).
Proof.
  induction 1 as [|t g sends gs [tk [d [l [_ [_ [_ [_ [_ [M _]]]]]]]]] F IH]; [constructor|].
  cbn. constructor; [|exact IH]. unfold shaped. rewrite map_map, map_length. exact M.
Qed.
Lemma firstn_firstn_le {A} n k (l : list A) : (n <= length (firstn k l))%nat -> firstn n (firstn k l) = firstn n l.
Proof. intros L. rewrite firstn_firstn. rewrite firstn_length in L. rewrite Nat.min_l by lia. reflexivity. Qed.
Lemma Forall2_firstn_r {A B} (R : A -> B -> Prop) n : forall l m, Forall2 R l m -> Forall2 R (firstn n l) (firstn n m).
Proof. induction n; intros l m F; [constructor|]. destruct F; cbn; constructor; auto. Qed.
Lemma Forall2_len {A B} (R : A -> B -> Prop) l m : Forall2 R l m -> length l = length m.
Proof. induction 1; cbn; congruence. Qed.

Lemma one_same s r x t g h : sent_as s h t g -> is_delivery r x (map rcvd g) -> same_delivery s r x t.
Proof.
  intros [tk [d [l [SD [_ [_ [[MF _] [B [_ [_ [first [rest [-> [I [T [ST _]]]]]]]]]]]]]]]] [B' [f' [r' [e [E [H [ND [I' [T' _]]]]]]]]].
  injection E as <- <-. cbn [rcvd tr_head] in *. exists tk, d, e. split; [exact SD|]. split; [exact ND|].
  split; [rewrite B', bodies_rcvd; exact B|].
  split; [congruence|]. split; [rewrite T', T; reflexivity|]. rewrite H. split; [exact ST|]. inversion MF as [|? ? [X _] _]. exact X.
Qed.
Lemma all_same s r h xs : forall sends gs, Forall2 (sent_as s h) sends gs -> Forall2 (is_delivery r) xs (firstn (length xs) (map (map rcvd) gs)) ->
  Forall2 (same_delivery s r) xs (firstn (length xs) sends).
Proof.
  induction xs as [|x xs IH]; intros sends gs F D; [constructor|].
  destruct F as [|t g sends gs S1 F]; [inversion D|]. cbn in D |- *. inversion D; subst. constructor.
  - eapply one_same; eassumption.
  - eapply IH; eassumption.
Qed.

(** No delivery is aborted by this library. *)
Lemma more_no_abort : forall fuel max h fmt b f, In f (more_frames fuel max h fmt b) ->
  exists t, f = FTransfer t /\ says_abort t = false.
Proof.
  induction fuel as [|fuel IH]; intros max h fmt b f I; [destruct I|]. destruct b as [|x b]; [destruct I|].
  cbn [more_frames] in I. destruct I as [<-|I]; [eexists; split; reflexivity|exact (IH _ _ _ _ _ I)].
Qed.
Lemma delivery_no_abort mfs h id tag body st fmt t : In t (delivery_ts mfs h id tag body st fmt) -> says_abort t = false.
Proof.
  intros I. assert (I' : In (FTransfer t) (transfer_frames mfs h id tag body st fmt)).
  { rewrite transfer_frames_ts. apply in_map. exact I. }
  revert I'. unfold transfer_frames. cbv zeta. destruct (_ <? _).
  - intros [E|I']; [injection E as <-; reflexivity|]. destruct (more_no_abort _ _ _ _ _ _ I') as [u [E H]]. injection E as ->. exact H.
  - intros [E|[]]. injection E as <-. reflexivity.
Qed.
Lemma never_aborts p s : reachable p s -> Forall (fun t => says_abort t = false) (transfers (s_out s)).
Proof.
  intros H. apply wire_reachable in H as (order & ND & Nn & Ti & gs & C & L & G). rewrite C. apply Forall_concat.
  apply Forall_forall. intros g I. apply In_nth_error in I as [k Ek].
  destruct (nth_error order k) as [t|] eqn:Eo.
  - destruct (G _ _ _ Eo Ek) as (tk & l & i & d & _ & _ & _ & _ & _ & _ & _ & ->). apply Forall_forall. intros u I.
    eapply delivery_no_abort. exact I.
  - apply nth_error_None in Eo. assert (k < length gs)%nat by (apply nth_error_Some; rewrite Ek; discriminate). lia.
Qed.

(** ** The whole way *)

Section way.
  Context (p q : profile) (s : ses) (h : N) (R : reachable p s).
  Context (HO : forall t tk, nth_error (s_tasks s) t = Some tk -> honest (tk_body tk)).
  Context (fs unsent : list frame) (channel max : N) (chunks : list bytes) (rest : bytes).
  Context (EO : s_out s = fs ++ unsent) (CA : Forall (carried channel max) fs) (BR : blen rest < 8).
  Context (EC : concat chunks = written channel fs ++ rest).
  Context (a : nat) (evs : list ev) (id : N) (local : bool) (rch mfs : N) (b : begin_t) (r : ses) (os : list obs).
  Context (RN : run q evs (ses_new id local rch mfs b) = EOk (r, os)) (GF : grants_fit evs) (LO : links_opened evs <= 2 ^ 32).
  Context (later : list transfer_t).
  Context (AR : on_handle h (read_transfers q max chunks) = arrivals q a evs (ses_new id local rch mfs b) ++ later).
  Let T := arrivals q a evs (ses_new id local rch mfs b).

  Lemma arrivals_prefix : exists later', T ++ later' = map rcvd (on_handle h (transfers (s_out s)))
    /\ (later = [] -> unsent = [] -> later' = []).
  Proof.
    rewrite (read_back q max channel chunks fs rest CA BR EC) in AR.
    exists (later ++ map rcvd (on_handle h (transfers unsent))). split.
    - rewrite EO, transfers_app, on_handle_app, map_app, app_assoc. unfold T. rewrite <- AR, on_handle_rcvd. reflexivity.
    - intros -> ->. reflexivity.
  Qed.
  Lemma arrivals_whole : Forall (fun t => says_abort t = false) T.
  Proof.
    destruct arrivals_prefix as [l [E _]]. assert (F : Forall (fun t => says_abort t = false) (T ++ l)).
    { rewrite E. apply Forall_map. unfold on_handle. apply Forall_forall. intros t I. apply filter_In in I as [I _].
      exact (proj1 (Forall_forall _ _) (never_aborts p s R) t I). }
    apply Forall_app in F. apply F.
  Qed.
  Lemma end_to_end : exists sends, NoDup sends /\ (forall t, In t sends <-> sent_over s h t) /\ wire_order s h sends
    /\ Forall2 (same_delivery s r) (handed a os) (firstn (length (handed a os)) sends)
    /\ (later = [] -> unsent = [] -> length (complete T) = length sends).
  Proof.
    destruct (link_sends p s h R HO) as [sends [gs [F [E [ND I]]]]].
    destruct arrivals_prefix as [later' [EL Z]]. rewrite E, concat_map in EL.
    destruct (groups_prefix _ (Forall_concat_shaped _ _ _ _ F) _ _ EL) as [k [K1 K2]].
    exists sends. split; [exact ND|]. split; [exact I|]. split; [exact (wire_ordered _ _ _ _ F E)|].
    pose proof (in_order q a evs id local rch mfs b r os T RN GF LO eq_refl arrivals_whole) as IO.
    rewrite (complete_groups _ arrivals_whole), K1 in *. split.
    - apply (all_same s r h _ sends gs F). rewrite <- (firstn_firstn_le _ k); [exact IO|].
      pose proof (Forall2_len _ _ _ IO) as L. rewrite firstn_length in L. lia.
    - intros Z1 Z2. rewrite (K2 (Z Z1 Z2)), map_length, firstn_all2, map_length by (rewrite map_length; lia).
      symmetry. exact (Forall2_len _ _ _ F).
  Qed.
End way.
