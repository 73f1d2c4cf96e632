(** * Sending: the theorems behind C22, C23 and C24 *)

From Verif Require Export SendProofs.
From Coq Require Import ZifyBool ZifyNat ZifyN.

(** ** Delivery ids *)
Definition ts_ids (ts : list transfer_t) : list N :=
  flat_map (fun t => match transfer_delivery_id (tr_head t) with Some i => [i] | None => [] end) ts.
Lemma more_ts_ids : forall fuel max h fmt b, ts_ids (more_ts fuel max h fmt b) = [].
Proof.
  unfold more_ts. induction fuel as [|fuel IH]; intros; cbn [more_frames]; [reflexivity|].
  destruct b; [reflexivity|]. cbn [transfers flat_map app ts_ids tr_head transfer_delivery_id].
  apply IH.
Qed.
Lemma delivery_ts_ids : forall mfs h id tag body st fmt,
  ts_ids (delivery_ts mfs h id tag body st fmt) = [id].
Proof.
  intros. unfold delivery_ts, transfer_frames. cbv zeta.
  destruct (chunk_size mfs <? tb_size body); [|reflexivity].
  cbn [transfers flat_map app ts_ids tr_head transfer_delivery_id]. f_equal. apply more_ts_ids.
Qed.

Lemma concat_ids : forall gs (f : nat -> N),
  (forall k g, nth_error gs k = Some g -> ts_ids g = [f k]) ->
  ts_ids (concat gs) = map f (seq 0 (length gs)).
Proof.
  induction gs as [|g gs IH]; intros f H; [reflexivity|].
  cbn [concat length seq map]. unfold ts_ids. rewrite flat_map_app. fold (ts_ids g) (ts_ids (concat gs)).
  rewrite (H 0%nat g eq_refl). cbn [app]. f_equal.
  rewrite (IH (fun k => f (S k))).
  - rewrite <- seq_shift, map_map. reflexivity.
  - intros k g' E. exact (H (S k) g' E).
Qed.

Lemma ids_sequential : forall p s, reachable p s ->
  exists n, delivery_ids (s_out s) = map (fun k => (N.of_nat k + 1) mod 2 ^ 32) (seq 0 n).
Proof.
  intros p s H. apply wire_reachable in H as (order & ND & Nn & Ti & gs & C & L & G).
  exists (length gs). unfold delivery_ids. rewrite C. apply concat_ids.
  intros k g Eg. destruct (nth_error order k) as [t|] eqn:Ek.
  - destruct (G _ _ _ Ek Eg) as (tk & l & i & d & _ & _ & _ & _ & Hi & _ & _ & ->).
    rewrite delivery_ts_ids, Hi. reflexivity.
  - apply nth_error_None in Ek. apply nth_lt in Eg. lia.
Qed.

Lemma succ_mod_inj : forall i j : N, i < j -> j < i + two32 ->
  (i + 1) mod two32 <> (j + 1) mod two32.
Proof.
  intros i j H1 H2 E.
  assert (Ei := N.div_mod (i + 1) two32 ltac:(discriminate)).
  assert (Ej := N.div_mod (j + 1) two32 ltac:(discriminate)). rewrite E in Ei.
  revert Ei Ej. generalize ((i + 1) / two32) ((j + 1) / two32) ((j + 1) mod two32).
  intros a b r Ei Ej. unfold two32 in *. lia.
Qed.
Lemma ids_distinct : forall p s i j a b, reachable p s ->
  nth_error (delivery_ids (s_out s)) i = Some a -> nth_error (delivery_ids (s_out s)) j = Some b ->
  (i < j)%nat -> N.of_nat j < N.of_nat i + 2 ^ 32 -> a <> b.
Proof.
  intros p s i j a b H Ei Ej L1 L2. apply ids_sequential in H as [n En]. rewrite En in Ei, Ej.
  assert (F : forall k x, nth_error (map (fun k => (N.of_nat k + 1) mod 2 ^ 32) (seq 0 n)) k = Some x ->
                x = (N.of_nat k + 1) mod 2 ^ 32).
  { intros k x E. rewrite nth_error_map in E. destruct (nth_error (seq 0 n) k) as [m|] eqn:Em; [|discriminate].
    cbn in E. injection E as <-. assert (Lk := nth_lt _ _ _ _ Em). rewrite seq_length in Lk.
    apply (nth_error_nth _ _ 0%nat) in Em. rewrite seq_nth in Em by exact Lk.
    cbn in Em. subst m. reflexivity. }
  apply F in Ei, Ej. subst a b.
  apply (succ_mod_inj (N.of_nat i) (N.of_nat j)); [lia | exact L2].
Qed.

(** ** Deliveries on the wire *)
Lemma split_exact : forall p s, reachable p s ->
  (forall t tk, nth_error (s_tasks s) t = Some tk -> honest (tk_body tk)) ->
  exists order gs,
    transfers (s_out s) = concat gs /\ length gs = length order
    /\ NoDup order /\ (forall t tk d, send_done s t tk d -> In t order)
    /\ forall k t g, nth_error order k = Some t -> nth_error gs k = Some g -> wire_of s k t g.
Proof.
  intros p s H Hh. apply wire_reachable in H as (order & ND & Nn & Ti & gs & C & L & G).
  exists order, gs. refine (conj C (conj L (conj ND (conj _ _)))).
  - intros t tk d (Et & i & Es & _). destruct (Ti _ _ Et) as (_ & _ & Hi). eauto.
  - intros k t g Ek Eg.
    destruct (G _ _ _ Ek Eg) as (tk & l & i & d & E1 & E2 & E3 & E4 & Hi & Hsd & Hx & ->).
    exists tk, l, d. refine (conj _ (conj E3 (conj Hi (conj Hx _)))).
    + split; eauto.
    + apply delivery_ts_one. eauto.
Qed.
