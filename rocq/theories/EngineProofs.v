(** * Facts about tables, slabs and maps *)

From Verif Require Export SessionFrame.
From Coq Require Import ZifyBool ZifyNat ZifyN.

(** ** Tables *)

Lemma set_nth_length : forall A (l : list A) i a, length (set_nth i a l) = length l.
Proof. induction l as [|x l IH]; intros [|i] a; cbn; auto. Qed.
Lemma nth_set_nth_eq : forall A (l : list A) i a,
  (i < length l)%nat -> nth_error (set_nth i a l) i = Some a.
Proof.
  induction l as [|x l IH]; intros [|i] a; cbn; intros; try lia; [reflexivity | apply IH; lia].
Qed.
Lemma nth_set_nth_neq : forall A (l : list A) i j a,
  i <> j -> nth_error (set_nth i a l) j = nth_error l j.
Proof.
  induction l as [|x l IH]; intros [|i] [|j] a; cbn; intros; try congruence; try reflexivity.
  apply IH. congruence.
Qed.
Lemma nth_set_nth : forall A (l : list A) i j a,
  nth_error (set_nth i a l) j
  = if Nat.eqb i j then match nth_error l i with Some _ => Some a | None => None end
    else nth_error l j.
Proof.
  intros. destruct (Nat.eqb_spec i j) as [->|H].
  - destruct (nth_error l j) eqn:E.
    + apply nth_set_nth_eq. apply nth_error_Some. congruence.
    + apply nth_error_None in E. apply nth_error_None. rewrite set_nth_length. exact E.
  - apply nth_set_nth_neq. exact H.
Qed.
Lemma nth_lt : forall A (l : list A) i a, nth_error l i = Some a -> (i < length l)%nat.
Proof. intros. apply nth_error_Some. congruence. Qed.
Lemma nth_app_old : forall A (l m : list A) i a,
  nth_error l i = Some a -> nth_error (l ++ m) i = Some a.
Proof. intros. rewrite nth_error_app1; [exact H | eapply nth_lt; exact H]. Qed.
Lemma nth_app_inv : forall A (l m : list A) i a,
  nth_error (l ++ m) i = Some a ->
  nth_error l i = Some a \/ (length l <= i)%nat /\ nth_error m (i - length l) = Some a.
Proof.
  intros A l m i a H. destruct (Nat.lt_ge_cases i (length l)).
  - left. rewrite nth_error_app1 in H; auto.
  - right. rewrite nth_error_app2 in H; auto.
Qed.
Lemma nth_snoc : forall A (l : list A) i a b,
  nth_error (l ++ [b]) i = Some a ->
  nth_error l i = Some a \/ i = length l /\ a = b.
Proof.
  intros A l i a b H. apply nth_app_inv in H as [H|[Hi H]]; [left; exact H|].
  right. destruct (i - length l)%nat as [|n] eqn:E; cbn in H.
  - split; [lia | congruence].
  - destruct n; discriminate.
Qed.
Lemma nth_end : forall A (l : list A) b, nth_error (l ++ [b]) (length l) = Some b.
Proof. intros. rewrite nth_error_app2 by lia. rewrite Nat.sub_diag. reflexivity. Qed.
Lemma nth_split : forall A (l : list A) i x,
  nth_error l i = Some x ->
  exists l1 l2, l = l1 ++ x :: l2 /\ length l1 = i /\ forall a, set_nth i a l = l1 ++ a :: l2.
Proof.
  induction l as [|y l IH]; intros [|i] x; cbn; try discriminate.
  - intros [= ->]. exists [], l. auto.
  - intros H. apply IH in H as (l1 & l2 & -> & <- & Hs). exists (y :: l1), l2.
    refine (conj eq_refl (conj eq_refl _)). intros a. rewrite Hs. reflexivity.
Qed.
Lemma set_nth_nth : forall A (l : list A) i a, nth_error l i = Some a -> set_nth i a l = l.
Proof.
  induction l as [|x l IH]; intros [|i] a; cbn; try discriminate; [congruence|].
  intros H. rewrite IH; auto.
Qed.

(** The tables of a session after an update. *)
Lemma nth_upd_snd : forall a f s b,
  nth_error (s_snds (upd_snd a f s)) b
  = if Nat.eqb a b then option_map f (nth_error (s_snds s) a) else nth_error (s_snds s) b.
Proof.
  intros. unfold upd_snd. destruct (nth_error (s_snds s) a) eqn:E; st_cbn.
  - rewrite nth_set_nth. rewrite E. reflexivity.
  - destruct (Nat.eqb_spec a b) as [->|]; auto.
Qed.
Lemma nth_upd_rcv : forall a f s b,
  nth_error (s_rcvs (upd_rcv a f s)) b
  = if Nat.eqb a b then option_map f (nth_error (s_rcvs s) a) else nth_error (s_rcvs s) b.
Proof.
  intros. unfold upd_rcv. destruct (nth_error (s_rcvs s) a) eqn:E; st_cbn.
  - rewrite nth_set_nth. rewrite E. reflexivity.
  - destruct (Nat.eqb_spec a b) as [->|]; auto.
Qed.
Lemma nth_upd_dlv : forall a f s b,
  nth_error (s_dlvs (upd_dlv a f s)) b
  = if Nat.eqb a b then option_map f (nth_error (s_dlvs s) a) else nth_error (s_dlvs s) b.
Proof.
  intros. unfold upd_dlv. destruct (nth_error (s_dlvs s) a) eqn:E; st_cbn.
  - rewrite nth_set_nth. rewrite E. reflexivity.
  - destruct (Nat.eqb_spec a b) as [->|]; auto.
Qed.
Lemma nth_upd_task : forall a f s b,
  nth_error (s_tasks (upd_task a f s)) b
  = if Nat.eqb a b then option_map f (nth_error (s_tasks s) a) else nth_error (s_tasks s) b.
Proof.
  intros. unfold upd_task. destruct (nth_error (s_tasks s) a) eqn:E; st_cbn.
  - rewrite nth_set_nth. rewrite E. reflexivity.
  - destruct (Nat.eqb_spec a b) as [->|]; auto.
Qed.
Lemma nth_upd_wait : forall a f s b,
  nth_error (s_waits (upd_wait a f s)) b
  = if Nat.eqb a b then option_map f (nth_error (s_waits s) a) else nth_error (s_waits s) b.
Proof.
  intros. unfold upd_wait. destruct (nth_error (s_waits s) a) eqn:E; st_cbn.
  - rewrite nth_set_nth. rewrite E. reflexivity.
  - destruct (Nat.eqb_spec a b) as [->|]; auto.
Qed.

(** ** Integers *)

Lemma wadd_lt : forall a b, wadd a b < two32.
Proof. intros. unfold wadd. apply N.mod_lt. discriminate. Qed.
Lemma wsub_lt : forall a b, wsub a b < two32.
Proof. intros. unfold wsub. apply N.mod_lt. discriminate. Qed.
Lemma mod_cancel : forall a b d, (a + d) mod two32 = (b + d) mod two32 -> a mod two32 = b mod two32.
Proof.
  intros a b d H.
  assert (Hd : exists e, (d + e) mod two32 = 0).
  { exists (two32 - d mod two32). rewrite <- N.add_mod_idemp_l by discriminate.
    assert (L := N.mod_lt d two32 ltac:(discriminate)).
    replace (d mod two32 + (two32 - d mod two32)) with two32 by (revert L; generalize (d mod two32) two32; intros; lia).
    apply N.mod_same. discriminate. }
  destruct Hd as [e He].
  assert (G : forall x, ((x + d) + e) mod two32 = x mod two32).
  { intros x. rewrite <- N.add_assoc, <- N.add_mod_idemp_r, He, N.add_0_r by discriminate. reflexivity. }
  rewrite <- (G a), <- (G b), <- (N.add_mod_idemp_l (a + d)), <- (N.add_mod_idemp_l (b + d)), H by discriminate.
  reflexivity.
Qed.
Lemma wsub_spec : forall a b, (wsub a b + b) mod two32 = a mod two32.
Proof.
  intros a b. unfold wsub. rewrite N.add_mod_idemp_l by discriminate.
  assert (L := N.mod_lt b two32 ltac:(discriminate)).
  rewrite <- N.add_mod_idemp_r by discriminate.
  replace (a + two32 - b mod two32 + b mod two32) with (a + 1 * two32)
    by (revert L; generalize (b mod two32) two32; intros; lia).
  apply N.mod_add. discriminate.
Qed.
Lemma wsub_le : forall a b d, a mod two32 = (b + d) mod two32 -> wsub a b <= d.
Proof.
  intros a b d H. assert (E : (wsub a b) mod two32 = d mod two32).
  { apply (mod_cancel _ _ b). rewrite wsub_spec, (N.add_comm d b). exact H. }
  rewrite N.mod_small in E by apply wsub_lt. rewrite E. apply N.mod_le. discriminate.
Qed.

Lemma NoDup_snoc : forall A (l : list A) a, NoDup l -> ~ In a l -> NoDup (l ++ [a]).
Proof.
  induction 1 as [|x l Hx ND IH]; intros Ha; cbn.
  - repeat constructor. auto.
  - constructor.
    + rewrite in_app_iff. intros [H|[H|[]]]; [auto|]. subst. apply Ha. left. reflexivity.
    + apply IH. intros H. apply Ha. right. exact H.
Qed.
