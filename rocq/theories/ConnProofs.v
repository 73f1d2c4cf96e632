(** * The tables of a connection *)

From Coq Require Import ZifyBool ZifyNat ZifyN.
From Verif Require Export WireRel Hold.
Import ListNotations.

(** ** One session *)

(** What any number of steps that are not the connection's doing keep. *)
Lemma own_wire : forall p e s s' os, own_event e = true -> step p e s = EOk (s', os) -> wire_rel s s'.
Proof.
  intros p e s s' os O H. change (stable wire_rel s s'). destruct e; try discriminate O; cbn [step] in H; step_er H.
Qed.
Lemma frame_wire : forall p f s s' os, step p (EvFrame f) s = EOk (s', os) -> wire_rel s s'.
Proof. intros p f s s' os H. change (stable wire_rel s s'). cbn [step] in H. step_er H. Qed.
Lemma attach_wire : forall frm s, wire_rel s (on_attach frm s).
Proof. intros frm s. change (stable wire_rel s (on_attach frm s)). st_one. Qed.
Lemma fail_fields : forall e s, let s' := ses_set_error e s in
  s_id s' = s_id s /\ s_rchan s' = s_rchan s /\ s_local s' = s_local s /\ s_ending s' = s_ending s /\ s_out s' = s_out s /\
  s_ended s' = true /\ s_error s' = Some e.
Proof.
  intros e s. cbv zeta. repeat apply conj; try (frw; reflexivity).
Qed.
Lemma end_fields : forall s, let s' := ses_end s in
  s_id s' = s_id s /\ s_rchan s' = s_rchan s /\ s_local s' = s_local s /\ s_ended s' = s_ended s /\ s_error s' = s_error s /\
  s_ending s' = (s_ending s || negb (s_ended s)) /\
  s_out s' = s_out s ++ (if s_ended s || s_ending s then [] else [FEnd (mk_end None)]).
Proof.
  intros s. cbv zeta. unfold ses_end. destruct (s_ended s) eqn:E1; cbn [orb negb].
  - rewrite E1, app_nil_r, Bool.orb_false_r. repeat apply conj; reflexivity.
  - destruct (s_ending s) eqn:E2; cbn [orb negb]; unfold cond_wait, new_chan, fire, post;
      match goal with |- context [if ?b then _ else _] => destruct b end; st_cbn; rewrite ?app_nil_r; repeat apply conj; auto.
Qed.

(** ** Tables *)
Lemma slab_full0 : forall A, (forall k, nth_error (sl_items (@slab0 A)) k = Some None -> In (N.of_nat k) (sl_free (@slab0 A))).
Proof. intros A [|k]; discriminate. Qed.
Definition slab_full {A} (s : slab A) : Prop := forall k, nth_error (sl_items s) k = Some None -> In (N.of_nat k) (sl_free s).
Lemma full_insert : forall A (s : slab A) a, slab_wf s -> slab_full s -> slab_full (slab_insert a s).
Proof.
  intros A s a [ND W] F k. unfold slab_insert. assert (Fk := F k). destruct (sl_free s) as [|j fr] eqn:Ef; cbn [sl_items sl_free].
  - intros H. destruct (Nat.lt_ge_cases k (length (sl_items s))) as [L|L].
    + rewrite nth_error_app1 in H by exact L. exact (Fk H).
    + rewrite nth_error_app2 in H by exact L. destruct (k - length (sl_items s))%nat as [|[|m]]; discriminate H.
  - rewrite nth_set_nth. destruct (Nat.eqb_spec (N.to_nat j) k) as [E|E].
    + intros H. match type of H with context [nth_error ?l ?i] => destruct (nth_error l i) end; discriminate H.
    + intros H. destruct (Fk H) as [->|I]; [elim E; lia | exact I].
Qed.
Lemma full_set : forall A (s : slab A) k a, slab_full s -> slab_full (slab_set k a s).
Proof.
  intros A s k a F j. unfold slab_set. destruct (slab_get s k); [|apply F]. cbn [sl_items sl_free]. rewrite nth_set_nth.
  destruct (Nat.eqb (N.to_nat k) j); [intros H; match type of H with context [nth_error ?l ?i] => destruct (nth_error l i) end; discriminate H | apply F].
Qed.
Lemma full_remove : forall A (s : slab A) k, slab_full s -> slab_full (slab_remove k s).
Proof.
  intros A s k F j. unfold slab_remove. destruct (slab_get s k); [|apply F]. cbn [sl_items sl_free]. rewrite nth_set_nth.
  destruct (Nat.eqb_spec (N.to_nat k) j) as [<-|E]; intros H; [left; lia | right; exact (F _ H)].
Qed.
Lemma somes_all : forall A (l : list (option A)), (forall k, nth_error l k <> Some None) -> length (somes l) = length l.
Proof.
  induction l as [|[a|] l IH]; intros H; cbn [somes length]; [reflexivity| |elim (H 0%nat); reflexivity].
  f_equal. apply IH. intros k. exact (H (S k)).
Qed.
(** A new entry at the end is only made if every entry is in use. *)
Lemma full_grows : forall A (s : slab A) a n, slab_full s ->
  (length (sl_items s) <= n)%nat -> (length (slab_values (slab_insert a s)) <= n)%nat -> (length (sl_items (slab_insert a s)) <= n)%nat.
Proof.
  intros A s a n F L H. unfold slab_insert in *. assert (Fk := F). unfold slab_full in Fk. destruct (sl_free s) as [|j fr]; cbn [sl_items] in *.
  - unfold slab_values in H. cbn [sl_items] in H. rewrite somes_all in H; [exact H|]. intros k Hk.
    destruct (Nat.lt_ge_cases k (length (sl_items s))) as [Lk|Lk].
    + rewrite nth_error_app1 in Hk by exact Lk. exact (Fk _ Hk).
    + rewrite nth_error_app2 in Hk by exact Lk. destruct (k - length (sl_items s))%nat as [|[|m]]; discriminate Hk.
  - rewrite set_nth_length. exact L.
Qed.
