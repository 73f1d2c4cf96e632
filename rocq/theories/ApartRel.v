(** * A link that is not concerned: through every function *)

From Coq Require Import Lia ZifyBool ZifyNat ZifyN.
From Verif Require Export Apart.
Import ListNotations.

Section Set_.
Context {x : lname} {r : slink + rlink} {s0 : ses}.
Notation K := (kept x r s0).
Lemma K_set_id v s : K s -> K (set_s_id v s).
Proof. intros [A B C]. constructor; assumption. Qed.
Lemma K_set_local v s : K s -> K (set_s_local v s).
Proof. intros [A B C]. constructor; assumption. Qed.
Lemma K_set_ended v s : K s -> K (set_s_ended v s).
Proof. intros [A B C]. constructor; assumption. Qed.
Lemma K_set_ending v s : K s -> K (set_s_ending v s).
Proof. intros [A B C]. constructor; assumption. Qed.
Lemma K_set_rchan v s : K s -> K (set_s_rchan v s).
Proof. intros [A B C]. constructor; assumption. Qed.
Lemma K_set_mfs v s : K s -> K (set_s_mfs v s).
Proof. intros [A B C]. constructor; assumption. Qed.
Lemma K_set_nout v s : K s -> K (set_s_nout v s).
Proof. intros [A B C]. constructor; assumption. Qed.
Lemma K_set_nin v s : K s -> K (set_s_nin v s).
Proof. intros [A B C]. constructor; assumption. Qed.
Lemma K_set_owin v s : K s -> K (set_s_owin v s).
Proof. intros [A B C]. constructor; assumption. Qed.
Lemma K_set_iwin v s : K s -> K (set_s_iwin v s).
Proof. intros [A B C]. constructor; assumption. Qed.
Lemma K_set_names v s : K s -> K (set_s_names v s).
Proof. intros [A B C]. constructor; assumption. Qed.
Lemma K_set_rhandles v s : K s -> K (set_s_rhandles v s).
Proof. intros [A B C]. constructor; assumption. Qed.
Lemma K_set_error v s : K s -> K (set_s_error v s).
Proof. intros [A B C]. constructor; assumption. Qed.
Lemma K_set_closed v s : K s -> K (set_s_closed v s).
Proof. intros [A B C]. constructor; assumption. Qed.
Lemma K_set_pending v s : K s -> K (set_s_pending v s).
Proof. intros [A B C]. constructor; assumption. Qed.
Lemma K_set_snd v s : K s -> K (set_s_snd v s).
Proof. intros [A B C]. constructor; assumption. Qed.
Lemma K_set_rcv v s : K s -> K (set_s_rcv v s).
Proof. intros [A B C]. constructor; assumption. Qed.
Lemma K_set_chans v s : K s -> K (set_s_chans v s).
Proof. intros [A B C]. constructor; assumption. Qed.
Lemma K_set_dlvs v s : K s -> K (set_s_dlvs v s).
Proof. intros [A B C]. constructor; assumption. Qed.
Lemma K_set_tasks v s : K s -> K (set_s_tasks v s).
Proof. intros [A B C]. constructor; assumption. Qed.
Lemma K_set_waits v s : K s -> K (set_s_waits v s).
Proof. intros [A B C]. constructor; assumption. Qed.
Lemma K_set_ctl v s : K s -> K (set_s_ctl v s).
Proof. intros [A B C]. constructor; assumption. Qed.
Lemma K_set_out v s : K s -> K (set_s_out v s).
Proof. intros [A B C]. constructor; assumption. Qed.
End Set_.

Lemma not_at k x s s' : s_links s' = s_links s -> ~ at_slot k x s -> ~ at_slot k x s'.
Proof. intros E N (l & G & H). apply N. exists l. rewrite <- E. split; assumption. Qed.
Ltac k_at := first [assumption | eapply not_at; [|eassumption]; st_cbn; frw; reflexivity].
Ltac k_prim := fail.
Ltac kk := repeat first
  [ assumption
  | first [apply K_post | apply K_post_all | apply K_upd_dlv | apply K_upd_task | apply K_upd_wait | apply K_fire | apply K_drop_tx | apply K_fire_opt | apply K_drop_opt | apply K_fire_all | apply K_control | apply K_set_unsettled | apply K_put_unsettled | apply K_del_unsettled | apply K_dlv_settle | apply K_dlv_update | apply K_dlv_drop | apply K_drop_dlvs | apply K_poll_wait | apply K_fail_all | apply K_rcv_link_flow | apply K_transmit | apply K_session_loop | apply K_settle_all | apply K_settle_deliveries | apply K_fail_unsettled | apply K_drain_pending | apply K_answer | apply K_dispatch | apply K_ses_end]
  | first [apply K_set_id | apply K_set_local | apply K_set_ended | apply K_set_ending | apply K_set_rchan | apply K_set_mfs | apply K_set_nout | apply K_set_nin | apply K_set_owin | apply K_set_iwin | apply K_set_names | apply K_set_rhandles | apply K_set_error | apply K_set_closed | apply K_set_pending | apply K_set_snd | apply K_set_rcv | apply K_set_chans | apply K_set_dlvs | apply K_set_tasks | apply K_set_waits | apply K_set_ctl | apply K_set_out]
  | apply K_upd_snd; [congruence|] | apply K_upd_rcv; [congruence|]
  | apply K_app_snds | apply K_app_rcvs | apply K_insert_slot
  | k_prim
  | match goal with |- kept _ _ _ (if ?b then _ else _) => destruct b
    | |- kept _ _ _ (match ?m with _ => _ end) => destruct m eqn:? end ].


Section K.
Context {x : lname} {r : slink + rlink} {s0 : ses}.
Notation K := (kept x r s0).
Lemma K_notify_lock_snd a s : x <> inl a -> K s -> K (notify_lock_snd a s).
Proof. intros N H. unfold notify_lock_snd. kk. Qed.
Lemma K_snd_remote_detached a e s : x <> inl a -> K s -> K (snd_remote_detached a e s).
Proof. intros N H. unfold snd_remote_detached. cbv zeta. kk. apply K_notify_lock_snd; [exact N|]. kk. Qed.
Lemma K_drop_established_snd a s : x <> inl a -> K s -> K (drop_established_snd a s).
Proof. intros N H. unfold drop_established_snd. kk. apply K_notify_lock_snd; [exact N|]. kk. Qed.
Lemma K_apply_flow f a s : x <> inl a -> K s -> K (apply_flow f a s).
Proof. intros N H. unfold apply_flow. cbv zeta. kk. Qed.
Lemma K_rcv_remote_detached a e s : x <> inr a -> K s -> K (rcv_remote_detached a e s).
Proof. intros N H. unfold rcv_remote_detached. kk. Qed.
Lemma K_drop_established_rcv a s : x <> inr a -> K s -> K (drop_established_rcv a s).
Proof. intros N H. unfold drop_established_rcv. kk. Qed.
Lemma K_drop_link l s : ~ holds x l -> K s -> K (drop_link l s).
Proof.
  intros N H. unfold drop_link. destruct l as [tx| |a|tx|i|[[a c]|]|a|tx]; kk.
  all: first [apply K_drop_established_snd | apply K_drop_established_rcv]; [|exact H]; intros ->; apply N; reflexivity.
Qed.
Lemma K_put_link k l s : ~ at_slot k x s -> K s -> K (put_link k l s).
Proof.
  intros N H. unfold put_link. destruct (slab_get (s_links s) k) as [old|] eqn:E; [|exact H].
  apply K_drop_link; [intros Hd; apply N; exists old; split; assumption|]. apply K_set_slot; [exact N|congruence|exact H].
Qed.
Lemma K_remove_link k s : ~ at_slot k x s -> K s -> K (remove_link k s).
Proof.
  intros N H. unfold remove_link. destruct (slab_get (s_links s) k) as [old|] eqn:E; [|exact H].
  apply K_drop_link; [intros Hd; apply N; exists old; split; assumption|]. apply K_remove_slot; [exact N|exact H].
Qed.
End K.
Ltac k_prim ::= first
  [ apply K_put_link; [k_at|] | apply K_remove_link; [k_at|]
  | apply K_apply_flow; [congruence|] | apply K_notify_lock_snd; [congruence|] | apply K_snd_remote_detached; [congruence|]
  | apply K_rcv_remote_detached; [congruence|] ].

Section K2.
Context {x : lname} {r : slink + rlink} {s0 : ses}.
Notation K := (kept x r s0).
Definition Ke (m : er ses) : Prop := forall s, m = EOk s -> K s.
Lemma K_attach_local_sender frm s : K s -> K (snd (attach_local_sender frm s)).
Proof. intros H. unfold attach_local_sender, new_chan, insert_link. cbn [snd]. kk. Qed.
Lemma K_attach_local_receiver frm s : K s -> K (snd (attach_local_receiver frm s)).
Proof. intros H. unfold attach_local_receiver, new_chan, insert_link. cbn [snd]. cbv zeta. kk. Qed.
Lemma K_attach_remote_sender frm res a s : ~ took_slot x (inl a) s -> K s -> Ke (attach_remote_sender frm res a s).
Proof.
  intros N H s'. unfold attach_remote_sender. destruct (nth_error (s_snds s) a) as [l|] eqn:E; [|intros [= <-]; exact H].
  assert (N1 : ~ at_slot (sn_id l) x s) by (intros A; apply N; exists (sn_id l); split; [exists l; auto|exact A]).
  cbv zeta. set (s1 := match attach_source frm with Some _ => _ | None => _ end).
  assert (H1 : K s1 /\ s_links s1 = s_links s).
  { unfold s1. destruct (attach_source frm) as [src|]; [|auto]. destruct (source_address src); [|auto]. split; [kk|reflexivity]. }
  destruct H1 as [H1 L1]. clearbody s1. st_cbn. rewrite L1. destruct (slab_get (s_links s) (sn_id l)) eqn:G; [|discriminate].
  intros Q. apply EOk_inj in Q as <-. kk. apply K_put_link; [|kk]. eapply not_at; [|exact N1]. st_cbn. exact L1.
Qed.
Lemma K_detach_sender id c e tx s : ~ at_slot id x s -> K s -> K (detach_sender id c e tx s).
Proof. intros N H. unfold detach_sender. cbv zeta. kk. Qed.
Lemma K_detach_unconfirmed frm a e s : ~ took_slot x (inl a) s -> K s -> K (detach_unconfirmed frm a e s).
Proof.
  intros N H. unfold detach_unconfirmed. destruct (nth_error (s_snds s) a) as [l|] eqn:E; [|exact H].
  assert (N1 : ~ at_slot (sn_id l) x s) by (intros A; apply N; exists (sn_id l); split; [exists l; auto|exact A]).
  cbv zeta. kk.
Qed.
Lemma K_confirm_receiver a res s : ~ took_slot x (inr a) s -> K s -> K (confirm_receiver a res s).
Proof.
  intros N H. unfold confirm_receiver. destruct (nth_error (s_rcvs s) a) as [l|] eqn:E; [|exact H].
  assert (N1 : ~ at_slot (rc_handle l) x s) by (intros A; apply N; exists (rc_handle l); split; [exists l; auto|exact A]).
  cbv zeta. kk.
Qed.
Lemma K_detach_receiver id c e tx s : ~ at_slot id x s -> K s -> Ke (detach_receiver id c e tx s).
Proof.
  intros N H s'. unfold detach_receiver. cbv zeta.
  repeat match goal with |- match ?m with _ => _ end = _ -> _ => destruct m eqn:? end;
    try discriminate; intros Q; apply EOk_inj in Q as <-;
    repeat match goal with |- context [match ?m with Some _ => _ | None => _ end] => destruct m as [[? ?]|] || destruct m end; kk.
Qed.
Lemma home_snd a l s : nth_error (s_snds s) a = Some l -> home (as_u32 (sn_id l)) (inl a) s.
Proof. intros E. exists l. auto. Qed.
Lemma home_rcv a l s : nth_error (s_rcvs s) a = Some l -> home (rc_handle l) (inr a) s.
Proof. intros E. exists l. auto. Qed.
Lemma K_snd_close a e s : x <> inl a -> ~ took_slot x (inl a) s -> K s -> K (snd_close a e s).
Proof.
  intros Na N H. unfold snd_close. destruct (nth_error (s_snds s) a) as [l|] eqn:E; [|exact H].
  assert (N1 : ~ at_slot (as_u32 (sn_id l)) x s) by (intros A; apply N; eexists; split; [apply home_snd; exact E|exact A]).
  unfold new_chan. cbv zeta. kk. apply K_detach_sender; [k_at|]. kk.
Qed.
Lemma K_rcv_close a e s : x <> inr a -> ~ took_slot x (inr a) s -> K s -> Ke (rcv_close a e s).
Proof.
  intros Na N H s'. unfold rcv_close. destruct (nth_error (s_rcvs s) a) as [l|] eqn:E; [|intros Q; apply EOk_inj in Q as <-; exact H].
  assert (N1 : ~ at_slot (rc_handle l) x s) by (intros A; apply N; eexists; split; [apply home_rcv; exact E|exact A]).
  unfold new_chan. cbv beta iota zeta. destruct (rc_closed l).
  - cbn [ebind]. intros Q. apply EOk_inj in Q as <-. kk.
  - destruct (detach_receiver _ _ _ _ _) as [s1|] eqn:D; [|discriminate]. cbn [ebind]. intros Q. apply EOk_inj in Q as <-.
    apply K_upd_rcv; [congruence|]. eapply K_detach_receiver; [| |exact D]; [k_at|kk].
Qed.
Lemma K_handle_flow f o s : (forall a, o = Some a -> x <> inl a) -> K s -> K (handle_flow f o s).
Proof.
  intros N H. unfold handle_flow. cbv zeta. destruct o as [a|]; [specialize (N a eq_refl)|]; kk.
Qed.
Lemma K_set_link_credit p a c s : x <> inr a -> K s -> Ke (set_link_credit p a c s).
Proof.
  intros N H s'. unfold set_link_credit. destruct (nth_error (s_rcvs s) a) as [l|]; [|intros Q; apply EOk_inj in Q as <-; exact H].
  destruct (checked_add _ _ _); [|discriminate]. cbn [ebind]. intros Q. apply EOk_inj in Q as <-. kk.
Qed.
Lemma K_link_loop t tk l tag s : x <> inl (tk_link tk) -> K s -> K (link_loop t tk l tag s).
Proof. intros N H. unfold link_loop, new_chan. cbv zeta. kk. Qed.
Lemma K_poll_send t s : ~ (exists a, x = inl a /\ on_link t a s) -> K s -> K (poll_send t s).
Proof.
  intros N H. unfold poll_send. destruct (nth_error (s_tasks s) t) as [tk|] eqn:E; [|exact H].
  assert (N1 : x <> inl (tk_link tk)) by (intros ->; apply N; eexists; split; [reflexivity|]; exists tk; auto).
  cbv zeta. kk; apply K_link_loop; kk.
Qed.
Lemma K_rcv_detached a s : x <> inr a -> K s -> K (rcv_detached a s).
Proof. intros N H. unfold rcv_detached. cbv zeta. kk. Qed.
Lemma K_new_rcv id h tag b s : K s -> K (snd (new_rcv id h tag b s)).
Proof. intros H. unfold new_rcv. cbn [snd]. kk. Qed.
End K2.
Ltac k_prim ::= first
  [ apply K_put_link; [k_at|] | apply K_remove_link; [k_at|]
  | apply K_apply_flow; [congruence|] | apply K_notify_lock_snd; [congruence|] | apply K_snd_remote_detached; [congruence|]
  | apply K_rcv_remote_detached; [congruence|] | apply K_rcv_detached; [congruence|] | apply K_attach_local_sender | apply K_attach_local_receiver
  | apply K_detach_sender; [k_at|] | apply K_new_rcv ].
