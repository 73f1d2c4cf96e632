(** * A link that is not concerned *)

From Coq Require Import Lia ZifyBool ZifyNat ZifyN.
From Verif Require Export SpecApart SessionFrame LinkProofs FutureProofs.
Import ListNotations.

(** Since [s0], the link [x] has kept its state [r] and its slots. *)
Record kept (x : lname) (r : slink + rlink) (s0 s : ses) : Prop := {
  kp_state : link_state x s = Some r;
  kp_slot : forall k l, slab_get (s_links s0) k = Some l -> holds x l -> slab_get (s_links s) k = Some l;
  kp_wf : slab_wf (s_links s);
}.
Section K.
Context {x : lname} {r : slink + rlink} {s0 : ses}.
Notation K := (kept x r s0).
Lemma K_same s s' : K s -> s_snds s' = s_snds s -> s_rcvs s' = s_rcvs s -> s_links s' = s_links s -> K s'.
Proof.
  intros [A B C] E1 E2 E3. constructor; [|rewrite E3; exact B|rewrite E3; exact C].
  unfold link_state in *. rewrite E1, E2. exact A.
Qed.
Lemma K_upd_snd a f s : x <> inl a -> K s -> K (upd_snd a f s).
Proof.
  intros N [A B C]. constructor; [|frw; exact B|frw; exact C]. unfold link_state in *. destruct x as [b|b].
  - rewrite nth_upd_snd. destruct (Nat.eqb_spec a b); [congruence|]. exact A.
  - frw. exact A.
Qed.
Lemma K_upd_rcv a f s : x <> inr a -> K s -> K (upd_rcv a f s).
Proof.
  intros N [A B C]. constructor; [|frw; exact B|frw; exact C]. unfold link_state in *. destruct x as [b|b].
  - frw. exact A.
  - rewrite nth_upd_rcv. destruct (Nat.eqb_spec a b); [congruence|]. exact A.
Qed.
Lemma K_app_snds l s : K s -> K (set_s_snds (s_snds s ++ [l]) s).
Proof.
  intros [A B C]. constructor; [|exact B|exact C]. unfold link_state in *. destruct x as [b|b]; [|exact A].
  cbn [s_snds set_s_snds]. destruct (nth_error (s_snds s) b) eqn:E; [|discriminate A].
  rewrite nth_error_app1 by (apply nth_error_Some; congruence). rewrite E. exact A.
Qed.
Lemma K_app_rcvs l s : K s -> K (set_s_rcvs (s_rcvs s ++ [l]) s).
Proof.
  intros [A B C]. constructor; [|exact B|exact C]. unfold link_state in *. destruct x as [b|b]; [exact A|].
  cbn [s_rcvs set_s_rcvs]. destruct (nth_error (s_rcvs s) b) eqn:E; [|discriminate A].
  rewrite nth_error_app1 by (apply nth_error_Some; congruence). rewrite E. exact A.
Qed.
Lemma K_set_slot k l s : ~ at_slot k x s -> slab_get (s_links s) k <> None -> K s -> K (set_s_links (slab_set k l (s_links s)) s).
Proof.
  intros N E [A B C]. constructor; [exact A| |apply slab_set_wf; exact C].
  intros j l0 G H. cbn [s_links set_s_links]. rewrite slab_get_set by exact E. pose proof (B _ _ G H) as G1.
  destruct (N.eqb_spec k j) as [->|]; [|exact G1]. exfalso. apply N. exists l0. split; assumption.
Qed.
Lemma K_remove_slot k s : ~ at_slot k x s -> K s -> K (set_s_links (slab_remove k (s_links s)) s).
Proof.
  intros N [A B C]. constructor; [exact A| |apply slab_remove_wf; exact C].
  intros j l0 G H. cbn [s_links set_s_links]. rewrite slab_get_remove. pose proof (B _ _ G H) as G1.
  destruct (N.eqb_spec k j) as [->|]; [|exact G1]. exfalso. apply N. exists l0. split; assumption.
Qed.
Lemma K_insert_slot l s : K s -> K (set_s_links (slab_insert l (s_links s)) s).
Proof.
  intros [A B C]. constructor; [exact A| |apply slab_insert_wf; exact C].
  intros j l0 G H. cbn [s_links set_s_links]. rewrite slab_get_insert by exact C. pose proof (B _ _ G H) as G1.
  destruct (N.eqb_spec (slab_key (s_links s)) j) as [<-|]; [|exact G1]. rewrite slab_key_free in G1 by exact C. discriminate G1.
Qed.
Lemma K_post f s : K s -> K (post f s).
Proof. intros H. apply (K_same s); [exact H|frw; reflexivity..]. Qed.
Lemma K_post_all l s : K s -> K (post_all l s).
Proof. intros H. apply (K_same s); [exact H|frw; reflexivity..]. Qed.
Lemma K_upd_dlv a f s : K s -> K (upd_dlv a f s).
Proof. intros H. apply (K_same s); [exact H|frw; reflexivity..]. Qed.
Lemma K_upd_task a f s : K s -> K (upd_task a f s).
Proof. intros H. apply (K_same s); [exact H|frw; reflexivity..]. Qed.
Lemma K_upd_wait a f s : K s -> K (upd_wait a f s).
Proof. intros H. apply (K_same s); [exact H|frw; reflexivity..]. Qed.
Lemma K_fire c v s : K s -> K (fire c v s).
Proof. intros H. apply (K_same s); [exact H|frw; reflexivity..]. Qed.
Lemma K_drop_tx c s : K s -> K (drop_tx c s).
Proof. intros H. apply (K_same s); [exact H|frw; reflexivity..]. Qed.
Lemma K_fire_opt c v s : K s -> K (fire_opt c v s).
Proof. intros H. apply (K_same s); [exact H|frw; reflexivity..]. Qed.
Lemma K_drop_opt c s : K s -> K (drop_opt c s).
Proof. intros H. apply (K_same s); [exact H|frw; reflexivity..]. Qed.
Lemma K_fire_all l v s : K s -> K (fire_all l v s).
Proof. intros H. apply (K_same s); [exact H|frw; reflexivity..]. Qed.
Lemma K_control k s : K s -> K (control k s).
Proof. intros H. apply (K_same s); [exact H|frw; reflexivity..]. Qed.
Lemma K_set_unsettled b m s : K s -> K (set_unsettled b m s).
Proof. intros H. apply (K_same s); [exact H|frw; reflexivity..]. Qed.
Lemma K_put_unsettled b id d s : K s -> K (put_unsettled b id d s).
Proof. intros H. apply (K_same s); [exact H|frw; reflexivity..]. Qed.
Lemma K_del_unsettled b id s : K s -> K (del_unsettled b id s).
Proof. intros H. apply (K_same s); [exact H|frw; reflexivity..]. Qed.
Lemma K_dlv_settle i st s : K s -> K (dlv_settle i st s).
Proof. intros H. apply (K_same s); [exact H|frw; reflexivity..]. Qed.
Lemma K_dlv_update i st s : K s -> K (dlv_update i st s).
Proof. intros H. apply (K_same s); [exact H|frw; reflexivity..]. Qed.
Lemma K_dlv_drop i s : K s -> K (dlv_drop i s).
Proof. intros H. apply (K_same s); [exact H|frw; reflexivity..]. Qed.
Lemma K_drop_dlvs l s : K s -> K (drop_dlvs l s).
Proof. intros H. apply (K_same s); [exact H|frw; reflexivity..]. Qed.
Lemma K_poll_wait w s : K s -> K (poll_wait w s).
Proof. intros H. apply (K_same s); [exact H|frw; reflexivity..]. Qed.
Lemma K_fail_all l s : K s -> K (fail_all l s).
Proof. intros H. apply (K_same s); [exact H|frw; reflexivity..]. Qed.
Lemma K_rcv_link_flow h dc c s : K s -> K (rcv_link_flow h dc c s).
Proof. intros H. apply (K_same s); [exact H|frw; reflexivity..]. Qed.
Lemma K_transmit t tk l tag s : K s -> K (transmit t tk l tag s).
Proof. intros H. apply (K_same s); [exact H|frw; reflexivity..]. Qed.
Lemma K_session_loop t tk l tag s : K s -> K (session_loop t tk l tag s).
Proof. intros H. apply (K_same s); [exact H|frw; reflexivity..]. Qed.
Lemma K_settle_all disp b l s : K s -> K (settle_all disp b l s).
Proof. intros H. apply (K_same s); [exact H|frw; reflexivity..]. Qed.
Lemma K_settle_deliveries disp s : K s -> K (settle_deliveries disp s).
Proof. intros H. apply (K_same s); [exact H|frw; reflexivity..]. Qed.
Lemma K_fail_unsettled b h e s : K s -> K (fail_unsettled b h e s).
Proof. intros H. apply (K_same s); [exact H|frw; reflexivity..]. Qed.
Lemma K_drain_pending h e s : K s -> K (drain_pending h e s).
Proof. intros H. apply (K_same s); [exact H|frw; reflexivity..]. Qed.
Lemma K_answer tx e s : K s -> K (answer tx e s).
Proof. intros H. apply (K_same s); [exact H|frw; reflexivity..]. Qed.
Lemma K_dispatch act s : K s -> K (dispatch act s).
Proof. intros H. apply (K_same s); [exact H|frw; reflexivity..]. Qed.
Lemma K_ses_end  s : K s -> K (ses_end  s).
Proof. intros H. apply (K_same s); [exact H|frw; reflexivity..]. Qed.
End K.
