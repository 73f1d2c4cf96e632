(** * Theorems about attaching links: C62

    Vocabulary: [SpecAttach.v] (and [SpecHandles.v], [SpecPanic.v]). *)

From Coq Require Import Strings.String.
From Coq Require Import List NArith Lia.
From Verif Require Import Base SpecAttach Scenario AttachProofs.
Import ListNotations.
Local Open Scope N_scope.

(** ** C62 *)
(** An attach frame of the peer whose name no link has taken makes the session ask
    the control service, with an answer that fits; nothing is sent yet. *)
Theorem C62_asked_partial : forall p evs id local rc mfs b s os frm s' os',
  run p evs (ses_new id local rc mfs b) = EOk (s, os) -> s_error s = None ->
  (forall e, In e evs -> ~ takes_name (attach_name frm) e) ->
  step p (EvAttach frm) s = EOk (s', os') ->
  exists k r, asks k frm (new_link frm s) r /\ echoes frm r
    /\ s_ctl s' = s_ctl s ++ [Some k] /\ s_out s' = s_out s.
Proof.
  intros p evs id local rc mfs b s os frm s' os' R Er T H. eapply asked; [exact Er | | exact H].
  eapply names_hist; [exact R | reflexivity | | exact T].
  intros i f r a P. unfold pending_at in P. destruct i; discriminate P.
Qed.
Print Assumptions C62_asked_partial.

(** A sender link that the peer asks for: when the service accepts, the attach frame
    that it made is sent, with this side's handle, and the link is open; when it
    refuses, the link is attached and at once detached with the error.  [i] is the
    call; meanwhile anything else may happen except detach frames and a failure. *)
Theorem C62_sender_partial : forall p evs1 evs2 id local rc mfs b s1 s2 s3 os1 os2 os3 frm r,
  run p evs1 (ses_new id local rc mfs b) = EOk (s1, os1) -> all_reserved s1 ->
  step p (EvAttach frm) s1 = EOk (s2, os2) ->
  called (length (s_ctl s1)) (KAttachSender frm r (length (s_snds s1))) s2 ->
  run p evs2 s2 = EOk (s3, os3) -> Forall (calm (length (s_ctl s1))) evs2 ->
  let x := LSender (length (s_snds s1)) in
  (forall edit, exists s4 f, step p (EvCtlOk (length (s_ctl s1)) edit) s3 = EOk (s4, [])
     /\ s_out s4 = s_out s3 ++ [f] /\ attaches x s4 (edit r) f /\ is_open x s4)
  /\ (forall e, exists s4 f g, step p (EvCtlErr (length (s_ctl s1)) e) s3 = EOk (s4, [])
        /\ s_out s4 = s_out s3 ++ [f; g] /\ attaches_bare x s4 (attach_name frm) f /\ detaches x s4 e g).
Proof.
  intros p evs1 evs2 id local rc mfs b s1 s2 s3 os1 os2 os3 frm r R1 AR H C R2 Cm x.
  assert (Re : reachable p s1) by (exists id, local, rc, mfs, b, evs1, os1; exact R1).
  assert (LK := lk_reachable _ _ Re). assert (PB := pend_born_reachable _ _ Re).
  destruct (attach_held p frm r s1 s2 os2 LK PB AR H C) as [k Hd].
  destruct (held_run p evs2 _ k _ s2 s3 os3 (step_lk _ _ _ _ _ H LK) Hd R2 Cm frm r C) as (LK3 & Hd3 & P3).
  destruct Hd3 as (_ & Hk & (l & El & Ek) & _). subst k. split.
  - intros edit. eapply accept_sends; [exact P3 | exact El | congruence].
  - intros e. eapply refuse_sends; [exact P3 | exact El].
Qed.
Print Assumptions C62_sender_partial.

(** A receiver link that the peer asks for, first: when the service accepts, it is
    asked once more, to see the final answer; nothing is sent yet. *)
Theorem C62_receiver_first : forall p i edit frm r a s, called i (KAttachReceiver frm r a) s ->
  exists s', step p (EvCtlOk i edit) s = EOk (s', [])
    /\ called (length (s_ctl s)) (KAttached (edit r) a) s' /\ s_out s' = s_out s.
Proof. exact ask_receiver. Qed.
Print Assumptions C62_receiver_first.
(** Then the attach frame is sent, the link is open and 50 credits are granted.  The
    answer must still have the link's handle, which the service can edit. *)
Theorem C62_receiver_partial : forall p i edit r a l s, called i (KAttached r a) s -> being_attached a s ->
  nth_error (s_rcvs s) a = Some l -> (p = Release \/ rc_credit l + 50 < 2 ^ 32) -> attach_handle r = rc_handle l ->
  exists s' f g, step p (EvCtlOk i edit) s = EOk (s', []) /\ s_out s' = s_out s ++ [f; g]
    /\ attaches (LReceiver a) s' r f /\ grants (LReceiver a) s' 50 g /\ is_open (LReceiver a) s'.
Proof. exact open_receiver_sends. Qed.
Print Assumptions C62_receiver_partial.
(** And if the service refuses at either time, the link is attached and at once
    detached with the error, and its handle can be used again. *)
Theorem C62_receiver_refused : forall p i e k a l s, called i k s ->
  (exists frm r, k = KAttachReceiver frm r a \/ k = KAttached r a) -> being_attached a s ->
  nth_error (s_rcvs s) a = Some l ->
  exists s' f g, step p (EvCtlErr i e) s = EOk (s', []) /\ s_out s' = s_out s ++ [f; g]
    /\ attaches_bare (LReceiver a) s' (rc_name l) f /\ detaches (LReceiver a) s' e g /\ vacant (rc_handle l) s'.
Proof. exact refuse_receiver_sends. Qed.
Print Assumptions C62_receiver_refused.

(** A link that this side attaches, under a name that no other link takes: the
    peer's attach frame of that name opens it, and the future that [attach] gave,
    if it still waits, is completed with the link.  Nothing is sent or asked. *)
Theorem C62_own_partial : forall p evs1 evs2 id local rc mfs b s1 s2 s3 s4 os1 os2 os3 os4 n mine e frm,
  run p evs1 (ses_new id local rc mfs b) = EOk (s1, os1) ->
  e = EvAttachSender mine \/ e = EvAttachReceiver mine -> attach_name mine = n -> n <> [] ->
  step p e s1 = EOk (s2, os2) -> run p evs2 s2 = EOk (s3, os3) ->
  (forall e', In e' (evs1 ++ evs2) -> ~ takes_name n e') ->
  s_error s3 = None -> still_waits (next_future s1) s3 ->
  attach_name frm = n -> step p (EvAttach frm) s3 = EOk (s4, os4) ->
  s_out s4 = s_out s3 /\ s_ctl s4 = s_ctl s3
  /\ match e with
     | EvAttachReceiver _ =>
         nth_error (s_chans s4) (next_future s1) = Some (CSent (VReceiver (length (s_rcvs s1))))
         /\ is_open (LReceiver (length (s_rcvs s1))) s4
     | _ =>
         nth_error (s_chans s4) (next_future s1) = Some (CSent (VSender (length (s_snds s3))))
         /\ is_open (LSender (length (s_snds s3))) s4
     end.
Proof.
  intros p evs1 evs2 id local rc mfs b s1 s2 s3 s4 os1 os2 os3 os4 n mine e frm R1 D En Nn H R2 T Er W Ef H4.
  assert (Re : reachable p s1) by (exists id, local, rc, mfs, b, evs1, os1; exact R1).
  assert (Un : unknown n s1).
  { eapply unknown_run; [apply unknown_start | exact Nn | exact R1 |]. intros x Hx. apply T. apply in_or_app. auto. }
  assert (A2 : attaching n (next_future s1) (slab_key (s_links s1)) (own_slot e s1) s2).
  { eapply own_attaching; [exact Un | apply (lk_reachable p); exact Re | apply (fut_reachable p); exact Re | exact H |]. exists mine. auto. }
  assert (A3 : attaching n (next_future s1) (slab_key (s_links s1)) (own_slot e s1) s3).
  { eapply attaching_run; [exact A2 | exact Nn | exact R2 |]. intros x Hx. apply T. apply in_or_app. auto. }
  destruct (own_answer p _ _ _ _ frm s3 s4 os4 A3 W Er Ef H4) as (X1 & X2 & X3 & X4).
  split; [exact X1|]. split; [exact X2|].
  destruct D as [-> | ->]; cbn [own_slot] in *; [apply X3; reflexivity | apply X4; reflexivity].
Qed.
Print Assumptions C62_own_partial.

(** The name matters: the peer attaches link "a" to receive from "queue", which the
    service accepts, and then link "queue", to send.  All link names differ, but
    the second attach frame is swallowed: no question, no answer, no link. *)
Definition queue_source : source_t :=
  mk_source (Some (str "queue")) TerminusDurabilityNone ExpirySessionEnd 0 false None None None None None None.
Definition from_queue (n : bytes) (handle : N) : attach_t :=
  mk_attach n handle RoleReceiver SenderMixed ReceiverFirst (Some queue_source) None None false None None None None None.
Definition queue_link : list ev := [EvAttach (from_queue (str "a") 0); EvCtlOk 0 same_frame].
Theorem C62_swallowed_refuted : exists s os,
  run Release queue_link (start 0 100) = EOk (s, os) /\ s_error s = None
  /\ step Release (EvAttach (attach_of (str "queue") 1 RoleSender (Some 0))) s = EOk (s, []).
Proof.
  exists (result Release queue_link (start 0 100)), (observed Release queue_link (start 0 100)).
  repeat match goal with |- _ /\ _ => split end; [apply runs_ok; vm_compute; reflexivity | vm_compute; reflexivity ..].
Qed.
Print Assumptions C62_swallowed_refuted.
(** The attach frame that comes with a refused sender link says that this side is
    the receiver, as the peer's frame does. *)
Theorem C62_role_refuted : exists s s' os os' at_ d,
  run Release [EvAttach (from_queue (str "a") 0)] (start 0 100) = EOk (s, os)
  /\ step Release (EvCtlErr 0 (mk_err (CondAmqp AmqpNotFound) None None)) s = EOk (s', os')
  /\ s_out s' = s_out s ++ [FAttach at_; d] /\ attach_role at_ = attach_role (from_queue (str "a") 0).
Proof.
  eexists _, _, _, _, _, _. split; [vm_compute; reflexivity|]. split; [vm_compute; reflexivity|]. split; vm_compute; reflexivity.
Qed.
Print Assumptions C62_role_refuted.

(** The hypotheses are met: the peer attaches "a" (to receive from "queue") and "b"
    (to send), this side attaches "c"; the service accepts "a" and "b". *)
Definition busy : list ev := [EvAttach (attach_of (str "b") 7 RoleSender (Some 0)); EvAttachSender (attach_of (str "c") 0 RoleSender (Some 0))].
Example C62_case :
  let s1 := start 0 100 in
  let s2 := result Release [EvAttach (from_queue (str "a") 0)] s1 in
  let s3 := result Release busy s2 in
  let s4 := result Release [EvCtlOk 0 same_frame; EvCtlOk 1 same_frame] s3 in
  let s5 := result Release [EvCtlOk 2 same_frame] s4 in
  all_reserved s1 /\ Forall (calm 0) busy
  /\ (exists r, called 0 (KAttachSender (from_queue (str "a") 0) r 0) s2)
  /\ (forall e, In e busy -> ~ takes_name (str "a") e)
  /\ (exists r, called 1 (KAttachReceiver (attach_of (str "b") 7 RoleSender (Some 0)) r 0) s3)
  /\ match nth_error (s_ctl s4) 2, nth_error (s_rcvs s4) 0 with
     | Some (Some (KAttached r 0)), Some l => attach_handle r = rc_handle l /\ rc_credit l = 0
     | _, _ => False end
  /\ being_attached 0 s4 /\ is_open (LSender 0) s4
  /\ map (fun f => match f with FAttach a => attach_name a | FFlow _ => str "flow" | _ => [] end) (s_out s5)
     = [str "c"; str "a"; str "b"; str "flow"]
  /\ still_waits 0 s5
  /\ nth_error (s_chans (result Release [EvAttach (attach_of (str "c") 3 RoleReceiver None)] s5)) 0 = Some (CSent (VSender 1)).
Proof.
  cbv zeta.
  split. { intros i frm r a l C. unfold called in C. destruct i; discriminate C. }
  split. { repeat constructor. }
  split. { eexists. vm_compute. reflexivity. }
  split. { intros e [<- | [<- | []]]; vm_compute; discriminate. }
  split. { eexists. vm_compute. reflexivity. }
  split. { vm_compute. split; reflexivity. }
  split. { eexists _, _. split; [vm_compute; reflexivity|]. split; vm_compute; reflexivity. }
  split. { exists 0. vm_compute. reflexivity. }
  repeat match goal with |- _ /\ _ => split end; vm_compute; reflexivity.
Qed.
