(** * Theorems about the order of attach and detach frames: C73

    Vocabulary: [SpecTurn.v] (and [SpecAttach.v], [SpecHandles.v]). *)

From Coq Require Import Strings.String.
From Coq Require Import List NArith Lia.
From Verif Require Import Base SpecTurn Scenario TurnTheorems.
Import ListNotations.
Local Open Scope N_scope.

(** ** C73 *)
(** Among all frames that a session sends, each handle is attached only while it is
    free and detached only while it is in use.  The peer does not detach links that
    are still being attached, the control service leaves the handle in its answers
    alone, and the session has not failed. *)
Theorem C73_alternate_partial : forall p evs id local rc mfs b s os h,
  run p evs (ses_new id local rc mfs b) = EOk (s, os) -> links_opened evs <= 2 ^ 32 ->
  all_proper p evs (ses_new id local rc mfs b) -> s_error s = None ->
  in_turn h false (s_out s).
Proof. intros p evs id local rc mfs b s os h R B P E. apply (in_turn_run _ _ _ _ _ _ _ _ _ R B P E). Qed.
Print Assumptions C73_alternate_partial.

(** And the handle of an open link is in use. *)
Theorem C73_open_partial : forall p evs id local rc mfs b s os x h,
  run p evs (ses_new id local rc mfs b) = EOk (s, os) -> links_opened evs <= 2 ^ 32 ->
  all_proper p evs (ses_new id local rc mfs b) -> s_error s = None ->
  is_open x s -> own_handle x s h -> in_use h false (s_out s) = true.
Proof.
  intros p evs id local rc mfs b s os x h R B P E O H. destruct (in_turn_run _ _ _ _ _ _ _ _ _ R B P E) as [_ T].
  destruct (start_slots _ _ _ _ _ _ _ _ _ R B) as [LK F].
  rewrite (proj2 (T h)). assert (G := open_slot _ _ _ LK F O H). destruct x; rewrite G; reflexivity.
Qed.
Print Assumptions C73_open_partial.

Lemma proper_cons : forall p e evs s, proper e s -> all_proper p evs (result p [e] s) -> all_proper p (e :: evs) s.
Proof.
  intros p e evs s P A. split; [exact P|]. unfold result in A. cbn [run] in A.
  destruct (step p e s) as [[s' o]|]; cbn [ebind] in A; [exact A | exact I].
Qed.
Definition attached_b (k : N) (s : ses) : bool :=
  match slab_get (s_links s) k with
  | Some (SOpening _) | Some SOpeningRemote | Some (ROpeningLocal _) => false
  | _ => true
  end.
Lemma proper_detach : forall d s,
  attached_b (match map_get (detach_handle d) (s_rhandles s) with Some k => k | None => detach_handle d end) s = true ->
  proper (EvFrame (FDetach d)) s.
Proof.
  intros d s H k D. unfold unattached_yet. unfold attached_b in H.
  assert (E : match map_get (detach_handle d) (s_rhandles s) with Some k => k | None => detach_handle d end = k)
    by (destruct D as [M|[M K]]; rewrite M; congruence).
  rewrite E in H. destruct (slab_get (s_links s) k) as [lk|]; [destruct lk; first [discriminate H | tauto] | tauto].
Qed.
Ltac all_proper := repeat (apply proper_cons; [first [apply proper_detach; vm_compute; reflexivity | exact I | intros r; reflexivity]|]); exact I.

(** A peer that detaches a link before the control service has decided about it and
    attaches anew gets two attach frames with the same handle and no detach frame. *)
Definition abandoned : list ev :=
  [EvAttach (attach_of (str "a") 0 RoleReceiver None); EvFrame (FDetach (mk_detach 0 true None));
   EvAttach (attach_of (str "b") 0 RoleReceiver None); EvCtlOk 0 same_frame; EvCtlOk 1 same_frame].
Theorem C73_twice_refuted : exists s os,
  run Release abandoned (start 0 100) = EOk (s, os) /\ s_error s = None /\ links_opened abandoned <= 2 ^ 32
  /\ ~ in_turn 0 false (s_out s).
Proof.
  exists (result Release abandoned (start 0 100)), (observed Release abandoned (start 0 100)).
  split; [apply runs_ok; vm_compute; reflexivity|]. split; [vm_compute; reflexivity|]. split; [vm_compute; discriminate|].
  assert (E : exists a b, s_out (result Release abandoned (start 0 100)) = [FAttach a; FAttach b] /\ attach_handle a = 0 /\ attach_handle b = 0)
    by (eexists _, _; split; [vm_compute; reflexivity | split; reflexivity]).
  destruct E as (a & c & -> & A & C). cbn [in_turn]. rewrite A, C. intros [_ [X _]]. discriminate X.
Qed.
Print Assumptions C73_twice_refuted.

(** The application may close a receiver link while the service looks at the final
    answer.  When that call completes, the answer is sent all the same, and if the
    handle has been given to another link meanwhile, that link is opened: "b" is open
    here, under an attach frame that names "a", although the service has not been
    heard about "b" (call 2 is undecided). *)
Definition stale : list ev :=
  [EvAttach (attach_of (str "a") 0 RoleSender (Some 0)); EvCtlOk 0 same_frame; EvCloseReceiver 0 None;
   EvAttach (attach_of (str "b") 1 RoleSender (Some 0)); EvCtlOk 1 same_frame].
Theorem C73_unasked_refuted : exists s os frm r,
  run Release stale (start 0 100) = EOk (s, os) /\ all_proper Release stale (start 0 100) /\ s_error s = None
  /\ is_open (LReceiver 1) s /\ own_handle (LReceiver 1) s 0
  /\ attach_name frm = str "b" /\ called 2 (KAttachReceiver frm r 1) s
  /\ (forall f, In f (s_out s) -> match f with FAttach a => attach_name a = str "a" | _ => True end).
Proof.
  exists (result Release stale (start 0 100)), (observed Release stale (start 0 100)), (attach_of (str "b") 1 RoleSender (Some 0)),
    (match nth_error (s_ctl (result Release stale (start 0 100))) 2 with Some (Some (KAttachReceiver _ r _)) => r | _ => attach_of [] 0 RoleSender None end).
  split; [apply runs_ok; vm_compute; reflexivity|].
  split; [all_proper|].
  split; [vm_compute; reflexivity|]. split; [exists 0; vm_compute; reflexivity|].
  split; [eexists; split; vm_compute; reflexivity|]. split; [reflexivity|]. split; [vm_compute; reflexivity|].
  assert (X : forallb (fun f => match f with FAttach a => if list_eq_dec Byte.byte_eq_dec (attach_name a) (str "a") then true else false | _ => true end)
    (s_out (result Release stale (start 0 100))) = true) by (vm_compute; reflexivity).
  intros f H. assert (Y := proj1 (forallb_forall _ _) X f H). cbv beta in Y. destruct f; try exact I.
  match type of Y with context [list_eq_dec ?d ?x ?y] => destruct (list_eq_dec d x y) as [E|] end; [exact E | discriminate Y].
Qed.
Print Assumptions C73_unasked_refuted.

(** A send that waits for credit is released by a flow frame.  If the link is closed
    before the future is polled again, the message is sent after the detach frame. *)
Definition late : list ev :=
  sender_link ++ [EvSend 0 (bytes_of 3) None false None; EvPollSend 0] ++ credit_event 1 0 1
  ++ [EvCloseSender 0 None; EvPollSend 0].
Theorem C73_transfer_refuted : exists s os at_ d t,
  run Release late (start 0 100) = EOk (s, os) /\ s_error s = None
  /\ s_out s = [FAttach at_; FDetach d; FTransfer t]
  /\ attach_handle at_ = 0 /\ detach_handle d = 0 /\ transfer_handle (tr_head t) = 0
  /\ ~ used_in_turn (s_out s).
Proof.
  eexists (result Release late (start 0 100)), (observed Release late (start 0 100)), _, _, _.
  split; [apply runs_ok; vm_compute; reflexivity|]. split; [vm_compute; reflexivity|].
  split; [vm_compute; reflexivity|]. split; [reflexivity|]. split; [reflexivity|]. split; [reflexivity|].
  intros U. assert (X := U (firstn 2 (s_out (result Release late (start 0 100)))) (nth 2 (s_out (result Release late (start 0 100))) FEmpty) [] 0).
  assert (Y : in_use 0 false (firstn 2 (s_out (result Release late (start 0 100)))) = true) by (apply X; vm_compute; reflexivity).
  assert (Z : in_use 0 false (firstn 2 (s_out (result Release late (start 0 100)))) = false) by (vm_compute; reflexivity). congruence.
Qed.
Print Assumptions C73_transfer_refuted.

(** The control service gets the receiver link with its question.  Credit that it
    grants then is sent before the attach frame. *)
Definition early : list ev := [EvAttach (attach_of (str "a") 0 RoleSender (Some 0)); EvCredit 0 5].
Theorem C73_flow_refuted : exists s os f,
  run Release early (start 0 100) = EOk (s, os) /\ s_error s = None
  /\ s_out s = [FFlow f] /\ flow_handle f = Some 0 /\ ~ used_in_turn (s_out s).
Proof.
  eexists (result Release early (start 0 100)), (observed Release early (start 0 100)), _.
  split; [apply runs_ok; vm_compute; reflexivity|]. split; [vm_compute; reflexivity|].
  split; [vm_compute; reflexivity|]. split; [reflexivity|].
  intros U. assert (X := U [] (nth 0 (s_out (result Release early (start 0 100))) FEmpty) [] 0).
  assert (Y : in_use 0 false [] = true) by (apply X; vm_compute; reflexivity). discriminate Y.
Qed.
Print Assumptions C73_flow_refuted.

(** The hypotheses are met: a sender link of the peer is opened, detached by the
    peer, and its handle serves a receiver link of this side and then, when that is
    closed by both, another sender link. *)
Definition turns : list ev :=
  sender_link ++ [EvFrame (FDetach (mk_detach 0 true None)); EvAttachReceiver (attach_of (str "c") 0 RoleReceiver None);
    EvAttach (attach_of (str "c") 3 RoleSender (Some 0)); EvCloseReceiver 0 None; EvFrame (FDetach (mk_detach 3 true None));
    EvAttach (attach_of (str "d") 1 RoleReceiver None); EvCtlOk 3 same_frame].
Example C73_case : exists s os,
  run Release turns (start 0 100) = EOk (s, os) /\ links_opened turns <= 2 ^ 32
  /\ all_proper Release turns (start 0 100) /\ s_error s = None /\ is_open (LSender 1) s /\ own_handle (LSender 1) s 0
  /\ map (fun f => match f with FAttach a => Some (attach_handle a) | FDetach d => None | _ => Some 99 end) (s_out s)
     = [Some 0; None; Some 0; None; Some 0].
Proof.
  exists (result Release turns (start 0 100)), (observed Release turns (start 0 100)).
  split; [apply runs_ok; vm_compute; reflexivity|]. split; [vm_compute; discriminate|].
  split; [unfold turns; cbn [app sender_link]; all_proper|].
  split; [vm_compute; reflexivity|]. split; [exists 0; vm_compute; reflexivity|].
  split; [eexists; split; vm_compute; reflexivity|]. vm_compute. reflexivity.
Qed.
