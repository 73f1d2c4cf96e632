(** * Theorems about looking links and sessions up: C63

    Vocabulary: [SpecLookup.v] (and [SpecHandles.v], [SpecAttach.v],
    [SpecConnection.v]).  Model: [Lookup.v]. *)

From Coq Require Import Strings.String.
From Coq Require Import List NArith Lia.
From Verif Require Import Base SpecLookup Scenario LookupProofs.
Import ListNotations.
Local Open Scope N_scope.

Ltac lit := repeat match goal with |- _ /\ _ => split end; vm_compute; reflexivity.

(** ** C63 *)
(** Looking for a link by this side's handle gives exactly the open link that has
    this handle. *)
Theorem C63_handle : forall p evs id local rc mfs b s os x h,
  run p evs (ses_new id local rc mfs b) = EOk (s, os) -> links_opened evs <= 2 ^ 32 ->
  (finds h x s <-> is_open x s /\ own_handle x s h).
Proof. exact by_handle. Qed.
Print Assumptions C63_handle.
(** A link that was found is found ever after, until it says that it is closed. *)
Theorem C63_kept : forall p evs1 evs2 id local rc mfs b s1 s2 os1 os2 x h,
  run p evs1 (ses_new id local rc mfs b) = EOk (s1, os1) -> run p evs2 s1 = EOk (s2, os2) -> links_opened (evs1 ++ evs2) <= 2 ^ 32 ->
  finds h x s1 -> finds h x s2 \/ says_closed x s2.
Proof. exact kept. Qed.
Print Assumptions C63_kept.

(** An open link is found by the handle that the peer gave it, if the peer gives the
    handle to no other link and no other link with it is waiting to be accepted. *)
Theorem C63_remote_partial : forall p id local rc mfs b evs1 evs2 frm x s1 s2 s3 os1 os2 os3,
  run p evs1 (ses_new id local rc mfs b) = EOk (s1, os1) ->
  step p (EvAttach frm) s1 = EOk (s2, os2) -> run p evs2 s2 = EOk (s3, os3) ->
  begins_link x frm s1 s2 ->
  none_waits (attach_handle frm) s1 -> unused_handle (attach_handle frm) evs2 ->
  links_opened (evs1 ++ EvAttach frm :: evs2) <= 2 ^ 32 ->
  is_open x s3 -> finds_remote (attach_handle frm) x s3.
Proof. exact by_remote. Qed.
Print Assumptions C63_remote_partial.
(** Without: the peer's link "a" with handle 0 is refused, then this side's link "b"
    is attached, to which the peer gives handle 5: handle 0 finds it too. *)
Definition refused_link : list ev :=
  [EvAttach (attach_of (str "a") 0 RoleSender (Some 0)); EvCtlErr 0 (mk_err (CondAmqp AmqpNotAllowed) None None);
   EvAttachSender (attach_of (str "b") 0 RoleSender (Some 0)); EvAttach (attach_of (str "b") 5 RoleReceiver None)].
Theorem C63_remote_refuted : exists s os x, run Debug refused_link (start 512 10) = EOk (s, os)
  /\ is_open x s /\ finds_remote 5 x s /\ finds_remote 0 x s.
Proof.
  exists (result Debug refused_link (start 512 10)), (observed Debug refused_link (start 512 10)), (LSender 0).
  split; [lit|]. split; [exists 0; vm_compute; reflexivity|]. lit.
Qed.
Print Assumptions C63_remote_refuted.

(** A sender link that the peer asked for is found by the address of its source, if
    no other link of the session uses this address as its name or source; ... *)
Theorem C63_name_peer_partial : forall p evs1 evs2 id local rc mfs b s1 s2 s3 os1 os2 os3 frm r n,
  run p evs1 (ses_new id local rc mfs b) = EOk (s1, os1) ->
  step p (EvAttach frm) s1 = EOk (s2, os2) ->
  called (length (s_ctl s1)) (KAttachSender frm r (length (s_snds s1))) s2 ->
  from_address frm = Some n -> n <> [] ->
  run p evs2 s2 = EOk (s3, os3) -> (forall e, In e (evs1 ++ evs2) -> ~ takes_name n e) ->
  is_open (LSender (length (s_snds s1))) s3 -> sender_by_name n s3 = Some (length (s_snds s1)).
Proof. exact by_name_peer. Qed.
Print Assumptions C63_name_peer_partial.
(** ... one that this side attached, by its name, if no other link uses that. *)
Theorem C63_name_own_partial : forall p evs1 evs2 evs3 id local rc mfs b s1 s2 s3 s4 s5 os1 os2 os3 os4 os5 n mine frm,
  run p evs1 (ses_new id local rc mfs b) = EOk (s1, os1) -> attach_name mine = n -> n <> [] ->
  step p (EvAttachSender mine) s1 = EOk (s2, os2) -> run p evs2 s2 = EOk (s3, os3) ->
  (forall e', In e' (evs1 ++ evs2 ++ EvAttach frm :: evs3) -> ~ takes_name n e') ->
  s_error s3 = None -> still_waits (next_future s1) s3 ->
  attach_name frm = n -> step p (EvAttach frm) s3 = EOk (s4, os4) -> run p evs3 s4 = EOk (s5, os5) ->
  is_open (LSender (length (s_snds s3))) s5 -> sender_by_name n s5 = Some (length (s_snds s3)).
Proof. exact by_name_own. Qed.
Print Assumptions C63_name_own_partial.
(** Without: links "a" and "b" of the peer get their messages from "queue", both are
    open.  The second is found.  When the first is detached the other stays open,
    but is not found any more.  By their own names neither ever is. *)
Definition queue_source : source_t :=
  mk_source (Some (str "queue")) TerminusDurabilityNone ExpirySessionEnd 0 false None None None None None None.
Definition from_queue (n : bytes) (handle : N) : attach_t :=
  mk_attach n handle RoleReceiver SenderMixed ReceiverFirst (Some queue_source) None None false None None None None None.
Definition two_from_queue : list ev :=
  [EvAttach (from_queue (str "a") 0); EvAttach (from_queue (str "b") 1); EvCtlOk 0 same_frame; EvCtlOk 1 same_frame].
Definition detach_first : ev := EvFrame (FDetach (mk_detach 0 true None)).
Theorem C63_name_refuted : exists s1 s2 os1 os2,
  run Debug two_from_queue (start 512 10) = EOk (s1, os1) /\ step Debug detach_first s1 = EOk (s2, os2)
  /\ is_open (LSender 0) s1 /\ is_open (LSender 1) s1 /\ is_open (LSender 1) s2
  /\ sender_by_name (str "queue") s1 = Some 1%nat /\ sender_by_name (str "queue") s2 = None
  /\ sender_by_name (str "a") s1 = None /\ sender_by_name (str "b") s1 = None.
Proof.
  exists (result Debug two_from_queue (start 512 10)), (result Debug (two_from_queue ++ [detach_first]) (start 512 10)),
    (observed Debug two_from_queue (start 512 10)), [].
  split; [lit|]. split; [lit|]. split; [exists 0; vm_compute; reflexivity|]. split; [exists 1; vm_compute; reflexivity|].
  split; [exists 1; vm_compute; reflexivity|]. lit.
Qed.
Print Assumptions C63_name_refuted.

(** Looking for a session by this side's channel gives one with this channel that has
    not ended. *)
Theorem C63_session : forall p c ch a, creachable p c -> session_by_channel ch c = Some a ->
  exists s, nth_error (c_sess c) a = Some s /\ channel_of s = as_u16 ch /\ s_ended s = false /\ s_error s = None.
Proof. exact session_sound. Qed.
Print Assumptions C63_session.
(** A session that has not ended is found, if no session is being ended to which the
    peer gave this channel number. *)
Theorem C63_session_partial : forall p chmax mfs evs c os a s, chmax < 2 ^ 16 -> at_most 65536 p evs (conn_new chmax mfs) ->
  crun p evs (conn_new chmax mfs) = EOk (c, os) -> c_error c = None ->
  nth_error (c_sess c) a = Some s -> s_ended s = false ->
  (forall b s', nth_error (c_sess c) b = Some s' -> s_rchan s' = s_id s -> s_ending s' = false) ->
  session_by_channel (channel_of s) c = Some a.
Proof. exact session_complete. Qed.
Print Assumptions C63_session_partial.
(** Without: two sessions of this side on channels 0 and 1, which the peer numbers 1
    and 0.  The application ends the first: it is still found, the second is not. *)
Definition answer_on (ch n : N) : cev := CvFrame ch (FBegin (mk_begin (Some n) 1 100 100 4294967295 None None None)).
Definition crossed_pair : list cev := [CvOpen None None None; CvOpen None None None; answer_on 1 0; answer_on 0 1].
Theorem C63_session_refuted : exists c1 c2 s,
  crun Debug crossed_pair (conn_new 1024 512) = EOk (c1, []) /\ cstep Debug (CvEnd 0) c1 = EOk (c2, [])
  /\ session_by_channel 0 c1 = Some 0%nat /\ session_by_channel 1 c1 = Some 1%nat
  /\ nth_error (c_sess c2) 1 = Some s /\ channel_of s = 1 /\ s_ended s = false /\ s_ending s = false
  /\ session_by_channel 1 c2 = None /\ session_by_channel 0 c2 = Some 0%nat.
Proof.
  eexists _, _, _. split; [vm_compute; reflexivity|]. split; [vm_compute; reflexivity|]. split; [vm_compute; reflexivity|].
  split; [vm_compute; reflexivity|]. split; [vm_compute; reflexivity|]. lit.
Qed.
Print Assumptions C63_session_refuted.

(** The hypotheses are met: the peer attaches "a" from "queue" and "b", to send; this
    side attaches "c", which the peer answers. *)
Definition lookups : list ev :=
  [EvAttach (attach_of (str "b") 7 RoleSender (Some 0)); EvCtlOk 0 same_frame; EvCtlOk 1 same_frame; EvCtlOk 2 same_frame;
   EvAttachSender (attach_of (str "c") 0 RoleSender (Some 0)); EvAttach (attach_of (str "c") 3 RoleReceiver None)].
Example C63_case :
  let s1 := start 512 10 in
  let s2 := result Debug [EvAttach (from_queue (str "a") 9)] s1 in
  let s3 := result Debug lookups s2 in
  let x := LSender 0 in
  links_opened (EvAttach (from_queue (str "a") 9) :: lookups) = 4
  /\ (exists r, called 0 (KAttachSender (from_queue (str "a") 9) r 0) s2)
  /\ begins_link x (from_queue (str "a") 9) s1 s2 /\ none_waits 9 s1 /\ unused_handle 9 lookups
  /\ (forall e, In e lookups -> ~ takes_name (str "queue") e)
  /\ is_open x s3 /\ own_handle x s3 0 /\ finds 0 x s3 /\ finds_remote 9 x s3
  /\ sender_by_name (str "queue") s3 = Some 0%nat /\ sender_by_name (str "c") s3 = Some 1%nat
  /\ finds 1 (LReceiver 0) s3 /\ finds 2 (LSender 1) s3 /\ finds_remote 7 (LReceiver 0) s3 /\ finds_remote 3 (LSender 1) s3
  /\ still_waits 0 (result Debug (firstn 5 lookups) s2)
  /\ sender_by_handle 0 (result Debug [EvFrame (FDetach (mk_detach 9 true None))] s3) = None
  /\ option_map sn_closed (nth_error (s_snds (result Debug [EvFrame (FDetach (mk_detach 9 true None))] s3)) 0) = Some true.
Proof.
  cbv zeta. split; [vm_compute; reflexivity|]. split; [eexists; vm_compute; reflexivity|]. split; [split; vm_compute; reflexivity|].
  split. { intros frm r a H. destruct H. }
  split. { intros frm H. cbn [lookups In] in H. repeat destruct H as [H|H]; try contradiction; try discriminate H; injection H as <-; discriminate. }
  split. { intros e H. cbn [lookups In] in H. repeat destruct H as [<- |H]; try destruct H; vm_compute; try discriminate; tauto. }
  split; [exists 0; vm_compute; reflexivity|]. split; [eexists; split; vm_compute; reflexivity|]. lit.
Qed.
Example C63_session_case : exists c, crun Debug crossed_pair (conn_new 1024 512) = EOk (c, [])
  /\ at_most 65536 Debug crossed_pair (conn_new 1024 512) /\ c_error c = None
  /\ map s_ended (c_sess c) = [false; false] /\ map s_ending (c_sess c) = [false; false] /\ map channel_of (c_sess c) = [0; 1]
  /\ session_by_channel 1 c = Some 1%nat.
Proof.
  eexists. split; [vm_compute; reflexivity|]. split; [|lit].
  unfold crossed_pair. repeat (apply few_cons; [vm_compute; discriminate|]; intros ? ? H; vm_compute in H; injection H as <- _). apply few_nil. vm_compute. discriminate.
Qed.
