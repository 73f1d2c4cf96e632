(** * Theorems about the two ends of a link: C67

    Vocabulary: [SpecEnds.v] (and [SpecAttach.v], [SpecLookup.v], [SpecHandles.v]). *)

From Coq Require Import Strings.String.
From Coq Require Import List NArith Lia.
From Verif Require Import Base SpecEnds Builders Scenario AttachProofs EndsProofs.
Import ListNotations.
Local Open Scope N_scope.

Ltac lit := repeat match goal with |- _ /\ _ => split end; vm_compute; reflexivity.

(** ** C67 *)
(** One side attaches a sender link, the other accepts with the answer [r], which
    must still have the name and the handle of the link: the answer opens the two
    ends of one link.  Both have the name, each knows the handle of the other, and
    the sender takes no body that is larger than what the receiver takes.  0 stands
    for no limit. *)
Theorem C67_send : forall p mine f s1 s3 y t1 t3 t4 os i edit r,
  asking p (EvAttachSender mine) mine f s1 s3 -> was_asked p f (LReceiver y) t1 t3 ->
  called i (KAttached r y) t3 -> being_attached y t3 ->
  attach_name r = attach_name f -> own_handle (LReceiver y) t3 (attach_handle r) ->
  step p (EvCtlOk i edit) t3 = EOk (t4, os) ->
  exists g fl, s_out t4 = s_out t3 ++ [FAttach g; FFlow fl] /\ forall s4 os4, step p (EvAttach g) s3 = EOk (s4, os4) ->
    let x := LSender (length (s_snds s3)) in
    two_ends x s4 (LReceiver y) t4
    /\ has_name x s4 (attach_name mine) /\ has_name (LReceiver y) t4 (attach_name mine)
    /\ (forall h, own_handle x s4 h <-> peer_handle (LReceiver y) t4 h)
    /\ (forall k, own_handle (LReceiver y) t4 k <-> peer_handle x s4 k)
    /\ counts x s4 (or_default 0 (attach_initial_delivery_count r))
    /\ (forall m, takes_up_to y t4 m -> sends_up_to (length (s_snds s3)) s4 (if m =? 0 then None else Some (cut m))).
Proof. exact ends_send. Qed.
Print Assumptions C67_send.

(** One side attaches a receiver link, the other accepts with the answer [edit r]:
    again the answer opens the two ends of one link, and the sender announces its
    limit.  But only the sender knows the handle of the other end: what the receiver
    says is its own.  And what the sender says is its name is the address of the
    source. *)
Theorem C67_receive_partial : forall p mine f s1 s3 y l t1 t3 t4 os i edit r,
  asking p (EvAttachReceiver mine) mine f s1 s3 -> was_asked p f (LSender y) t1 t3 ->
  called i (KAttachSender f r y) t3 -> nth_error (s_snds t3) y = Some l -> ~ vacant (sn_id l) t3 ->
  attach_name (edit r) = attach_name f ->
  step p (EvCtlOk i edit) t3 = EOk (t4, os) ->
  exists g, s_out t4 = s_out t3 ++ [FAttach g] /\ forall s4 os4, step p (EvAttach g) s3 = EOk (s4, os4) ->
    let x := LReceiver (length (s_rcvs s1)) in
    two_ends x s4 (LSender y) t4
    /\ has_name x s4 (attach_name mine) /\ has_name (LSender y) t4 (or_default [] (from_address mine))
    /\ (forall h, own_handle x s4 h <-> peer_handle (LSender y) t4 h)
    /\ (forall h, own_handle x s4 h <-> peer_handle x s4 h)
    /\ (forall m, sends_up_to y t4 m -> attach_max_message_size g = m).
Proof. exact ends_receive. Qed.
Print Assumptions C67_receive_partial.

(** What a new end starts with.  A receiver link that this side attaches takes 256
    KiB, whatever it announces, and counts from what it announces; the peer's new
    sender link sends up to what is announced and counts from there, and its new
    receiver link takes 256 KiB and counts from what is announced. *)
Theorem C67_begin_partial : forall p s s' os,
  (forall mine, step p (EvAttachReceiver mine) s = EOk (s', os) ->
     takes_up_to (length (s_rcvs s)) s' (256 * 1024)
     /\ counts (LReceiver (length (s_rcvs s))) s' (or_default 0 (attach_initial_delivery_count mine)))
  /\ (forall f k r, step p (EvAttach f) s = EOk (s', os) -> s_ctl s' = s_ctl s ++ [Some k] -> asks k f (new_link f s) r ->
       counts (new_link f s) s' (or_default 0 (attach_initial_delivery_count f))
       /\ match new_link f s with
          | LSender a => sends_up_to a s' (option_map cut (attach_max_message_size f))
          | LReceiver a => takes_up_to a s' (256 * 1024)
          end).
Proof.
  intros p s s' os. split.
  - intros mine H. cbn [step] in H. apply EOk_inj in H. apply (f_equal fst) in H. cbn [fst] in H. subst s'.
    assert (E : nth_error (s_rcvs (snd (attach_local_receiver mine s))) (length (s_rcvs s))
                = Some (rcv_new (as_u32 (slab_key (s_links s))) (as_u32 (slab_key (s_links s))) mine)).
    { unfold attach_local_receiver, new_chan, insert_link. cbn [snd]. unfold post. st_cbn.
      rewrite nth_error_app2, PeanoNat.Nat.sub_diag by reflexivity. reflexivity. }
    split; eexists; (split; [exact E | reflexivity]).
  - intros f k r H Ct A. cbn [step] in H. apply EOk_inj in H. apply (f_equal fst) in H. cbn [fst] in H. subst s'. revert Ct. unfold on_attach.
    assert (NC : s_ctl s = s_ctl s ++ [Some k] -> False).
    { intros Q. apply (f_equal (@length _)) in Q. rewrite app_length in Q. cbn in Q. lia. }
    destruct (s_error s); [intros Q; elim (NC Q)|].
    destruct (handle_attach f s) as [t'|] eqn:Ha.
    { unfold handle_attach in Ha. destruct (name_get _ _); [|discriminate Ha]. apply Some_inj in Ha. subst t'.
      intros Q. exfalso. apply NC. rewrite <- Q. repeat fr_break; frw; reflexivity. }
    intros _. unfold new_link. destruct (attach_role f).
    + unfold attach_remote_receiver. cbn [insert_link fst snd]. unfold dispatch, control.
      split; (eexists; split; [st_cbn; rewrite nth_error_app2, PeanoNat.Nat.sub_diag by reflexivity; reflexivity | reflexivity]).
    + unfold new_remote_sender. cbn [insert_link fst snd]. unfold dispatch, control.
      split; (eexists; split; [st_cbn; rewrite nth_error_app2, PeanoNat.Nat.sub_diag by reflexivity; reflexivity|]).
      * cbn [sn_dc snd_with snd_new]. reflexivity.
      * cbn [sn_max snd_with snd_new]. destruct (attach_max_message_size f); [|reflexivity]. cbn [option_map]. rewrite cut_clamp. reflexivity.
Qed.
Print Assumptions C67_begin_partial.

(** The builder of a receiver link is told 10 bytes, which is announced, but bodies of
    24 bytes are taken. *)
Definition small_receiver : attach_t :=
  match build_receiver (str "r") (str "queue") [RCallMaxSize 10] with Some a => a | None => attach_of [] 0 RoleReceiver None end.
Definition answer_frame : attach_t := attach_of (str "r") 0 RoleSender (Some 0).
Theorem C67_limit_refuted : exists s os f d tr,
  run Release [EvAttachReceiver small_receiver; EvAttach answer_frame; EvCredit 0 5; arrives (Some 1) true 12; arrives None false 12; EvRecv 0 0]
      (start 0 100) = EOk (s, os)
  /\ In (FAttach f) (s_out s) /\ attach_max_message_size f = Some 10
  /\ os = [ObItem 0 d tr] /\ option_map tb_size (tr_body tr) = Some 24.
Proof.
  eexists _, _, _, _, _. split; [vm_compute; reflexivity|]. split; [left; reflexivity|]. split; [reflexivity|].
  split; [reflexivity|]. vm_compute. reflexivity.
Qed.
Print Assumptions C67_limit_refuted.
(** [set_max_message_size(0)] before the link is accepted: no limit is announced, but
    a body that comes in two frames is refused. *)
Theorem C67_no_limit_refuted : exists s os f d,
  run Release [EvAttach (attach_of (str "out") 0 RoleSender (Some 0)); EvReceiverMax 0 0; EvCtlOk 0 same_frame; EvCtlOk 1 same_frame;
               arrives (Some 1) true 1; arrives None false 1] (start 0 100) = EOk (s, os)
  /\ In (FAttach f) (s_out s) /\ attach_max_message_size f = None
  /\ In (FDetach d) (s_out s) /\ detach_error d = Some (mk_err (CondLink LinkMessageSizeExceeded) None None).
Proof.
  eexists _, _, _, _. split; [vm_compute; reflexivity|]. split; [left; reflexivity|]. split; [reflexivity|].
  split; [right; right; left; reflexivity|]. reflexivity.
Qed.
Print Assumptions C67_no_limit_refuted.

(** The application may set the initial delivery count of its sender link.  The peer
    starts to count there, this side does not: of 50 credits it makes 55. *)
Definition counting (n : N) (a : attach_t) : attach_t :=
  mk_attach (attach_name a) (attach_handle a) (attach_role a) (attach_snd_settle_mode a) (attach_rcv_settle_mode a) (attach_source a)
    (attach_target a) (attach_unsettled a) (attach_incomplete_unsettled a) (Some n) (attach_max_message_size a)
    (attach_offered_capabilities a) (attach_desired_capabilities a) (attach_properties a).
Definition from_five : attach_t := build_sender (str "s") (str "queue") [SCallFrame (counting 5)].
Theorem C67_count_refuted : exists s s' t os os' ot f g fl,
  run Release [EvAttachSender from_five] (start 0 100) = EOk (s, os) /\ s_out s = [FAttach f]
  /\ run Release [EvAttach f; EvCtlOk 0 same_frame; EvCtlOk 1 same_frame] (start 0 100) = EOk (t, ot) /\ s_out t = [FAttach g; FFlow fl]
  /\ run Release [EvAttach g; EvFrame (FFlow fl); EvCtlOk 0 same_frame] s = EOk (s', os')
  /\ counts (LSender 0) s' 0 /\ counts (LReceiver 0) t 5
  /\ option_map sn_credit (nth_error (s_snds s') 0) = Some 55 /\ option_map rc_credit (nth_error (s_rcvs t) 0) = Some 50.
Proof.
  eexists _, _, _, _, _, _, _, _, _. split; [vm_compute; reflexivity|]. split; [reflexivity|]. split; [vm_compute; reflexivity|].
  split; [reflexivity|]. split; [vm_compute; reflexivity|]. split; [eexists; split; reflexivity|]. split; [eexists; split; reflexivity|].
  split; reflexivity.
Qed.
Print Assumptions C67_count_refuted.

(** A receiver link "r" at "queue", at which the peer has its link 7 already: the name
    and the handle that the two ends give are not those of the other end. *)
Definition busy_peer : list ev := [EvAttach (attach_of (str "x") 9 RoleSender (Some 0))].
Definition queue_receiver : attach_t :=
  match build_receiver (str "r") (str "queue") [] with Some a => a | None => attach_of [] 0 RoleReceiver None end.
Theorem C67_known_refuted : exists s s' t os os' ot f g,
  run Release [EvAttachReceiver queue_receiver] (start 0 100) = EOk (s, os) /\ s_out s = [FAttach f]
  /\ run Release (busy_peer ++ [EvAttach f; EvCtlOk 1 same_frame]) (start 0 100) = EOk (t, ot) /\ s_out t = [FAttach g]
  /\ run Release [EvAttach g] s = EOk (s', os')
  /\ two_ends (LReceiver 0) s' (LSender 0) t
  /\ has_name (LReceiver 0) s' (str "r") /\ has_name (LSender 0) t (str "queue")
  /\ own_handle (LSender 0) t 1 /\ peer_handle (LReceiver 0) s' 0.
Proof.
  eexists _, _, _, _, _, _, _, _. split; [vm_compute; reflexivity|]. split; [reflexivity|]. split; [vm_compute; reflexivity|].
  split; [reflexivity|]. split; [vm_compute; reflexivity|]. split.
  { split; [exact I|]. split; [exists 0; reflexivity|]. split; [exists 1; reflexivity|]. exists 0, 1.
    split; [eexists; split; reflexivity|]. split; [eexists; split; reflexivity|]. split; reflexivity. }
  split; [eexists; split; reflexivity|]. split; [eexists; split; reflexivity|]. split; eexists; split; reflexivity.
Qed.
Print Assumptions C67_known_refuted.

(** The hypotheses are met, for a sender link and for a receiver link. *)
Definition plain_sender : attach_t := build_sender (str "s") (str "queue") [].
Example C67_case : exists f t3 r g t4 h u3 ru,
  asking Release (EvAttachSender plain_sender) plain_sender f (start 0 100) t4
  /\ was_asked Release f (LReceiver 1) (result Release busy_peer (start 0 100)) t3
  /\ called 2 (KAttached r 1) t3 /\ being_attached 1 t3 /\ attach_name r = attach_name f /\ own_handle (LReceiver 1) t3 (attach_handle r)
  /\ asking Release (EvAttachReceiver queue_receiver) queue_receiver h (start 0 100) g
  /\ was_asked Release h (LSender 0) (result Release busy_peer (start 0 100)) u3
  /\ called 1 (KAttachSender h ru 0) u3 /\ exists l, nth_error (s_snds u3) 0 = Some l /\ ~ vacant (sn_id l) u3.
Proof.
  assert (NW : forall h, none_waits h (result Release busy_peer (start 0 100))).
  { intros h frm r a [D|[]]. discriminate D. }
  eexists (set_handle 0 plain_sender), (result Release [EvAttach (set_handle 0 plain_sender); EvCtlOk 1 same_frame] (result Release busy_peer (start 0 100))),
    _, (result Release [EvAttachReceiver queue_receiver] (start 0 100)), (result Release [EvAttachSender plain_sender] (start 0 100)), (set_handle 0 queue_receiver),
    (result Release [EvAttach (set_handle 0 queue_receiver)] (result Release busy_peer (start 0 100))), _.
  split.
  { exists 0, true, 0, 0, (begin_of 100), [], [], (result Release [EvAttachSender plain_sender] (start 0 100)), [], [], [].
    split; [reflexivity|]. split; [left; reflexivity|]. split; [discriminate|]. split; [vm_compute; reflexivity|].
    split; [reflexivity|]. split; [reflexivity|]. split; [intros e []|]. split; reflexivity. }
  split.
  { exists 0, true, 0, 0, (begin_of 100), busy_peer, [EvCtlOk 1 same_frame],
      (result Release [EvAttach (set_handle 0 plain_sender)] (result Release busy_peer (start 0 100))), [], [], []. eexists _, _.
    split; [vm_compute; reflexivity|]. split; [apply NW|]. split; [vm_compute; reflexivity|]. split; [reflexivity|]. split; [reflexivity|].
    split; [vm_compute; reflexivity|]. split; [vm_compute; reflexivity|]. split; [intros x [D|[]]; discriminate D|]. vm_compute. discriminate. }
  split; [vm_compute; reflexivity|]. split; [eexists _, _; lit|]. split; [reflexivity|]. split; [eexists; split; reflexivity|].
  split.
  { exists 0, true, 0, 0, (begin_of 100), [], [], (result Release [EvAttachReceiver queue_receiver] (start 0 100)), [], [], [].
    split; [reflexivity|]. split; [right; reflexivity|]. split; [discriminate|]. split; [vm_compute; reflexivity|].
    split; [reflexivity|]. split; [reflexivity|]. split; [intros e []|]. split; reflexivity. }
  split.
  { exists 0, true, 0, 0, (begin_of 100), busy_peer, [],
      (result Release [EvAttach (set_handle 0 queue_receiver)] (result Release busy_peer (start 0 100))), [], [], []. eexists _, _.
    split; [vm_compute; reflexivity|]. split; [apply NW|]. split; [vm_compute; reflexivity|]. split; [reflexivity|]. split; [reflexivity|].
    split; [vm_compute; reflexivity|]. split; [vm_compute; reflexivity|]. split; [intros x []|]. vm_compute. discriminate. }
  split; [vm_compute; reflexivity|]. eexists. split; [vm_compute; reflexivity|]. vm_compute. discriminate.
Qed.
