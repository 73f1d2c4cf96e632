(** * Theorems about sending: C20 - C24

    Vocabulary: [SpecSession.v]; model: [Engine.v], [State.v], [Session.v],
    [SessionStep.v]; concrete runs: [Scenario.v]. *)

From Coq Require Import Strings.String.
From Verif Require Import SpecSession SpecMark Scenario SpecFraming.
From Verif Require Import MessageOps WindowProofs MarkProofs.

(** ** C20.  From the attach of a link on, if the limits the peer's flows set never
    decrease, the link does not send more than the last one allows. *)
Theorem C20_credit_respected_partial : forall p s0 evs s os a l0 limits,
  reachable p s0 -> nth_error (s_snds s0) a = Some l0 -> sn_credit l0 = 0 -> sends_on a s0 = 0%nat ->
  run p evs s0 = EOk (s, os) ->
  (forall f, In f (credit_flows a (flows p evs s0)) -> flow_delivery_count f <> None \/ sn_dc l0 = 0) ->
  Forall2 (credit_limit (sn_dc l0)) (credit_flows a (flows p evs s0)) limits ->
  nondecreasing 0 limits ->
  N.of_nat (sent_on a s) <= last limits 0.
Proof. exact credit_respected. Qed.
Print Assumptions C20_credit_respected_partial.
(** Two credits; three sends, of which two complete; a third credit, and the third
    send completes when polled again. *)
Definition C20_events : list ev :=
  credit_event 1 0 2 ++ send_event 0 0 (bytes_of 3) ++ send_event 0 1 (bytes_of 3)
  ++ send_event 0 2 (bytes_of 3) ++ credit_event 2 2 1 ++ [EvPollSend 2].
Example C20_case : let s0 := result Debug sender_link (start 512 10) in
  runs Debug sender_link (start 512 10) = true
  /\ option_map sn_credit (nth_error (s_snds s0) 0) = Some 0 /\ sends_on 0 s0 = 0%nat
  /\ runs Debug C20_events s0 = true
  /\ credit_flows 0 (flows Debug C20_events s0) = [flow_link 0 0 2; flow_link 0 2 1]
  /\ Forall2 (credit_limit 0) [flow_link 0 0 2; flow_link 0 2 1] [2; 3] /\ nondecreasing 0 [2; 3]
  /\ sent_on 0 (result Debug C20_events s0) = 3%nat.
Proof. vm_compute. repeat first [split | constructor]; discriminate. Qed.
(** A flow that takes credit back while the transfers are on their way makes the
    credit wrap around: after it, three deliveries are on the wire although the
    peer never allowed more than two. *)
Theorem C20_reduced_credit_refuted : exists s0 evs s os,
  reachable Debug s0 /\ option_map sn_credit (nth_error (s_snds s0) 0) = Some 0
  /\ sends_on 0 s0 = 0%nat /\ run Debug evs s0 = EOk (s, os)
  /\ Forall2 (credit_limit 0) (credit_flows 0 (flows Debug evs s0)) [2; 1]
  /\ sent_on 0 s = 3%nat /\ length (delivery_ids (s_out s)) = 3%nat.
Proof.
  exists (result Debug sender_link (start 512 10)).
  exists (credit_event 1 0 2 ++ send_event 0 0 (bytes_of 3) ++ send_event 0 1 (bytes_of 3)
     ++ credit_event 2 0 1 ++ send_event 0 2 (bytes_of 3)).
  eexists. eexists. split; [apply runs_reachable; vm_compute; reflexivity|].
  split; [vm_compute; reflexivity|]. split; [vm_compute; reflexivity|].
  split; [vm_compute; reflexivity|].
  split; [vm_compute; repeat constructor|]. split; vm_compute; reflexivity.
Qed.
Print Assumptions C20_reduced_credit_refuted.

(** ** C21.  If the limits the peer sets never decrease, no more deliveries begin
    than the last one allows; and no more transfer frames are sent, if every
    body fits into one frame. *)
Theorem C21_window_respected_partial : forall p id local rc mfs begin evs s os limits,
  run p evs (ses_new id local rc mfs begin) = EOk (s, os) ->
  (forall f, In f (map fst (flows p evs (ses_new id local rc mfs begin))) -> flow_next_incoming_id f <> None) ->
  Forall2 window_limit (map fst (flows p evs (ses_new id local rc mfs begin))) limits ->
  nondecreasing (begin_incoming_window begin) limits ->
  N.of_nat (length (delivery_ids (s_out s))) <= last limits (begin_incoming_window begin).
Proof. exact window_respected. Qed.
Print Assumptions C21_window_respected_partial.
Theorem C21_window_frames_partial : forall p s, reachable p s ->
  (forall t tk, nth_error (s_tasks s) t = Some tk -> tb_size (tk_body tk) <= chunk_size (s_mfs s)) ->
  length (transfers (s_out s)) = length (delivery_ids (s_out s)).
Proof. exact one_frame_each. Qed.
Print Assumptions C21_window_frames_partial.
Definition C21_events : list ev :=
  sender_link ++ [EvFrame (FFlow (mk_flow (Some 1) 2 1 100 (Some 0) (Some 0) (Some 9) None false false None));
                  EvCtlOk 1 same_frame]
  ++ send_event 0 0 (bytes_of 3) ++ send_event 0 1 (bytes_of 3) ++ send_event 0 2 (bytes_of 3)
  ++ [EvFrame (FFlow (flow_session (Some 3) 1)); EvPollSend 2].
Example C21_case :
  runs Debug C21_events (start 512 2) = true
  /\ Forall2 window_limit (map fst (flows Debug C21_events (start 512 2))) [2; 3] /\ nondecreasing 2 [2; 3]
  /\ length (delivery_ids (s_out (result Debug C21_events (start 512 2)))) = 3%nat
  /\ length (transfers (s_out (result Debug C21_events (start 512 2)))) = 3%nat
  /\ length (delivery_ids (s_out (result Debug (firstn 10 C21_events) (start 512 2)))) = 2%nat.
Proof. vm_compute. repeat first [split | constructor]; discriminate. Qed.
(** A delivery takes one from the window, however many frames it needs. *)
Theorem C21_multi_frame_refuted : exists evs s os,
  run Debug evs (start 4096 1) = EOk (s, os)
  /\ Forall2 window_limit (map fst (flows Debug evs (start 4096 1))) [1]
  /\ length (transfers (s_out s)) = 3%nat.
Proof.
  exists (sender_link ++ [EvFrame (FFlow (mk_flow (Some 1) 1 1 100 (Some 0) (Some 0) (Some 9) None false false None));
                  EvCtlOk 1 same_frame] ++ send_event 0 0 (bytes_of 5000)).
  eexists. eexists. split; [vm_compute; reflexivity|].
  split; [vm_compute; repeat constructor|]. vm_compute; reflexivity.
Qed.
Print Assumptions C21_multi_frame_refuted.
(** A flow sent before the peer has seen the session's first transfer (no
    next-incoming-id) with a window of 0 opens the window. *)
Theorem C21_unset_id_refuted : exists evs s os,
  run Debug evs (start 512 0) = EOk (s, os)
  /\ map fst (flows Debug evs (start 512 0)) = [mk_flow None 0 1 100 (Some 0) (Some 0) (Some 9) None false false None]
  /\ Forall2 window_limit (map fst (flows Debug evs (start 512 0))) [0]
  /\ length (transfers (s_out s)) = 1%nat.
Proof.
  exists (sender_link ++ [EvFrame (FFlow (mk_flow None 0 1 100 (Some 0) (Some 0) (Some 9) None false false None));
                  EvCtlOk 1 same_frame] ++ send_event 0 0 (bytes_of 3)).
  eexists. eexists. split; [vm_compute; reflexivity|]. split; [vm_compute; reflexivity|].
  split; [vm_compute; repeat constructor|]. vm_compute; reflexivity.
Qed.
Print Assumptions C21_unset_id_refuted.

(** ** C22.  The ids of the deliveries on the wire are 1, 2, 3, ... modulo 2^32. *)
Theorem C22_ids_sequential : forall p s, reachable p s ->
  exists n, delivery_ids (s_out s) = map (fun k => (N.of_nat k + 1) mod 2 ^ 32) (seq 0 n).
Proof. exact ids_sequential. Qed.
Print Assumptions C22_ids_sequential.
Theorem C22_ids_distinct : forall p s i j a b, reachable p s ->
  nth_error (delivery_ids (s_out s)) i = Some a -> nth_error (delivery_ids (s_out s)) j = Some b ->
  (i < j)%nat -> N.of_nat j < N.of_nat i + 2 ^ 32 -> a <> b.
Proof. exact ids_distinct. Qed.
Print Assumptions C22_ids_distinct.
Theorem C22_tags_distinct : forall p s a t1 t2 k1 k2 d1 d2, reachable p s ->
  N.of_nat (sends_on a s) <= 2 ^ 32 ->
  send_done s t1 k1 d1 -> tk_link k1 = a -> tk_tag k1 = None ->
  send_done s t2 k2 d2 -> tk_link k2 = a -> tk_tag k2 = None ->
  t1 <> t2 -> dl_tag d1 <> dl_tag d2.
Proof. exact tags_distinct. Qed.
Print Assumptions C22_tags_distinct.
Example C22_case : let s := result Debug C20_events (result Debug sender_link (start 512 10)) in
  delivery_ids (s_out s) = [1; 2; 3]
  /\ map tk_tag (s_tasks s) = [None; None; None]
  /\ map dl_tag (s_dlvs s) = [be 4 0; be 4 1; be 4 2].
Proof. vm_compute. repeat split. Qed.

(** ** C23.  The transfers on the wire are those of the completed sends, one send
    after the other, each delivery complete: for bodies whose size is known
    correctly ([honest]). *)
Theorem C23_split_exact_partial : forall p s, reachable p s ->
  (forall t tk, nth_error (s_tasks s) t = Some tk -> honest (tk_body tk)) ->
  exists order gs,
    transfers (s_out s) = concat gs /\ length gs = length order
    /\ NoDup order /\ (forall t tk d, send_done s t tk d -> In t order)
    /\ forall k t g, nth_error order k = Some t -> nth_error gs k = Some g -> wire_of s k t g.
Proof. exact split_exact. Qed.
Print Assumptions C23_split_exact_partial.
(** And these frames carry the message format of the send; the first says that the
    delivery is settled and accepted if it was sent so, and nothing is aborted. *)
Theorem C23_marked_partial : forall p s, reachable p s ->
  (forall t tk, nth_error (s_tasks s) t = Some tk -> honest (tk_body tk)) ->
  exists order gs,
    transfers (s_out s) = concat gs /\ length gs = length order
    /\ NoDup order /\ (forall t tk d, send_done s t tk d -> In t order)
    /\ forall k t g, nth_error order k = Some t -> nth_error gs k = Some g ->
         wire_of s k t g /\ forall tk, nth_error (s_tasks s) t = Some tk -> marked tk g.
Proof. exact split_marked. Qed.
Print Assumptions C23_marked_partial.
(** Data is always honest; so is a message whose size is not stale. *)
Theorem C23_data_honest : forall b, honest (TBData b).
Proof. intros b. reflexivity. Qed.
Print Assumptions C23_data_honest.
Theorem C23_message_honest : forall m, msg_size m = blen (msg_enc m) -> honest (TBMessage m).
Proof. exact (fun m H => H). Qed.
Print Assumptions C23_message_honest.
Definition C23_events : list ev := sender_link ++ credit_event 1 0 9 ++ send_event 0 0 (bytes_of 5000)
  ++ send_event 0 1 (bytes_of 10).
Example C23_case : let s := result Debug C23_events (start 4096 100) in
  runs Debug C23_events (start 4096 100) = true
  /\ map (fun t => (blen (body_of t), says_more t, transfer_delivery_id (tr_head t))) (transfers (s_out s))
     = [(2048, true, Some 1); (2048, true, None); (904, false, None); (10, false, Some 2)].
Proof. vm_compute. split; reflexivity. Qed.
(** A message whose size was asked for and whose body was then replaced: the one
    frame that is sent says that more follows. *)
Definition shrunk_message : message :=
  apply_ops [OpBodyMut (fun b => match b with (_, q, n, v) => ([repeat x61 3000], q, n, v) end); OpEncodedSize;
             OpBodyMut (fun b => match b with (_, q, n, v) => ([[x61]], q, n, v) end)] message0.
Theorem C23_stale_message_refuted : exists evs s os,
  run Debug evs (start 4096 100) = EOk (s, os)
  /\ Exists (fun tk => exists i, tk_st tk = TDone (inl i) /\ tk_body tk = TBMessage shrunk_message) (s_tasks s)
  /\ map says_more (transfers (s_out s)) = [true].
Proof.
  exists (sender_link ++ credit_event 1 0 9 ++ send_event 0 0 (TBMessage shrunk_message)).
  eexists. eexists. split; [vm_compute; reflexivity|].
  split; [|vm_compute; reflexivity]. apply Exists_exists.
  eexists. split; [left; reflexivity|]. eexists. split; vm_compute; reflexivity.
Qed.
Print Assumptions C23_stale_message_refuted.

(** ** C24.  For a peer that announced more than 2048 bytes, tags of at most 1996
    bytes and honest bodies. *)
Theorem C24_transfers_fit_partial : forall p s, reachable p s -> 2048 < s_mfs s ->
  (forall t tk, nth_error (s_tasks s) t = Some tk ->
     honest (tk_body tk) /\ (forall tag, tk_tag tk = Some tag -> blen tag <= 1996)) ->
  forall channel t, In t (transfers (s_out s)) ->
    blen (enc_amqp_frame (mk_frame channel (FTransfer t))) <= s_mfs s.
Proof. exact transfers_fit. Qed.
Print Assumptions C24_transfers_fit_partial.
Example C24_case : let s := result Debug C23_events (start 4096 100) in
  map (fun t => blen (enc_amqp_frame (mk_frame 0 (FTransfer t)))) (transfers (s_out s)) = [2079; 2073; 929; 41]
  /\ s_mfs s = 4096.
Proof. vm_compute. split; reflexivity. Qed.
(** For smaller sizes the header is not counted: a peer with the smallest frame
    size of the protocol gets a frame that is too large. *)
Theorem C24_small_frames_refuted : exists evs s os t,
  run Debug evs (start 512 100) = EOk (s, os) /\ In t (transfers (s_out s)) /\ s_mfs s = 512
  /\ blen (enc_amqp_frame (mk_frame 0 (FTransfer t))) = 543.
Proof.
  exists (sender_link ++ credit_event 1 0 9 ++ send_event 0 0 (bytes_of 512)).
  eexists. eexists. eexists. split; [vm_compute; reflexivity|].
  split; [vm_compute; left; reflexivity|]. split; vm_compute; reflexivity.
Qed.
Print Assumptions C24_small_frames_refuted.
(** A tag of the application is not counted either. *)
Theorem C24_long_tag_refuted : exists evs s os t,
  run Debug evs (start 4096 100) = EOk (s, os) /\ In t (transfers (s_out s)) /\ s_mfs s = 4096
  /\ s_mfs s < blen (enc_amqp_frame (mk_frame 0 (FTransfer t))).
Proof.
  exists (sender_link ++ credit_event 1 0 9
          ++ [EvSend 0 (bytes_of 2048) (Some (repeat x61 2100)) false None; EvPollSend 0]).
  eexists. eexists. eexists. split; [vm_compute; reflexivity|].
  split; [vm_compute; left; reflexivity|]. split; vm_compute; reflexivity.
Qed.
Print Assumptions C24_long_tag_refuted.
