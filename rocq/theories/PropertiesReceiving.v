(** * Theorems about receiving: C25 - C27, C42

    Vocabulary: [SpecReceive.v] (and [SpecSession.v]); model: [Engine.v],
    [State.v], [Session.v], [SessionStep.v]; concrete runs: [Scenario.v]. *)

From Coq Require Import Strings.String.
From Verif Require Import SpecSession SpecReceive Scenario.
From Verif Require Import MessageOps WakeProofs.
Import ListNotations.

(** ** C25.  If the peer aborts no delivery, what was handed out on a link is a
    prefix of the complete deliveries that arrived, in order and with the right
    bodies, tags and ids. *)
Theorem C25_in_order_partial : forall p a evs id local rch mfs b s os T,
  run p evs (ses_new id local rch mfs b) = EOk (s, os) -> grants_fit evs -> links_opened evs <= 2 ^ 32 ->
  T = arrivals p a evs (ses_new id local rch mfs b) -> Forall (fun t => says_abort t = false) T ->
  Forall2 (is_delivery s) (handed a os) (firstn (length (handed a os)) (complete T)).
Proof. exact in_order. Qed.
Print Assumptions C25_in_order_partial.
(** When [recv] or [get_delivery] on an attached link has nothing to give, every
    complete delivery was handed out. *)
Theorem C25_all_handed_out_partial : forall p a evs e id local rch mfs b s1 o1 s o2 T,
  run p evs (ses_new id local rch mfs b) = EOk (s1, o1) -> step p e s1 = EOk (s, o2) ->
  grants_fit evs -> links_opened evs <= 2 ^ 32 ->
  T = arrivals p a evs (ses_new id local rch mfs b) -> Forall (fun t => says_abort t = false) T ->
  ((exists t, e = EvRecv a t) \/ e = EvGet a) -> handed a o2 = [] -> attached a s1 ->
  length (handed a o1) = length (complete T).
Proof. exact all_handed. Qed.
Print Assumptions C25_all_handed_out_partial.
(** Three deliveries, the second in three frames with a [recv] between them. *)
Definition C25_events : list ev :=
  receiver_link ++ [arrives (Some 0) false 4; arrives (Some 1) true 3; EvRecv 0 7; arrives None true 2; EvRecv 0 7;
                    arrives None false 1; EvRecv 0 7; arrives (Some 2) false 5; EvGet 0].
Example C25_case : let s0 := start 512 10 in let s := result Debug C25_events s0 in
  let os := observed Debug C25_events s0 in let T := arrivals Debug 0 C25_events s0 in
  runs Debug C25_events s0 = true /\ grants_fit C25_events /\ links_opened C25_events <= 2 ^ 32
  /\ Forall (fun t => says_abort t = false) T
  /\ map (@length transfer_t) (complete T) = [1; 3; 1]%nat
  /\ map (fun x => blen (body_of (snd x))) (handed 0 os) = [4; 6; 5]
  /\ attached 0 s /\ handed 0 (observed Debug [EvRecv 0 7] s) = [].
Proof.
  cbv zeta. repeat match goal with |- _ /\ _ => split end; 
    try match goal with |- _ = _ => vm_compute; reflexivity end.
  - repeat constructor.
  - vm_compute. discriminate.
  - vm_compute. repeat constructor.
  - exists 0. vm_compute. reflexivity.
Qed.
(** A delivery whose last frame says that it is aborted is handed out like any
    other. *)
Theorem C25_aborted_refuted : forall p, exists evs s os,
  run p evs (start 512 10) = EOk (s, os) /\ grants_fit evs /\ links_opened evs <= 2 ^ 32
  /\ complete (arrivals p 0 evs (start 512 10)) = []
  /\ exists d t, handed 0 os = [(d, t)] /\ body_of t = [x61; x61; x61].
Proof.
  intros p. set (evs := receiver_link ++
    [arrives (Some 0) true 2; EvFrame (FTransfer (transfer_of None false true (Some (bytes_of 1)))); EvRecv 0 7]).
  exists evs, (result p evs (start 512 10)), (observed p evs (start 512 10)).
  split; [apply runs_ok; destruct p; vm_compute; reflexivity|].
  split; [repeat constructor|]. split; [vm_compute; discriminate|].
  destruct p; (split; [vm_compute; reflexivity|]); do 2 eexists; (split; [vm_compute; reflexivity|]); reflexivity.
Qed.
Print Assumptions C25_aborted_refuted.

(** ** C26.  While the link is attached, and in release builds as long as the sum
    of the grants fits 32 bits, the credit is the sum of the grants minus the
    completed deliveries. *)
Theorem C26_credit_exact_partial : forall p a evs id local rch mfs b s os l s0,
  s0 = ses_new id local rch mfs b ->
  run p evs s0 = EOk (s, os) -> grants_fit evs -> links_opened evs <= 2 ^ 32 ->
  attached a s -> nth_error (s_rcvs s) a = Some l -> p = Debug \/ granted p a evs s0 < 2 ^ 32 ->
  rc_credit l + completed (arrivals p a evs s0) = granted p a evs s0.
Proof. exact credit_exact. Qed.
Print Assumptions C26_credit_exact_partial.
(** No delivery beyond the credit. *)
Theorem C26_handed_within_credit : forall p a evs id local rch mfs b s os s0,
  s0 = ses_new id local rch mfs b ->
  run p evs s0 = EOk (s, os) -> grants_fit evs -> links_opened evs <= 2 ^ 32 ->
  N.of_nat (length (handed a os)) <= granted p a evs s0.
Proof. exact handed_granted. Qed.
Print Assumptions C26_handed_within_credit.
Definition C26_events : list ev := C25_events ++ [EvCredit 0 7].
Example C26_case : let s0 := start 512 10 in let s := result Debug C26_events s0 in
  runs Debug C26_events s0 = true /\ grants_fit C26_events /\ links_opened C26_events <= 2 ^ 32
  /\ attached 0 s /\ option_map rc_credit (nth_error (s_rcvs s) 0) = Some 54
  /\ completed (arrivals Debug 0 C26_events s0) = 3 /\ granted Debug 0 C26_events s0 = 57.
Proof.
  cbv zeta. repeat match goal with |- _ /\ _ => split end; 
    try match goal with |- _ = _ => vm_compute; reflexivity end.
  - repeat constructor.
  - vm_compute. discriminate.
  - exists 0. vm_compute. reflexivity.
Qed.
(** In a release build the credit wraps around. *)
Theorem C26_wrapped_credit_refuted : exists evs s os l,
  run Release evs (start 512 10) = EOk (s, os) /\ grants_fit evs /\ links_opened evs <= 2 ^ 32
  /\ attached 0 s /\ nth_error (s_rcvs s) 0 = Some l /\ rc_credit l = 49
  /\ completed (arrivals Release 0 evs (start 512 10)) = 0
  /\ granted Release 0 evs (start 512 10) = 2 ^ 32 + 49.
Proof.
  set (evs := receiver_link ++ [EvCredit 0 4294967295]).
  exists evs, (result Release evs (start 512 10)), (observed Release evs (start 512 10)).
  eexists. split; [apply runs_ok; vm_compute; reflexivity|].
  split; [repeat constructor|]. split; [vm_compute; discriminate|].
  split; [exists 0; vm_compute; reflexivity|]. split; [vm_compute; reflexivity|]. repeat split; vm_compute; reflexivity.
Qed.
Print Assumptions C26_wrapped_credit_refuted.

(** ** C27.  A delivery of which a frame other than the first has a body is within
    the limit. *)
Theorem C27_size_bounded_partial : forall p a evs id local rch mfs b s os T M,
  run p evs (ses_new id local rch mfs b) = EOk (s, os) -> grants_fit evs -> links_opened evs <= 2 ^ 32 ->
  limits_below M a evs ->
  T = arrivals p a evs (ses_new id local rch mfs b) -> Forall (fun t => says_abort t = false) T ->
  (forall t b, In t T -> tr_body t = Some b -> honest b) ->
  forall i x first rest t, nth_error (handed a os) i = Some x -> nth_error (complete T) i = Some (first :: rest) ->
  In t rest -> tr_body t <> None -> blen (body_of (snd x)) <= M.
Proof. exact size_bounded. Qed.
Print Assumptions C27_size_bounded_partial.
Example C27_case : let s0 := start 512 10 in
  let os := observed Debug C25_events s0 in let T := arrivals Debug 0 C25_events s0 in
  runs Debug C25_events s0 = true /\ limits_below 262144 0 C25_events
  /\ Forall (fun t => match tr_body t with Some b => honest b | None => True end) T
  /\ option_map (fun x => blen (body_of (snd x))) (nth_error (handed 0 os) 1) = Some 6
  /\ option_map (@length transfer_t) (nth_error (complete T) 1) = Some 3%nat.
Proof.
  cbv zeta. repeat match goal with |- _ /\ _ => split end; 
    try match goal with |- _ = _ => vm_compute; reflexivity end.
  - split; [discriminate|]. repeat constructor.
  - match goal with |- Forall _ ?T => let v := eval vm_compute in T in replace T with v by (vm_compute; reflexivity) end.
    repeat constructor.
Qed.
(** The limit is not applied to a delivery in one frame. *)
Theorem C27_one_frame_refuted : forall p, exists evs s os d t,
  run p evs (start 512 10) = EOk (s, os)
  /\ In (EvReceiverMax 0 10) evs /\ handed 0 os = [(d, t)] /\ blen (body_of t) = 20.
Proof.
  intros p. set (evs := receiver_link ++ [EvReceiverMax 0 10; arrives (Some 0) false 20; EvRecv 0 7]).
  exists evs, (result p evs (start 512 10)), (observed p evs (start 512 10)).
  do 2 eexists. split; [apply runs_ok; destruct p; vm_compute; reflexivity|].
  split; [do 3 right; left; reflexivity|].
  split; [instantiate (2 := 0%nat); instantiate (1 := transfer_of (Some 0) false false (Some (bytes_of 20))); destruct p; vm_compute; reflexivity|].
  vm_compute. reflexivity.
Qed.
Print Assumptions C27_one_frame_refuted.

(** ** C42.  If only one task receives on the link: as long as it is left waiting,
    no delivery is ready. *)
Theorem C42_no_lost_delivery_partial : forall p a t evs id local rch mfs b s os,
  run p evs (ses_new id local rch mfs b) = EOk (s, os) -> links_opened evs <= 2 ^ 32 ->
  (forall t', In (EvRecv a t') evs -> t' = t) -> waiting a t s ->
  forall t' s' os', step p (EvRecv a t') s = EOk (s', os') -> handed a os' = [].
Proof. exact delivery_wakes. Qed.
Print Assumptions C42_no_lost_delivery_partial.
(** And the end of the link wakes it. *)
Theorem C42_end_wakes_partial : forall p a t evs id local rch mfs b s os,
  run p evs (ses_new id local rch mfs b) = EOk (s, os) -> links_opened evs <= 2 ^ 32 ->
  (forall t', In (EvRecv a t') evs -> t' = t) ->
  forall e s' os', step p e s = EOk (s', os') -> ends_link a e s s' -> forall t', ~ waiting a t' s'.
Proof. exact ends_wake. Qed.
Print Assumptions C42_end_wakes_partial.
Definition C42_events : list ev := receiver_link ++ [EvRecv 0 7; arrives (Some 0) true 3].
Example C42_case : let s := result Debug C42_events (start 512 10) in
  runs Debug C42_events (start 512 10) = true /\ waiting 0 7 s
  /\ ~ waiting 0 7 (result Debug [arrives None false 1] s)
  /\ Forall (fun e => runs Debug [e] s = true /\ ends_link 0 e s (result Debug [e] s))
       [EvCloseReceiver 0 None; EvFail EDisconnected; EvFrame (FDetach (mk_detach 0 true None));
        arrives (Some 9) false 1].
Proof.
  cbv zeta. split; [vm_compute; reflexivity|]. split; [eexists; vm_compute; split; [reflexivity | left; reflexivity]|].
  split.
  { intros (l & El & Hin). vm_compute in El. injection El as <-. exact Hin. }
  repeat constructor; 
    try match goal with |- _ = _ => vm_compute; reflexivity end.
  - exists 0. vm_compute. reflexivity.
  - exists 0. split; vm_compute; reflexivity.
  - apply not_attached. vm_compute. reflexivity.
Qed.
(** [Session::detach_receiver_link] closes a link and leaves the task waiting. *)
Theorem C42_local_detach_refuted : forall p, exists evs s os l,
  run p evs (start 512 10) = EOk (s, os) /\ nth_error (s_rcvs s) 0 = Some l
  /\ rc_closed l = true /\ ~ attached 0 s /\ waiting 0 7 s.
Proof.
  intros p. set (evs := receiver_link ++ [EvRecv 0 7; EvDetachReceiver 0 None; EvFrame (FDetach (mk_detach 0 true None))]).
  exists evs, (result p evs (start 512 10)), (observed p evs (start 512 10)).
  eexists. split; [apply runs_ok; destruct p; vm_compute; reflexivity|].
  split; [destruct p; vm_compute; reflexivity|]. split; [reflexivity|].
  split; [apply not_attached; destruct p; vm_compute; reflexivity|].
  eexists. split; [destruct p; vm_compute; reflexivity|]. left. reflexivity.
Qed.
Print Assumptions C42_local_detach_refuted.
(** Two tasks share one waker: the first is never woken. *)
Theorem C42_two_tasks_refuted : forall p, exists evs s os s' os' x,
  run p evs (start 512 10) = EOk (s, os) /\ waiting 0 7 s
  /\ step p (EvRecv 0 7) s = EOk (s', os') /\ handed 0 os' = [x].
Proof.
  intros p. set (evs := receiver_link ++ [EvRecv 0 7; EvRecv 0 8; arrives (Some 0) false 3]).
  exists evs, (result p evs (start 512 10)), (observed p evs (start 512 10)).
  do 3 eexists. split; [apply runs_ok; destruct p; vm_compute; reflexivity|].
  split; [eexists; split; [destruct p; vm_compute; reflexivity | left; reflexivity]|].
  split; destruct p; vm_compute; reflexivity.
Qed.
Print Assumptions C42_two_tasks_refuted.
