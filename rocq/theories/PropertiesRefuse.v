(** * Theorems about refused transfers: C70

    Vocabulary: [SpecRefuse.v] (and [SpecReceive.v], [SpecEnds.v]). *)

From Coq Require Import Strings.String.
From Coq Require Import List NArith Lia.
From Verif Require Import Base SpecRefuse Scenario RefuseProofs.
Import ListNotations.
Local Open Scope N_scope.

(** ** C70 *)
(** A transfer frame arrives on an attached receiver link, after any history.  The credit
    is what was granted less the deliveries that ended, [T] are the frames that
    arrived before.  If there is a reason to refuse it the link is closed and the
    peer gets a detach frame with that reason; else the link stays attached and
    nothing is sent. *)
Theorem C70_refused_for_cause_partial : forall p a evs id local rch mfs b s1 o1 t s2 o2 limit h, let s0 := ses_new id local rch mfs b in
  run p evs s0 = EOk (s1, o1) -> grants_fit evs -> links_opened evs <= 2 ^ 32 -> p = Debug \/ granted p a evs s0 < 2 ^ 32 ->
  arrival a (EvFrame (FTransfer t)) s1 = [t] -> step p (EvFrame (FTransfer t)) s1 = EOk (s2, o2) ->
  takes_up_to a s1 limit -> own_handle (LReceiver a) s1 h ->
  let T := arrivals p a evs s0 in
  let credit := granted p a evs s0 - completed T in
  (forall e, refused_for limit credit (underway [] T) t e ->
     ~ attached a s2 /\ s_out s2 = s_out s1 ++ [FDetach (mk_detach h true (Some e))])
  /\ ((forall e, ~ refused_for limit credit (underway [] T) t e) -> attached a s2 /\ s_out s2 = s_out s1).
Proof. exact refusal. Qed.
Print Assumptions C70_refused_for_cause_partial.
(** There is at most one reason. *)
Theorem C70_one_reason : forall limit credit g t e1 e2, refused_for limit credit g t e1 -> refused_for limit credit g t e2 -> e1 = e2.
Proof. exact refused_one. Qed.
Print Assumptions C70_one_reason.
(** The frames of a delivery as a session of this library sends it (see C23) are not
    refused on a link that has credit and takes messages of that size. *)
Theorem C70_fitting : forall limit credit h id tag settled body g1 t g2 e, one_delivery h id tag settled body (g1 ++ t :: g2) ->
  blen body <= limit -> (forall b, tr_body t = Some b -> honest b) -> 0 < credit -> ~ refused_for limit credit g1 t e.
Proof. exact fitting. Qed.
Print Assumptions C70_fitting.

(** A link that takes 6 bytes and has had a delivery of one frame.  Then a delivery has
    begun with 2 bytes; 4 more are within the limit and 5 are not. *)
Definition C70_events : list ev := receiver_link ++ [EvReceiverMax 0 6; arrives (Some 1) false 4; EvRecv 0 7; arrives (Some 2) true 2].
Definition frame_of (e : ev) : transfer_t :=
  match e with EvFrame (FTransfer t) => t | _ => transfer_of None false false None end.
Example C70_case : let s0 := start 512 10 in let s1 := result Debug C70_events s0 in
  runs Debug C70_events s0 = true /\ grants_fit C70_events /\ links_opened C70_events <= 2 ^ 32
  /\ granted Debug 0 C70_events s0 = 50 /\ completed (arrivals Debug 0 C70_events s0) = 1
  /\ map body_of (underway [] (arrivals Debug 0 C70_events s0)) = [[x61; x61]]
  /\ takes_up_to 0 s1 6 /\ own_handle (LReceiver 0) s1 0
  /\ Forall (fun '(e, r) => arrival 0 e s1 = [frame_of e] /\ runs Debug [e] s1 = true
               /\ skipn (length (s_out s1)) (s_out (result Debug [e] s1)) = r)
       [(arrives None false 4, []); (arrives (Some 2) true 4, []);
        (arrives None false 5, [FDetach (mk_detach 0 true (Some (with_condition LinkMessageSizeExceeded None)))]);
        (arrives (Some 3) false 1, [FDetach (mk_detach 0 true (Some (with_condition LinkDetachForced (Some (str "delivery_id is wrong")))))])].
Proof.
  cbv zeta. split; [vm_compute; reflexivity|]. split; [repeat constructor|]. split; [vm_compute; discriminate|].
  split; [vm_compute; reflexivity|]. split; [vm_compute; reflexivity|]. split; [vm_compute; reflexivity|].
  split; [eexists; split; vm_compute; reflexivity|]. split; [eexists; split; vm_compute; reflexivity|].
  repeat (apply Forall_cons; [split; [vm_compute; reflexivity|split; vm_compute; reflexivity]|]). constructor.
Qed.

(** What is missing: a message that is too large but comes in one frame, or that begins
    with a frame that is too large, is taken (see C27). *)
Theorem C70_large_frame_refuted : forall p, exists evs s os t s' os',
  run p evs (start 512 10) = EOk (s, os) /\ takes_up_to 0 s 10 /\ arrival 0 (EvFrame (FTransfer t)) s = [t]
  /\ underway [] (arrivals p 0 evs (start 512 10)) = [] /\ 10 < size_of [t]
  /\ step p (EvFrame (FTransfer t)) s = EOk (s', os') /\ attached 0 s' /\ s_out s' = s_out s.
Proof.
  intros p. set (evs := receiver_link ++ [EvReceiverMax 0 10]). set (t := frame_of (arrives (Some 0) false 20)).
  exists evs, (result p evs (start 512 10)), (observed p evs (start 512 10)), t,
    (result p (evs ++ [EvFrame (FTransfer t)]) (start 512 10)), [].
  destruct p; (split; [vm_compute; reflexivity|split; [eexists; split; vm_compute; reflexivity|split; [vm_compute; reflexivity|
    split; [vm_compute; reflexivity|split; [vm_compute; reflexivity|split; [vm_compute; reflexivity|split; [exists 0; vm_compute; reflexivity|vm_compute; reflexivity]]]]]]]).
Qed.
Print Assumptions C70_large_frame_refuted.
