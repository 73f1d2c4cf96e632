(** * Theorems about the control queue: C47

    Vocabulary: [SpecControl.v].  Model: [Control.v].  A history is any mix of
    local events, events caused by the peer and polls of the dispatcher, with
    any answers of the control service. *)

From Verif Require Import Base Control SpecControl ControlProofs.
From Coq Require Import Permutation.

Definition frame (id : N) : ctl_frame := mk_cframe id false.
(** A control service that is done with frame 1 at once and works on others. *)
Definition fast_first : ctl_frame -> answer := fun f => if cf_id f =? 1 then ADone true else APending.
Definition busy : ctl_frame -> answer := fun _ => APending.

(** ** C47 *)
(** Three events from the peer, then a poll: the service is done with the first
    at once and gets the third before the second. *)
Theorem C47_refuted_remote :
  let h := [RemoteEvent (frame 1); RemoteEvent (frame 2); RemoteEvent (frame 3); Polled fast_first] in
  occurred h = [frame 1; frame 2; frame 3] /\ presented (observed h) = [frame 1; frame 3; frame 2].
Proof. split; vm_compute; reflexivity. Qed.
Print Assumptions C47_refuted_remote.
(** A local detach, then an event from the peer: the service gets the second
    first, even though it is busy with nothing else. *)
Theorem C47_refuted_local :
  let h := [LocalEvent (frame 1); RemoteEvent (frame 2); Polled busy] in
  occurred h = [frame 1; frame 2] /\ presented (observed h) = [frame 2; frame 1].
Proof. split; vm_compute; reflexivity. Qed.
Print Assumptions C47_refuted_local.
(** The order is kept as long as, at each poll, at most one event has occurred
    since the one before, or nothing completes and no remote event follows a
    local one.  Missing: everything else. *)
Theorem C47_order_partial : forall h, always_ready h -> no_fatal h -> calm [] h ->
  exists left, occurred h = presented (observed h) ++ left.
Proof. exact in_order. Qed.
Print Assumptions C47_order_partial.
(** In every history each event is presented at most once, and nothing else is. *)
Theorem C47_once : forall h, exists left, Permutation (occurred h) (presented (observed h) ++ left).
Proof. exact presented_once. Qed.
Print Assumptions C47_once.
(** At each poll with the service ready everything that has occurred is
    presented, in some order: nothing is lost. *)
Theorem C47_nothing_lost : forall h ans, always_ready h ->
  (forall f, ans f <> ANotReady /\ ans f <> AUnready) -> no_fatal h ->
  Permutation (occurred h) (presented (observed (h ++ [Polled ans]))).
Proof. exact presented_all. Qed.
Print Assumptions C47_nothing_lost.
(** The result of each event is acted upon at most once ... *)
Theorem C47_handled_once : forall h, exists left, Permutation (occurred h) (handled (observed h) ++ left).
Proof. exact handled_once. Qed.
Print Assumptions C47_handled_once.
(** ... and an event succeeds only after the service got it. *)
Theorem C47_handled_after : forall h a f b, observed h = a ++ NHandled f true :: b -> In f (presented a).
Proof. exact success_presented. Qed.
Print Assumptions C47_handled_after.

(** The dispatcher ends with an error exactly when a protocol error has been dealt
    with. *)
Theorem C47_fatal : forall h, fails_with h <-> exists f, In f (handled (observed h)) /\ cf_fatal f = true.
Proof. exact fatal_ends. Qed.
Print Assumptions C47_fatal.

Example C47_case :
  let h := [RemoteEvent (frame 1); RemoteEvent (frame 2); LocalEvent (frame 3); Polled busy; RemoteEvent (frame 4);
            Polled fast_first] in
  always_ready h /\ no_fatal h /\ calm [] h
  /\ presented (observed h) = [frame 1; frame 2; frame 3; frame 4]
  /\ handled (observed h) = [frame 1].
Proof.
  split; [|split; [|split; [|split; vm_compute; reflexivity]]].
  - repeat constructor; try discriminate; unfold fast_first in *; destruct (cf_id f =? 1); discriminate.
  - repeat constructor.
  - cbn [calm app]. split; [right; split; [reflexivity|]|split; [left; repeat constructor|exact I]].
    exists [frame 1; frame 2], [frame 3]. reflexivity.
Qed.
Example C47_fatal_case : fails_with [RemoteEvent (mk_cframe 1 true); Polled fast_first]
  /\ ~ fails_with [RemoteEvent (mk_cframe 1 true); Polled busy].
Proof. split; [vm_compute; reflexivity | vm_compute; discriminate]. Qed.
