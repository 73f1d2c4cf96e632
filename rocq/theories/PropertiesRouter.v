(** * Theorems about the router: C48, C57

    Vocabulary: [SpecRouter.v].  Model: [Router.v].  A history is any mix of
    links being admitted, services being created, deliveries arriving, readiness
    checks and calls completing in any order, and links being detached. *)

From Verif Require Import Base Protocol Router SpecRouter RouterProofs.
From Coq Require Import Permutation Lia ZifyBool ZifyNat ZifyN.

Definition accepts (d : N) : router_event := EDone d (RsOk OAccept).
(** A link is admitted, its service created, it gets credit and deliveries. *)
Definition normal : list router_event :=
  [EAttached 1 true true; ECreated 1 true false; EArrives 1 11 true; EArrives 1 12 true; EReady 12 true; EReady 11 true;
   EDone 12 (RsOk OReject); accepts 11].
(** The factory grants credit, and two deliveries arrive before it is done. *)
Definition early : list router_event :=
  [EAttached 1 true true; EGranted 1 10; EArrives 1 11 true; EArrives 1 12 true; ECreated 1 true false; EReady 11 true;
   accepts 11].

(** ** C48 *)
(** In every history each delivery is handed to a service at most once, and
    nothing else is. *)
Theorem C48_once : forall h, exists left, Permutation (arrived h) (handed (seen h) ++ left).
Proof. exact handed_once. Qed.
Print Assumptions C48_once.
(** Each is settled at most once, ... *)
Theorem C48_settled_once : forall h, exists left, Permutation (handed (seen h)) (settled (seen h) ++ left).
Proof. exact settled_once. Qed.
Print Assumptions C48_settled_once.
(** ... only when the service that got it returns, with what it returned, ... *)
Theorem C48_settled_with : forall h e d s, In (RSettled d s) (then_seen h e) ->
  In d (handed (seen h)) /\ exists res, e = EDone d res /\ s = answer_of res.
Proof.
  intros h e d s H. destruct (settled_result h e d s H) as (I & res & E & R). split; [exact I|]. exists res. rewrite <- answer_is. auto.
Qed.
Print Assumptions C48_settled_with.
(** ... and then at once. *)
Theorem C48_settled_when : forall h d res, sound h -> In d (handed (seen h)) -> ~ In d (settled (seen h)) ->
  In (RSettled d (answer_of res)) (then_seen h (EDone d res)).
Proof. intros h d res. rewrite <- answer_is. apply result_settles. Qed.
Print Assumptions C48_settled_when.
(** Each delivery is handed to its link's service as soon as that is ready, if
    the service was created before the first one arrived and the link stays.
    Missing: deliveries that arrive earlier, see the next theorem. *)
Theorem C48_handed_partial : forall l d h1 g h2, let h := h1 ++ ECreated l true g :: h2 in
  NoDup (arrived h) -> sound h -> attaches l h1 -> keeps l h2 -> admitted l d h ->
  In d (handed (seen h)) \/ In d (dropped (seen h)) \/ In (RHanded l d) (then_seen h (EReady d true)).
Proof. exact served. Qed.
Print Assumptions C48_handed_partial.
(** Of two deliveries that arrive within credit before the service has been
    created the second is not handed to it, whatever happens, as long as nothing
    more arrives on the link. *)
Theorem C48_refuted : sound early /\ admitted 1 12 early
  /\ forall h, Forall (fun e => match e with EArrives k _ _ => k <> 1 | ECreated k _ _ => k <> 1 | _ => True end) h ->
     NoDup (arrived (early ++ h)) -> ~ In 12 (handed (seen (early ++ h))).
Proof.
  split; [vm_compute; reflexivity|split].
  - exists [EAttached 1 true true; EGranted 1 10; EArrives 1 11 true], [ECreated 1 true false; EReady 11 true; accepts 11].
    split; [reflexivity|]. vm_compute. intros [].
  - intros h F ND. apply (left_behind 1); [vm_compute; left; reflexivity| |exact ND].
    revert F. apply Forall_impl. intros [] H; exact H || exact I.
Qed.
Print Assumptions C48_refuted.
(** A link is never left without credit when its service gets a delivery. *)
Theorem C48_credit : forall h e l d, In (RHanded l d) (then_seen h e) -> 0 < ro_credit (after (h ++ [e])) l.
Proof. intros h e l d H. rewrite after_snoc. eapply handed_credit. exact H. Qed.
Print Assumptions C48_credit.

(** A delivery is refused, and its link closed, exactly when as many have been let in
    on the link as credit was given. *)
Theorem C48_admission : forall l d o h, sound h ->
  (In (RClosed l) (then_seen h (EArrives l d o)) <-> let_in l h [] = credit_given l h).
Proof. exact admission. Qed.
Print Assumptions C48_admission.
(** A link with an address that no service is registered for is refused; so is one
    whose service cannot be created. *)
Theorem C48_unknown : forall l g h, sound h -> then_seen h (EAttached l false g) = [RClosed l].
Proof. exact unknown_refused. Qed.
Print Assumptions C48_unknown.
Theorem C48_create_fails : forall l g h, sound h -> being_created l h -> then_seen h (ECreated l false g) = [RClosed l].
Proof. exact failed_closes. Qed.
Print Assumptions C48_create_fails.
(** Otherwise the link is confirmed when its service has been created, and given 50
    credits.  Missing: when exactly, if deliveries arrived before that. *)
Theorem C48_confirmed_partial : forall l g h, sound h -> attaches l h ->
  then_seen h (ECreated l true g) = [RConfirmed l; RCredit l 50].
Proof. exact created_confirms. Qed.
Print Assumptions C48_confirmed_partial.
Theorem C48_confirmed_credit : forall h e l, In (RConfirmed l) (then_seen h e) -> In (RCredit l 50) (then_seen h e).
Proof. intros h e l. apply confirmed_credit. Qed.
Print Assumptions C48_confirmed_credit.

Example C48_case :
  sound normal /\ NoDup (arrived normal) /\ attaches 1 [EAttached 1 true true]
  /\ keeps 1 (skipn 2 normal) /\ admitted 1 12 normal
  /\ handed (seen normal) = [12; 11]
  /\ filter (fun n => match n with RSettled _ _ => true | _ => false end) (seen normal)
     = [RSettled 12 (DSRejected (mk_rejected None)); RSettled 11 (DSAccepted mk_accepted)].
Proof.
  repeat match goal with |- _ /\ _ => split end; try (vm_compute; reflexivity).
  - cbn. repeat constructor; cbn; intuition discriminate.
  - split; [exists true; left; reflexivity|repeat constructor].
  - unfold keeps. cbn [skipn normal accepts]. repeat (constructor; [first [exact I|intros _; reflexivity]|]). constructor.
  - exists (firstn 3 normal), (skipn 4 normal). split; [reflexivity|]. vm_compute. intros [].
Qed.
Example C48_credit_case :
  let h := [EAttached 1 true true; EGranted 1 2; EArrives 1 11 true; EArrives 1 12 true] in
  sound h /\ being_created 1 h /\ let_in 1 h [] = 2 /\ credit_given 1 h = 2
  /\ then_seen h (EArrives 1 13 true) = [RClosed 1] /\ then_seen h (ECreated 1 false true) = [RClosed 1]
  /\ let_in 1 normal [] = 2 /\ credit_given 1 normal = 50.
Proof.
  cbv zeta. split; [vm_compute; reflexivity|]. split; [exists [], true; eexists; split; [reflexivity | repeat constructor]|].
  repeat match goal with |- _ /\ _ => split end; vm_compute; reflexivity.
Qed.

(** ** C57 *)
(** A delivery arrives, its service is not ready yet, and the peer detaches the
    link: when the service gets ready, a service that has been released is
    used. *)
Theorem C57_refuted : ~ sound
  [EAttached 1 true true; ECreated 1 true false; EArrives 1 11 true; EDetached 1; EReady 11 true].
Proof. vm_compute. discriminate. Qed.
Print Assumptions C57_refuted.
(** Attaching another link can do the same, by moving the table of services. *)
Theorem C57_refuted_attach : ~ sound
  [EAttached 1 true true; ECreated 1 true false; EArrives 1 11 true; EAttached 2 true true; EReady 11 true].
Proof. vm_compute. discriminate. Qed.
Print Assumptions C57_refuted_attach.
(** It does not happen as long as no link is attached or detached and no service
    created while a delivery waits for its service to become ready. *)
Theorem C57_partial : forall h, undisturbed h [] -> sound h.
Proof.
  intros h U. apply (undisturbed_sound h []); [reflexivity| |exact U]. intros j [].
Qed.
Print Assumptions C57_partial.
Example C57_case : undisturbed (normal ++ [EDetached 1; EAttached 2 true true]) []
  /\ handed (seen (normal ++ [EDetached 1; EAttached 2 true true])) = [12; 11].
Proof.
  split; [|vm_compute; reflexivity]. cbn [undisturbed normal app accepts].
  repeat match goal with |- _ /\ _ => split end; try exact I; intros j H; vm_compute in H; repeat destruct H as [<-|H]; try destruct H; reflexivity.
Qed.
