(** * Vocabulary of the router theorems *)

From Verif Require Import Base Protocol Router.

(** What can be seen during a history of a new router, and where it leads. *)
Definition seen (h : list router_event) : list rnote := fst (router_run h router_init).
Definition after (h : list router_event) : router := snd (router_run h router_init).
(** What event [e] makes visible after [h]. *)
Definition then_seen (h : list router_event) (e : router_event) : list rnote := fst (router_step e (after h)).

(** The deliveries that arrived, that were handed to a service, settled,
    dropped. *)
Definition arrived (h : list router_event) : list N :=
  flat_map (fun e => match e with EArrives _ d _ => [d] | _ => [] end) h.
Definition handed (l : list rnote) : list N := flat_map (fun n => match n with RHanded _ d => [d] | _ => [] end) l.
Definition settled (l : list rnote) : list N := flat_map (fun n => match n with RSettled d _ => [d] | _ => [] end) l.
Definition dropped (l : list rnote) : list N := flat_map (fun n => match n with RDropped d => [d] | _ => [] end) l.

(** No released or moved service was used. *)
Definition sound (h : list router_event) : Prop := ro_undefined (after h) = false.

(** Delivery [d] arrived on link [l] within its credit. *)
Definition admitted (l d : N) (h : list router_event) : Prop :=
  exists a b, h = a ++ EArrives l d true :: b /\ ~ In (RClosed l) (then_seen a (EArrives l d true)).

(** [h2] neither detaches nor attaches [l] again, its transfers arrive on an
    open connection, and the table of services is not moved. *)
Definition keeps (l : N) (h2 : list router_event) : Prop :=
  Forall (fun e => match e with
                   | EDetached k => k <> l
                   | EAttached k _ g => k <> l /\ g = false
                   | ECreated k _ g => k <> l /\ g = false
                   | EArrives k _ o => k = l -> o = true
                   | _ => True
                   end) h2.
(** [h1] attaches [l], and nothing arrives on it. *)
Definition attaches (l : N) (h1 : list router_event) : Prop :=
  (exists g, In (EAttached l true g) h1)
  /\ Forall (fun e => match e with
                      | ECreated k _ _ => k <> l
                      | EArrives k _ _ => k <> l
                      | _ => True
                      end) h1.

(** No link is attached or detached and no service created while a readiness
    check is awaited. *)
Fixpoint undisturbed (h : list router_event) (past : list router_event) : Prop :=
  match h with
  | [] => True
  | e :: h =>
      match e with
      | EAttached _ _ _ | ECreated _ _ _ | EDetached _ =>
          forall j, In j (ro_jobs (after past)) -> waits_ready j = false
      | _ => True
      end /\ undisturbed h (past ++ [e])
  end.

(** What the peer is told about the result of the service. *)
Definition answer_of (r : result) : delivery_state :=
  match r with
  | RsOk OAccept => DSAccepted mk_accepted
  | RsOk OReject => DSRejected (mk_rejected None)
  | RsOk (OError e) | RsErr e => DSRejected (mk_rejected (Some e))
  end.

(** The credit that link [l] has been given, by the application and by the router,
    and the deliveries that have been let in on it. *)
Definition total (l : list N) : N := fold_right N.add 0 l.
Definition credit_given (l : N) (h : list router_event) : N :=
  total (map (fun e => match e with EGranted k n => if k =? l then n else 0 | _ => 0 end) h)
  + total (map (fun x => match x with RCredit k n => if k =? l then n else 0 | _ => 0 end) (seen h)).
Definition lets_in (l : N) (past : list router_event) (e : router_event) : N :=
  match e with
  | EArrives k _ _ =>
      if (k =? l) && negb (existsb (fun x => match x with RClosed k => k =? l | _ => false end) (then_seen past e)) then 1 else 0
  | _ => 0
  end.
Fixpoint let_in (l : N) (h past : list router_event) : N :=
  match h with [] => 0 | e :: h => lets_in l past e + let_in l h (past ++ [e]) end.

(** The service of link [l] is being created. *)
Definition being_created (l : N) (h : list router_event) : Prop :=
  exists a g b, h = a ++ EAttached l true g :: b /\ Forall (fun e => match e with ECreated k _ _ => k <> l | _ => True end) b.
