(** * The router: router.rs, and how the dispatcher drives it *)

From Verif Require Import Base Protocol.

(** types.rs:115-128 [Outcome], and what a handler's call gives
    (router.rs:216-225). *)
Inductive outcome := OAccept | OReject | OError (e : error_t).
Inductive result := RsOk (o : outcome) | RsErr (e : error_t).
Definition outcome_state (o : outcome) : delivery_state :=
  match o with
  | OAccept => DSAccepted mk_accepted
  | OReject => DSRejected (mk_rejected None)
  | OError e => DSRejected (mk_rejected (Some e))
  end.
Definition result_state (r : result) : delivery_state :=
  match r with RsOk o => outcome_state o | RsErr e => DSRejected (mk_rejected (Some e)) end.

(** router.rs:79 [handlers]: no entry, an entry without or with a service. *)
Inductive hstate := HAbsent | HCreating | HReady.

(** router.rs:196-230 [service_call]: waiting for the service to become ready
    (router.rs:204) or for its result (router.rs:216).  While it waits for
    readiness it holds a reference to the entry of the table; [moved] says that
    the entry has been removed or moved since. *)
Inductive phase := PReady (moved : bool) | PCall.
Record job := mk_job { jb_link : N; jb_delivery : N; jb_attach : bool; jb_phase : phase }.

(** [ro_queue]: the complete deliveries no one has taken off their links, with
    their links, oldest first (a delivery some frames of which are missing is
    not taken, rcvlink.rs:117-124).  [ro_creating]: the links whose service is
    being created.  [ro_undefined]: a reference to a removed or moved entry was
    used. *)
Record router := mk_router {
  ro_handler : N -> hstate;
  ro_queue : list (N * N);
  ro_credit : N -> N;
  ro_creating : list N;
  ro_jobs : list job;
  ro_undefined : bool
}.
Definition router_init : router := mk_router (fun _ => HAbsent) [] (fun _ => 0) [] [] false.

Definition upd {A} (f : N -> A) (k : N) (v : A) : N -> A := fun x => if x =? k then v else f x.

(** What can be seen: the service of a link gets a delivery; a delivery is
    settled, or dropped without (the link then rejects it); the router closes a
    link with an error, confirms it, or grants it credit. *)
Inductive rnote :=
| RHanded (l d : N)
| RSettled (d : N) (s : delivery_state)
| RDropped (d : N)
| RClosed (l : N)
| RConfirmed (l : N)
| RCredit (l : N) (n : N).

Inductive router_event :=
| EAttached (l : N) (known grows : bool)  (* the control service admits a link; its address is known; the table is moved *)
| EGranted (l : N) (n : N)                (* the application grants credit *)
| EArrives (l d : N) (opened : bool)      (* the last frame of a delivery arrives *)
| ECreated (l : N) (ok grows : bool)      (* the creation of a service completes *)
| EReady (d : N) (ok : bool)              (* the readiness check for a delivery completes *)
| EDone (d : N) (r : result)              (* the service is done with a delivery *)
| EDetached (l : N).                      (* the peer detaches the link, or ends its session *)

(** rcvlink.rs:117-124 [get_delivery]. *)
Fixpoint take_delivery (l : N) (q : list (N * N)) : option (N * list (N * N)) :=
  match q with
  | [] => None
  | (k, d) :: q =>
      if k =? l then Some (d, q)
      else match take_delivery l q with Some (x, q') => Some (x, (k, d) :: q') | None => None end
  end.

(** [HashMap::insert] of a new entry may move all of them, [HashMap::remove]
    takes one away. *)
Definition moves (which : N -> bool) (j : job) : job :=
  match jb_phase j with
  | PReady m => mk_job (jb_link j) (jb_delivery j) (jb_attach j) (PReady (m || which (jb_link j)))
  | PCall => j
  end.

Fixpoint take_job (d : N) (p : job -> bool) (js : list job) : option (job * list job) :=
  match js with
  | [] => None
  | j :: js =>
      if (jb_delivery j =? d) && p j then Some (j, js)
      else match take_job d p js with Some (x, js') => Some (x, j :: js') | None => None end
  end.
Definition waits_ready (j : job) : bool := match jb_phase j with PReady _ => true | PCall => false end.
Definition waits_result (j : job) : bool := negb (waits_ready j).

(** dispatcher.rs:333-349: the [Attached] message has been handled: the link is
    confirmed and gets credit. *)
Definition attach_done (attach : bool) (l : N) (r : router) : list rnote * router :=
  if attach then
    ([RConfirmed l; RCredit l 50],
     mk_router (ro_handler r) (ro_queue r) (upd (ro_credit r) l (ro_credit r l + 50)) (ro_creating r) (ro_jobs r) (ro_undefined r))
  else ([], r).

(** router.rs:106-107, 185-188, 202: take the oldest delivery of the link and
    start [service_call]. *)
Definition start_job (attach : bool) (l : N) (r : router) : list rnote * router :=
  match take_delivery l (ro_queue r) with
  | Some (d, q) =>
      ([], mk_router (ro_handler r) q (ro_credit r) (ro_creating r)
                     (ro_jobs r ++ [mk_job l d attach (PReady false)]) (ro_undefined r))
  | None => attach_done attach l r
  end.

Definition router_step (e : router_event) (r : router) : list rnote * router :=
  if ro_undefined r then ([], r) else
  match e with
  | EAttached l known grows =>
      (* router.rs:88-97; for addresses no one serves router.rs:120-136 and
         dispatcher.rs:342-343. *)
      if known then
        ([], mk_router (upd (ro_handler r) l HCreating) (ro_queue r) (ro_credit r) (ro_creating r ++ [l])
                       (map (moves (fun _ => grows)) (ro_jobs r)) false)
      else ([RClosed l], r)
  | EGranted l n =>
      (* rcvlink.rs:292-298 [set_link_credit]; types.rs:90. *)
      ([], mk_router (ro_handler r) (ro_queue r) (upd (ro_credit r) l (ro_credit r l + n)) (ro_creating r) (ro_jobs r) false)
  | EArrives l d opened =>
      (* rcvlink.rs:301-420 [handle_transfer]: without credit the link is
         closed; dispatcher.rs:190-200; router.rs:184-191. *)
      if ro_credit r l =? 0 then ([RClosed l], r)
      else
        let r := mk_router (ro_handler r) (ro_queue r ++ [(l, d)]) (upd (ro_credit r) l (ro_credit r l - 1))
                           (ro_creating r) (ro_jobs r) false in
        match opened, ro_handler r l with
        | true, HReady => start_job false l r
        | _, _ => ([], r)
        end
  | ECreated l ok grows =>
      (* router.rs:99-119; dispatcher.rs:340-348. *)
      if existsb (N.eqb l) (ro_creating r) then
        let creating := remove N.eq_dec l (ro_creating r) in
        if ok then
          start_job true l
            (mk_router (upd (ro_handler r) l HReady) (ro_queue r) (ro_credit r) creating
                       (map (moves (fun _ => grows)) (ro_jobs r)) false)
        else ([RClosed l], mk_router (ro_handler r) (ro_queue r) (ro_credit r) creating (ro_jobs r) false)
      else ([], r)
  | EReady d ok =>
      (* router.rs:204-214. *)
      match take_job d waits_ready (ro_jobs r) with
      | Some (j, js) =>
          match jb_phase j with
          | PReady true => ([], mk_router (ro_handler r) (ro_queue r) (ro_credit r) (ro_creating r) js true)
          | _ =>
              let l := jb_link j in
              if ok then
                let c := ro_credit r l in
                let n := if c =? 0 then 50 else 0 in
                ((if c =? 0 then [RCredit l 50] else []) ++ [RHanded l d],
                 mk_router (ro_handler r) (ro_queue r) (upd (ro_credit r) l (c + n)) (ro_creating r)
                           (js ++ [mk_job l d (jb_attach j) PCall]) false)
              else
                let (n, r) := attach_done (jb_attach j) l
                                (mk_router (ro_handler r) (ro_queue r) (ro_credit r) (ro_creating r) js false) in
                (RClosed l :: RDropped d :: n, r)
          end
      | None => ([], r)
      end
  | EDone d res =>
      (* router.rs:216-226. *)
      match take_job d waits_result (ro_jobs r) with
      | Some (j, js) =>
          let (n, r) := attach_done (jb_attach j) (jb_link j)
                          (mk_router (ro_handler r) (ro_queue r) (ro_credit r) (ro_creating r) js false) in
          (RSettled d (result_state res) :: n, r)
      | None => ([], r)
      end
  | EDetached l =>
      (* router.rs:138-183. *)
      ([], mk_router (upd (ro_handler r) l HAbsent) (ro_queue r) (ro_credit r) (ro_creating r)
                     (map (moves (fun k => k =? l)) (ro_jobs r)) false)
  end.

Fixpoint router_run (h : list router_event) (r : router) : list rnote * router :=
  match h with
  | [] => ([], r)
  | e :: h => let (n, r) := router_step e r in let (m, r) := router_run h r in (n ++ m, r)
  end.
