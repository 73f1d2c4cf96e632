(** * Specification vocabulary for receiver links *)

From Verif Require Export SpecSession.

(** ** What arrives on a link *)

(** The transfer frame that the event brings to receiver link [a]: the session
    has not failed, and the peer's handle in the frame is that of an established
    link, [a]. *)
Definition arrival (a : nat) (e : ev) (s : ses) : list transfer_t :=
  match e, s_error s with
  | EvFrame (FTransfer t), None =>
      match map_get (transfer_handle (tr_head t)) (s_rhandles s) with
      | Some i =>
          match slab_get (s_links s) i with
          | Some (REstablished b) => if Nat.eqb a b then [t] else []
          | _ => [] end
      | None => [] end
  | _, _ => []
  end.
(** Something that each event adds, collected along a run. *)
Fixpoint collect {A} (f : ev -> ses -> list A) (p : profile) (evs : list ev) (s : ses) : list A :=
  match evs with
  | [] => []
  | e :: evs =>
      f e s ++ match step p e s with EOk (s', _) => collect f p evs s' | EPanic _ => [] end
  end.
Definition arrivals (p : profile) (a : nat) (evs : list ev) (s : ses) : list transfer_t :=
  collect (arrival a) p evs s.

(** AMQP 1.0, 2.6.14 and 2.7.5: the frames of one delivery follow each other on
    the link, all but the last have the [more] flag; an aborted one ends too. *)
Definition says_abort (t : transfer_t) : bool := transfer_aborted (tr_head t).
Fixpoint split_deliveries (begun ts : list transfer_t) : list (list transfer_t) :=
  match ts with
  | [] => []
  | t :: ts =>
      if says_more t && negb (says_abort t) then split_deliveries (begun ++ [t]) ts
      else (begun ++ [t]) :: split_deliveries [] ts
  end.
(** The deliveries that are complete: an aborted one is to be discarded. *)
Definition complete (ts : list transfer_t) : list (list transfer_t) :=
  filter (fun g => negb (existsb says_abort g)) (split_deliveries [] ts).

(** ** What the application gets *)

(** The deliveries and transfers that were handed out on link [a]. *)
Definition handed (a : nat) (os : list obs) : list (nat * transfer_t) :=
  flat_map (fun o => match o with
                     | ObItem b d tr => if Nat.eqb a b then [(d, tr)] else []
                     | _ => [] end) os.
(** What was handed out is the delivery with these frames. *)
Definition is_delivery (s : ses) (x : nat * transfer_t) (g : list transfer_t) : Prop :=
  body_of (snd x) = concat (map body_of g)
  /\ exists first rest d,
       g = first :: rest /\ tr_head (snd x) = tr_head first
       /\ nth_error (s_dlvs s) (fst x) = Some d
       /\ transfer_delivery_id (tr_head first) = Some (dl_id d)
       /\ dl_tag d = match transfer_delivery_tag (tr_head first) with Some t => t | None => [] end
       /\ dl_sender d = false.

(** The link is attached: this side and the peer both have it open. *)
Definition attached (a : nat) (s : ses) : Prop :=
  exists k, slab_get (s_links s) k = Some (REstablished a).

(** Events that open a link. *)
Definition opens_link (e : ev) : bool :=
  match e with EvAttach _ | EvAttachSender _ | EvAttachReceiver _ => true | _ => false end.
Definition links_opened (evs : list ev) : N := N.of_nat (length (filter opens_link evs)).

(** ** Credit *)

(** The credit the event grants on receiver link [a]. *)
Definition grant (a : nat) (e : ev) (s : ses) : list N :=
  match e with
  | EvCredit b n =>
      if Nat.eqb a b then match nth_error (s_rcvs s) a with Some _ => [n] | None => [] end else []
  | EvCtlOk i _ =>
      match nth_error (s_ctl s) i with
      | Some (Some (KAttached _ b)) =>
          if Nat.eqb a b then match nth_error (s_rcvs s) a with Some _ => [50] | None => [] end else []
      | _ => [] end
  | _ => []
  end.
Definition granted (p : profile) (a : nat) (evs : list ev) (s : ses) : N :=
  fold_right N.add 0 (collect (grant a) p evs s).
(** Arguments that the Rust types allow. *)
Definition grants_fit (evs : list ev) : Prop :=
  Forall (fun e => match e with EvCredit _ n => n < 2 ^ 32 | _ => True end) evs.
(** The number of deliveries of link [a] whose last frame has arrived. *)
Definition completed (ts : list transfer_t) : N := N.of_nat (length (filter (fun t => negb (says_more t)) ts)).

(** ** Size *)
Definition limits_below (M : N) (a : nat) (evs : list ev) : Prop :=
  262144 <= M
  /\ Forall (fun e => match e with EvReceiverMax b n => a = b -> n <= M | _ => True end) evs.

(** ** Wake-ups *)

(** The task has called [recv] on link [a], was told to wait, and has not been
    woken since. *)
Definition waiting (a t : nat) (s : ses) : Prop :=
  exists l, nth_error (s_rcvs s) a = Some l /\ In t (rc_parked l).
(** The event ends receiver link [a]: the application closes it, the peer
    detaches it, the session fails while it is attached, or a transfer of the
    peer is refused. *)
Definition ends_link (a : nat) (e : ev) (s s' : ses) : Prop :=
  match e with
  | EvCloseReceiver b _ => a = b
  | EvFail _ => attached a s
  | EvFrame (FDetach d) =>
      s_error s = None
      /\ exists i, map_get (detach_handle d) (s_rhandles s) = Some i
                   /\ slab_get (s_links s) i = Some (REstablished a)
  | EvFrame (FTransfer t) => arrival a e s = [t] /\ ~ attached a s'
  | _ => False
  end.
