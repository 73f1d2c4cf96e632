(** * Specification vocabulary for sessions *)

From Verif Require Export SessionStep.

(** ** Transfers on the wire *)

Definition transfers (fs : list frame) : list transfer_t :=
  flat_map (fun f => match f with FTransfer t => [t] | _ => [] end) fs.
(** The ids of the deliveries that begin in [fs]: the transfer frames that carry
    an id. *)
Definition delivery_ids (fs : list frame) : list N :=
  flat_map (fun t => match transfer_delivery_id (tr_head t) with Some i => [i] | None => [] end)
           (transfers fs).

Definition body_of (t : transfer_t) : bytes :=
  match tr_body t with Some b => tb_enc b | None => [] end.
Definition says_more (t : transfer_t) : bool := transfer_more (tr_head t).

(** The transfer frames of one delivery on the link with this handle. *)
Definition one_delivery (handle id : N) (tag : bytes) (settled : bool) (body : bytes)
           (ts : list transfer_t) : Prop :=
  concat (map body_of ts) = body
  /\ map says_more ts = repeat true (length ts - 1) ++ [false]
  /\ Forall (fun t => transfer_handle (tr_head t) = handle) ts
  /\ exists first rest, ts = first :: rest
     /\ transfer_delivery_id (tr_head first) = Some id
     /\ transfer_delivery_tag (tr_head first) = Some tag
     /\ transfer_settled (tr_head first) = (if settled then Some true else None)
     /\ Forall (fun t => transfer_delivery_id (tr_head t) = None
                         /\ transfer_delivery_tag (tr_head t) = None) rest.

(** The size a body announces is the number of bytes it is written as: true of
    any body of bytes, and of a message unless it was changed after its size was
    remembered (see C14). *)
Definition honest (b : transfer_body) : Prop := tb_size b = blen (tb_enc b).

(** The send future at address [t] has completed with a delivery, which is this. *)
Definition send_done (s : ses) (t : nat) (tk : stask) (d : dlv) : Prop :=
  nth_error (s_tasks s) t = Some tk
  /\ exists i, tk_st tk = TDone (inl i) /\ nth_error (s_dlvs s) i = Some d.

(** [g] are the transfer frames of the [k]-th delivery of the session, which the
    send future at address [t] has put on the wire. *)
Definition wire_of (s : ses) (k : nat) (t : nat) (g : list transfer_t) : Prop :=
  exists tk l d, send_done s t tk d /\ nth_error (s_snds s) (tk_link tk) = Some l
    /\ dl_id d = (N.of_nat k + 1) mod 2 ^ 32
    /\ (forall x, tk_tag tk = Some x -> dl_tag d = x)
    /\ one_delivery (as_u32 (sn_id l)) (dl_id d) (dl_tag d) (tk_settled tk) (tb_enc (tk_body tk)) g.

(** ** Flow control *)

(** Whether a flow frame names an established sender link; such a frame is first
    shown to the control service. *)
Definition for_sender (f : flow_t) (s : ses) : bool :=
  match flow_handle f with
  | Some h =>
      match map_get h (s_rhandles s) with
      | Some i => match slab_get (s_links s) i with Some (SEstablished _) => true | _ => false end
      | None => false
      end
  | None => false
  end.
(** The flow frame of the peer that event [e] puts into effect in state [s], and
    the sender link it is for. *)
Definition flow_of (e : ev) (s : ses) : option (flow_t * option nat) :=
  match e with
  | EvFrame (FFlow f) =>
      match s_error s with
      | Some _ => None
      | None => if for_sender f s then None else Some (f, None)
      end
  | EvCtlOk i _ =>
      match nth_error (s_ctl s) i with Some (Some (KFlow f a)) => Some (f, Some a) | _ => None end
  | _ => None
  end.
(** The flow frames that took effect in a run, in order. *)
Fixpoint flows (p : profile) (evs : list ev) (s : ses) : list (flow_t * option nat) :=
  match evs with
  | [] => []
  | e :: evs =>
      match flow_of e s with Some x => [x] | None => [] end
      ++ match step p e s with EOk (s', _) => flows p evs s' | EPanic _ => [] end
  end.
(** Those for link [a] that say something about its credit. *)
Definition credit_flows (a : nat) (fs : list (flow_t * option nat)) : list flow_t :=
  flat_map (fun '(f, b) =>
    match b, flow_link_credit f with
    | Some b, Some _ => if Nat.eqb a b then [f] else []
    | _, _ => [] end) fs.

(** AMQP 1.0, 2.6.7: a receiver whose flow says delivery-count [d] and link-credit
    [c] allows the sender to reach delivery-count [d + c].  [limit] is the
    number of deliveries that are so allowed on a link whose delivery-count was
    [initial] at first, in serial number arithmetic. *)
Definition credit_limit (initial : N) (f : flow_t) (limit : N) : Prop :=
  (initial + limit) mod 2 ^ 32
  = (match flow_delivery_count f with Some d => d | None => initial end
     + match flow_link_credit f with Some c => c | None => 0 end) mod 2 ^ 32.
(** AMQP 1.0, 2.5.6: a peer whose flow says next-incoming-id [n] and
    incoming-window [w] accepts the transfers numbered below [n + w]; the first
    is numbered 1 here. *)
Definition window_limit (f : flow_t) (limit : N) : Prop :=
  (1 + limit) mod 2 ^ 32
  = (match flow_next_incoming_id f with Some n => n | None => 1 end
     + flow_incoming_window f) mod 2 ^ 32.

Fixpoint nondecreasing (from : N) (l : list N) : Prop :=
  match l with [] => True | x :: l => from <= x /\ nondecreasing x l end.

(** The number of sends of link [a] that have completed with a delivery. *)
Definition sent_on (a : nat) (s : ses) : nat :=
  length (filter (fun k => Nat.eqb (tk_link k) a
                           && match tk_st k with TDone (inl _) => true | _ => false end)
                 (s_tasks s)).
