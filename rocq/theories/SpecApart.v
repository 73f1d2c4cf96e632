(** * Specification vocabulary: which links an event is about *)

From Verif Require Export SpecProgress.
Import ListNotations.

(** A link: [inl a] is a sender link, [inr a] a receiver link. *)
Definition lname : Type := (nat + nat)%type.
(** Everything the session knows of a link: credit, counters, whether it is
    closed, who waits on it, and for a receiver the deliveries that have arrived. *)
Definition link_state (x : lname) (s : ses) : option (slink + rlink) :=
  match x with
  | inl a => option_map inl (nth_error (s_snds s) a)
  | inr a => option_map inr (nth_error (s_rcvs s) a)
  end.
(** The slot of the table of links is this link's. *)
Definition holds (x : lname) (l : link) : Prop :=
  match x, l with
  | inl a, SEstablished b => a = b
  | inr a, REstablished b | inr a, ROpening (Some (b, _)) | inr a, ROpeningLocal (Some (b, _)) => a = b
  | _, _ => False
  end.
Definition at_slot (k : N) (x : lname) (s : ses) : Prop :=
  exists l, slab_get (s_links s) k = Some l /\ holds x l.
(** [k] is the number the link was given, its handle. *)
Definition home (k : N) (x : lname) (s : ses) : Prop :=
  match x with
  | inl a => exists l, nth_error (s_snds s) a = Some l /\ (k = sn_id l \/ k = as_u32 (sn_id l))
  | inr a => exists l, nth_error (s_rcvs s) a = Some l /\ k = rc_handle l
  end.
(** The link a question to the control service is about. *)
Definition ctl_link (k : ctl) : lname :=
  match k with
  | KAttachSender _ _ a | KFlow _ a | KLocalDetachSender _ a | KRemoteDetachSender _ a => inl a
  | KAttachReceiver _ _ a | KLocalDetachReceiver _ a | KRemoteDetachReceiver _ a | KAttached _ a | KTransfer a => inr a
  end.

(** The event names the link: the peer by a handle, or by the
    name in its answer to an attach, the application by the object
    or by a handle, the control service by completing a call about it.  The
    failure of the session names every link. *)
Definition named (e : ev) (x : lname) (s : ses) : Prop :=
  match e with
  | EvFail _ => True
  | EvFrame (FTransfer tr) => exists k, map_get (transfer_handle (tr_head tr)) (s_rhandles s) = Some k /\ at_slot k x s
  | EvFrame (FDetach d) =>
      match map_get (detach_handle d) (s_rhandles s) with
      | Some k => at_slot k x s
      | None => at_slot (detach_handle d) x s
      end
  | EvAttach frm => exists k, name_get (attach_name frm) (s_names s) = Some k /\ at_slot k x s
  | EvDetachSender h _ | EvDetachReceiver h _ => at_slot h x s
  | EvCloseSender a _ | EvOnClose a | EvOnCredit a | EvSenderMax a _ => x = inl a
  | EvPollSend t => exists a, x = inl a /\ on_link t a s
  | EvRecv a _ | EvGet a | EvCredit a _ | EvReceiverMax a _ | EvCloseReceiver a _ | EvFreeReceiver a => x = inr a
  | EvCtlOk i _ | EvCtlErr i _ => exists k, nth_error (s_ctl s) i = Some (Some k) /\ x = ctl_link k
  | _ => False
  end.
(** The link [x] has the slot that was [y]'s. *)
Definition took_slot (x y : lname) (s : ses) : Prop := exists k, home k y s /\ at_slot k x s.
(** The event names no link but others than [x], none of which [x] has succeeded. *)
Definition untouched (e : ev) (x : lname) (s : ses) : Prop :=
  forall y, named e y s -> y <> x /\ ~ took_slot x y s.
(** The same at each step of a history. *)
Fixpoint spared (p : profile) (evs : list ev) (x : lname) (s : ses) : Prop :=
  match evs with
  | [] => True
  | e :: evs => untouched e x s /\ forall s' os, step p e s = EOk (s', os) -> spared p evs x s'
  end.
(** No event of the history names the link. *)
Fixpoint unnamed (p : profile) (evs : list ev) (x : lname) (s : ses) : Prop :=
  match evs with
  | [] => True
  | e :: evs => ~ named e x s /\ forall s' os, step p e s = EOk (s', os) -> unnamed p evs x s'
  end.
(** The link is in the slot of its number. *)
Definition settled_in (y : lname) (s : ses) : Prop := forall k, home k y s -> at_slot k y s.
