(** * Specification vocabulary: attaching links *)

From Verif Require Export SpecHandles SpecPanic.

(** The address of the source in an attach frame. *)
Definition from_address (frm : attach_t) : option bytes :=
  match attach_source frm with Some src => source_address src | None => None end.
(** With this event a link takes the name [n]: links that this side attaches have
    their own name, sender links that the peer attaches that of their source. *)
Definition takes_name (n : bytes) (e : ev) : Prop :=
  match e with
  | EvAttachSender f | EvAttachReceiver f => attach_name f = n
  | EvAttach f => from_address f = Some n
  | _ => False
  end.

(** The link that an attach frame of the peer is about, if it is about a new one:
    a peer that receives needs a link that sends. *)
Definition new_link (frm : attach_t) (s : ses) : link_ref :=
  match attach_role frm with
  | RoleReceiver => LSender (length (s_snds s))
  | RoleSender => LReceiver (length (s_rcvs s))
  end.
(** The control service is asked about the attach frame [frm] for link [x]; [r] is
    the answer that it may still edit. *)
Definition asks (k : ctl) (frm : attach_t) (x : link_ref) (r : attach_t) : Prop :=
  match x with
  | LSender a => k = KAttachSender frm r a
  | LReceiver a => k = KAttachReceiver frm r a
  end.
(** What the answer says before it is edited. *)
Definition echoes (frm r : attach_t) : Prop :=
  attach_name r = attach_name frm
  /\ attach_role r <> attach_role frm
  /\ attach_source r = attach_source frm /\ attach_target r = attach_target frm.

(** [f] attaches link [x] of this side under its own handle; the rest is as in [r]. *)
Definition attaches (x : link_ref) (s : ses) (r : attach_t) (f : frame) : Prop :=
  exists at_ h, f = FAttach at_ /\ own_handle x s h /\ attach_handle at_ = h
    /\ attach_name at_ = attach_name r /\ attach_role at_ = attach_role r
    /\ attach_source at_ = attach_source r /\ attach_target at_ = attach_target r
    /\ attach_properties at_ = attach_properties r.
(** [f] attaches link [x] under this name, to be detached at once: it says no more. *)
Definition attaches_bare (x : link_ref) (s : ses) (n : bytes) (f : frame) : Prop :=
  exists at_ h, f = FAttach at_ /\ own_handle x s h /\ attach_handle at_ = h /\ attach_name at_ = n.
(** [f] detaches link [x] for good, with this error. *)
Definition detaches (x : link_ref) (s : ses) (e : error_t) (f : frame) : Prop :=
  exists h, own_handle x s h /\ f = FDetach (mk_detach h true (Some e)).
(** [f] grants [n] credits on link [x]. *)
Definition grants (x : link_ref) (s : ses) (n : N) (f : frame) : Prop :=
  exists fl h, f = FFlow fl /\ own_handle x s h /\ flow_handle fl = Some h /\ flow_link_credit fl = Some n.

(** Receiver link [a] is being attached by the peer: its handle is still reserved for it. *)
Definition being_attached (a : nat) (s : ses) : Prop :=
  exists l src, nth_error (s_rcvs s) a = Some l /\ rc_closed l = false
    /\ slab_get (s_links s) (rc_handle l) = Some (ROpening (Some (a, src))).
(** Every handle that is reserved for a sender link the service has not decided
    about is in use. *)
Definition all_reserved (s : ses) : Prop :=
  forall i frm r a l, called i (KAttachSender frm r a) s -> nth_error (s_snds s) a = Some l -> ~ vacant (sn_id l) s.
(** The event completes no call [i], is no detach frame and no failure. *)
Definition calm (i : nat) (e : ev) : Prop :=
  match e with
  | EvCtlOk j _ | EvCtlErr j _ => j <> i
  | EvFrame (FDetach _) | EvFail _ => False
  | _ => True
  end.
