(** * Specification vocabulary: the two ends of a link *)

From Verif Require Export SpecLookup.

(** What the application reads off link [x]: [name], [remote_handle]. *)
Definition has_name (x : link_ref) (s : ses) (n : bytes) : Prop :=
  match x with
  | LSender a => exists l, nth_error (s_snds s) a = Some l /\ sn_name l = n
  | LReceiver a => exists l, nth_error (s_rcvs s) a = Some l /\ rc_name l = n
  end.
Definition peer_handle (x : link_ref) (s : ses) (h : N) : Prop :=
  match x with
  | LSender a => exists l, nth_error (s_snds s) a = Some l /\ sn_rhandle l = h
  | LReceiver a => exists l, nth_error (s_rcvs s) a = Some l /\ rc_rhandle l = h
  end.
(** The largest body that [send] takes on sender link [a] ([None]: any), and the
    largest that receiver link [a] puts together. *)
Definition sends_up_to (a : nat) (s : ses) (n : option N) : Prop :=
  exists l, nth_error (s_snds s) a = Some l /\ sn_max l = n.
Definition takes_up_to (a : nat) (s : ses) (n : N) : Prop :=
  exists l, nth_error (s_rcvs s) a = Some l /\ rc_max l = n.
(** How many deliveries the end has counted. *)
Definition counts (x : link_ref) (s : ses) (n : N) : Prop :=
  match x with
  | LSender a => exists l, nth_error (s_snds s) a = Some l /\ sn_dc l = n
  | LReceiver a => exists l, nth_error (s_rcvs s) a = Some l /\ rc_dc l = n
  end.

(** Link [x] of [s] and link [y] of [t] are the ends of one link: both are open, one
    sends and the other receives, and what each says under its handle reaches
    the other. *)
Definition two_ends (x : link_ref) (s : ses) (y : link_ref) (t : ses) : Prop :=
  match x, y with LSender _, LReceiver _ | LReceiver _, LSender _ => True | _, _ => False end
  /\ is_open x s /\ is_open y t
  /\ exists h k, own_handle x s h /\ own_handle y t k /\ finds_remote k x s /\ finds_remote h y t.
(** [u32::try_from(n).unwrap_or(u32::MAX)]: sizes beyond u32 are cut. *)
Definition cut (n : N) : N := N.min n (2 ^ 32 - 1).

(** One side has called [e] to attach a link with [mine], which sent the attach frame
    [f]: [s1] is before the call and [s3] when the answer arrives.  No other link
    takes the name, and the future of the call still waits. *)
Definition asking (p : profile) (e : ev) (mine f : attach_t) (s1 s3 : ses) : Prop :=
  exists id local rc mfs b evs1 evs2 s2 os1 os2 os3,
    run p evs1 (ses_new id local rc mfs b) = EOk (s1, os1)
    /\ (e = EvAttachSender mine \/ e = EvAttachReceiver mine) /\ attach_name mine <> []
    /\ step p e s1 = EOk (s2, os2) /\ s_out s2 = s_out s1 ++ [FAttach f]
    /\ run p evs2 s2 = EOk (s3, os3)
    /\ (forall e', In e' (evs1 ++ evs2) -> ~ takes_name (attach_name mine) e')
    /\ s_error s3 = None /\ still_waits (next_future s1) s3.
(** The other side has got [f] in [t1] and asked its control service about a new
    link [y]; [t3] is later.  The peer does not use the handle for another link. *)
Definition was_asked (p : profile) (f : attach_t) (y : link_ref) (t1 t3 : ses) : Prop :=
  exists id local rc mfs b evs1 evs2 t2 os1 os2 os3 k r,
    run p evs1 (ses_new id local rc mfs b) = EOk (t1, os1)
    /\ none_waits (attach_handle f) t1
    /\ step p (EvAttach f) t1 = EOk (t2, os2)
    /\ asks k f y r /\ y = new_link f t1 /\ s_ctl t2 = s_ctl t1 ++ [Some k]
    /\ run p evs2 t2 = EOk (t3, os3) /\ unused_handle (attach_handle f) evs2
    /\ links_opened (evs1 ++ EvAttach f :: evs2) <= 2 ^ 32.
