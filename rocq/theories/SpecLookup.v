(** * Specification vocabulary: looking links and sessions up *)

From Verif Require Export SpecAttach SpecConnection SpecReady Lookup.

(** Looking for a link by this side's handle, or by the peer's, gives link [x]. *)
Definition finds (h : N) (x : link_ref) (s : ses) : Prop :=
  match x with
  | LSender a => sender_by_handle h s = Some a
  | LReceiver a => receiver_by_handle h s = Some a
  end.
Definition finds_remote (h : N) (x : link_ref) (s : ses) : Prop :=
  match x with
  | LSender a => sender_by_remote h s = Some a
  | LReceiver a => receiver_by_remote h s = Some a
  end.
(** [is_closed] of the link says so. *)
Definition says_closed (x : link_ref) (s : ses) : Prop :=
  match x with
  | LSender a => exists l, nth_error (s_snds s) a = Some l /\ sn_closed l = true
  | LReceiver a => exists l, nth_error (s_rcvs s) a = Some l /\ rc_closed l = true
  end.
