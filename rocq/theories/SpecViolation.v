(** * Specification vocabulary: frames that break the protocol

    Read with Connection.v. *)

From Verif Require Export SpecConnection.
Import ListNotations.

(** The peer's handle [h] stands for entry [lk] of the link table of the session. *)
Definition stands_for (h : N) (lk : link) (s : ses) : Prop :=
  exists i, map_get h (s_rhandles s) = Some i /\ slab_get (s_links s) i = Some lk.

(** Frame [f] of the peer breaks the protocol, and the error [e] says how.  Of the
    frames that a session gets this can only be a transfer: its handle is not that
    of any link, or its link is one on which this side receives but that is not
    attached yet, or one on which this side sends. *)
Inductive violates (s : ses) : frame -> perr -> Prop :=
| ViUnknown t : (forall lk, ~ stands_for (transfer_handle (tr_head t)) lk s) ->
    violates s (FTransfer t) (EUnknownLink (FTransfer t))
| ViOpening t x : stands_for (transfer_handle (tr_head t)) (ROpening x) s ->
    violates s (FTransfer t) (EUnexpectedOpeningState (FTransfer t))
| ViOpeningLocal t x : stands_for (transfer_handle (tr_head t)) (ROpeningLocal x) s ->
    violates s (FTransfer t) (EUnexpectedOpeningState (FTransfer t))
| ViSender t a : stands_for (transfer_handle (tr_head t)) (SEstablished a) s ->
    violates s (FTransfer t) (EUnexpected (FTransfer t))
| ViSenderRemote t : stands_for (transfer_handle (tr_head t)) SOpeningRemote s ->
    violates s (FTransfer t) (EUnexpected (FTransfer t))
| ViSenderOpening t x : stands_for (transfer_handle (tr_head t)) (SOpening x) s ->
    violates s (FTransfer t) (EUnexpected (FTransfer t))
| ViSenderClosing t x : stands_for (transfer_handle (tr_head t)) (SClosing x) s ->
    violates s (FTransfer t) (EUnexpected (FTransfer t)).

(** This side is ending the session: it has sent its end frame. *)
Definition is_ending (a : nat) (c : conn) : Prop := exists k, slab_get (c_slots c) k = Some (CoClosing a).
