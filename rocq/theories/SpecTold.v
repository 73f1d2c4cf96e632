(** * Specification vocabulary: what the services of a link are called for *)

From Verif Require Export SpecPanic SpecLookup.

(** The call is about what the peer did on the attached link [x]: a message that has
    arrived on a receiver link (the publish service), or a flow frame for a
    sender link (the control service). *)
Definition serves (k : ctl) (x : link_ref) : Prop :=
  match k, x with
  | KTransfer a, LReceiver c | KFlow _ a, LSender c => a = c
  | _, _ => False
  end.
