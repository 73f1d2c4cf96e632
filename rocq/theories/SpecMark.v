(** * Specification vocabulary: what the frames of a delivery carry besides its body *)

From Verif Require Export SpecSession.

(** The message format of a send: the one the application gave
    ([TransferBuilder::format]), else that of the message. *)
Definition format_of (tk : stask) : option N :=
  match tk_format tk with
  | Some f => Some f
  | None => match tk_body tk with TBMessage m => ms_format (msg_parts m) | TBData _ => None end
  end.
(** All frames carry the format, and none aborts or resumes.  The first says that the
    delivery is settled, and accepted, if it was sent so; the others say neither. *)
Definition marked (tk : stask) (g : list transfer_t) : Prop :=
  Forall (fun t => transfer_message_format (tr_head t) = format_of tk /\ transfer_aborted (tr_head t) = false
                   /\ transfer_resume (tr_head t) = false) g
  /\ match g with
     | [] => True
     | first :: rest =>
         transfer_state (tr_head first) = (if tk_settled tk then Some (DSAccepted mk_accepted) else None)
         /\ Forall (fun t => transfer_state (tr_head t) = None /\ transfer_settled (tr_head t) = None) rest
     end.
