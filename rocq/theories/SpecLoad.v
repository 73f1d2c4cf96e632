(** * Specification vocabulary: messages from one application to the other *)

From Verif Require Export SpecEndToEnd SpecFraming Load.

(** What was handed out is, to the application that reads it, what future [t] of
    session [s] has sent: the bytes, or the message as the peer gets it (see C13),
    and the message format. *)
Definition reads_as (p : profile) (s : ses) (x : nat * transfer_t) (t : nat) : Prop :=
  exists tk d, send_done s t tk d
    /\ transfer_message_format (tr_head (snd x)) = format_of tk
    /\ match tk_body tk with
       | TBData b => b <> [] -> get_body (snd x) = Some b
       | TBMessage m => sound_message m -> blen (msg_enc m) < 2 ^ 32 -> msg_enc m <> [] ->
                        get_body (snd x) = Some (msg_enc m) /\ load_message p (snd x) = Ok (received_message m)
       end.
