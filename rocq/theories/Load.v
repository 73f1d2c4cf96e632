(** * What the application makes of a transfer it is handed *)

From Verif Require Export SessionStep.

(** protocol/mod.rs:244-249 [Transfer::get_body]. *)
Definition get_body (t : transfer_t) : option bytes :=
  match tr_body t with Some (TBData b) => Some b | _ => None end.
(** protocol/mod.rs:252-258 [Transfer::load_message], for a [Message]. *)
Definition load_message (p : profile) (t : transfer_t) : res message :=
  match tr_body t with Some (TBData b) => dec_message p b | _ => Err UnexpectedType end.
