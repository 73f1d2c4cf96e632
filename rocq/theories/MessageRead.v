(** * Reading messages and values: codec/src/message/message.rs, body.rs and
    codec/src/types/variant.rs *)

From Verif Require Export Message.

(** The first pair with this key; [Str] and [Symbol] are compared with a [str]
    byte by byte (types/mod.rs:215-219, symbol.rs:68-72). *)
Fixpoint find_key (k : bytes) (l : list (bytes * variant)) : option variant :=
  match l with
  | [] => None
  | (k', v) :: l => if beqb k' k then Some v else find_key k l
  end.
(** message.rs:117-125 [app_property] and 147-155 [message_annotation]. *)
Definition app_property (k : bytes) (m : message) : option variant :=
  match ms_application_properties (msg_parts m) with Some l => find_key k l | None => None end.
Definition message_annotation (k : bytes) (m : message) : option variant :=
  match ms_message_annotations (msg_parts m) with Some l => find_key k l | None => None end.

Definition set_correlation_id (x : option message_id) (p : properties_t) : properties_t :=
  match p with
  | mk_properties mid uid t su rt _ ct ce ae cr gi gs rg => mk_properties mid uid t su rt x ct ce ae cr gi gs rg
  end.
(** message.rs:260-265 [reply_message]: a new message; if the message has
    properties, [if_some] clears the size and [set_properties] sets the
    correlation id. *)
Definition reply_message (m : message) : message :=
  let new := Msg parts0 [] 0 in
  match ms_properties (msg_parts m) with
  | None => new
  | Some p => apply_op (OpSetProperties (set_correlation_id (properties_message_id p))) (reset new)
  end.

(** body.rs:18-24 [data] and 30-33 [set_data]. *)
Definition body_data (b : body_t) : option bytes :=
  match b with (d, _, _, _) => match d with [] => None | x :: _ => Some x end end.
Definition body_set_data (x : bytes) (b : body_t) : body_t :=
  match b with (_, q, n, v) => ([x], q, n, v) end.

(** variant.rs:195-201 [as_str]. *)
Definition as_str (v : variant) : option bytes :=
  match v with VString s | VSymbol s => Some s | _ => None end.
(** variant.rs:205-216 [as_long]; a number that fits keeps its value in [as i64]. *)
Definition as_long (v : variant) : option Z :=
  match v with
  | VUbyte n | VUshort n | VUint n => Some (Z.of_N n)
  | VByte z | VShort z | VInt z | VLong z => Some z
  | _ => None
  end.
(** variant.rs:219-227 [as_ulong]. *)
Definition as_ulong (v : variant) : option N :=
  match v with VUbyte n | VUshort n | VUint n | VUlong n => Some n | _ => None end.
