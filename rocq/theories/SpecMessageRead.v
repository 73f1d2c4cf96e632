(** * Specification vocabulary: reading a message back *)

From Verif Require Export MessageRead SpecFraming.

(** The values that a sequence of operations gives to an application property
    or an annotation, in order, also within [update]. *)
Fixpoint app_writes (k : bytes) (o : msg_op) : list variant :=
  match o with
  | OpSetAppProperty k' v => if beqb k' k then [v] else []
  | OpUpdate l => flat_map (app_writes k) l
  | _ => []
  end.
Fixpoint annotation_writes (k : bytes) (o : msg_op) : list variant :=
  match o with
  | OpAddMessageAnnotation k' v => if beqb k' k then [v] else []
  | OpUpdate l => flat_map (annotation_writes k) l
  | _ => []
  end.
(** The operation does not hand out the table of properties, or annotations, for
    the caller to change. *)
Fixpoint keeps_app_table (o : msg_op) : bool :=
  match o with OpAppPropertiesMut _ => false | OpUpdate l => forallb keeps_app_table l | _ => true end.
Fixpoint keeps_annotation_table (o : msg_op) : bool :=
  match o with OpMessageAnnotationsMut _ => false | OpUpdate l => forallb keeps_annotation_table l | _ => true end.
Definition given {A} (o : option A) : nat := match o with Some _ => 1 | None => 0 end.

(** The value a key has after it was given these, one after the other. *)
Definition latest (old : option variant) (writes : list variant) : option variant :=
  fold_left (fun _ v => Some v) writes old.

(** The integer a value is; [false] for the types without a sign. *)
Definition integer (v : variant) : option (bool * Z) :=
  match v with
  | VUbyte n | VUshort n | VUint n | VUlong n => Some (false, Z.of_N n)
  | VByte z | VShort z | VInt z | VLong z => Some (true, z)
  | _ => None
  end.
Definition is_ulong (v : variant) : bool := match v with VUlong _ => true | _ => false end.
