(** * Specification vocabulary: dispositions *)

From Verif Require Export SpecRelease.

(** The ids first..last of a disposition are serial numbers (AMQP 1.0, 2.8.7
    and RFC 1982): going up from [first], [id] comes no later than [last].
    Without [last] the range is [first] alone. *)
Definition in_ids (disp : disposition_t) (id : N) : Prop :=
  match disposition_last disp with
  | None => id = disposition_first disp
  | Some last => wsub id (disposition_first disp) <= wsub last (disposition_first disp)
  end.
(** A receiver speaks of what it was sent. *)
Definition speaks_of (disp : disposition_t) (sender : bool) : Prop :=
  disposition_role disp = if sender then RoleReceiver else RoleSender.
Definition covers (disp : disposition_t) (sender : bool) (id : N) : Prop :=
  speaks_of disp sender /\ in_ids disp id.
(** The range does not run over 2^32 - 1. *)
Definition no_wrap (disp : disposition_t) : Prop :=
  disposition_first disp < two32
  /\ match disposition_last disp with Some last => disposition_first disp <= last < two32 | None => True end.
(** What the entry of an unsettled delivery becomes. *)
Definition told (disp : disposition_t) (d d' : dinner) : Prop :=
  di_handle d' = di_handle d /\ di_error d' = di_error d
  /\ di_settled d' = (di_settled d || disposition_settled disp)%bool
  /\ di_state d' = match disposition_state disp with Some st => Some st | None => di_state d end.
(** The delivery with this id, in this direction, is unsettled and has entry [d]. *)
Definition outstanding (sender : bool) (id : N) (d : dinner) (s : ses) : Prop :=
  map_get id (unsettled sender s) = Some d.
(** The disposition names the id, as a number: no range wraps. *)
Definition names_id (disp : disposition_t) (sender : bool) (id : N) : Prop :=
  speaks_of disp sender
  /\ match disposition_last disp with
     | Some last => disposition_first disp <= id <= last
     | None => id = disposition_first disp
     end.
