(** * Looking links and sessions up: src/session.rs and src/connection.rs *)

From Verif Require Export Connection.

(** session.rs:130-140 [get_sender_link]. *)
Definition sender_by_name (n : bytes) (s : ses) : option nat :=
  match name_get n (s_names s) with
  | Some k => match slab_get (s_links s) k with Some (SEstablished a) => Some a | _ => None end
  | None => None
  end.
(** session.rs:593-600 [get_sender_link_by_local_handle]. *)
Definition sender_by_handle (h : N) (s : ses) : option nat :=
  match slab_get (s_links s) h with Some (SEstablished a) => Some a | _ => None end.
(** session.rs:602-609 [get_sender_link_by_remote_handle]. *)
Definition sender_by_remote (h : N) (s : ses) : option nat :=
  match map_get h (s_rhandles s) with
  | Some k => match slab_get (s_links s) k with Some (SEstablished a) => Some a | _ => None end
  | None => None
  end.
(** session.rs:771-779 [get_receiver_link_by_local_handle]. *)
Definition receiver_by_handle (h : N) (s : ses) : option nat :=
  match slab_get (s_links s) h with Some (REstablished a) => Some a | _ => None end.
(** session.rs:781-788 [get_receiver_link_by_remote_handle]. *)
Definition receiver_by_remote (h : N) (s : ses) : option nat :=
  match map_get h (s_rhandles s) with
  | Some k => match slab_get (s_links s) k with Some (REstablished a) => Some a | _ => None end
  | None => None
  end.
(** connection.rs:147-156 [get_session_by_local_id]; the channel is a u16. *)
Definition session_by_channel (ch : N) (c : conn) : option nat :=
  match slab_get (c_slots c) (as_u16 ch) with Some (CoEstablished a) => Some a | _ => None end.
