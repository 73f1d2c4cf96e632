(** * The state of a delivery that the application can read *)

From Verif Require Export SessionStep.

(** delivery.rs:75-87 [Delivery::remote_state]: what the entry of the delivery holds.
    The handle of the delivery is not checked: a call needs one. *)
Definition remote_state (i : nat) (s : ses) : option delivery_state :=
  match nth_error (s_dlvs s) i with
  | Some d => match map_get (dl_id d) (unsettled (dl_sender d) s) with Some di => di_state di | None => None end
  | None => None
  end.
(** delivery.rs:89-91 [Delivery::is_remote_settled]. *)
Definition is_remote_settled (i : nat) (s : ses) : bool :=
  match nth_error (s_dlvs s) i with Some d => dl_remote d | None => false end.
