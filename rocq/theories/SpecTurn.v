(** * Specification vocabulary: attach and detach frames in turn *)

From Verif Require Export SpecAttach.
Import ListNotations.

(** The frames [fs] are sent when the handle [h] is in use ([open]) or free: it
    is attached only when it is free and detached only when it is in use. *)
Fixpoint in_turn (h : N) (open : bool) (fs : list frame) : Prop :=
  match fs with
  | [] => True
  | FAttach a :: fs =>
      if attach_handle a =? h then open = false /\ in_turn h true fs else in_turn h open fs
  | FDetach d :: fs =>
      if detach_handle d =? h then open = true /\ in_turn h false fs else in_turn h open fs
  | _ :: fs => in_turn h open fs
  end.
(** Whether [h] is in use after them. *)
Fixpoint in_use (h : N) (open : bool) (fs : list frame) : bool :=
  match fs with
  | [] => open
  | FAttach a :: fs => in_use h (if attach_handle a =? h then true else open) fs
  | FDetach d :: fs => in_use h (if detach_handle d =? h then false else open) fs
  | _ :: fs => in_use h open fs
  end.

(** The handle that a flow or transfer frame names. *)
Definition names_handle (h : N) (f : frame) : Prop :=
  match f with
  | FFlow f => flow_handle f = Some h
  | FTransfer t => transfer_handle (tr_head t) = h
  | _ => False
  end.
(** Flow and transfer frames name only handles in use when they are sent. *)
Definition used_in_turn (fs : list frame) : Prop :=
  forall pre f post h, fs = pre ++ f :: post -> names_handle h f -> in_use h false pre = true.

(** The link in slot [k] is still being attached, by this side or, as a sender
    link, by the peer. *)
Definition unattached_yet (k : N) (s : ses) : Prop :=
  match slab_get (s_links s) k with
  | Some (SOpening _) | Some SOpeningRemote | Some (ROpeningLocal _) => True
  | _ => False
  end.
(** The slot that the detach frame is taken to be about: that of the peer's
    handle, or else that with the same number. *)
Definition detach_about (d : detach_t) (k : N) (s : ses) : Prop :=
  map_get (detach_handle d) (s_rhandles s) = Some k
  \/ map_get (detach_handle d) (s_rhandles s) = None /\ k = detach_handle d.
(** The peer does not detach a link that is still being attached; the control
    service leaves the handle of the answer alone. *)
Definition proper (e : ev) (s : ses) : Prop :=
  match e with
  | EvFrame (FDetach d) => forall k, detach_about d k s -> ~ unattached_yet k s
  | EvCtlOk _ edit => forall r, attach_handle (edit r) = attach_handle r
  | _ => True
  end.
Fixpoint all_proper (p : profile) (evs : list ev) (s : ses) : Prop :=
  match evs with
  | [] => True
  | e :: evs => proper e s
      /\ match step p e s with EOk (s', _) => all_proper p evs s' | EPanic _ => True end
  end.
