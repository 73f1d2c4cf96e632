(** * What is claimed about connections

    Read with Connection.v.  [crun p evs c] is a history: [evs] are the frames
    of the peer, the calls of the application and what the executor and the
    control service do, in any order. *)

From Verif Require Export Connection.
Import ListNotations.

(** Session [a] is in the table of the connection under number [k]. *)
Definition in_table (c : conn) (k : N) (a : nat) : Prop :=
  slab_get (c_slots c) k = Some (CoEstablished a) \/ slab_get (c_slots c) k = Some (CoClosing a).
(** The channel on which a session sends. *)
Definition channel_of (s : ses) : N := as_u16 (s_id s).

(** Session [a] is the last one that the peer began on its channel [ch]. *)
Definition last_begun (ch : N) (a : nat) (c : conn) : Prop :=
  (exists s, nth_error (c_sess c) a = Some s /\ s_rchan s = ch) /\
  forall b s, nth_error (c_sess c) b = Some s -> s_rchan s = ch -> (b <= a)%nat.

(** The peer begins a session. *)
Definition peer_begins (e : cev) : bool :=
  match e with
  | CvFrame _ (FBegin b) => match begin_remote_channel b with None => true | Some _ => false end
  | _ => false
  end.
Definition peer_closes (e : cev) : bool :=
  match e with CvFrame _ (FClose _) => true | _ => false end.

(** The event makes the connection fail with error [x]. *)
Definition fails (p : profile) (e : cev) (x : perr) (c c' : conn) : Prop :=
  c_error c = None /\ c_error c' = Some x /\ exists os, cstep p e c = EOk (c', os).

(** At no time there are more than [n] sessions. *)
Definition at_most (n : N) (p : profile) (evs : list cev) (c : conn) : Prop :=
  forall evs1 evs2 c1 os1, evs = evs1 ++ evs2 -> crun p evs1 c = EOk (c1, os1) ->
  N.of_nat (length (slab_values (c_slots c1))) <= n.

(** A frame that belongs to a session. *)
Definition for_session (f : frame) : bool :=
  match f with FEmpty | FClose _ | FBegin _ => false | _ => true end.
(** What a session does with such a frame. *)
Definition takes (p : profile) (f : frame) (s s' : ses) : Prop :=
  match f with
  | FAttach frm => step p (EvAttach frm) s = EOk (s', [])
  | FEnd en => step p (EvFail (ESessionEnded (end_error en))) s = EOk (s', [])
  | _ => step p (EvFrame f) s = EOk (s', [])
  end.

(** The peer uses the channel numbers of this side. *)
Definition same_numbers (c : conn) : Prop :=
  forall a s, nth_error (c_sess c) a = Some s -> s_rchan s = s_id s.

(** A channel is used properly: Begin and End alternate, Begin first, and in
    between is everything else that is sent for a session.  [None]: it is not;
    [Some b]: it is, and [b] tells whether a session is open at the end. *)
Fixpoint phase (ch : N) (open : bool) (out : list (N * frame)) : option bool :=
  match out with
  | [] => Some open
  | (ch', f) :: out =>
      if ch =? ch' then
        match f with
        | FBegin _ => if open then None else phase ch true out
        | FEnd _ => if open then phase ch false out else None
        | _ => phase ch open out
        end
      else phase ch open out
  end.

(** The frames that close the connection. *)
Definition is_close (x : N * frame) : bool := match snd x with FClose _ => true | _ => false end.
Definition closes_sent (out : list (N * frame)) : nat := length (filter is_close out).
(** The frames that were handed to the io layer before it was told to close. *)
Definition before_io_close (c : conn) : list (N * frame) :=
  match c_io c with Some n => firstn n (c_out c) | None => c_out c end.
