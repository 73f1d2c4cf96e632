(** * A connection: src/connection.rs and the parts of src/dispatcher.rs around it

    The sessions are those of Session.v; a connection adds the tables that find
    them, the frames that begin and end them, and the failure of everything.
    Frames are appended to [c_out] ([AmqpCodec::encode] never fails,
    codec/src/io.rs:109-120, so the error branches of connection.rs:194-203,
    238-245 and 284-289 are never taken).  Whether the io layer still writes a
    frame it gets after [io.close] is not modelled: [c_io] tells which frames
    those are.  Not modelled anywhere in this file: logging. *)

From Verif Require Export SessionStep.

(** connection.rs:48-54 [ConnectionState]. *)
Inductive cstate : Type := CsNormal | CsClosing | CsRemoteClose | CsDrop.

(** connection.rs:35-40 [SessionState].  Opening: the future that waits;
    the others: the address of the session. *)
Inductive cslot : Type :=
| CoOpening (i : nat)
| CoEstablished (a : nat)
| CoClosing (a : nat).

(** A future of [open_session] (connection.rs:573-612): waiting for the answer of
    the peer, finished with a session or an error, or dropped while waiting. *)
Inductive ofut : Type := OWait | ODone (r : nat + perr) | OGone.

(** control.rs:29-43 [ControlFrameKind], those that change the connection.  The
    kinds that tell about ended sessions have no effect when the control service
    is done with them (dispatcher.rs:326-327, 369-374) and are left out. *)
Inductive cctl : Type :=
| KProtocolError (e : perr)
| KDisconnected.

(** connection.rs:22-33 [ConnectionInner], followed by what it reaches. *)
Record conn : Type := mk_conn {
  c_state : cstate;   (* state *)
  c_slots : slab cslot;   (* sessions *)
  c_map : list (N * N);   (* sessions_map: remote channel to key *)
  c_error : option perr;   (* error *)
  c_notified : bool;   (* on_close is notified and locked *)
  c_chmax : N;   (* channel_max, u16 *)
  c_mfs : N;   (* max_frame_size *)
  c_sess : list ses;   (* table: sessions *)
  c_opens : list ofut;   (* table: futures of open_session *)
  c_ctl : list (option cctl);   (* table: unfinished control frames *)
  c_failed : bool;   (* ctl_error of the dispatcher is set *)
  c_io : option nat;   (* [io.close] was called when so many frames had been handed over *)
  c_out : list (N * frame)   (* frames handed to the io layer, with their channel, oldest first *)
}.
Definition set_c_state (v : cstate) (c : conn) : conn :=
  mk_conn v (c_slots c) (c_map c) (c_error c) (c_notified c) (c_chmax c) (c_mfs c) (c_sess c) (c_opens c) (c_ctl c) (c_failed c) (c_io c) (c_out c).
Definition set_c_slots (v : slab cslot) (c : conn) : conn :=
  mk_conn (c_state c) v (c_map c) (c_error c) (c_notified c) (c_chmax c) (c_mfs c) (c_sess c) (c_opens c) (c_ctl c) (c_failed c) (c_io c) (c_out c).
Definition set_c_map (v : list (N * N)) (c : conn) : conn :=
  mk_conn (c_state c) (c_slots c) v (c_error c) (c_notified c) (c_chmax c) (c_mfs c) (c_sess c) (c_opens c) (c_ctl c) (c_failed c) (c_io c) (c_out c).
Definition set_c_error (v : option perr) (c : conn) : conn :=
  mk_conn (c_state c) (c_slots c) (c_map c) v (c_notified c) (c_chmax c) (c_mfs c) (c_sess c) (c_opens c) (c_ctl c) (c_failed c) (c_io c) (c_out c).
Definition set_c_notified (v : bool) (c : conn) : conn :=
  mk_conn (c_state c) (c_slots c) (c_map c) (c_error c) v (c_chmax c) (c_mfs c) (c_sess c) (c_opens c) (c_ctl c) (c_failed c) (c_io c) (c_out c).
Definition set_c_chmax (v : N) (c : conn) : conn :=
  mk_conn (c_state c) (c_slots c) (c_map c) (c_error c) (c_notified c) v (c_mfs c) (c_sess c) (c_opens c) (c_ctl c) (c_failed c) (c_io c) (c_out c).
Definition set_c_mfs (v : N) (c : conn) : conn :=
  mk_conn (c_state c) (c_slots c) (c_map c) (c_error c) (c_notified c) (c_chmax c) v (c_sess c) (c_opens c) (c_ctl c) (c_failed c) (c_io c) (c_out c).
Definition set_c_sess (v : list ses) (c : conn) : conn :=
  mk_conn (c_state c) (c_slots c) (c_map c) (c_error c) (c_notified c) (c_chmax c) (c_mfs c) v (c_opens c) (c_ctl c) (c_failed c) (c_io c) (c_out c).
Definition set_c_opens (v : list ofut) (c : conn) : conn :=
  mk_conn (c_state c) (c_slots c) (c_map c) (c_error c) (c_notified c) (c_chmax c) (c_mfs c) (c_sess c) v (c_ctl c) (c_failed c) (c_io c) (c_out c).
Definition set_c_ctl (v : list (option cctl)) (c : conn) : conn :=
  mk_conn (c_state c) (c_slots c) (c_map c) (c_error c) (c_notified c) (c_chmax c) (c_mfs c) (c_sess c) (c_opens c) v (c_failed c) (c_io c) (c_out c).
Definition set_c_failed (v : bool) (c : conn) : conn :=
  mk_conn (c_state c) (c_slots c) (c_map c) (c_error c) (c_notified c) (c_chmax c) (c_mfs c) (c_sess c) (c_opens c) (c_ctl c) v (c_io c) (c_out c).
Definition set_c_io (v : option nat) (c : conn) : conn :=
  mk_conn (c_state c) (c_slots c) (c_map c) (c_error c) (c_notified c) (c_chmax c) (c_mfs c) (c_sess c) (c_opens c) (c_ctl c) (c_failed c) v (c_out c).
Definition set_c_out (v : list (N * frame)) (c : conn) : conn :=
  mk_conn (c_state c) (c_slots c) (c_map c) (c_error c) (c_notified c) (c_chmax c) (c_mfs c) (c_sess c) (c_opens c) (c_ctl c) (c_failed c) (c_io c) v.

(** connection.rs:58-77 [Connection::new]: [chmax] is the channel-max of this
    side's configuration, [mfs] the maximal frame size of the peer. *)
Definition conn_new (chmax mfs : N) : conn :=
  mk_conn CsNormal slab0 [] None false chmax mfs [] [] [] false None [].

(** connection.rs:194-203, 238-245 [post_frame]. *)
Definition cpost (ch : N) (f : frame) (c : conn) : conn := set_c_out (c_out c ++ [(ch, f)]) c.
(** [io.close()]. *)
Definition io_close (c : conn) : conn :=
  match c_io c with None => set_c_io (Some (length (c_out c))) c | Some _ => c end.

(** connection.rs:119-134 [is_opened]; [c_io] stands for [io.is_closed()], which
    is true some time after [io.close] at the latest. *)
Definition is_opened (c : conn) : bool :=
  match c_state c, c_error c with CsNormal, None => true | _, _ => false end.

(** Session [a] becomes [s]; the frames it posted go out on its channel
    (session.rs:1332-1334 [post_frame], 325-327 [id]). *)
Definition put_ses (a : nat) (s s' : ses) (c : conn) : conn :=
  set_c_out (c_out c ++ map (pair (as_u16 (s_id s))) (skipn (length (s_out s)) (s_out s')))
    (set_c_sess (set_nth a s' (c_sess c)) c).

(** The loop of connection.rs:221-228. *)
Definition fail_slot (e : perr) (ss : list ses) (sl : cslot) : list ses :=
  match sl with
  | CoEstablished a =>
      match nth_error ss a with Some s => set_nth a (ses_set_error e s) ss | None => ss end
  | _ => ss
  end.
(** [sessions.clear()] drops the senders of the sessions being opened: their
    futures get [Disconnected] (connection.rs:610). *)
Definition drop_slot (os : list ofut) (sl : cslot) : list ofut :=
  match sl with
  | CoOpening i =>
      match nth_error os i with Some OWait => set_nth i (ODone (inr EDisconnected)) os | _ => os end
  | _ => os
  end.
(** connection.rs:219-236 [set_error]. *)
Definition conn_set_error (e : perr) (c : conn) : conn :=
  let sls := slab_values (c_slots c) in
  let c := set_c_sess (fold_left (fail_slot e) sls (c_sess c)) c in
  let c := set_c_opens (fold_left drop_slot sls (c_opens c)) c in
  let c := set_c_map [] (set_c_slots slab0 c) in
  let c := set_c_error (match c_error c with Some e0 => Some e0 | None => Some e end) c in
  set_c_notified true c.

(** connection.rs:247-290 [register_remote_session]. *)
Definition register_remote (ch : N) (b : begin_t) (c : conn) : conn :=
  let key := slab_key (c_slots c) in
  let a := length (c_sess c) in
  let c := set_c_sess (c_sess c ++ [ses_new key false ch (c_mfs c) b]) c in
  let c := set_c_slots (slab_insert (CoEstablished a) (c_slots c)) c in
  let c := set_c_map (map_put ch key (c_map c)) c in
  cpost (as_u16 key)
    (FBegin (mk_begin (Some ch) 1 (two32 - 1) (begin_incoming_window b) (two32 - 1) None None None)) c.

(** connection.rs:292-349 [complete_session_creation].  The sender of a future
    that was dropped gives the value back, which is dropped. *)
Definition complete_session (local ch : N) (b : begin_t) (c : conn) : conn :=
  match slab_get (c_slots c) local with
  | Some (CoOpening i) =>
      let a := length (c_sess c) in
      let c := set_c_sess (c_sess c ++ [ses_new local true ch (c_mfs c) b]) c in
      let c := set_c_map (map_put ch local (c_map c)) c in
      let c := set_c_opens
                 (match nth_error (c_opens c) i with
                  | Some OWait => set_nth i (ODone (inl a)) (c_opens c)
                  | _ => c_opens c end) c in
      set_c_slots (slab_set local (CoEstablished a) (c_slots c)) c
  | _ => c
  end.

(** connection.rs:573-612 [open_session], up to its first wait. *)
Definition open_session (oc dc : option (list bytes)) (props : option (list (bytes * variant)))
    (c : conn) : conn :=
  let i := length (c_opens c) in
  match c_error c with
  | Some e => set_c_opens (c_opens c ++ [ODone (inr e)]) c
  | None =>
      let key := slab_key (c_slots c) in
      if c_chmax c <=? key then set_c_opens (c_opens c ++ [ODone (inr ETooManyChannels)]) c
      else
        let c := set_c_opens (c_opens c ++ [OWait]) c in
        let c := set_c_slots (slab_insert (CoOpening i) (c_slots c)) c in
        cpost (as_u16 key)
          (FBegin (mk_begin None 1 (two32 - 1) (two32 - 1) (two32 - 1) oc dc props)) c
  end.

(** connection.rs:186-192 [close_session]. *)
Definition close_session (k : N) (c : conn) : conn :=
  match slab_get (c_slots c) k with
  | Some (CoEstablished a) => set_c_slots (slab_set k (CoClosing a) (c_slots c)) c
  | _ => c
  end.

(** session.rs:101-128 [Session::end] of session [a]. *)
Definition conn_end (a : nat) (c : conn) : conn :=
  match nth_error (c_sess c) a with
  | Some s =>
      let c := if s_ended s || s_ending s then c else close_session (s_rchan s) c in
      put_ses a s (ses_end s) c
  | None => c
  end.

(** connection.rs:158-179 [close], [close_with_error]. *)
Definition conn_close (e : option error_t) (c : conn) : conn :=
  io_close (cpost 0 (FClose (mk_close e)) c).

(** connection.rs:119-124 [force_close]; also when the [Connection] is dropped
    (connection.rs:96-100). *)
Definition conn_force_close (c : conn) : conn :=
  conn_set_error EConnectionDropped (io_close (set_c_state CsDrop c)).

(** control.rs:84-87, dispatcher.rs:51-55. *)
Definition ccontrol (k : cctl) (c : conn) : conn := set_c_ctl (c_ctl c ++ [Some k]) c.

(** [sessions_map.remove] and [sessions.remove] (connection.rs:450-452, 464-466). *)
Definition forget (ch : N) (c : conn) : conn :=
  match map_get ch (c_map c) with
  | Some k => set_c_slots (slab_remove k (c_slots c)) (set_c_map (map_del ch (c_map c)) c)
  | None => c
  end.

(** What the code outside gets to see: something from a session, or an error of
    [Dispatcher::call] (dispatcher.rs:183-190). *)
Inductive cobs : Type :=
| ObSes (a : nat) (o : obs)
| ObErr (e : perr).

Definition ses_event (p : profile) (a : nat) (s : ses) (e : ev) (c : conn) : er (conn * list cobs) :=
  ebind (step p e s) (fun '(s', os) => EOk (put_ses a s s' c, map (ObSes a) os)).

(** connection.rs:351-481 [handle_frame], with what dispatcher.rs:180-260 does
    with the result. *)
Definition conn_frame (p : profile) (ch : N) (f : frame) (c : conn) : er (conn * list cobs) :=
  match f with
  | FEmpty => EOk (c, [])
  | FClose cl =>
      match c_state c with
      | CsClosing => EOk (conn_set_error EDisconnected c, [])
      | _ =>
          let e := EClosed (close_error cl) in
          let c := conn_set_error e c in
          let c := set_c_state CsRemoteClose (cpost 0 (FClose (mk_close None)) c) in
          EOk (ccontrol (KProtocolError e) c, [])
      end
  | FBegin b =>
      match begin_remote_channel b with
      | Some local => EOk (complete_session local ch b c, [])
      | None => EOk (register_remote ch b c, [])
      end
  | _ =>
      match c_error c with
      | Some _ => EOk (c, [])
      | None =>
          match match map_get ch (c_map c) with
                | Some k => slab_get (c_slots c) k
                | None => None end
          with
          | None => EOk (c, [ObErr (EUnknownSession f)])
          | Some (CoOpening _) => EOk (c, [ObErr (EUnexpectedOpeningState f)])
          | Some (CoEstablished a) =>
              match nth_error (c_sess c) a with
              | None => EOk (c, [])   (* cannot happen: [slots_wf] *)
              | Some s =>
                  match f with
                  | FAttach frm => ses_event p a s (EvAttach frm) c
                  | FEnd en =>
                      ebind (ses_event p a s (EvFail (ESessionEnded (end_error en))) c) (fun '(c, os) =>
                      EOk (cpost (as_u16 (s_id s)) (FEnd (mk_end None)) (forget ch c), os))
                  | _ =>
                      ebind (ses_event p a s (EvFrame f) c) (fun '(c, os) =>
                      ebind (ses_handle_frame p f s) (fun '(_, r) =>
                      EOk (c, os ++ match r with inl _ => [] | inr e => [ObErr e] end)))
                  end
              end
          | Some (CoClosing a) =>
              match nth_error (c_sess c) a with
              | None => EOk (c, [])   (* cannot happen: [slots_wf] *)
              | Some s =>
                  match f with
                  | FEnd en =>
                      ebind (ses_event p a s (EvFail (ESessionEnded (end_error en))) c) (fun '(c, os) =>
                      EOk (forget ch c, os))
                  | _ => EOk (c, [])
                  end
              end
          end
      end
  end.

(** ** What can happen to a connection *)

Inductive cev : Type :=
| CvFrame (ch : N) (f : frame)            (* a frame of the peer *)
| CvSes (a : nat) (e : ev)                (* the application or the control service, on session a *)
| CvEnd (a : nat)                         (* Session::end *)
| CvOpen (oc dc : option (list bytes)) (props : option (list (bytes * variant)))
                                          (* OpenSession is polled for the first time *)
| CvCancelOpen (i : nat)                  (* the future is dropped *)
| CvClose (e : option error_t)            (* close, close_with_error *)
| CvForceClose                            (* force_close, or the connection is dropped *)
| CvStop (e : perr)                       (* dispatcher.rs:262-281: encoder, decoder, timeouts *)
| CvStopIo                                (* dispatcher.rs:282-287: the transport is gone *)
| CvCtl (i : nat)                         (* the control service is done with a control frame *)
| CvReady                                 (* dispatcher.rs:67-73 *)
| CvNotReady (e : error_t)                (* dispatcher.rs:76-97: a service is not ready for ever *)
| CvIdle                                  (* dispatcher.rs:143-151: keep-alive *)
| CvShutdown.                             (* dispatcher.rs:156-168 *)

(** Events of a session that reach it without the connection. *)
Definition own_event (e : ev) : bool :=
  match e with
  | EvFrame _ | EvAttach _ | EvFail _ | EvEnd => false
  | _ => true
  end.

Definition cstep (p : profile) (e : cev) (c : conn) : er (conn * list cobs) :=
  match e with
  | CvFrame ch f => conn_frame p (as_u16 ch) f c   (* the channel of a frame is a u16 *)
  | CvSes a e =>
      match nth_error (c_sess c) a with
      | Some s => if own_event e then ses_event p a s e c else EOk (c, [])
      | None => EOk (c, []) end
  | CvEnd a => EOk (conn_end a c, [])
  | CvOpen oc dc props => EOk (open_session oc dc props c, [])
  | CvCancelOpen i =>
      EOk (match nth_error (c_opens c) i with
           | Some OWait => set_c_opens (set_nth i OGone (c_opens c)) c
           | _ => c end, [])
  | CvClose e => EOk (conn_close e c, [])
  | CvForceClose => EOk (conn_force_close c, [])
  | CvStop e => EOk (ccontrol (KProtocolError e) c, [])
  | CvStopIo => EOk (ccontrol KDisconnected c, [])
  | CvCtl i =>
      EOk (match nth_error (c_ctl c) i with
           | Some (Some k) =>
               let c := set_c_ctl (set_nth i None (c_ctl c)) c in
               match k with
               | KProtocolError e => set_c_failed true (conn_set_error e c)
               | KDisconnected => conn_set_error EDisconnected c
               end
           | _ => c end, [])
  | CvReady => EOk (if c_failed c then conn_close None (set_c_failed false c) else c, [])
  | CvNotReady e => EOk (conn_close (Some e) c, [])
  | CvIdle => EOk (cpost 0 FEmpty c, [])
  | CvShutdown => EOk (conn_set_error EDisconnected c, [])
  end.

Fixpoint crun (p : profile) (evs : list cev) (c : conn) : er (conn * list cobs) :=
  match evs with
  | [] => EOk (c, [])
  | e :: evs =>
      ebind (cstep p e c) (fun '(c, os) =>
      ebind (crun p evs c) (fun '(c, os') => EOk (c, os ++ os')))
  end.

(** A connection that came about in this way. *)
Definition creachable (p : profile) (c : conn) : Prop :=
  exists chmax mfs evs os, chmax < two16 /\ crun p evs (conn_new chmax mfs) = EOk (c, os).
