(** * Vocabulary of the engine: errors, slabs, maps, channels, conditions

    The parts of the standard library and of the ntex and slab crates that
    src/*.rs relies on, as small functional structures. *)

From Verif Require Export Framing.

(** ** Errors *)

(** error.rs:38-67 [AmqpProtocolError]. *)
Inductive perr : Type :=
| ECodec (e : codec_error)
| ETooManyChannels | EBodyTooLarge | EKeepAliveTimeout | EReadTimeout
| EDisconnected
| EUnknownSession (f : frame) | EUnknownLink (f : frame)
| EClosed (e : option error_t)
| ESessionEnded (e : option error_t)
| ELinkDetached (e : option error_t)
| EUnexpectedOpeningState (f : frame)
| EUnexpected (f : frame)
| EConnectionDropped.

(** Ways in which the engine can panic. *)
Inductive epanic : Type :=
| EPOverflow        (* rcvlink.rs:293, 359, 426: [+=] with overflow checks enabled *)
| EPMissingLink     (* session.rs:481-486: [expect("new remote sender entry must exist")] *)
| EPUnimplemented.  (* session.rs:760: [unimplemented!()] *)
Inductive er (A : Type) : Type := EOk (a : A) | EPanic (p : epanic).
Arguments EOk {A} a.
Arguments EPanic {A} p.
Definition ebind {A B} (m : er A) (f : A -> er B) : er B :=
  match m with EOk a => f a | EPanic p => EPanic p end.
Definition emap {A B} (f : A -> B) (m : er A) : er B :=
  match m with EOk a => EOk (f a) | EPanic p => EPanic p end.

(** ** Integers *)

(** [u32] arithmetic: [wrapping_add], [wrapping_sub], [as u32], [as u16]. *)
Definition two16 : N := 65536.
Definition two32 : N := 4294967296.
Definition wadd (a b : N) : N := (a + b) mod two32.
Definition wsub (a b : N) : N := (a + two32 - b mod two32) mod two32.
Definition as_u32 (n : N) : N := n mod two32.
Definition as_u16 (n : N) : N := n mod two16.
(** [a += b] on [u32]: a panic with overflow checks, wrapping without. *)
Definition checked_add (p : profile) (a b : N) : er N :=
  if a + b <? two32 then EOk (a + b)
  else match p with Debug => EPanic EPOverflow | Release => EOk (wadd a b) end.

(** ** Lists used as tables *)

(** Replace the element at a position, if it exists. *)
Fixpoint set_nth {A} (i : nat) (a : A) (l : list A) : list A :=
  match l, i with
  | [], _ => []
  | _ :: l', O => a :: l'
  | x :: l', S i' => x :: set_nth i' a l'
  end.

(** ** [slab::Slab]

    [sl_free] is the chain of vacant entries, last freed first: [vacant_entry]
    takes its head, and the end of the vector if there is none. *)
Record slab (A : Type) : Type := mk_slab {
  sl_items : list (option A);
  sl_free : list N
}.
Arguments mk_slab {A} _ _.
Arguments sl_items {A} _.
Arguments sl_free {A} _.
Definition slab0 {A} : slab A := mk_slab [] [].
Definition slab_get {A} (s : slab A) (k : N) : option A :=
  match nth_error (sl_items s) (N.to_nat k) with Some (Some a) => Some a | _ => None end.
Definition slab_key {A} (s : slab A) : N :=
  match sl_free s with k :: _ => k | [] => N.of_nat (length (sl_items s)) end.
(** [vacant_entry().insert(a)]. *)
Definition slab_insert {A} (a : A) (s : slab A) : slab A :=
  match sl_free s with
  | k :: fr => mk_slab (set_nth (N.to_nat k) (Some a) (sl_items s)) fr
  | [] => mk_slab (sl_items s ++ [Some a]) []
  end.
(** Write through [get_mut]. *)
Definition slab_set {A} (k : N) (a : A) (s : slab A) : slab A :=
  match slab_get s k with
  | Some _ => mk_slab (set_nth (N.to_nat k) (Some a) (sl_items s)) (sl_free s)
  | None => s
  end.
(** [remove], only called when the key is occupied. *)
Definition slab_remove {A} (k : N) (s : slab A) : slab A :=
  match slab_get s k with
  | Some _ => mk_slab (set_nth (N.to_nat k) None (sl_items s)) (k :: sl_free s)
  | None => s
  end.
(** [iter]: the values in key order. *)
Fixpoint somes {A} (l : list (option A)) : list A :=
  match l with
  | [] => []
  | Some a :: l' => a :: somes l'
  | None :: l' => somes l'
  end.
Definition slab_values {A} (s : slab A) : list A := somes (sl_items s).

(** ** [HashMap]: an association list without duplicate keys *)
Fixpoint map_get {A} (k : N) (m : list (N * A)) : option A :=
  match m with
  | [] => None
  | (k', a) :: m' => if k =? k' then Some a else map_get k m'
  end.
Definition map_del {A} (k : N) (m : list (N * A)) : list (N * A) :=
  filter (fun '(k', _) => negb (k =? k')) m.
Definition map_put {A} (k : N) (a : A) (m : list (N * A)) : list (N * A) :=
  (k, a) :: map_del k m.
(** Write through [get_mut]: the position in the iteration order is kept. *)
Definition map_upd {A} (k : N) (a : A) (m : list (N * A)) : list (N * A) :=
  map (fun '(k', b) => if k =? k' then (k', a) else (k', b)) m.
Definition map_vals {A} (f : A -> A) (m : list (N * A)) : list (N * A) :=
  map (fun '(k, a) => (k, f a)) m.

(** Maps keyed by strings. *)
Fixpoint name_get (k : bytes) (m : list (bytes * N)) : option N :=
  match m with
  | [] => None
  | (k', a) :: m' => if beqb k k' then Some a else name_get k m'
  end.
Definition name_del (k : bytes) (m : list (bytes * N)) : list (bytes * N) :=
  filter (fun '(k', _) => negb (beqb k k')) m.
Definition name_put (k : bytes) (a : N) (m : list (bytes * N)) : list (bytes * N) :=
  (k, a) :: name_del k m.

(** ** Channels

    [ntex_util::channel::{oneshot, pool}]: one value at most travels from the
    sender to the receiver.  [CGone]: the sender was dropped without sending.
    A channel is created waiting; what it then holds never changes, so a future
    that awaits it completes exactly when it is not [CWait] any more. *)
Inductive cval : Type :=
| VOk                  (* [Ok(())], or the [()] of [pool_notify] *)
| VSender (a : nat)    (* [Ok(sender link)] *)
| VReceiver (a : nat)  (* [Ok(receiver link)] *)
| VErr (e : perr).     (* [Err(e)] *)
Inductive chan : Type := CWait | CSent (v : cval) | CGone.

Definition put_chan (c : nat) (st : chan) (l : list chan) : list chan :=
  match nth_error l c with
  | Some CWait => set_nth c st l
  | _ => l
  end.

(** [ntex_util::channel::condition::Condition]: [notify] releases every waiter,
    [notify_and_lock_readiness] also every later one. *)
Record cond : Type := mk_cond { cd_wait : list nat; cd_lock : bool }.
Definition cond0 : cond := mk_cond [] false.

(** ** Enumerations used by the records of State.v *)

(** session.rs:241-262 [SenderLinkState], [ReceiverLinkState] and their
    [Either]; links are addresses of cells, [tx] addresses of channels. *)
Inductive link : Type :=
| SEstablished (a : nat)
| SOpeningRemote
| SOpening (tx : option nat)
| SClosing (tx : option nat)
| ROpening (l : option (nat * option source_t))
| ROpeningLocal (l : option (nat * nat))
| REstablished (a : nat)
| RClosing (tx : option nat).

(** Where a send future is: not polled yet; waiting for link credit
    (sndlink.rs:350), or for the session window (session.rs:1202), with its
    delivery tag and channel; finished with a delivery or an error; dropped. *)
Inductive tstate : Type :=
| TNew
| TLink (tag : bytes) (c : nat)
| TSess (tag : bytes) (c : nat)
| TDone (r : nat + perr)
| TGone.

(** Where a wait future is. *)
Inductive wstate : Type :=
| WNew
| WWait (c : nat)
| WDone (r : option delivery_state + perr)
| WGone.

(** control.rs:29-43 [ControlFrameKind], those that belong to a session, and
    the calls of the publish service (types.rs:15-20 [Message]) that the
    dispatcher waits for. *)
Inductive ctl : Type :=
| KAttachSender (frm response : attach_t) (a : nat)
| KAttachReceiver (frm response : attach_t) (a : nat)
| KFlow (f : flow_t) (a : nat)
| KLocalDetachSender (d : detach_t) (a : nat)
| KRemoteDetachSender (d : detach_t) (a : nat)
| KLocalDetachReceiver (d : detach_t) (a : nat)
| KRemoteDetachReceiver (d : detach_t) (a : nat)
| KAttached (response : attach_t) (a : nat)   (* dispatcher.rs:337-350 *)
| KTransfer (a : nat).                        (* dispatcher.rs:201-212 *)
