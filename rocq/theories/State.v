(** * State of the engine: src/{delivery,sndlink,rcvlink,session}.rs

    Generated by tools/gen_state.py: the records, and for every field [f] the
    function [set_f v s] which replaces it.

    Cells ([Rc<UnsafeCell<T>>], cell.rs) are addresses: positions in an
    append-only table of the session.  An address is a [nat]; numbers of the
    protocol are [N]. *)

From Verif Require Export Engine.

(** sndlink.rs:20-34 [SenderLinkInner].  [sn_pending]: the senders of
    [pending_transfers] are the addresses of their channels. *)
Record slink : Type := mk_slink {
  sn_id : N;   (* usize, key in the slab *)
  sn_name : bytes;
  sn_rhandle : N;   (* remote_handle *)
  sn_dc : N;   (* delivery_count, u32 *)
  sn_tag : N;   (* delivery_tag, u32 *)
  sn_credit : N;   (* link_credit, u32 *)
  sn_pending : list nat;
  sn_error : option perr;
  sn_closed : bool;
  sn_max : option N;   (* max_message_size *)
  sn_on_close : cond;
  sn_on_credit : cond
}.
Definition set_sn_id (v : N) (s : slink) : slink :=
  mk_slink v (sn_name s) (sn_rhandle s) (sn_dc s) (sn_tag s) (sn_credit s) (sn_pending
    s) (sn_error s) (sn_closed s) (sn_max s) (sn_on_close s) (sn_on_credit s).
Definition set_sn_name (v : bytes) (s : slink) : slink :=
  mk_slink (sn_id s) v (sn_rhandle s) (sn_dc s) (sn_tag s) (sn_credit s) (sn_pending s)
    (sn_error s) (sn_closed s) (sn_max s) (sn_on_close s) (sn_on_credit s).
Definition set_sn_rhandle (v : N) (s : slink) : slink :=
  mk_slink (sn_id s) (sn_name s) v (sn_dc s) (sn_tag s) (sn_credit s) (sn_pending s)
    (sn_error s) (sn_closed s) (sn_max s) (sn_on_close s) (sn_on_credit s).
Definition set_sn_dc (v : N) (s : slink) : slink :=
  mk_slink (sn_id s) (sn_name s) (sn_rhandle s) v (sn_tag s) (sn_credit s) (sn_pending
    s) (sn_error s) (sn_closed s) (sn_max s) (sn_on_close s) (sn_on_credit s).
Definition set_sn_tag (v : N) (s : slink) : slink :=
  mk_slink (sn_id s) (sn_name s) (sn_rhandle s) (sn_dc s) v (sn_credit s) (sn_pending s)
    (sn_error s) (sn_closed s) (sn_max s) (sn_on_close s) (sn_on_credit s).
Definition set_sn_credit (v : N) (s : slink) : slink :=
  mk_slink (sn_id s) (sn_name s) (sn_rhandle s) (sn_dc s) (sn_tag s) v (sn_pending s)
    (sn_error s) (sn_closed s) (sn_max s) (sn_on_close s) (sn_on_credit s).
Definition set_sn_pending (v : list nat) (s : slink) : slink :=
  mk_slink (sn_id s) (sn_name s) (sn_rhandle s) (sn_dc s) (sn_tag s) (sn_credit s) v
    (sn_error s) (sn_closed s) (sn_max s) (sn_on_close s) (sn_on_credit s).
Definition set_sn_error (v : option perr) (s : slink) : slink :=
  mk_slink (sn_id s) (sn_name s) (sn_rhandle s) (sn_dc s) (sn_tag s) (sn_credit s)
    (sn_pending s) v (sn_closed s) (sn_max s) (sn_on_close s) (sn_on_credit s).
Definition set_sn_closed (v : bool) (s : slink) : slink :=
  mk_slink (sn_id s) (sn_name s) (sn_rhandle s) (sn_dc s) (sn_tag s) (sn_credit s)
    (sn_pending s) (sn_error s) v (sn_max s) (sn_on_close s) (sn_on_credit s).
Definition set_sn_max (v : option N) (s : slink) : slink :=
  mk_slink (sn_id s) (sn_name s) (sn_rhandle s) (sn_dc s) (sn_tag s) (sn_credit s)
    (sn_pending s) (sn_error s) (sn_closed s) v (sn_on_close s) (sn_on_credit s).
Definition set_sn_on_close (v : cond) (s : slink) : slink :=
  mk_slink (sn_id s) (sn_name s) (sn_rhandle s) (sn_dc s) (sn_tag s) (sn_credit s)
    (sn_pending s) (sn_error s) (sn_closed s) (sn_max s) v (sn_on_credit s).
Definition set_sn_on_credit (v : cond) (s : slink) : slink :=
  mk_slink (sn_id s) (sn_name s) (sn_rhandle s) (sn_dc s) (sn_tag s) (sn_credit s)
    (sn_pending s) (sn_error s) (sn_closed s) (sn_max s) (sn_on_close s) v.

(** rcvlink.rs:22-36 [ReceiverLinkInner].  [rc_waker]: the task registered in
    [reader_task]; [rc_parked]: the tasks whose last [recv] returned [Pending]
    and that have not been woken since. *)
Record rlink : Type := mk_rlink {
  rc_name : bytes;
  rc_handle : N;
  rc_rhandle : N;
  rc_closed : bool;
  rc_waker : option nat;
  rc_parked : list nat;
  rc_queue : list (nat * transfer_t);   (* delivery and its first transfer *)
  rc_credit : N;   (* u32 *)
  rc_dc : N;   (* delivery_count, u32 *)
  rc_error : option error_t;
  rc_partial : option bytes;   (* partial_body *)
  rc_max : N   (* max_message_size, u64 *)
}.
Definition set_rc_name (v : bytes) (s : rlink) : rlink :=
  mk_rlink v (rc_handle s) (rc_rhandle s) (rc_closed s) (rc_waker s) (rc_parked s)
    (rc_queue s) (rc_credit s) (rc_dc s) (rc_error s) (rc_partial s) (rc_max s).
Definition set_rc_handle (v : N) (s : rlink) : rlink :=
  mk_rlink (rc_name s) v (rc_rhandle s) (rc_closed s) (rc_waker s) (rc_parked s)
    (rc_queue s) (rc_credit s) (rc_dc s) (rc_error s) (rc_partial s) (rc_max s).
Definition set_rc_rhandle (v : N) (s : rlink) : rlink :=
  mk_rlink (rc_name s) (rc_handle s) v (rc_closed s) (rc_waker s) (rc_parked s)
    (rc_queue s) (rc_credit s) (rc_dc s) (rc_error s) (rc_partial s) (rc_max s).
Definition set_rc_closed (v : bool) (s : rlink) : rlink :=
  mk_rlink (rc_name s) (rc_handle s) (rc_rhandle s) v (rc_waker s) (rc_parked s)
    (rc_queue s) (rc_credit s) (rc_dc s) (rc_error s) (rc_partial s) (rc_max s).
Definition set_rc_waker (v : option nat) (s : rlink) : rlink :=
  mk_rlink (rc_name s) (rc_handle s) (rc_rhandle s) (rc_closed s) v (rc_parked s)
    (rc_queue s) (rc_credit s) (rc_dc s) (rc_error s) (rc_partial s) (rc_max s).
Definition set_rc_parked (v : list nat) (s : rlink) : rlink :=
  mk_rlink (rc_name s) (rc_handle s) (rc_rhandle s) (rc_closed s) (rc_waker s) v
    (rc_queue s) (rc_credit s) (rc_dc s) (rc_error s) (rc_partial s) (rc_max s).
Definition set_rc_queue (v : list (nat * transfer_t)) (s : rlink) : rlink :=
  mk_rlink (rc_name s) (rc_handle s) (rc_rhandle s) (rc_closed s) (rc_waker s)
    (rc_parked s) v (rc_credit s) (rc_dc s) (rc_error s) (rc_partial s) (rc_max s).
Definition set_rc_credit (v : N) (s : rlink) : rlink :=
  mk_rlink (rc_name s) (rc_handle s) (rc_rhandle s) (rc_closed s) (rc_waker s)
    (rc_parked s) (rc_queue s) v (rc_dc s) (rc_error s) (rc_partial s) (rc_max s).
Definition set_rc_dc (v : N) (s : rlink) : rlink :=
  mk_rlink (rc_name s) (rc_handle s) (rc_rhandle s) (rc_closed s) (rc_waker s)
    (rc_parked s) (rc_queue s) (rc_credit s) v (rc_error s) (rc_partial s) (rc_max s).
Definition set_rc_error (v : option error_t) (s : rlink) : rlink :=
  mk_rlink (rc_name s) (rc_handle s) (rc_rhandle s) (rc_closed s) (rc_waker s)
    (rc_parked s) (rc_queue s) (rc_credit s) (rc_dc s) v (rc_partial s) (rc_max s).
Definition set_rc_partial (v : option bytes) (s : rlink) : rlink :=
  mk_rlink (rc_name s) (rc_handle s) (rc_rhandle s) (rc_closed s) (rc_waker s)
    (rc_parked s) (rc_queue s) (rc_credit s) (rc_dc s) (rc_error s) v (rc_max s).
Definition set_rc_max (v : N) (s : rlink) : rlink :=
  mk_rlink (rc_name s) (rc_handle s) (rc_rhandle s) (rc_closed s) (rc_waker s)
    (rc_parked s) (rc_queue s) (rc_credit s) (rc_dc s) (rc_error s) (rc_partial s) v.

(** delivery.rs:29-36 [DeliveryInner]. *)
Record dinner : Type := mk_dinner {
  di_handle : N;   (* local handle of the link *)
  di_settled : bool;
  di_state : option delivery_state;
  di_error : option perr;
  di_tx : option nat
}.
Definition set_di_handle (v : N) (s : dinner) : dinner :=
  mk_dinner v (di_settled s) (di_state s) (di_error s) (di_tx s).
Definition set_di_settled (v : bool) (s : dinner) : dinner :=
  mk_dinner (di_handle s) v (di_state s) (di_error s) (di_tx s).
Definition set_di_state (v : option delivery_state) (s : dinner) : dinner :=
  mk_dinner (di_handle s) (di_settled s) v (di_error s) (di_tx s).
Definition set_di_error (v : option perr) (s : dinner) : dinner :=
  mk_dinner (di_handle s) (di_settled s) (di_state s) v (di_tx s).
Definition set_di_tx (v : option nat) (s : dinner) : dinner :=
  mk_dinner (di_handle s) (di_settled s) (di_state s) (di_error s) v.

(** delivery.rs:14-28 [Delivery] and its flags.  [dl_alive]: not dropped yet. *)
Record dlv : Type := mk_dlv {
  dl_id : N;
  dl_tag : bytes;
  dl_sender : bool;   (* SENDER *)
  dl_local : bool;   (* LOCAL_SETTLED *)
  dl_remote : bool;   (* REMOTE_SETTLED *)
  dl_alive : bool
}.
Definition set_dl_id (v : N) (s : dlv) : dlv :=
  mk_dlv v (dl_tag s) (dl_sender s) (dl_local s) (dl_remote s) (dl_alive s).
Definition set_dl_tag (v : bytes) (s : dlv) : dlv :=
  mk_dlv (dl_id s) v (dl_sender s) (dl_local s) (dl_remote s) (dl_alive s).
Definition set_dl_sender (v : bool) (s : dlv) : dlv :=
  mk_dlv (dl_id s) (dl_tag s) v (dl_local s) (dl_remote s) (dl_alive s).
Definition set_dl_local (v : bool) (s : dlv) : dlv :=
  mk_dlv (dl_id s) (dl_tag s) (dl_sender s) v (dl_remote s) (dl_alive s).
Definition set_dl_remote (v : bool) (s : dlv) : dlv :=
  mk_dlv (dl_id s) (dl_tag s) (dl_sender s) (dl_local s) v (dl_alive s).
Definition set_dl_alive (v : bool) (s : dlv) : dlv :=
  mk_dlv (dl_id s) (dl_tag s) (dl_sender s) (dl_local s) (dl_remote s) v.

(** A future of [TransferBuilder::send] (delivery.rs:286-297, 328-359).
    [tk_took]: whether the code after the credit loop (sndlink.rs:359-361) has
    run, i.e. the future has used up one unit of credit. *)
Record stask : Type := mk_stask {
  tk_link : nat;
  tk_tag : option bytes;
  tk_body : transfer_body;
  tk_settled : bool;
  tk_format : option N;
  tk_took : bool;
  tk_st : tstate
}.
Definition set_tk_link (v : nat) (s : stask) : stask :=
  mk_stask v (tk_tag s) (tk_body s) (tk_settled s) (tk_format s) (tk_took s) (tk_st s).
Definition set_tk_tag (v : option bytes) (s : stask) : stask :=
  mk_stask (tk_link s) v (tk_body s) (tk_settled s) (tk_format s) (tk_took s) (tk_st s).
Definition set_tk_body (v : transfer_body) (s : stask) : stask :=
  mk_stask (tk_link s) (tk_tag s) v (tk_settled s) (tk_format s) (tk_took s) (tk_st s).
Definition set_tk_settled (v : bool) (s : stask) : stask :=
  mk_stask (tk_link s) (tk_tag s) (tk_body s) v (tk_format s) (tk_took s) (tk_st s).
Definition set_tk_format (v : option N) (s : stask) : stask :=
  mk_stask (tk_link s) (tk_tag s) (tk_body s) (tk_settled s) v (tk_took s) (tk_st s).
Definition set_tk_took (v : bool) (s : stask) : stask :=
  mk_stask (tk_link s) (tk_tag s) (tk_body s) (tk_settled s) (tk_format s) v (tk_st s).
Definition set_tk_st (v : tstate) (s : stask) : stask :=
  mk_stask (tk_link s) (tk_tag s) (tk_body s) (tk_settled s) (tk_format s) (tk_took s)
    v.

(** A future of [Delivery::wait] (delivery.rs:149-195). *)
Record wtask : Type := mk_wtask {
  wk_dlv : nat;
  wk_st : wstate
}.
Definition set_wk_dlv (v : nat) (s : wtask) : wtask :=
  mk_wtask v (wk_st s).
Definition set_wk_st (v : wstate) (s : wtask) : wtask :=
  mk_wtask (wk_dlv s) v.

(** session.rs:30-57 [SessionInner], followed by the tables of the cells it
    reaches, the frames handed to the io layer and the control frames
    (control.rs:29-43) that the control service has not finished with. *)
Record ses : Type := mk_ses {
  s_id : N;   (* usize, key in the connection slab *)
  s_local : bool;   (* flag LOCAL *)
  s_ended : bool;   (* flag ENDED *)
  s_ending : bool;   (* flag ENDING *)
  s_rchan : N;   (* remote_channel_id *)
  s_mfs : N;   (* sink.max_frame_size *)
  s_nout : N;   (* next_outgoing_id *)
  s_nin : N;   (* next_incoming_id *)
  s_owin : N;   (* remote_outgoing_window *)
  s_iwin : N;   (* remote_incoming_window *)
  s_links : slab link;
  s_names : list (bytes * N);   (* links_by_name *)
  s_rhandles : list (N * N);   (* remote_handles *)
  s_error : option perr;
  s_closed : cond;
  s_pending : list (nat * N);   (* pending_transfers: tx, link_handle *)
  s_snd : list (N * dinner);   (* unsettled_snd_deliveries *)
  s_rcv : list (N * dinner);   (* unsettled_rcv_deliveries *)
  s_chans : list chan;   (* table: channels *)
  s_snds : list slink;   (* table: sender links *)
  s_rcvs : list rlink;   (* table: receiver links *)
  s_dlvs : list dlv;   (* table: deliveries *)
  s_tasks : list stask;   (* table: send futures *)
  s_waits : list wtask;   (* table: wait futures *)
  s_ctl : list (option ctl);   (* table: unfinished control frames *)
  s_out : list frame   (* frames posted, oldest first *)
}.
Definition set_s_id (v : N) (s : ses) : ses :=
  mk_ses v (s_local s) (s_ended s) (s_ending s) (s_rchan s) (s_mfs s) (s_nout s) (s_nin
    s) (s_owin s) (s_iwin s) (s_links s) (s_names s) (s_rhandles s) (s_error s)
    (s_closed s) (s_pending s) (s_snd s) (s_rcv s) (s_chans s) (s_snds s) (s_rcvs s)
    (s_dlvs s) (s_tasks s) (s_waits s) (s_ctl s) (s_out s).
Definition set_s_local (v : bool) (s : ses) : ses :=
  mk_ses (s_id s) v (s_ended s) (s_ending s) (s_rchan s) (s_mfs s) (s_nout s) (s_nin s)
    (s_owin s) (s_iwin s) (s_links s) (s_names s) (s_rhandles s) (s_error s) (s_closed
    s) (s_pending s) (s_snd s) (s_rcv s) (s_chans s) (s_snds s) (s_rcvs s) (s_dlvs s)
    (s_tasks s) (s_waits s) (s_ctl s) (s_out s).
Definition set_s_ended (v : bool) (s : ses) : ses :=
  mk_ses (s_id s) (s_local s) v (s_ending s) (s_rchan s) (s_mfs s) (s_nout s) (s_nin s)
    (s_owin s) (s_iwin s) (s_links s) (s_names s) (s_rhandles s) (s_error s) (s_closed
    s) (s_pending s) (s_snd s) (s_rcv s) (s_chans s) (s_snds s) (s_rcvs s) (s_dlvs s)
    (s_tasks s) (s_waits s) (s_ctl s) (s_out s).
Definition set_s_ending (v : bool) (s : ses) : ses :=
  mk_ses (s_id s) (s_local s) (s_ended s) v (s_rchan s) (s_mfs s) (s_nout s) (s_nin s)
    (s_owin s) (s_iwin s) (s_links s) (s_names s) (s_rhandles s) (s_error s) (s_closed
    s) (s_pending s) (s_snd s) (s_rcv s) (s_chans s) (s_snds s) (s_rcvs s) (s_dlvs s)
    (s_tasks s) (s_waits s) (s_ctl s) (s_out s).
Definition set_s_rchan (v : N) (s : ses) : ses :=
  mk_ses (s_id s) (s_local s) (s_ended s) (s_ending s) v (s_mfs s) (s_nout s) (s_nin s)
    (s_owin s) (s_iwin s) (s_links s) (s_names s) (s_rhandles s) (s_error s) (s_closed
    s) (s_pending s) (s_snd s) (s_rcv s) (s_chans s) (s_snds s) (s_rcvs s) (s_dlvs s)
    (s_tasks s) (s_waits s) (s_ctl s) (s_out s).
Definition set_s_mfs (v : N) (s : ses) : ses :=
  mk_ses (s_id s) (s_local s) (s_ended s) (s_ending s) (s_rchan s) v (s_nout s) (s_nin
    s) (s_owin s) (s_iwin s) (s_links s) (s_names s) (s_rhandles s) (s_error s)
    (s_closed s) (s_pending s) (s_snd s) (s_rcv s) (s_chans s) (s_snds s) (s_rcvs s)
    (s_dlvs s) (s_tasks s) (s_waits s) (s_ctl s) (s_out s).
Definition set_s_nout (v : N) (s : ses) : ses :=
  mk_ses (s_id s) (s_local s) (s_ended s) (s_ending s) (s_rchan s) (s_mfs s) v (s_nin s)
    (s_owin s) (s_iwin s) (s_links s) (s_names s) (s_rhandles s) (s_error s) (s_closed
    s) (s_pending s) (s_snd s) (s_rcv s) (s_chans s) (s_snds s) (s_rcvs s) (s_dlvs s)
    (s_tasks s) (s_waits s) (s_ctl s) (s_out s).
Definition set_s_nin (v : N) (s : ses) : ses :=
  mk_ses (s_id s) (s_local s) (s_ended s) (s_ending s) (s_rchan s) (s_mfs s) (s_nout s)
    v (s_owin s) (s_iwin s) (s_links s) (s_names s) (s_rhandles s) (s_error s) (s_closed
    s) (s_pending s) (s_snd s) (s_rcv s) (s_chans s) (s_snds s) (s_rcvs s) (s_dlvs s)
    (s_tasks s) (s_waits s) (s_ctl s) (s_out s).
Definition set_s_owin (v : N) (s : ses) : ses :=
  mk_ses (s_id s) (s_local s) (s_ended s) (s_ending s) (s_rchan s) (s_mfs s) (s_nout s)
    (s_nin s) v (s_iwin s) (s_links s) (s_names s) (s_rhandles s) (s_error s) (s_closed
    s) (s_pending s) (s_snd s) (s_rcv s) (s_chans s) (s_snds s) (s_rcvs s) (s_dlvs s)
    (s_tasks s) (s_waits s) (s_ctl s) (s_out s).
Definition set_s_iwin (v : N) (s : ses) : ses :=
  mk_ses (s_id s) (s_local s) (s_ended s) (s_ending s) (s_rchan s) (s_mfs s) (s_nout s)
    (s_nin s) (s_owin s) v (s_links s) (s_names s) (s_rhandles s) (s_error s) (s_closed
    s) (s_pending s) (s_snd s) (s_rcv s) (s_chans s) (s_snds s) (s_rcvs s) (s_dlvs s)
    (s_tasks s) (s_waits s) (s_ctl s) (s_out s).
Definition set_s_links (v : slab link) (s : ses) : ses :=
  mk_ses (s_id s) (s_local s) (s_ended s) (s_ending s) (s_rchan s) (s_mfs s) (s_nout s)
    (s_nin s) (s_owin s) (s_iwin s) v (s_names s) (s_rhandles s) (s_error s) (s_closed
    s) (s_pending s) (s_snd s) (s_rcv s) (s_chans s) (s_snds s) (s_rcvs s) (s_dlvs s)
    (s_tasks s) (s_waits s) (s_ctl s) (s_out s).
Definition set_s_names (v : list (bytes * N)) (s : ses) : ses :=
  mk_ses (s_id s) (s_local s) (s_ended s) (s_ending s) (s_rchan s) (s_mfs s) (s_nout s)
    (s_nin s) (s_owin s) (s_iwin s) (s_links s) v (s_rhandles s) (s_error s) (s_closed
    s) (s_pending s) (s_snd s) (s_rcv s) (s_chans s) (s_snds s) (s_rcvs s) (s_dlvs s)
    (s_tasks s) (s_waits s) (s_ctl s) (s_out s).
Definition set_s_rhandles (v : list (N * N)) (s : ses) : ses :=
  mk_ses (s_id s) (s_local s) (s_ended s) (s_ending s) (s_rchan s) (s_mfs s) (s_nout s)
    (s_nin s) (s_owin s) (s_iwin s) (s_links s) (s_names s) v (s_error s) (s_closed s)
    (s_pending s) (s_snd s) (s_rcv s) (s_chans s) (s_snds s) (s_rcvs s) (s_dlvs s)
    (s_tasks s) (s_waits s) (s_ctl s) (s_out s).
Definition set_s_error (v : option perr) (s : ses) : ses :=
  mk_ses (s_id s) (s_local s) (s_ended s) (s_ending s) (s_rchan s) (s_mfs s) (s_nout s)
    (s_nin s) (s_owin s) (s_iwin s) (s_links s) (s_names s) (s_rhandles s) v (s_closed
    s) (s_pending s) (s_snd s) (s_rcv s) (s_chans s) (s_snds s) (s_rcvs s) (s_dlvs s)
    (s_tasks s) (s_waits s) (s_ctl s) (s_out s).
Definition set_s_closed (v : cond) (s : ses) : ses :=
  mk_ses (s_id s) (s_local s) (s_ended s) (s_ending s) (s_rchan s) (s_mfs s) (s_nout s)
    (s_nin s) (s_owin s) (s_iwin s) (s_links s) (s_names s) (s_rhandles s) (s_error s) v
    (s_pending s) (s_snd s) (s_rcv s) (s_chans s) (s_snds s) (s_rcvs s) (s_dlvs s)
    (s_tasks s) (s_waits s) (s_ctl s) (s_out s).
Definition set_s_pending (v : list (nat * N)) (s : ses) : ses :=
  mk_ses (s_id s) (s_local s) (s_ended s) (s_ending s) (s_rchan s) (s_mfs s) (s_nout s)
    (s_nin s) (s_owin s) (s_iwin s) (s_links s) (s_names s) (s_rhandles s) (s_error s)
    (s_closed s) v (s_snd s) (s_rcv s) (s_chans s) (s_snds s) (s_rcvs s) (s_dlvs s)
    (s_tasks s) (s_waits s) (s_ctl s) (s_out s).
Definition set_s_snd (v : list (N * dinner)) (s : ses) : ses :=
  mk_ses (s_id s) (s_local s) (s_ended s) (s_ending s) (s_rchan s) (s_mfs s) (s_nout s)
    (s_nin s) (s_owin s) (s_iwin s) (s_links s) (s_names s) (s_rhandles s) (s_error s)
    (s_closed s) (s_pending s) v (s_rcv s) (s_chans s) (s_snds s) (s_rcvs s) (s_dlvs s)
    (s_tasks s) (s_waits s) (s_ctl s) (s_out s).
Definition set_s_rcv (v : list (N * dinner)) (s : ses) : ses :=
  mk_ses (s_id s) (s_local s) (s_ended s) (s_ending s) (s_rchan s) (s_mfs s) (s_nout s)
    (s_nin s) (s_owin s) (s_iwin s) (s_links s) (s_names s) (s_rhandles s) (s_error s)
    (s_closed s) (s_pending s) (s_snd s) v (s_chans s) (s_snds s) (s_rcvs s) (s_dlvs s)
    (s_tasks s) (s_waits s) (s_ctl s) (s_out s).
Definition set_s_chans (v : list chan) (s : ses) : ses :=
  mk_ses (s_id s) (s_local s) (s_ended s) (s_ending s) (s_rchan s) (s_mfs s) (s_nout s)
    (s_nin s) (s_owin s) (s_iwin s) (s_links s) (s_names s) (s_rhandles s) (s_error s)
    (s_closed s) (s_pending s) (s_snd s) (s_rcv s) v (s_snds s) (s_rcvs s) (s_dlvs s)
    (s_tasks s) (s_waits s) (s_ctl s) (s_out s).
Definition set_s_snds (v : list slink) (s : ses) : ses :=
  mk_ses (s_id s) (s_local s) (s_ended s) (s_ending s) (s_rchan s) (s_mfs s) (s_nout s)
    (s_nin s) (s_owin s) (s_iwin s) (s_links s) (s_names s) (s_rhandles s) (s_error s)
    (s_closed s) (s_pending s) (s_snd s) (s_rcv s) (s_chans s) v (s_rcvs s) (s_dlvs s)
    (s_tasks s) (s_waits s) (s_ctl s) (s_out s).
Definition set_s_rcvs (v : list rlink) (s : ses) : ses :=
  mk_ses (s_id s) (s_local s) (s_ended s) (s_ending s) (s_rchan s) (s_mfs s) (s_nout s)
    (s_nin s) (s_owin s) (s_iwin s) (s_links s) (s_names s) (s_rhandles s) (s_error s)
    (s_closed s) (s_pending s) (s_snd s) (s_rcv s) (s_chans s) (s_snds s) v (s_dlvs s)
    (s_tasks s) (s_waits s) (s_ctl s) (s_out s).
Definition set_s_dlvs (v : list dlv) (s : ses) : ses :=
  mk_ses (s_id s) (s_local s) (s_ended s) (s_ending s) (s_rchan s) (s_mfs s) (s_nout s)
    (s_nin s) (s_owin s) (s_iwin s) (s_links s) (s_names s) (s_rhandles s) (s_error s)
    (s_closed s) (s_pending s) (s_snd s) (s_rcv s) (s_chans s) (s_snds s) (s_rcvs s) v
    (s_tasks s) (s_waits s) (s_ctl s) (s_out s).
Definition set_s_tasks (v : list stask) (s : ses) : ses :=
  mk_ses (s_id s) (s_local s) (s_ended s) (s_ending s) (s_rchan s) (s_mfs s) (s_nout s)
    (s_nin s) (s_owin s) (s_iwin s) (s_links s) (s_names s) (s_rhandles s) (s_error s)
    (s_closed s) (s_pending s) (s_snd s) (s_rcv s) (s_chans s) (s_snds s) (s_rcvs s)
    (s_dlvs s) v (s_waits s) (s_ctl s) (s_out s).
Definition set_s_waits (v : list wtask) (s : ses) : ses :=
  mk_ses (s_id s) (s_local s) (s_ended s) (s_ending s) (s_rchan s) (s_mfs s) (s_nout s)
    (s_nin s) (s_owin s) (s_iwin s) (s_links s) (s_names s) (s_rhandles s) (s_error s)
    (s_closed s) (s_pending s) (s_snd s) (s_rcv s) (s_chans s) (s_snds s) (s_rcvs s)
    (s_dlvs s) (s_tasks s) v (s_ctl s) (s_out s).
Definition set_s_ctl (v : list (option ctl)) (s : ses) : ses :=
  mk_ses (s_id s) (s_local s) (s_ended s) (s_ending s) (s_rchan s) (s_mfs s) (s_nout s)
    (s_nin s) (s_owin s) (s_iwin s) (s_links s) (s_names s) (s_rhandles s) (s_error s)
    (s_closed s) (s_pending s) (s_snd s) (s_rcv s) (s_chans s) (s_snds s) (s_rcvs s)
    (s_dlvs s) (s_tasks s) (s_waits s) v (s_out s).
Definition set_s_out (v : list frame) (s : ses) : ses :=
  mk_ses (s_id s) (s_local s) (s_ended s) (s_ending s) (s_rchan s) (s_mfs s) (s_nout s)
    (s_nin s) (s_owin s) (s_iwin s) (s_links s) (s_names s) (s_rhandles s) (s_error s)
    (s_closed s) (s_pending s) (s_snd s) (s_rcv s) (s_chans s) (s_snds s) (s_rcvs s)
    (s_dlvs s) (s_tasks s) (s_waits s) (s_ctl s) v.

(** For proofs: reduce projections of setters and nothing else. *)
Ltac st_cbn :=
  cbn [sn_id sn_name sn_rhandle sn_dc sn_tag sn_credit sn_pending sn_error sn_closed
    sn_max sn_on_close sn_on_credit rc_name rc_handle rc_rhandle rc_closed rc_waker
    rc_parked rc_queue rc_credit rc_dc rc_error rc_partial rc_max di_handle di_settled
    di_state di_error di_tx dl_id dl_tag dl_sender dl_local dl_remote dl_alive tk_link
    tk_tag tk_body tk_settled tk_format tk_took tk_st wk_dlv wk_st s_id s_local s_ended
    s_ending s_rchan s_mfs s_nout s_nin s_owin s_iwin s_links s_names s_rhandles s_error
    s_closed s_pending s_snd s_rcv s_chans s_snds s_rcvs s_dlvs s_tasks s_waits s_ctl
    s_out set_sn_id set_sn_name set_sn_rhandle set_sn_dc set_sn_tag set_sn_credit
    set_sn_pending set_sn_error set_sn_closed set_sn_max set_sn_on_close
    set_sn_on_credit set_rc_name set_rc_handle set_rc_rhandle set_rc_closed set_rc_waker
    set_rc_parked set_rc_queue set_rc_credit set_rc_dc set_rc_error set_rc_partial
    set_rc_max set_di_handle set_di_settled set_di_state set_di_error set_di_tx
    set_dl_id set_dl_tag set_dl_sender set_dl_local set_dl_remote set_dl_alive
    set_tk_link set_tk_tag set_tk_body set_tk_settled set_tk_format set_tk_took
    set_tk_st set_wk_dlv set_wk_st set_s_id set_s_local set_s_ended set_s_ending
    set_s_rchan set_s_mfs set_s_nout set_s_nin set_s_owin set_s_iwin set_s_links
    set_s_names set_s_rhandles set_s_error set_s_closed set_s_pending set_s_snd
    set_s_rcv set_s_chans set_s_snds set_s_rcvs set_s_dlvs set_s_tasks set_s_waits
    set_s_ctl set_s_out].
Ltac st_cbn_in H :=
  cbn [sn_id sn_name sn_rhandle sn_dc sn_tag sn_credit sn_pending sn_error sn_closed
    sn_max sn_on_close sn_on_credit rc_name rc_handle rc_rhandle rc_closed rc_waker
    rc_parked rc_queue rc_credit rc_dc rc_error rc_partial rc_max di_handle di_settled
    di_state di_error di_tx dl_id dl_tag dl_sender dl_local dl_remote dl_alive tk_link
    tk_tag tk_body tk_settled tk_format tk_took tk_st wk_dlv wk_st s_id s_local s_ended
    s_ending s_rchan s_mfs s_nout s_nin s_owin s_iwin s_links s_names s_rhandles s_error
    s_closed s_pending s_snd s_rcv s_chans s_snds s_rcvs s_dlvs s_tasks s_waits s_ctl
    s_out set_sn_id set_sn_name set_sn_rhandle set_sn_dc set_sn_tag set_sn_credit
    set_sn_pending set_sn_error set_sn_closed set_sn_max set_sn_on_close
    set_sn_on_credit set_rc_name set_rc_handle set_rc_rhandle set_rc_closed set_rc_waker
    set_rc_parked set_rc_queue set_rc_credit set_rc_dc set_rc_error set_rc_partial
    set_rc_max set_di_handle set_di_settled set_di_state set_di_error set_di_tx
    set_dl_id set_dl_tag set_dl_sender set_dl_local set_dl_remote set_dl_alive
    set_tk_link set_tk_tag set_tk_body set_tk_settled set_tk_format set_tk_took
    set_tk_st set_wk_dlv set_wk_st set_s_id set_s_local set_s_ended set_s_ending
    set_s_rchan set_s_mfs set_s_nout set_s_nin set_s_owin set_s_iwin set_s_links
    set_s_names set_s_rhandles set_s_error set_s_closed set_s_pending set_s_snd
    set_s_rcv set_s_chans set_s_snds set_s_rcvs set_s_dlvs set_s_tasks set_s_waits
    set_s_ctl set_s_out] in H.
Ltac st_cbn_all :=
  cbn [sn_id sn_name sn_rhandle sn_dc sn_tag sn_credit sn_pending sn_error sn_closed
    sn_max sn_on_close sn_on_credit rc_name rc_handle rc_rhandle rc_closed rc_waker
    rc_parked rc_queue rc_credit rc_dc rc_error rc_partial rc_max di_handle di_settled
    di_state di_error di_tx dl_id dl_tag dl_sender dl_local dl_remote dl_alive tk_link
    tk_tag tk_body tk_settled tk_format tk_took tk_st wk_dlv wk_st s_id s_local s_ended
    s_ending s_rchan s_mfs s_nout s_nin s_owin s_iwin s_links s_names s_rhandles s_error
    s_closed s_pending s_snd s_rcv s_chans s_snds s_rcvs s_dlvs s_tasks s_waits s_ctl
    s_out set_sn_id set_sn_name set_sn_rhandle set_sn_dc set_sn_tag set_sn_credit
    set_sn_pending set_sn_error set_sn_closed set_sn_max set_sn_on_close
    set_sn_on_credit set_rc_name set_rc_handle set_rc_rhandle set_rc_closed set_rc_waker
    set_rc_parked set_rc_queue set_rc_credit set_rc_dc set_rc_error set_rc_partial
    set_rc_max set_di_handle set_di_settled set_di_state set_di_error set_di_tx
    set_dl_id set_dl_tag set_dl_sender set_dl_local set_dl_remote set_dl_alive
    set_tk_link set_tk_tag set_tk_body set_tk_settled set_tk_format set_tk_took
    set_tk_st set_wk_dlv set_wk_st set_s_id set_s_local set_s_ended set_s_ending
    set_s_rchan set_s_mfs set_s_nout set_s_nin set_s_owin set_s_iwin set_s_links
    set_s_names set_s_rhandles set_s_error set_s_closed set_s_pending set_s_snd
    set_s_rcv set_s_chans set_s_snds set_s_rcvs set_s_dlvs set_s_tasks set_s_waits
    set_s_ctl set_s_out] in *.
