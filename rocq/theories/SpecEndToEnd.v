(** * Specification vocabulary: from one application to the other *)

From Verif Require Export SpecReceive SpecMark.
From Verif Require Import Framing SpecFraming.

(** The transfers of the link with this handle. *)
Definition on_handle (h : N) (ts : list transfer_t) : list transfer_t :=
  filter (fun t => transfer_handle (tr_head t) =? h) ts.
(** The bytes of the frames of a session that uses this channel. *)
Definition written (channel : N) (fs : list frame) : bytes :=
  flat_map (fun f => enc_amqp_frame (mk_frame channel f)) fs.
(** The transfers that a peer reads, whatever the pieces the bytes arrive in. *)
Definition read_transfers (p : profile) (max : N) (chunks : list bytes) : list transfer_t :=
  transfers (map fr_body (rd_frames (read_all (dec_amqp_frame p) max chunks))).
(** What the wire can carry, within the limit of the peer. *)
Definition carried (channel max : N) (f : frame) : Prop :=
  legal_amqp_frame (mk_frame channel f) /\ (max = 0 \/ blen (enc_amqp_frame (mk_frame channel f)) <= max).

(** The send future [t] has completed, on a link with this handle. *)
Definition sent_over (s : ses) (h : N) (t : nat) : Prop :=
  exists tk d l, send_done s t tk d /\ nth_error (s_snds s) (tk_link tk) = Some l /\ as_u32 (sn_id l) = h.
(** The order of the deliveries of a link on the wire, by their ids. *)
Definition wire_order (s : ses) (h : N) (sends : list nat) : Prop :=
  Forall2 (fun t i => exists tk d, send_done s t tk d /\ transfer_delivery_id (tr_head i) = Some (dl_id d))
    sends (filter (fun t => match transfer_delivery_id (tr_head t) with Some _ => true | None => false end)
                  (on_handle h (transfers (s_out s)))).
(** What was handed out in session [r] is what was sent by future [t] in session
    [s]: the same body, id, tag, settlement and message format. *)
Definition same_delivery (s r : ses) (x : nat * transfer_t) (t : nat) : Prop :=
  exists tk d e, send_done s t tk d /\ nth_error (s_dlvs r) (fst x) = Some e
    /\ body_of (snd x) = tb_enc (tk_body tk)
    /\ dl_id e = dl_id d /\ dl_tag e = dl_tag d
    /\ transfer_settled (tr_head (snd x)) = (if tk_settled tk then Some true else None)
    /\ transfer_message_format (tr_head (snd x)) = format_of tk.
