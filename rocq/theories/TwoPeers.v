(** * The two ends of one link: sndlink.rs, rcvlink.rs

    Both ends are endpoints of this library, joined by two reliable ordered
    channels; of the frames only what the counters depend on is kept.  The
    functions are those of [Session.v] ([send_ok], [apply_flow],
    [set_link_credit], [rcv_transfer]) with the rest of the session left out;
    [TwoPeersLink.v] relates them. *)

From Verif Require Import Base.
From Verif Require Import Session.

(** The sending end: [delivery_count] and [link_credit] (sndlink.rs:26-27), and
    the deliveries that have taken credit and the last frame of which has not
    been sent (they may wait for the session's window).  The channel to the
    receiver: for each frame its [more] flag.  The channel back: delivery-count
    and link-credit of each flow.  The receiving end: [delivery_count] and
    [credit] (rcvlink.rs:33-34), and whether it closed the link because of a
    transfer beyond its credit. *)
Record pair := mk_pair {
  pr_dc : N; pr_credit : N; pr_open : N;
  pr_frames : list bool; pr_flows : list (N * N);
  pr_rdc : N; pr_rcredit : N; pr_exceeded : bool
}.
(** Both ends start to count at the same number, without credit
    (sndlink.rs:194, rcvlink.rs:231; session.rs:591). *)
Definition pair_init (dc : N) : pair := mk_pair dc 0 0 [] [] dc 0 false.

Inductive pair_event :=
| PSend                (* a send takes credit *)
| PFrame (more : bool) (* a frame of a started delivery is sent *)
| PAbandon             (* a send is dropped while it waits *)
| PFlow                (* the oldest flow reaches the sender *)
| PGrant (n : N)       (* the receiver grants credit *)
| PReceive.            (* the oldest transfer reaches the receiver *)

Definition pair_step (e : pair_event) (x : pair) : pair :=
  match e with
  | PSend =>
      (* sndlink.rs:339-362 *)
      if pr_credit x =? 0 then x
      else mk_pair (wadd (pr_dc x) 1) (pr_credit x - 1) (pr_open x + 1) (pr_frames x) (pr_flows x)
                   (pr_rdc x) (pr_rcredit x) (pr_exceeded x)
  | PFrame more =>
      (* session.rs:1195-1330 [send_transfer] *)
      if pr_open x =? 0 then x
      else mk_pair (pr_dc x) (pr_credit x) (if more then pr_open x else pr_open x - 1) (pr_frames x ++ [more]) (pr_flows x)
                   (pr_rdc x) (pr_rcredit x) (pr_exceeded x)
  | PAbandon =>
      mk_pair (pr_dc x) (pr_credit x) (pr_open x - 1) (pr_frames x) (pr_flows x)
              (pr_rdc x) (pr_rcredit x) (pr_exceeded x)
  | PFlow =>
      (* sndlink.rs:292-324 [apply_flow] *)
      match pr_flows x with
      | [] => x
      | (dc, credit) :: flows =>
          mk_pair (pr_dc x) (wsub (wadd dc credit) (pr_dc x)) (pr_open x) (pr_frames x) flows
                  (pr_rdc x) (pr_rcredit x) (pr_exceeded x)
      end
  | PGrant n =>
      (* rcvlink.rs:292-298 [set_link_credit], as built for release *)
      mk_pair (pr_dc x) (pr_credit x) (pr_open x) (pr_frames x) (pr_flows x ++ [(pr_rdc x, n)])
              (pr_rdc x) (wadd (pr_rcredit x) n) (pr_exceeded x)
  | PReceive =>
      (* rcvlink.rs:301-451 [handle_transfer], as built for release *)
      match pr_frames x with
      | [] => x
      | more :: frames =>
          if pr_rcredit x =? 0 then
            mk_pair (pr_dc x) (pr_credit x) (pr_open x) frames (pr_flows x) (pr_rdc x) (pr_rcredit x) true
          else
            mk_pair (pr_dc x) (pr_credit x) (pr_open x) frames (pr_flows x)
                    (if more then pr_rdc x else wadd (pr_rdc x) 1)
                    (if more then pr_rcredit x else pr_rcredit x - 1) (pr_exceeded x)
      end
  end.
Fixpoint pair_run (h : list pair_event) (x : pair) : pair :=
  match h with [] => x | e :: h => pair_run h (pair_step e x) end.
