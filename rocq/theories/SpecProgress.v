(** * Specification vocabulary: sends that can proceed *)

From Verif Require Export SpecOrder.

(** The future has not been dropped. *)
Definition alive (t : nat) (s : ses) : Prop :=
  exists tk, nth_error (s_tasks s) t = Some tk /\ tk_st tk <> TGone.
(** It was polled, is suspended and nothing has woken it. *)
Definition asleep (t : nat) (s : ses) : Prop := exists a, awaits_credit t a s \/ awaits_window t a s.
(** The peer has room for one more transfer of the session. *)
Definition window_open (s : ses) : Prop := 0 < s_iwin s.
(** Nothing refuses the send: it is new, on a link that is open and takes bodies
    of that size, or a flow has woken it. *)
Definition unrefused (t a : nat) (s : ses) : Prop :=
  exists tk l, nth_error (s_tasks s) t = Some tk /\ tk_link tk = a /\ nth_error (s_snds s) a = Some l
    /\ match tk_st tk with
       | TNew => sn_error l = None /\ sn_closed l = false
                 /\ (forall m, sn_max l = Some m -> tb_size (tk_body tk) <= m)
       | TLink _ c | TSess _ c => nth_error (s_chans s) c = Some (CSent VOk)
       | _ => False
       end.
(** Send 0, the first of the session, waits for credit on link 0, and the sends
    [ts] were made after it on that link and have been transmitted. *)
Definition overtaken (ts : list nat) (s : ses) : Prop :=
  awaits_credit 0 0 s /\ NoDup ts /\ Forall (fun t => (0 < t < length (s_tasks s))%nat /\ on_link t 0 s /\ sent t s) ts.
