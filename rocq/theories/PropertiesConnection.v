(** * Theorems about connections: C33 - C37, C51, C52

    Each theorem is followed by a concrete history that meets its hypotheses, or
    is itself about one. *)

From Coq Require Import ZifyBool ZifyNat ZifyN.
From Verif Require Import SpecConnection SpecClose SpecRelease Scenario ConnMoves ConnFutures ConnClose.
Import ListNotations.

Ltac lit := repeat match goal with |- _ /\ _ => split end; vm_compute; reflexivity.

Definition cresult (p : profile) (evs : list cev) (c : conn) : conn :=
  match crun p evs c with EOk (c', _) => c' | EPanic _ => c end.
Definition cobserved (p : profile) (evs : list cev) (c : conn) : list cobs :=
  match crun p evs c with EOk (_, os) => os | EPanic _ => [] end.
Definition cstart : conn := conn_new 1024 512.
(** The peer begins a session on its channel [ch], or answers on it the session
    that this side began on channel [n]. *)
Definition begins_on (ch : N) : cev := CvFrame ch (FBegin (mk_begin None 1 100 100 4294967295 None None None)).
Definition answers_on (ch n : N) : cev := CvFrame ch (FBegin (mk_begin (Some n) 1 100 100 4294967295 None None None)).
Definition open_one : cev := CvOpen None None None.
Definition ends_on (ch : N) : cev := CvFrame ch (FEnd (mk_end None)).
Definition closes : cev := CvFrame 0 (FClose (mk_close None)).
(** A session of each side, the one of this side second. *)
Definition two_sessions : list cev := [begins_on 7; open_one; answers_on 1 1].
(** Two sessions of this side; the peer numbers them the other way around. *)
Definition crossed : list cev := [open_one; open_one; answers_on 1 0; answers_on 0 1].
Lemma reached : forall p evs, match crun p evs cstart with EOk _ => true | EPanic _ => false end = true -> creachable p (cresult p evs cstart).
Proof.
  intros p evs H. unfold cresult. destruct (crun p evs cstart) as [[c os]|] eqn:E; [|discriminate H]. exists 1024, 512, evs, os. split; [reflexivity|exact E].
Qed.

(** ** C33 *)

(** Once a connection has failed with [e], whatever happens next: it reports [e],
    it is not open, who waits for its closing is told, and opening a session
    gives [e] and sends nothing. *)
Theorem C33_permanent : forall p c e evs c' os, creachable p c -> c_error c = Some e -> crun p evs c = EOk (c', os) ->
  c_error c' = Some e /\ is_opened c' = false /\ c_notified c' = true /\
  forall oc dc props, exists c2, cstep p (CvOpen oc dc props) c' = EOk (c2, []) /\
    nth_error (c_opens c2) (length (c_opens c')) = Some (ODone (inr e)) /\ c_out c2 = c_out c'.
Proof. exact permanent. Qed.
Print Assumptions C33_permanent.
(** When it fails there are no sessions left, and there will be none unless the
    peer begins one. *)
Theorem C33_no_sessions_partial : forall p ev x c c1 evs c2 os, creachable p c -> fails p ev x c c1 -> crun p evs c1 = EOk (c2, os) ->
  forallb (fun e => negb (peer_begins e)) evs = true -> slab_values (c_slots c2) = [].
Proof. exact no_sessions. Qed.
Print Assumptions C33_no_sessions_partial.
(** Frames for sessions that still arrive have no effect, and are no errors. *)
Theorem C33_ignored : forall p c e ch f, c_error c = Some e -> for_session f = true ->
  cstep p (CvFrame ch f) c = EOk (c, []).
Proof. intros p c e ch f E F. cbn [cstep]. unfold conn_frame. rewrite E. destruct f; try discriminate F; reflexivity. Qed.
Print Assumptions C33_ignored.
Example C33_case : let c := cresult Debug two_sessions cstart in
  creachable Debug c /\ length (slab_values (c_slots c)) = 2%nat
  /\ fails Debug closes (EClosed None) c (cresult Debug [closes] c)
  /\ c_error (cresult Debug [open_one; CvEnd 0; CvCtl 0; CvReady; CvShutdown; CvForceClose] (cresult Debug [closes] c)) = Some (EClosed None).
Proof.
  cbv zeta. split; [apply reached; vm_compute; reflexivity|]. split; [vm_compute; reflexivity|]. split; [|vm_compute; reflexivity].
  split; [vm_compute; reflexivity|]. split; [vm_compute; reflexivity|]. exists []. vm_compute. reflexivity.
Qed.
(** A Begin of the peer is still answered on a failed connection: there is a
    session again. *)
Theorem C33_sessions_refuted : forall p, exists evs c os a s,
  crun p evs cstart = EOk (c, os) /\ c_error c = Some (EClosed None)
  /\ in_table c 0 a /\ nth_error (c_sess c) a = Some s /\ s_error s = None /\ s_ended s = false.
Proof.
  intros p. exists [closes; begins_on 3]. eexists. eexists. exists 0%nat. eexists.
  split; [vm_compute; reflexivity|]. split; [vm_compute; reflexivity|]. split; [left; vm_compute; reflexivity|]. lit.
Qed.
Print Assumptions C33_sessions_refuted.

(** ** C34 *)

(** As long as there are never more than 65536 sessions at a time, two sessions
    alive at the same time have different channels, and the numbers under which
    sessions are open or being opened are channel numbers. *)
Theorem C34_unique_partial : forall p chmax mfs evs c os, at_most 65536 p evs (conn_new chmax mfs) -> crun p evs (conn_new chmax mfs) = EOk (c, os) ->
  (forall k, slab_get (c_slots c) k <> None -> k < 65536)
  /\ forall k a s k' b s', in_table c k a -> in_table c k' b -> nth_error (c_sess c) a = Some s -> nth_error (c_sess c) b = Some s' ->
    channel_of s = channel_of s' -> a = b.
Proof. exact channels_unique. Qed.
Print Assumptions C34_unique_partial.
(** A session that this side opened has a channel below its channel-max, and so
    has every Begin with which it opens one. *)
Theorem C34_bounded : forall p c, creachable p c ->
  (forall a s, nth_error (c_sess c) a = Some s -> s_local s = true -> s_id s < c_chmax c /\ channel_of s = s_id s)
  /\ (forall ch b, In (ch, FBegin b) (c_out c) -> begin_remote_channel b = None -> ch < c_chmax c).
Proof. exact local_channels. Qed.
Print Assumptions C34_bounded.
Definition C34_events : list cev := [begins_on 7; open_one; answers_on 1 1; ends_on 7; open_one; answers_on 7 0; begins_on 9].
Lemma at_most_nil : forall n p c, N.of_nat (length (slab_values (c_slots c))) <= n -> at_most n p [] c.
Proof. intros n p c H evs1 evs2 c1 os1 E R. destruct evs1; [|discriminate E]. cbn in R. apply EOk_inj in R. assert (c1 = c) as -> by congruence. exact H. Qed.
Lemma at_most_cons : forall n p e evs c, N.of_nat (length (slab_values (c_slots c))) <= n ->
  (forall c1 os, cstep p e c = EOk (c1, os) -> at_most n p evs c1) -> at_most n p (e :: evs) c.
Proof.
  intros n p e evs c H K evs1 evs2 c2 os2 E R. destruct evs1 as [|e1 evs1].
  - cbn in R. apply EOk_inj in R. assert (c2 = c) as -> by congruence. exact H.
  - injection E as <- ->. apply crun_cons in R as (c1 & o1 & o2 & Hs & Hr & _). exact (K c1 o1 Hs evs1 evs2 c2 o2 eq_refl Hr).
Qed.
Example C34_case : at_most 65536 Debug C34_events cstart
  /\ exists c os, crun Debug C34_events cstart = EOk (c, os) /\ c_error c = None
     /\ in_table c 0 2 /\ in_table c 1 1 /\ in_table c 2 3
     /\ map s_local (c_sess c) = [false; true; true; false] /\ map channel_of (c_sess c) = [0; 1; 0; 2].
Proof.
  split.
  - unfold C34_events. repeat (apply at_most_cons; [vm_compute; discriminate|]; intros ? ? H; vm_compute in H; injection H as <- _). apply at_most_nil. vm_compute. discriminate.
  - eexists. eexists. split; [vm_compute; reflexivity|]. split; [vm_compute; reflexivity|]. split; [left; vm_compute; reflexivity|]. split; [left; vm_compute; reflexivity|].
    split; [left; vm_compute; reflexivity|]. lit.
Qed.
(** The channel of a session is its number in the table modulo 65536: the peer can
    begin so many sessions that two of them send on the same channel. *)
Lemma begins_n : forall p n, exists c os, crun p (repeat (begins_on 0) n) cstart = EOk (c, os)
  /\ sl_items (c_slots c) = map (fun a => Some (CoEstablished a)) (seq 0 n) /\ sl_free (c_slots c) = []
  /\ length (c_sess c) = n /\ forall a, (a < n)%nat -> exists s, nth_error (c_sess c) a = Some s /\ s_id s = N.of_nat a.
Proof.
  intros p n. induction n as [|n (c & os & H & Hi & Hf & Hl & Ha)].
  - exists cstart, []. split; [reflexivity|]. split; [reflexivity|]. split; [reflexivity|]. split; [reflexivity|]. intros a La. lia.
  - cbn [repeat]. rewrite repeat_cons. assert (Hs : cstep p (begins_on 0) c = EOk (register_remote 0 (mk_begin None 1 100 100 4294967295 None None None) c, [])) by reflexivity.
    assert (K : slab_key (c_slots c) = N.of_nat n) by (unfold slab_key; rewrite Hf, Hi, map_length, seq_length; reflexivity).
    eexists. eexists. split; [eapply crun_app; [exact H|]; cbn [crun]; rewrite Hs; reflexivity|]. unfold register_remote. rewrite K.
    cbn [cpost set_c_out set_c_map set_c_slots set_c_sess c_slots c_sess]. unfold slab_insert. rewrite Hf. cbn [sl_items sl_free]. split; [|split; [reflexivity|split]].
    + rewrite Hi, seq_S, map_app, Hl. reflexivity.
    + rewrite app_length, Hl. cbn [length]. lia.
    + intros a La. destruct (Nat.eq_dec a n) as [->|N].
      * rewrite nth_error_app2, Hl, Nat.sub_diag by lia. eexists. split; reflexivity.
      * destruct (Ha a) as (s & Es & Is); [lia|]. exists s. rewrite nth_error_app1 by lia. auto.
Qed.
Theorem C34_shared_refuted : forall p, exists evs c os a b s s',
  crun p evs cstart = EOk (c, os) /\ a <> b /\ in_table c (N.of_nat a) a /\ in_table c (N.of_nat b) b
  /\ nth_error (c_sess c) a = Some s /\ nth_error (c_sess c) b = Some s' /\ channel_of s = channel_of s'.
Proof.
  intros p. destruct (begins_n p (N.to_nat 65537)) as (c & os & H & Hi & _ & _ & Ha). set (n := N.to_nat 65537) in *. set (m := N.to_nat 65536).
  assert (Hm : (m < n)%nat) by (unfold m, n; lia). assert (H0 : (0 < n)%nat) by lia. assert (Em : N.of_nat m = 65536) by (unfold m; lia). clearbody n m.
  destruct (Ha 0%nat H0) as (s & Es & Is). destruct (Ha m Hm) as (s' & Es' & Is').
  assert (T : forall k, (k < n)%nat -> in_table c (N.of_nat k) k).
  { intros k Hk. left. unfold slab_get. rewrite Nnat.Nat2N.id, Hi. rewrite nth_error_map. rewrite (nth_error_nth' _ 0%nat) by (rewrite seq_length; exact Hk). rewrite seq_nth by exact Hk. reflexivity. }
  exists (repeat (begins_on 0) n), c, os, 0%nat, m, s, s'. repeat apply conj; auto.
  - intros E. rewrite <- E in Em. discriminate Em.
  - unfold channel_of. rewrite Is, Is', Em. reflexivity.
Qed.
Print Assumptions C34_shared_refuted.

(** ** C35 *)

(** A frame that belongs to a session reaches the session that the peer began
    last on its channel, if that has not ended, and no other session; otherwise
    nothing changes and the frame is reported as a protocol error. *)
Theorem C35_routed : forall p ch f c c' os, creachable p c -> c_error c = None -> for_session f = true -> ch < 65536 ->
  cstep p (CvFrame ch f) c = EOk (c', os) ->
  (exists a s, last_begun ch a c /\ nth_error (c_sess c) a = Some s /\ s_ended s = false
     /\ (forall b x, b <> a -> nth_error (c_sess c) b = Some x -> nth_error (c_sess c') b = Some x)
     /\ exists s', nth_error (c_sess c') a = Some s' /\ (takes p f s s' \/ ((exists k, slab_get (c_slots c) k = Some (CoClosing a)) /\ s' = s)))
  \/ ((forall a s, last_begun ch a c -> nth_error (c_sess c) a = Some s -> s_ended s = true) /\ c' = c /\ os = [ObErr (EUnknownSession f)]).
Proof. exact routed. Qed.
Print Assumptions C35_routed.
(** If the two sides number the sessions alike, the session handles the frame
    unless it is being ended itself. *)
Theorem C35_handled_partial : forall p ch f c c' os a s, creachable p c -> c_error c = None -> same_numbers c -> for_session f = true -> ch < 65536 ->
  cstep p (CvFrame ch f) c = EOk (c', os) -> last_begun ch a c -> nth_error (c_sess c) a = Some s -> s_ended s = false -> s_ending s = false ->
  exists s', nth_error (c_sess c') a = Some s' /\ takes p f s s'.
Proof.
  intros p ch f c c' os a s R Er N F L H Lb Es D1 D2. destruct (routed p ch f c c' os R Er F L H) as [(b & y & Lb' & Ey & _ & _ & s' & E' & T)|(X & _)].
  - assert (b = a) as -> by exact (newest_fun _ _ _ _ Lb' Lb). assert (y = s) as -> by congruence. exists s'. split; [exact E'|]. destruct T as [T|[(k & Hk) _]]; [exact T|].
    assert (Z := proj2 (ph_end c (PH_reachable _ _ R) Er N k a s Es) Hk). congruence.
  - assert (Z := X _ _ Lb Es). congruence.
Qed.
Print Assumptions C35_handled_partial.
(** A flow that asks for an answer. *)
Definition asks : frame := FFlow (mk_flow (Some 1) 50 1 100 None None None None false true None).
Example C35_case : let c := cresult Debug two_sessions cstart in
  creachable Debug c /\ c_error c = None /\ for_session asks = true
  /\ last_begun 7 0 c /\ last_begun 1 1 c
  /\ map (fun s => length (s_out s)) (c_sess c) = [0%nat; 0%nat]
  /\ map (fun s => length (s_out s)) (c_sess (cresult Debug [CvFrame 7 asks] c)) = [1%nat; 0%nat]
  /\ cobserved Debug [CvFrame 9 asks] c = [ObErr (EUnknownSession asks)]
  /\ (let c := cresult Debug [begins_on 0; open_one; answers_on 1 1] cstart in same_numbers c /\ last_begun 1 1 c).
Proof.
  cbv zeta. split; [apply reached; vm_compute; reflexivity|]. split; [vm_compute; reflexivity|]. split; [reflexivity|]. repeat apply conj; try (vm_compute; reflexivity).
  - eexists. split; vm_compute; reflexivity.
  - intros b s H. destruct b as [|[|b]]; [lia | vm_compute in H; injection H as <-; vm_compute; discriminate | destruct b; discriminate H].
  - eexists. split; vm_compute; reflexivity.
  - intros b s H. destruct b as [|[|b]]; [lia | lia | destruct b; discriminate H].
  - intros a s H. destruct a as [|[|a]]; [vm_compute in H; injection H as <-; reflexivity | vm_compute in H; injection H as <-; reflexivity | destruct a; discriminate H].
  - eexists. split; vm_compute; reflexivity.
  - intros b s H. destruct b as [|[|b]]; [lia | lia | destruct b; discriminate H].
Qed.
(** Ending session 0 makes the connection ignore the frames of session 1, if the
    peer numbers the two the other way around. *)
Theorem C35_ignored_refuted : forall p, exists evs c os s s',
  crun p evs cstart = EOk (c, os) /\ c_error c = None /\ last_begun 0 1 c
  /\ nth_error (c_sess c) 1 = Some s /\ s_ended s = false /\ s_ending s = false
  /\ takes p asks s s' /\ s' <> s /\ cstep p (CvFrame 0 asks) c = EOk (c, []).
Proof.
  intros p. exists (crossed ++ [CvEnd 0]). eexists. eexists. eexists. eexists.
  split; [vm_compute; reflexivity|]. split; [vm_compute; reflexivity|]. split.
  { split; [eexists; split; vm_compute; reflexivity|]. intros b s H. destruct b as [|[|b]]; [lia | lia | destruct b; discriminate H]. }
  split; [vm_compute; reflexivity|]. split; [vm_compute; reflexivity|]. split; [vm_compute; reflexivity|].
  split; [destruct p; vm_compute; reflexivity|]. split; [intros H; apply (f_equal (fun s => length (s_out s))) in H; vm_compute in H; discriminate H|]. vm_compute. reflexivity.
Qed.
Print Assumptions C35_ignored_refuted.

(** ** C36 *)

(** [Session::end] sends an End on the channel of the session, once; the other
    sessions do not notice, and if the peer uses the number of this side for the
    session, nothing else in the table changes. *)
Theorem C36_end_partial : forall p a s c, nth_error (c_sess c) a = Some s -> s_ended s = false -> exists c' s',
  cstep p (CvEnd a) c = EOk (c', [])
  /\ c_out c' = c_out c ++ (if s_ending s then [] else [(channel_of s, FEnd (mk_end None))])
  /\ nth_error (c_sess c') a = Some s' /\ step p EvEnd s = EOk (s', [])
  /\ (forall b, b <> a -> nth_error (c_sess c') b = nth_error (c_sess c) b)
  /\ c_opens c' = c_opens c
  /\ (s_rchan s = s_id s -> s_ending s = false -> forall k, k <> s_id s -> slab_get (c_slots c') k = slab_get (c_slots c) k)
  /\ (s_rchan s = s_id s -> s_ending s = false -> slab_get (c_slots c) (s_id s) = Some (CoEstablished a) -> slab_get (c_slots c') (s_id s) = Some (CoClosing a)).
Proof. exact end_one. Qed.
Print Assumptions C36_end_partial.
(** On every channel Begin and End alternate, over the whole history, whichever
    side ends a session and also if both do. *)
Theorem C36_one_end_partial : forall p c, creachable p c -> c_error c = None -> same_numbers c ->
  forall ch, ch < 65536 -> phase ch false (c_out c) <> None.
Proof. exact begin_end_alternate. Qed.
Print Assumptions C36_one_end_partial.
(** The future of [Session::end] completes when the End of the peer arrives,
    whatever happened in between, as long as the connection has not failed and the
    peer has not begun another session on the channel. *)
Theorem C36_completes_partial : forall p c1 a s1 c2 evs c3 os3 s3 en c4 os4, creachable p c1 -> nth_error (c_sess c1) a = Some s1 -> s_ended s1 = false ->
  cstep p (CvEnd a) c1 = EOk (c2, []) -> crun p evs c2 = EOk (c3, os3) -> c_error c3 = None ->
  nth_error (c_sess c3) a = Some s3 -> s_ended s3 = false -> last_begun (s_rchan s3) a c3 ->
  cstep p (CvFrame (s_rchan s3) (FEnd en)) c3 = EOk (c4, os4) ->
  exists s4, nth_error (c_sess c4) a = Some s4 /\ s_error s4 = Some (ESessionEnded (end_error en)) /\ s_ended s4 = true
    /\ ~ still_waits (next_future s1) s4 /\ (forall k, ~ in_table c4 k a).
Proof. exact end_completes. Qed.
Print Assumptions C36_completes_partial.
Definition alike_two : list cev := [begins_on 0; open_one; answers_on 1 1].
Example C36_case : let c1 := cresult Debug alike_two cstart in let c2 := cresult Debug [CvEnd 0] c1 in
  creachable Debug c1 /\ same_numbers c2
  /\ (exists s1, nth_error (c_sess c1) 0 = Some s1 /\ s_ended s1 = false
        /\ exists s3, nth_error (c_sess c2) 0 = Some s3 /\ s_ended s3 = false /\ s_rchan s3 = 0 /\ last_begun 0 0 c2 /\ still_waits (next_future s1) s3)
  /\ phase 0 false (c_out c1) = Some true /\ phase 0 false (c_out c2) = Some false
  /\ length (c_out c2) = 3%nat /\ length (c_out (cresult Debug [ends_on 0] c2)) = 3%nat
  /\ phase 0 false (c_out (cresult Debug [ends_on 0; begins_on 0] c2)) = Some true.
Proof.
  cbv zeta. split; [apply reached; vm_compute; reflexivity|]. split.
  { intros a s H. destruct a as [|[|a]]; [vm_compute in H; injection H as <-; reflexivity | vm_compute in H; injection H as <-; reflexivity | destruct a; discriminate H]. }
  split; [|lit]. eexists. split; [vm_compute; reflexivity|]. split; [vm_compute; reflexivity|]. eexists. split; [vm_compute; reflexivity|].
  split; [vm_compute; reflexivity|]. split; [vm_compute; reflexivity|]. split; [|vm_compute; reflexivity].
  split; [eexists; split; vm_compute; reflexivity|]. intros b s H. destruct b as [|[|b]]; [lia | vm_compute in H; injection H as <-; vm_compute; discriminate | destruct b; discriminate H].
Qed.
(** If the peer uses other channel numbers than this side, ending a session marks
    the table entry of another one, and the peer's End is answered by a second End. *)
Theorem C36_crossed_refuted : forall p, exists c, crun p (crossed ++ [CvEnd 0]) cstart = EOk (c, []) /\ c_error c = None
  /\ slab_get (c_slots (cresult p crossed cstart)) 1 = Some (CoEstablished 1) /\ slab_get (c_slots c) 1 = Some (CoClosing 1)
  /\ phase 0 false (c_out c) = Some false
  /\ exists c', cstep p (ends_on 1) c = EOk (c', []) /\ phase 0 false (c_out c') = None.
Proof.
  intros p. eexists. split; [vm_compute; reflexivity|]. split; [vm_compute; reflexivity|]. split; [destruct p; vm_compute; reflexivity|]. split; [vm_compute; reflexivity|].
  split; [vm_compute; reflexivity|]. eexists. split; vm_compute; reflexivity.
Qed.
Print Assumptions C36_crossed_refuted.

(** ** C37 *)

(** Of the frames handed to the io layer before it is told to close, at most one
    more is a Close than the peer has sent. *)
Theorem C37_at_most_partial : forall p chmax mfs evs c os, crun p evs (conn_new chmax mfs) = EOk (c, os) ->
  (closes_sent (before_io_close c) <= 1 + length (filter peer_closes evs))%nat.
Proof. exact closes_bounded. Qed.
Print Assumptions C37_at_most_partial.
(** In all, no more Close frames are handed to the io layer than there are reasons. *)
Theorem C37_reasons : forall p chmax mfs evs c os, crun p evs (conn_new chmax mfs) = EOk (c, os) ->
  (closes_sent (c_out c) <= list_sum (map close_reasons evs))%nat.
Proof.
  intros p chmax mfs evs c os H. assert (X := owed_run _ _ _ _ _ (CI_new chmax mfs) H).
  change (owed (conn_new chmax mfs)) with 0%nat in X. unfold owed in X. lia.
Qed.
Print Assumptions C37_reasons.
Example C37_reasons_case : let evs := [begins_on 0; CvClose None; closes; CvCtl 0; CvReady; CvReady] in
  exists c, crun Debug evs cstart = EOk (c, []) /\ closes_sent (c_out c) = 3%nat /\ list_sum (map close_reasons evs) = 3%nat.
Proof. cbv zeta. eexists. split; [vm_compute; reflexivity|]. split; vm_compute; reflexivity. Qed.
(** A Close of the peer is answered with one Close, at once. *)
Theorem C37_answered : forall p c ch cl, creachable p c -> exists c',
  cstep p (CvFrame ch (FClose cl)) c = EOk (c', []) /\ c_out c' = c_out c ++ [(0, FClose (mk_close None))]
  /\ c_io c' = c_io c /\ c_error c' = Some (match c_error c with Some e => e | None => EClosed (close_error cl) end) /\ is_opened c' = false.
Proof. exact close_answered. Qed.
Print Assumptions C37_answered.
Example C37_case : let c := cresult Debug [begins_on 0; CvClose None; CvClose None; CvStopIo; CvCtl 0; CvReady] cstart in
  closes_sent (before_io_close c) = 1%nat /\ creachable Debug (cresult Debug [begins_on 0; open_one] cstart).
Proof. cbv zeta. split; [vm_compute; reflexivity|]. apply reached. vm_compute. reflexivity. Qed.
(** The Close of the peer is answered, and the dispatcher sends another Close when
    the control service has been told. *)
Theorem C37_two_refuted : forall p, exists evs c os, crun p evs cstart = EOk (c, os)
  /\ length (filter peer_closes evs) = 1%nat /\ closes_sent (before_io_close c) = 2%nat.
Proof. intros p. exists [begins_on 0; closes; CvCtl 0; CvReady]. eexists. eexists. split; [vm_compute; reflexivity|]. lit. Qed.
Print Assumptions C37_two_refuted.

(** ** C51 *)

(** When a connection fails, every session that is being opened fails with it,
    every session that is not being ended fails with the same error, and the
    others do not change. *)
Theorem C51_failure_partial : forall p ev x c c', creachable p c -> fails p ev x c c' ->
  slab_values (c_slots c') = [] /\ c_notified c' = true
  /\ (forall i, nth_error (c_opens c) i = Some OWait -> nth_error (c_opens c') i = Some (ODone (inr EDisconnected)))
  /\ (forall k a s, slab_get (c_slots c) k = Some (CoEstablished a) -> nth_error (c_sess c) a = Some s ->
        exists s', nth_error (c_sess c') a = Some s' /\ step p (EvFail x) s = EOk (s', []))
  /\ (forall a s, nth_error (c_sess c) a = Some s -> (forall k, slab_get (c_slots c) k <> Some (CoEstablished a)) ->
        nth_error (c_sess c') a = Some s).
Proof. exact failure_tells. Qed.
Print Assumptions C51_failure_partial.
Example C51_case : let c := cresult Debug (two_sessions ++ [open_one; CvEnd 1; CvStopIo]) cstart in
  creachable Debug c /\ fails Debug (CvCtl 0) EDisconnected c (cresult Debug [CvCtl 0] c)
  /\ nth_error (c_opens c) 1 = Some OWait /\ slab_get (c_slots c) 0 = Some (CoEstablished 0) /\ slab_get (c_slots c) 1 = Some (CoClosing 1)
  /\ map s_error (c_sess (cresult Debug [CvCtl 0] c)) = [Some EDisconnected; None].
Proof.
  cbv zeta. split; [apply reached; vm_compute; reflexivity|]. split; [|lit]. split; [vm_compute; reflexivity|]. split; [vm_compute; reflexivity|]. exists []. vm_compute. reflexivity.
Qed.
(** A session that is being ended is not told: the future of [Session::end] goes
    on waiting although the connection has failed and nothing will answer. *)
Theorem C51_ending_refuted : forall p, exists evs c os s, crun p evs cstart = EOk (c, os)
  /\ c_error c = Some EDisconnected /\ slab_values (c_slots c) = [] /\ c_map c = []
  /\ nth_error (c_sess c) 0 = Some s /\ s_ending s = true /\ s_error s = None /\ still_waits 0 s.
Proof.
  intros p. exists (alike_two ++ [CvEnd 0; CvStopIo; CvCtl 0]). eexists. eexists. eexists.
  split; [vm_compute; reflexivity|]. lit.
Qed.
Print Assumptions C51_ending_refuted.

(** ** C52 *)

(** Each session of a connection behaves as a session on its own: whatever is
    proved about every reachable session holds for it. *)
Theorem C52_independent : forall p c a s, creachable p c -> nth_error (c_sess c) a = Some s -> reachable p s.
Proof. exact sessions_reachable. Qed.
Print Assumptions C52_independent.
(** What the application and the services do with a session changes only that
    session, and what it sends goes out in order on its own channel. *)
Theorem C52_own_channel : forall p a e s s' os c, nth_error (c_sess c) a = Some s -> own_event e = true -> step p e s = EOk (s', os) -> exists c' l,
  cstep p (CvSes a e) c = EOk (c', map (ObSes a) os) /\ nth_error (c_sess c') a = Some s'
  /\ (forall b, b <> a -> nth_error (c_sess c') b = nth_error (c_sess c) b)
  /\ s_out s' = s_out s ++ l /\ c_out c' = c_out c ++ map (pair (channel_of s)) l.
Proof. exact own_out. Qed.
Print Assumptions C52_own_channel.
Example C52_case : let c := cresult Debug two_sessions cstart in let e := EvAttachSender (attach_of [] 0 RoleSender None) in
  creachable Debug c /\ own_event e = true
  /\ map fst (skipn (length (c_out c)) (c_out (cresult Debug [CvSes 1 e] c))) = [1]
  /\ map fst (skipn (length (c_out c)) (c_out (cresult Debug [CvSes 0 e] c))) = [0].
Proof. cbv zeta. split; [apply reached; vm_compute; reflexivity|]. lit. Qed.
