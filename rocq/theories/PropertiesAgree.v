(** * Theorems about what the two sides of a session know of each other: C66

    Vocabulary: [SpecAgree.v].  Model: [Connection.v], [Session.v],
    [SessionStep.v]; concrete runs: [Scenario.v]. *)

From Coq Require Import ZifyBool ZifyNat ZifyN.
From Verif Require Import SpecAgree Scenario FlowTheorems BeginProofs HandleTheorems.
Import ListNotations.

Ltac lit := repeat match goal with |- _ /\ _ => split end; vm_compute; reflexivity.

(** ** C66 *)
(** A begin frame of the peer is answered with one begin frame, on the channel of
    a new session: it names the channel of the peer, announces 1 as the first id,
    accepts whatever the peer sends and promises to send no more than the peer
    accepts.  The session knows what the peer announced. *)
Theorem C66_answered : forall p ch x c c' os, begin_remote_channel x = None -> ch < 65536 ->
  cstep p (CvFrame ch (FBegin x)) c = EOk (c', os) ->
  exists t y, c_out c' = c_out c ++ [(channel_of t, FBegin y)] /\ c_sess c' = c_sess c ++ [t] /\ os = []
  /\ begin_remote_channel y = Some ch /\ begin_next_outgoing_id y = next_delivery (s_out t)
  /\ begin_incoming_window y = 2 ^ 32 - 1 /\ begin_outgoing_window y = begin_incoming_window x
  /\ begin_handle_max y = 2 ^ 32 - 1
  /\ begin_offered_capabilities y = None /\ begin_desired_capabilities y = None /\ begin_properties y = None
  /\ s_rchan t = ch /\ s_nin t = begin_next_outgoing_id x /\ s_iwin t = begin_incoming_window x
  /\ s_owin t = begin_outgoing_window x /\ s_mfs t = c_mfs c.
Proof.
  intros p ch x c c' os Nr Lt H. cbn [cstep conn_frame] in H. rewrite Nr in H.
  unfold as_u16 in H. rewrite N.mod_small in H by exact Lt.
  apply EOk_inj in H. assert (Eo : os = []) by congruence. apply (f_equal fst) in H. cbn [fst] in H. subst c' os.
  exists (ses_new (slab_key (c_slots c)) false ch (c_mfs c) x), (mk_begin (Some ch) 1 (two32 - 1) (begin_incoming_window x) (two32 - 1) None None None).
  repeat match goal with |- _ /\ _ => split end; reflexivity.
Qed.
Print Assumptions C66_answered.

(** A session is opened; the other side answers the begin frame; whatever happens
    in between, when the answer arrives and the future still waits, it completes
    with a session, and the sessions of the two sides know each other. *)
Theorem C66_begun : forall p oc dc props a a1 os, creachable p a -> let i := length (c_opens a) in
  cstep p (CvOpen oc dc props) a = EOk (a1, os) -> nth_error (c_opens a1) i = Some OWait ->
  exists ch x, c_out a1 = c_out a ++ [(ch, FBegin x)] /\ ch < 65536
  /\ forall b b1 os1, cstep p (CvFrame ch (FBegin x)) b = EOk (b1, os1) ->
     exists ch' y t, c_out b1 = c_out b ++ [(ch', FBegin y)] /\ nth_error (c_sess b1) (length (c_sess b)) = Some t
     /\ forall evs a2 a3 os2 os3, crun p evs a1 = EOk (a2, os2) -> nth_error (c_opens a2) i = Some OWait ->
        cstep p (CvFrame ch' (FBegin y)) a2 = EOk (a3, os3) ->
        exists n s, nth_error (c_opens a3) i = Some (ODone (inl n)) /\ nth_error (c_sess a2) n = None /\ nth_error (c_sess a3) n = Some s
        /\ paired s t.
Proof.
  intros p oc dc props a a1 os Ra i H W. assert (Ca := CI_reachable _ _ Ra).
  assert (Ra1 : creachable p a1).
  { destruct Ra as (m & f & evs & o & Lm & R). exists m, f, (evs ++ [CvOpen oc dc props]), (o ++ os ++ []). split; [exact Lm|].
    eapply crun_app; [exact R|]. cbn [crun]. rewrite H. reflexivity. }
  assert (Chm : c_chmax a < two16) by exact (reachable_chmax _ _ Ra).
  assert (H0 := H). cbn [cstep] in H. apply EOk_inj in H. apply (f_equal fst) in H. cbn [fst] in H. subst a1.
  unfold open_session in *. cbv zeta in *. destruct (c_error a) as [e|] eqn:Er.
  { cbn in W. unfold i in W. rewrite nth_end in W. discriminate W. }
  set (k := slab_key (c_slots a)) in *. destruct (N.leb_spec (c_chmax a) k) as [Lk|Lk].
  { cbn in W. unfold i in W. rewrite nth_end in W. discriminate W. }
  set (x := mk_begin None 1 (two32 - 1) (two32 - 1) (two32 - 1) oc dc props) in *.
  assert (Lk' : k < two16) by lia. assert (Ek : as_u16 k = k) by (unfold as_u16; apply N.mod_small; exact Lk').
  exists k, x. rewrite Ek in *. split; [reflexivity|]. split; [exact Lk'|].
  intros b b1 os1 Hb. cbn [cstep conn_frame] in Hb. change (begin_remote_channel x) with (@None N) in Hb. rewrite Ek in Hb.
  apply EOk_inj in Hb. apply (f_equal fst) in Hb. cbn [fst] in Hb. subst b1.
  set (kb := slab_key (c_slots b)). set (y := mk_begin (Some k) 1 (two32 - 1) (two32 - 1) (two32 - 1) None None None).
  set (t := ses_new kb false k (c_mfs b) x).
  exists (as_u16 kb), y, t. split; [reflexivity|]. split; [cbn; rewrite nth_end; reflexivity|].
  intros evs a2 a3 os2 os3 R2 W2 H3.
  match type of H0 with cstep _ _ _ = EOk (?a1', _) => set (a1 := a1') in * end.
  assert (Ca1 := CI_reachable _ _ Ra1).
  assert (U : forall k', slab_get (c_slots a1) k' = Some (CoOpening i) -> k' = k).
  { intros k' G. refine (ci_inj a1 Ca1 k' k i G _). cbn. rewrite slab_get_insert by exact (ci_wf a Ca). fold k. rewrite N.eqb_refl. reflexivity. }
  assert (Li : (i < length (c_opens a1))%nat) by (cbn; rewrite app_length; cbn; unfold i; lia).
  assert (G := opening_kept _ _ _ _ _ _ _ Ca1 Li U R2 W2).
  cbn [cstep conn_frame] in H3. change (begin_remote_channel y) with (Some k) in H3.
  apply EOk_inj in H3. apply (f_equal fst) in H3. cbn [fst] in H3. subst a3.
  assert (Ekb : as_u16 (as_u16 kb) = as_u16 kb) by (unfold as_u16; apply N.mod_mod; discriminate).
  unfold complete_session. rewrite G. cbv zeta. rewrite Ekb.
  exists (length (c_sess a2)), (ses_new k true (as_u16 kb) (c_mfs a2) y). cbn. rewrite W2.
  split; [rewrite nth_set_nth_eq by exact (nth_lt _ _ _ _ W2); reflexivity|].
  split; [apply nth_error_None; lia|]. split; [apply nth_end|].
  split; (split; [|split; reflexivity]); [reflexivity|]. unfold channel_of. cbn. exact (eq_sym Ek).
Qed.
Print Assumptions C66_begun.

(** Every flow frame tells the id of the next delivery of this side, accepts
    2^32 - 1 transfers, and promises to send no more than the window that
    [Session::remote_window_size] reports.  Of the peer's next transfer it tells
    what the peer told last, or nothing: the answer to a flow frame in a session
    that the peer began. *)
Theorem C66_flow_partial : forall p id local rc mfs b evs e s s' os os' l f, let s0 := ses_new id local rc mfs b in
  run p evs s0 = EOk (s, os) -> step p e s = EOk (s', os') -> s_out s' = s_out s ++ l -> In (FFlow f) l ->
  flow_next_outgoing_id f = next_delivery (s_out s')
  /\ flow_incoming_window f = 2 ^ 32 - 1
  /\ flow_outgoing_window f = s_iwin s'
  /\ (flow_next_incoming_id f = Some (last_told p (evs ++ [e]) s0 b)
      \/ flow_next_incoming_id f = None /\ flow_handle f = None /\ local = false).
Proof.
  intros p id local rc mfs b evs e s s' os os' l f s0 R H E Hin.
  destruct (FlowTheorems.step_posts _ _ _ _ _ H) as (l' & E' & T & _). assert (l' = l) as -> by (rewrite E' in E; exact (app_inv_head _ _ _ E)).
  destruct (T _ Hin) as (A & B & C & D).
  assert (R' : run p (evs ++ [e]) s0 = EOk (s', os ++ os' ++ [])) by (eapply run_app; [exact R|exact (run_one _ _ _ _ _ H)]).
  split; [rewrite A; apply (reachable_nout p); exists id, local, rc, mfs, b, (evs ++ [e]); eauto|]. split; [exact B|]. split; [exact C|].
  assert (N := run_nin _ _ _ _ _ R'). change (s_nin s0) with (begin_next_outgoing_id b) in N. fold (last_told p (evs ++ [e]) s0 b) in N. rewrite <- N.
  destruct D as [D|(D1 & D2 & D3)]; [left; exact D|]. right. split; [exact D1|]. split; [exact D2|].
  assert (L : s_local s' = s_local s0); [|rewrite D3 in L; exact (eq_sym L)].
  refine (run_ind (fun s => s_local s = s_local s0) p _ _ _ _ _ _ R'); [|reflexivity].
  intros e1 x x' o Q Hs. rewrite <- Q. exact (step_framed _ _ _ _ _ Hs Flocal ltac:(destruct e1; reflexivity)).
Qed.
Print Assumptions C66_flow_partial.
(** The transfers that arrive are not counted: two have come, the next one has id
    3, and the flow frame says that 1 is expected. *)
Theorem C66_incoming_refuted : forall p, exists evs s0 s os pre f,
  run p evs s0 = EOk (s, os) /\ s0 = start 512 10 /\ begin_next_outgoing_id (begin_of 10) = 1
  /\ length (filter (fun e => match e with EvFrame (FTransfer _) => true | _ => false end) evs) = 2%nat
  /\ s_error s = None /\ os = []
  /\ s_out s = pre ++ [FFlow f] /\ flow_next_incoming_id f = Some 1.
Proof.
  intros p. set (evs := receiver_link ++ [arrives (Some 1) false 4; arrives (Some 2) false 3; EvCredit 0 5]).
  exists evs, (start 512 10), (result p evs (start 512 10)), [], (removelast (s_out (result p evs (start 512 10)))).
  eexists. repeat match goal with |- _ /\ _ => split end; destruct p; vm_compute; reflexivity.
Qed.
Print Assumptions C66_incoming_refuted.

(** The client opens its second session, while the first is being opened; the
    server has three sessions already.  In a session, three deliveries are sent and
    the peer asks for an answer. *)
Definition reach (evs : list cev) : conn :=
  match crun Debug evs (conn_new 10 512) with EOk (c, _) => c | EPanic _ => conn_new 0 0 end.
Definition peer_begin (ch : N) : cev := CvFrame ch (FBegin (mk_begin None 7 100 100 100 None None None)).
Definition C66_asks : ev := EvFrame (FFlow (mk_flow (Some 3) 100 9 50 None None None None false true None)).
Definition C66_events : list ev := sender_link ++ credit_event 1 0 5 ++ send_event 0 0 (bytes_of 3) ++ send_event 0 1 (bytes_of 3).
Example C66_case :
  let a := reach [CvOpen None None None] in let b := reach [peer_begin 4; peer_begin 0; peer_begin 3] in
  let a1 := reach [CvOpen None None None; CvOpen None None None] in
  creachable Debug a /\ nth_error (c_opens a1) (length (c_opens a)) = Some OWait
  /\ c_out a1 = c_out a ++ [(1, FBegin (mk_begin None 1 (2 ^ 32 - 1) (2 ^ 32 - 1) (2 ^ 32 - 1) None None None))]
  /\ length (c_sess b) = 3%nat
  /\ (exists s f, run Debug (C66_events ++ [C66_asks]) (start 512 10) = EOk (s, []) /\ last (s_out s) FEmpty = FFlow f
      /\ flow_next_outgoing_id f = 3 /\ flow_next_incoming_id f = Some 9 /\ flow_outgoing_window f = 100).
Proof.
  cbv zeta. split; [exists 10, 512, [CvOpen None None None], []; split; vm_compute; reflexivity|].
  split; [lit|]. split; [lit|]. split; [lit|]. eexists. eexists. split; [vm_compute; reflexivity|]. lit.
Qed.
