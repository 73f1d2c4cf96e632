(** * Theorems about the size limit of a sender link: C69

    Vocabulary: [SpecLimit.v] (and [SpecEnds.v], [SpecSession.v]). *)

From Coq Require Import Strings.String.
From Coq Require Import List NArith Lia.
From Verif Require Import Base SpecLimit SpecFraming Builders Scenario PollProofs LimitProofs PropertiesSending.
Import ListNotations.
Local Open Scope N_scope.

(** ** C69 *)
(** Every message that was sent on a link, in any history in which the application
    does not set another limit, is at most as large as the attach frame said with
    which the peer took part in making the link.  A limit that does not fit u32 is
    cut: the link then keeps to less. *)
Theorem C69_announced : forall p id local rc mfs b evs s os t tk d, let s0 := ses_new id local rc mfs b in
  run p evs s0 = EOk (s, os) -> send_done s t tk d -> (forall n, ~ In (EvSenderMax (tk_link tk) n) evs) ->
  exists evs1 f evs2, evs = evs1 ++ EvAttach f :: evs2 /\ opened_with p evs1 f s0 (tk_link tk)
    /\ forall m, attach_max_message_size f = Some m -> tb_size (tk_body tk) <= m.
Proof. exact announced. Qed.
Print Assumptions C69_announced.
(** From any state: while the limit is not changed nothing larger is sent, so a
    limit that the application has set itself holds as well. *)
Theorem C69_within : forall m a p evs s s' os, (forall n, ~ In (EvSenderMax a n) evs) -> sends_up_to a s (Some m) -> under_way_fit m a s ->
  run p evs s = EOk (s', os) ->
  sends_up_to a s' (Some m) /\ forall t tk d, send_done s' t tk d -> tk_link tk = a -> tb_size (tk_body tk) <= m.
Proof. exact within. Qed.
Print Assumptions C69_within.
Theorem C69_set : forall p a n s s' os l, nth_error (s_snds s) a = Some l -> step p (EvSenderMax a n) s = EOk (s', os) -> sends_up_to a s' (Some n).
Proof.
  intros p a n s s' os l E H. cbn [step] in H. apply EOk_inj in H. apply (f_equal fst) in H. cbn [fst] in H. subst s'.
  exists (set_sn_max (Some n) l). split; [|reflexivity]. unfold upd_snd. rewrite E. cbn. apply nth_set_nth_eq. apply nth_error_Some. congruence.
Qed.
Print Assumptions C69_set.
(** What that means on the wire, if the size that a body gives is its size: the
    transfer frames are those of one delivery after the other, and the bytes that
    each carries for the link are at most [m]. *)
Theorem C69_wire_partial : forall m a p id local rc mfs b evs s1 evs2 s os os2,
  run p evs (ses_new id local rc mfs b) = EOk (s1, os) -> sends_up_to a s1 (Some m) -> under_way_fit m a s1 ->
  (forall n, ~ In (EvSenderMax a n) evs2) -> run p evs2 s1 = EOk (s, os2) ->
  (forall t tk, nth_error (s_tasks s) t = Some tk -> honest (tk_body tk)) ->
  exists order gs, transfers (s_out s) = concat gs /\ length gs = length order
    /\ forall k t g tk, nth_error order k = Some t -> nth_error gs k = Some g -> nth_error (s_tasks s) t = Some tk -> tk_link tk = a ->
         wire_of s k t g /\ blen (concat (map body_of g)) <= m.
Proof.
  intros m a p id local rc mfs b evs s1 evs2 s os os2 R1 M U N R2 H.
  assert (Re : reachable p s) by (exists id, local, rc, mfs, b, (evs ++ evs2), (os ++ os2); exact (HandleTheorems.run_app _ _ _ _ _ _ _ _ R1 R2)).
  destruct (C23_split_exact_partial p s Re H) as (order & gs & O & L & _ & _ & W). exists order, gs. split; [exact O|]. split; [exact L|].
  intros k t g tk Ko Kg Et La. assert (Wk := W _ _ _ Ko Kg). split; [exact Wk|]. destruct Wk as (tk' & l & d & D & El & _ & _ & One).
  assert (tk' = tk) by (destruct D as (Et' & _); congruence). subst tk'.
  destruct (within _ _ _ _ _ _ _ N M U R2) as (_ & X). specialize (X _ _ _ D La). rewrite (H _ _ Et) in X.
  destruct One as (Cc & _). rewrite Cc. exact X.
Qed.
Print Assumptions C69_wire_partial.
(** A body beyond the limit is refused by the first poll of the send, and nothing
    else happens; a body within it is not refused for its size. *)
Theorem C69_refused : forall p t a body s m s' os,
  not_begun t a body s -> may_send a s -> sends_up_to a s (Some m) -> m < tb_size body -> step p (EvPollSend t) s = EOk (s', os) ->
  completed_with t (inr EBodyTooLarge) s' /\ s_out s' = s_out s /\ s_snds s' = s_snds s /\ s_dlvs s' = s_dlvs s
  /\ (forall u, u <> t -> nth_error (s_tasks s') u = nth_error (s_tasks s) u).
Proof.
  intros p t a body s m s' os (tk & Et & La & Bo & St) (l & El & Ee & Ec) (l' & El' & Em) Lt H. subst a body.
  assert (l' = l) by congruence. subst l'. cbn [step] in H. apply EOk_inj in H. apply (f_equal fst) in H. cbn [fst] in H. subst s'.
  rewrite (poll_large _ _ _ _ _ Et St El Em Lt), Ee, Ec. unfold upd_task. rewrite Et. cbn.
  split; [|split; [reflexivity|split; [reflexivity|split; [reflexivity|]]]].
  - eexists. split; [apply nth_set_nth_eq; apply nth_error_Some; congruence | reflexivity].
  - intros u Nu. apply nth_set_nth_neq. congruence.
Qed.
Print Assumptions C69_refused.
Theorem C69_accepted : forall p t a body s n s' os,
  not_begun t a body s -> may_send a s -> sends_up_to a s n -> (forall m, n = Some m -> tb_size body <= m) -> step p (EvPollSend t) s = EOk (s', os) ->
  ~ completed_with t (inr EBodyTooLarge) s'.
Proof.
  intros p t a body s n s' os (tk & Et & La & Bo & St) (l & El & Ee & Ec) (l' & El' & Em) M H (tk' & Et' & D). subst a body.
  assert (l' = l) by congruence. subst l'. cbn [step] in H. apply EOk_inj in H. apply (f_equal fst) in H. cbn [fst] in H. subst s'.
  refine (poll_small _ _ _ _ Et St El Ee Ec _ _ Et' D). intros m Hm. apply M. congruence.
Qed.
Print Assumptions C69_accepted.

(** A receiver of the peer that takes at most [n] bytes. *)
Definition peer_limit (n : N) : attach_t :=
  mk_attach (str "in") 0 RoleReceiver SenderMixed ReceiverFirst None None None false None (Some n) None None None.
Definition limited_link (n : N) : list ev := [EvAttach (peer_limit n); EvCtlOk 0 same_frame] ++ credit_event 1 0 9.
Definition outcomes (s : ses) : list tstate := map tk_st (s_tasks s).
(** 5000 bytes are sent in three frames, 5001 are refused. *)
Example C69_case : let s := result Debug (limited_link 5000 ++ send_event 0 0 (bytes_of 5000) ++ send_event 0 1 (bytes_of 5001)) (start 4096 100) in
  runs Debug (limited_link 5000 ++ send_event 0 0 (bytes_of 5000) ++ send_event 0 1 (bytes_of 5001)) (start 4096 100) = true
  /\ outcomes s = [TDone (inl 0%nat); TDone (inr EBodyTooLarge)]
  /\ map (fun t => blen (body_of t)) (transfers (s_out s)) = [2048; 2048; 904]
  /\ sends_up_to 0 s (Some 5000) /\ may_send 0 s /\ under_way_fit 5000 0 (result Debug (limited_link 5000) (start 4096 100))
  /\ not_begun 0 0 (bytes_of 5001) (result Debug (limited_link 5000 ++ [EvSend 0 (bytes_of 5001) None false None]) (start 4096 100)).
Proof.
  assert (X : forall n, @nth_error stask [] n = None) by (intros []; reflexivity).
  split; [vm_compute; reflexivity|]. split; [vm_compute; reflexivity|]. split; [vm_compute; reflexivity|].
  split; [eexists; split; vm_compute; reflexivity|]. split; [eexists; split; [vm_compute; reflexivity|split; vm_compute; reflexivity]|].
  split; [intros t tk E; replace (s_tasks _) with (@nil stask) in E by (vm_compute; reflexivity); rewrite X in E; discriminate E|].
  eexists. split; [vm_compute; reflexivity|]. split; [reflexivity|]. split; reflexivity.
Qed.

(** In AMQP a limit of 0 means that there is none.  Here it refuses every body. *)
Theorem C69_zero_refuted : exists s os f, f = peer_limit 0 /\ attach_max_message_size f = Some 0
  /\ run Release (limited_link 0 ++ send_event 0 0 (bytes_of 1)) (start 4096 100) = EOk (s, os)
  /\ In (EvAttach f) (limited_link 0) /\ outcomes s = [TDone (inr EBodyTooLarge)].
Proof.
  eexists _, _, _. split; [reflexivity|]. split; [reflexivity|]. split; [vm_compute; reflexivity|]. split; [left; reflexivity|]. reflexivity.
Qed.
Print Assumptions C69_zero_refuted.
(** A message that was changed after its size was asked for is measured by its former
    size: 2008 bytes go to a peer that takes 100 (in a frame whose size field is wrong too, see C14). *)
Definition grown_message : message :=
  apply_ops [OpBodyMut (fun b => match b with (_, q, n, v) => ([[x61]], q, n, v) end); OpEncodedSize;
             OpBodyMut (fun b => match b with (_, q, n, v) => ([repeat x61 2000], q, n, v) end)] message0.
Theorem C69_stale_refuted : exists s os,
  run Release (limited_link 100 ++ send_event 0 0 (TBMessage grown_message)) (start 4096 100) = EOk (s, os)
  /\ outcomes s = [TDone (inl 0%nat)] /\ map (fun t => blen (body_of t)) (transfers (s_out s)) = [2008].
Proof. eexists _, _. split; [vm_compute; reflexivity|]. split; vm_compute; reflexivity. Qed.
Print Assumptions C69_stale_refuted.
