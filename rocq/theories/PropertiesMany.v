(** * Theorems about the limit on handles: C74

    Vocabulary: [SpecMany.v]. *)

From Coq Require Import Strings.String.
From Coq Require Import List NArith Lia.
From Verif Require Import Base SpecMany Scenario ManyProofs.
Import ListNotations.
Local Open Scope N_scope.

(** ** C74 *)
(** If a session never has more than [n] links at a time, then it attaches no handle
    from [n] on, however many links it had in its history.  The control service
    leaves the handle in its answers alone. *)
Theorem C74_below : forall p n evs id local rc mfs b s os,
  run p evs (ses_new id local rc mfs b) = EOk (s, os) ->
  at_most_links n p evs (ses_new id local rc mfs b) -> leaves_handles evs ->
  forall a, In (FAttach a) (s_out s) -> attach_handle a < n.
Proof. exact handles_below. Qed.
Print Assumptions C74_below.

(** So the limit that the peer's Begin gives is kept by a session that never has
    more than handle-max + 1 links. *)
Theorem C74_limit_partial : forall p evs id local rc mfs b s os,
  run p evs (ses_new id local rc mfs b) = EOk (s, os) ->
  at_most_links (begin_handle_max b + 1) p evs (ses_new id local rc mfs b) -> leaves_handles evs ->
  forall a, In (FAttach a) (s_out s) -> attach_handle a <= begin_handle_max b.
Proof. intros p evs id local rc mfs b s os H A L a I. assert (X := handles_below _ _ _ _ _ _ _ _ _ _ H A L a I). lia. Qed.
Print Assumptions C74_limit_partial.

(** But nothing stops an application that attaches more of them, although the peer
    has announced handle-max 0. *)
Definition one_handle : begin_t := mk_begin (Some 0) 1 1000 100 0 None None None.
Theorem C74_exceeded_refuted : forall p, exists evs s os a,
  run p evs (ses_new 0 true 0 4096 one_handle) = EOk (s, os) /\ s_error s = None
  /\ In (FAttach a) (s_out s) /\ begin_handle_max one_handle < attach_handle a.
Proof.
  intros p. exists [EvAttachSender (attach_of (str "a") 0 RoleSender None); EvAttachSender (attach_of (str "b") 0 RoleSender None)].
  eexists _, _, (attach_of (str "b") 1 RoleSender None).
  split; [destruct p; vm_compute; reflexivity|]. split; [reflexivity|]. split; [right; left; reflexivity | reflexivity].
Qed.
Print Assumptions C74_exceeded_refuted.

(** Three links, one after the other and two at a time: they use the handles 0 and 1. *)
Lemma at_most_nil : forall n p s, links_now s <= n -> at_most_links n p [] s.
Proof. intros n p s H evs1 evs2 s1 os1 E R. destruct evs1; [|discriminate E]. cbn in R. assert (s1 = s) as -> by congruence. exact H. Qed.
Lemma at_most_cons : forall n p e evs s, links_now s <= n -> at_most_links n p evs (result p [e] s) -> runs p [e] s = true -> at_most_links n p (e :: evs) s.
Proof.
  intros n p e evs s H K Ok evs1 evs2 s2 os2 E R. destruct evs1 as [|e1 evs1].
  - cbn in R. assert (s2 = s) as -> by congruence. exact H.
  - injection E as <- ->. cbn [run] in R. unfold runs, result in Ok, K. cbn [run] in Ok, K.
    destruct (step p e s) as [[s1 o1]|]; [|discriminate Ok]. cbn [ebind] in R, K.
    destruct (run p evs1 s1) as [[s3 o3]|] eqn:E3; [|discriminate R]. cbn [ebind] in R. assert (s2 = s3) as -> by congruence.
    exact (K evs1 evs2 s3 o3 eq_refl E3).
Qed.
Definition C74_events : list ev :=
  [EvAttachSender (attach_of (str "a") 0 RoleSender None); EvAttach (attach_of (str "a") 5 RoleReceiver None);
   EvAttach (attach_of (str "b") 6 RoleSender (Some 0)); EvCtlOk 0 same_frame; EvCtlOk 1 same_frame;
   EvFrame (FDetach (mk_detach 5 true None)); EvCtlOk 2 same_frame;
   EvAttachReceiver (attach_of (str "c") 0 RoleReceiver None)].
Example C74_case :
  runs Release C74_events (start 4096 1000) = true
  /\ at_most_links 2 Release C74_events (start 4096 1000) /\ leaves_handles C74_events
  /\ map (fun f => match f with FAttach a => Some (attach_handle a) | _ => None end) (s_out (result Release C74_events (start 4096 1000)))
     = [Some 0; Some 1; None; None; Some 0].
Proof.
  split; [vm_compute; reflexivity|]. split; [|split].
  - unfold C74_events. repeat (apply at_most_cons; [vm_compute; discriminate | | vm_compute; reflexivity]). apply at_most_nil. vm_compute. discriminate.
  - intros i edit I r. cbn [C74_events In] in I. repeat destruct I as [I|I]; try discriminate I; try contradiction; injection I as _ <-; reflexivity.
  - vm_compute. reflexivity.
Qed.
