(** * What one poll of a send does, in one lemma *)

From Verif Require Export SendTheorems.
From Coq Require Import ZifyBool ZifyNat ZifyN.

(** How [l] looks after a poll that took an automatic tag ([auto]) and a credit
    ([took]); the list of waiters may change too. *)
Definition link_after (auto took : bool) (l l' : slink) : Prop :=
  sn_tag l' = (if auto then wadd (sn_tag l) 1 else sn_tag l)
  /\ sn_credit l' = (if took then sn_credit l - 1 else sn_credit l)
  /\ sn_dc l' = (if took then wadd (sn_dc l) 1 else sn_dc l)
  /\ sn_id l' = sn_id l /\ sn_name l' = sn_name l /\ sn_rhandle l' = sn_rhandle l
  /\ sn_error l' = sn_error l /\ sn_closed l' = sn_closed l.

Record pstep (t : nat) (s s' : ses) (tk : stask) (l : slink) (st : tstate) (auto took sent : bool)
       (tag : bytes) : Prop := mk_pstep {
  ps_task : nth_error (s_tasks s) t = Some tk;
  ps_link : nth_error (s_snds s) (tk_link tk) = Some l;
  ps_active : forall r, tk_st tk <> TDone r;
  ps_tasks : forall u, nth_error (s_tasks s') u
               = if Nat.eqb t u then Some (set_tk_st st (set_tk_took (tk_took tk || took) tk))
                 else nth_error (s_tasks s) u;
  ps_snds : forall a, match nth_error (s_snds s) a with
                      | None => nth_error (s_snds s') a = None
                      | Some m => exists m', nth_error (s_snds s') a = Some m'
                          /\ if Nat.eqb (tk_link tk) a then link_after auto took m m' else m' = m
                      end;
  ps_dlvs : s_dlvs s' = s_dlvs s
              ++ if sent then [mk_dlv (s_nout s) tag true (tk_settled tk) false true] else [];
  ps_iwin : s_iwin s' = (if sent then s_iwin s - 1 else s_iwin s) /\ (sent = true -> s_iwin s <> 0);
  ps_auto : auto = true -> tk_st tk = TNew /\ tk_tag tk = None /\ tag = be 4 (sn_tag l);
  ps_noauto : auto = false -> (exists e, st = TDone (inr e)) \/ tk_tag tk = Some tag
              \/ exists c, tk_st tk = TLink tag c \/ tk_st tk = TSess tag c;
  ps_case :
    (exists e, st = TDone (inr e)) /\ took = false /\ auto = false
    \/ took = false /\ (exists c, st = TLink tag c) /\ (tk_st tk = TNew \/ exists c, tk_st tk = TLink tag c)
    \/ took = true /\ sn_credit l <> 0 /\ (tk_st tk = TNew \/ exists c, tk_st tk = TLink tag c)
       /\ (st = TDone (inl (length (s_dlvs s))) \/ exists c, st = TSess tag c)
    \/ took = false /\ (exists c, tk_st tk = TSess tag c)
       /\ (st = TDone (inl (length (s_dlvs s))) \/ exists c, st = TSess tag c);
  ps_st : st = TDone (inl (length (s_dlvs s))) /\ sent = true
          \/ sent = false /\ ((exists c, st = TLink tag c) \/ (exists c, st = TSess tag c)
                              \/ exists e, st = TDone (inr e));
  ps_nout : s_nout s' = if sent then wadd (s_nout s) 1 else s_nout s;
  ps_out : s_out s' = s_out s
             ++ if sent then map FTransfer (delivery_ts (s_mfs s) (as_u32 (sn_id l)) (s_nout s) tag
                               (tk_body tk) (tk_settled tk) (tk_format tk))
                else []
}.

(* what the loop over the session's window does *)
Lemma session_loop_effect : forall t tk l tag s,
  let s' := session_loop t tk l tag s in
  exists st sent,
  (forall u, nth_error (s_tasks s') u
     = if Nat.eqb t u then option_map (set_tk_st st) (nth_error (s_tasks s) t) else nth_error (s_tasks s) u)
  /\ s_snds s' = s_snds s
  /\ s_dlvs s' = s_dlvs s ++ (if sent : bool then [mk_dlv (s_nout s) tag true (tk_settled tk) false true] else [])
  /\ s_iwin s' = (if sent then s_iwin s - 1 else s_iwin s) /\ (sent = true -> s_iwin s <> 0)
  /\ (st = TDone (inl (length (s_dlvs s))) /\ sent = true \/ sent = false /\ exists c, st = TSess tag c)
  /\ s_nout s' = (if sent then wadd (s_nout s) 1 else s_nout s)
  /\ s_out s' = s_out s
             ++ if sent then map FTransfer (delivery_ts (s_mfs s) (as_u32 (sn_id l)) (s_nout s) tag
                               (tk_body tk) (tk_settled tk) (tk_format tk))
                else [].
Proof.
  intros t tk l tag s. cbv zeta. unfold session_loop. destruct (N.eqb_spec (s_iwin s) 0) as [E|E].
  - cbv beta iota zeta delta [new_chan]. eexists. exists false.
    refine (conj _ (conj _ (conj _ (conj _ (conj _ (conj (or_intror (conj eq_refl _)) (conj _ _))))))).
    + intros u. rewrite nth_upd_task. frw. reflexivity.
    + frw. reflexivity.
    + rewrite app_nil_r. frw. reflexivity.
    + frw. reflexivity.
    + discriminate.
    + eexists. reflexivity.
    + frw. reflexivity.
    + rewrite app_nil_r. frw. reflexivity.
  - destruct (transmit_effect t tk l tag s) as (O & No & D & I & T).
    exists (TDone (inl (length (s_dlvs s)))), true.
    refine (conj _ (conj _ (conj D (conj I (conj (fun _ => E) (conj (or_introl (conj eq_refl eq_refl)) (conj No O))))))).
    + intros u. rewrite T. apply nth_upd_task.
    + unfold transmit. cbv zeta. frw. destruct (tk_settled tk); frw; reflexivity.
Qed.

Lemma poll_send_pstep : forall t s, poll_send t s = s
  \/ exists tk l st auto took sent tag, pstep t s (poll_send t s) tk l st auto took sent tag.
Proof.
  intros t s.
  destruct (poll_send_polled t s) as [|tk l e Et El D|tk l tag s0 Et El B|tk l tag c Et El Es].
  - left. reflexivity.
  - right. exists tk, l, (TDone (inr e)), false, false, false, []. constructor; auto; try discriminate.
    + intros u. rewrite nth_upd_task, Et. destruct (Nat.eqb t u); [|reflexivity].
      cbn [option_map]. rewrite Bool.orb_false_r. destruct tk; reflexivity.
    + intros a. frw. destruct (nth_error (s_snds s) a) as [m|] eqn:Em; [|reflexivity].
      exists m. split; [reflexivity|]. destruct (Nat.eqb (tk_link tk) a); [|reflexivity].
      unfold link_after. repeat split.
    + rewrite app_nil_r. frw. reflexivity.
    + split; [frw; reflexivity | discriminate].
    + eauto.
    + left. eauto.
    + right. eauto.
    + frw. reflexivity.
    + rewrite app_nil_r. frw. reflexivity.
  - right. assert (A := begins_active _ _ _ _ _ B).
    assert (Ht := begins_tasks _ _ _ _ _ B). assert (Fb := begins_framed _ _ _ _ _ B).
    set (auto := match tk_st tk, tk_tag tk with TNew, None => true | _, _ => false end).
    assert (Hs0 : forall a, match nth_error (s_snds s) a with
                    | None => nth_error (s_snds s0) a = None
                    | Some m => exists m', nth_error (s_snds s0) a = Some m'
                          /\ if Nat.eqb (tk_link tk) a then link_after auto false m m' else m' = m
                    end).
    { intros a. unfold auto. destruct B as [E1 E2|E1 E2 E3|c E1]; rewrite E1, ?E2.
      1,3: destruct (nth_error (s_snds s) a) as [m|]; [|reflexivity]; exists m; split; [reflexivity|];
        destruct (Nat.eqb (tk_link tk) a); [|reflexivity]; unfold link_after; repeat split.
      rewrite nth_upd_snd. destruct (Nat.eqb_spec (tk_link tk) a) as [->|].
      - destruct (nth_error (s_snds s) a) as [m|]; [|reflexivity]. cbn [option_map].
        eexists; split; [reflexivity|]. unfold link_after. repeat split.
      - destruct (nth_error (s_snds s) a) as [m|]; [|reflexivity]. exists m. auto. }
    assert (Ha : auto = true -> tk_st tk = TNew /\ tk_tag tk = None /\ tag = be 4 (sn_tag l)).
    { unfold auto. destruct B as [E1 E2|E1 E2 E3|c E1]; rewrite E1, ?E2; try discriminate. auto. }
    assert (Hn : auto = false -> tk_tag tk = Some tag \/ exists c, tk_st tk = TLink tag c \/ tk_st tk = TSess tag c).
    { unfold auto. destruct B as [E1 E2|E1 E2 E3|c E1]; rewrite E1, ?E2; try discriminate; eauto. }
    assert (Hst : tk_st tk = TNew \/ exists c, tk_st tk = TLink tag c).
    { destruct B; eauto. }
    unfold link_loop. destruct (_ || _) eqn:Ec.
    + cbv beta iota zeta delta [new_chan].
      exists tk, l, (TLink tag (length (s_chans s0))), auto, false, false, tag.
      constructor; auto.
      * intros u. rewrite nth_upd_task. frw. rewrite Ht, Et. destruct (Nat.eqb t u); [|reflexivity].
        cbn [option_map]. rewrite Bool.orb_false_r. destruct tk; reflexivity.
      * intros a. specialize (Hs0 a). frw. rewrite nth_upd_snd. frw.
        destruct (nth_error (s_snds s) a) as [m|].
        -- destruct Hs0 as (m' & Em & Hm). destruct (Nat.eqb_spec (tk_link tk) a) as [->|]; [|eauto].
           rewrite Em. cbn [option_map]. eexists; split; [reflexivity|].
           unfold link_after in *. st_cbn. exact Hm.
        -- destruct (Nat.eqb_spec (tk_link tk) a) as [->|]; [|exact Hs0]. rewrite Hs0. reflexivity.
      * rewrite app_nil_r. frw. apply (Fb Fdlvs eq_refl).
      * split; [frw; apply (Fb Fiwin eq_refl) | discriminate].
      * right; left. eauto.
      * right. eauto.
      * frw. apply (Fb Fnout eq_refl).
      * rewrite app_nil_r. frw. apply (Fb Fout eq_refl).
    + cbv zeta.
      match goal with |- context [upd_task t (set_tk_took true) ?x] => set (s1 := x) end.
      destruct (session_loop_effect t tk l tag (upd_task t (set_tk_took true) s1))
        as (st & sent & T & Sn & D & Iw & Nz & St & No & O).
      assert (E1 : framed s0 s1 [Fsnds]) by (unfold s1; fr_chain).
      assert (Ed : s_dlvs (upd_task t (set_tk_took true) s1) = s_dlvs s).
      { frw. rewrite (E1 Fdlvs eq_refl : s_dlvs s1 = s_dlvs s0). apply (Fb Fdlvs eq_refl). }
      assert (Ei : s_iwin (upd_task t (set_tk_took true) s1) = s_iwin s).
      { frw. rewrite (E1 Fiwin eq_refl : s_iwin s1 = s_iwin s0). apply (Fb Fiwin eq_refl). }
      assert (En : s_nout (upd_task t (set_tk_took true) s1) = s_nout s).
      { frw. rewrite (E1 Fnout eq_refl : s_nout s1 = s_nout s0). apply (Fb Fnout eq_refl). }
      assert (Eo : s_out (upd_task t (set_tk_took true) s1) = s_out s).
      { frw. rewrite (E1 Fout eq_refl : s_out s1 = s_out s0). apply (Fb Fout eq_refl). }
      assert (Emf : s_mfs (upd_task t (set_tk_took true) s1) = s_mfs s).
      { frw. rewrite (E1 Fmfs eq_refl : s_mfs s1 = s_mfs s0). apply (Fb Fmfs eq_refl). }
      rewrite En in No. rewrite Eo, En, Emf in O.
      rewrite Ed, En in D. rewrite Ei in Iw, Nz. rewrite Ed in St.
      exists tk, l, st, auto, true, sent, tag. constructor; auto.
      * intros u. rewrite T, !nth_upd_task, Nat.eqb_refl.
        rewrite (E1 Ftasks eq_refl : s_tasks s1 = s_tasks s0), Ht, Et.
        destruct (Nat.eqb t u) eqn:Eu; [|reflexivity].
        cbn [option_map]. rewrite Bool.orb_true_r. reflexivity.
      * intros a. specialize (Hs0 a). rewrite Sn. frw. unfold s1. rewrite nth_upd_snd.
        destruct (nth_error (s_snds s) a) as [m|].
        -- destruct Hs0 as (m' & Em & Hm). destruct (Nat.eqb_spec (tk_link tk) a) as [->|]; [|eauto].
           rewrite Em. cbn [option_map]. eexists; split; [reflexivity|].
           unfold link_after in *. st_cbn. decompose [and] Hm. repeat split; congruence.
        -- destruct (Nat.eqb_spec (tk_link tk) a) as [->|]; [|exact Hs0]. rewrite Hs0. reflexivity.
      * right; right; left. refine (conj eq_refl (conj _ (conj Hst _))).
        -- intros E0. rewrite E0 in Ec. discriminate.
        -- destruct St as [[St _]|[_ St]]; auto.
      * destruct St as [St|[-> St]]; [left; exact St|right; eauto].
  - right.
    destruct (session_loop_effect t tk l tag s) as (st & sent & T & Sn & D & Iw & Nz & St & No & O).
    exists tk, l, st, false, false, sent, tag. constructor; auto; try congruence.
    + intros u. rewrite T, Et. destruct (Nat.eqb t u); [|reflexivity].
      cbn [option_map]. rewrite Bool.orb_false_r. destruct tk; reflexivity.
    + intros a. rewrite Sn. destruct (nth_error (s_snds s) a) as [m|]; [|reflexivity].
      exists m. split; [reflexivity|]. destruct (Nat.eqb (tk_link tk) a); [|reflexivity].
      unfold link_after. repeat split.
    + eauto.
    + right; right; right. refine (conj eq_refl (conj _ _)); [eauto|].
      destruct St as [[St _]|[_ St]]; auto.
    + destruct St as [St|[-> St]]; [left; exact St|right; eauto].
Qed.
