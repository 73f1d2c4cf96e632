(** * Proofs about the router *)

From Verif Require Import Base Protocol Router SpecRouter.
From Coq Require Import Permutation Lia ZifyBool ZifyNat ZifyN.

Lemma handed_app a b : handed (a ++ b) = handed a ++ handed b.
Proof. apply flat_map_app. Qed.
Lemma settled_app a b : settled (a ++ b) = settled a ++ settled b.
Proof. apply flat_map_app. Qed.
Lemma dropped_app a b : dropped (a ++ b) = dropped a ++ dropped b.
Proof. apply flat_map_app. Qed.
Lemma arrived_app a b : arrived (a ++ b) = arrived a ++ arrived b.
Proof. apply flat_map_app. Qed.

Lemma run_app h1 h2 r : router_run (h1 ++ h2) r =
  let (n, r1) := router_run h1 r in let (m, r2) := router_run h2 r1 in (n ++ m, r2).
Proof.
  revert r. induction h1 as [|e h1 IH]; intros r; cbn [app router_run].
  - destruct (router_run h2 r). reflexivity.
  - destruct (router_step e r) as [n r1]. rewrite IH. destruct (router_run h1 r1) as [m r2].
    destruct (router_run h2 r2) as [k r3]. rewrite app_assoc. reflexivity.
Qed.
Lemma after_snoc h e : after (h ++ [e]) = snd (router_step e (after h)).
Proof.
  unfold after. rewrite run_app. destruct (router_run h router_init) as [n r]. cbn [router_run snd].
  destruct (router_step e r). reflexivity.
Qed.
Lemma seen_snoc h e : seen (h ++ [e]) = seen h ++ then_seen h e.
Proof.
  unfold seen, then_seen, after. rewrite run_app. destruct (router_run h router_init) as [n r]. cbn [router_run fst snd].
  destruct (router_step e r). cbn. rewrite app_nil_r. reflexivity.
Qed.

(** ** Where a delivery is *)
Definition ready_of (js : list job) : list N := map jb_delivery (filter waits_ready js).
Definition calls_of (js : list job) : list N := map jb_delivery (filter waits_result js).
Definition pool (r : router) : list N := ready_of (ro_jobs r) ++ map snd (ro_queue r).

Lemma ready_app a b : ready_of (a ++ b) = ready_of a ++ ready_of b.
Proof. unfold ready_of. rewrite filter_app, map_app. reflexivity. Qed.
Lemma calls_app a b : calls_of (a ++ b) = calls_of a ++ calls_of b.
Proof. unfold calls_of. rewrite filter_app, map_app. reflexivity. Qed.
Lemma moves_ready w js : ready_of (map (moves w) js) = ready_of js.
Proof.
  unfold ready_of. induction js as [|[l d a [m|]] js IH]; [reflexivity|cbn in *; rewrite IH; reflexivity|exact IH].
Qed.
Lemma moves_calls w js : calls_of (map (moves w) js) = calls_of js.
Proof.
  unfold calls_of. induction js as [|[l d a [m|]] js IH]; [reflexivity|exact IH|cbn in *; rewrite IH; reflexivity].
Qed.

Lemma take_job_spec d p js : forall j js', take_job d p js = Some (j, js') ->
  jb_delivery j = d /\ p j = true /\ exists a b, js = a ++ j :: b /\ js' = a ++ b.
Proof.
  induction js as [|k js IH]; intros j js' H; [discriminate|]. cbn [take_job] in H.
  destruct ((jb_delivery k =? d) && p k) eqn:E.
  - injection H as <- <-. apply andb_prop in E. destruct E as [E1 E2]. apply N.eqb_eq in E1.
    repeat split; auto. exists [], js. split; reflexivity.
  - destruct (take_job d p js) as [[x js1]|]; [|discriminate]. injection H as -> <-.
    destruct (IH j js1 eq_refl) as [A [B [a [b [C D]]]]]. repeat split; auto.
    exists (k :: a), b. subst. split; reflexivity.
Qed.
Lemma take_job_some d p js j : In j js -> jb_delivery j = d -> p j = true -> exists k js', take_job d p js = Some (k, js').
Proof.
  induction js as [|k js IH]; intros I D P; [destruct I|]. cbn [take_job].
  destruct ((jb_delivery k =? d) && p k) eqn:E; [eauto|].
  destruct I as [->|I]; [rewrite D, N.eqb_refl, P in E; discriminate|].
  destruct (IH I D P) as [x [js' ->]]. eauto.
Qed.
Lemma take_delivery_spec l q : forall d q', take_delivery l q = Some (d, q') ->
  exists a b, q = a ++ (l, d) :: b /\ q' = a ++ b /\ (forall x, In x a -> fst x <> l).
Proof.
  induction q as [|[k x] q IH]; intros d q' H; [discriminate|]. cbn [take_delivery] in H.
  destruct (k =? l) eqn:E.
  - injection H as <- <-. apply N.eqb_eq in E. subst. exists [], q. repeat split. intros y [].
  - destruct (take_delivery l q) as [[y q1]|]; [|discriminate]. injection H as -> <-.
    destruct (IH d q1 eq_refl) as [a [b [A [B C]]]]. exists ((k, x) :: a), b. subst. repeat split.
    intros y [<-|I]; [cbn; lia|apply C, I].
Qed.
Lemma take_delivery_none l q : take_delivery l q = None -> forall x, In x q -> fst x <> l.
Proof.
  induction q as [|[k y] q IH]; intros H x I; [destruct I|]. cbn [take_delivery] in H.
  destruct (k =? l) eqn:E; [discriminate|]. destruct (take_delivery l q) as [[? ?]|]; [discriminate|].
  destruct I as [<-|I]; [cbn; lia|apply IH; auto].
Qed.

Lemma attach_done_pool a l r : let (n, r') := attach_done a l r in
  pool r' = pool r /\ ro_jobs r' = ro_jobs r /\ ro_queue r' = ro_queue r /\ handed n = [] /\ settled n = [] /\ dropped n = []
  /\ ro_handler r' = ro_handler r /\ ro_creating r' = ro_creating r /\ ro_undefined r' = ro_undefined r.
Proof. destruct a; cbn; repeat split. Qed.
Lemma start_job_pool a l r : let (n, r') := start_job a l r in
  Permutation (pool r) (pool r') /\ calls_of (ro_jobs r') = calls_of (ro_jobs r)
  /\ handed n = [] /\ settled n = [] /\ dropped n = [].
Proof.
  unfold start_job. destruct (take_delivery l (ro_queue r)) as [[d q]|] eqn:E.
  - apply take_delivery_spec in E. destruct E as [x [y [E [-> _]]]]. unfold pool. cbn [ro_jobs ro_queue].
    rewrite E, ready_app, calls_app, !map_app. cbn. rewrite app_nil_r.
    split; [|repeat split]. rewrite <- !app_assoc. apply Permutation_app_head. cbn. symmetry. apply Permutation_middle.
  - pose proof (attach_done_pool a l r) as A. destruct (attach_done a l r) as [n r']. destruct A as [A [B [_ [C [D [F _]]]]]].
    rewrite A, B. repeat split; auto.
Qed.

Lemma step_pool e r : let (n, r') := router_step e r in
  (exists gone, Permutation (arrived [e] ++ pool r) (handed n ++ pool r' ++ dropped n ++ gone)
     /\ (~ (exists l d o, e = EArrives l d o /\ In (RClosed l) n) -> ro_undefined r' = false -> gone = []))
  /\ Permutation (handed n ++ calls_of (ro_jobs r)) (settled n ++ calls_of (ro_jobs r')).
Proof.
  unfold router_step. destruct (ro_undefined r) eqn:U.
  { split; [exists (arrived [e])|apply Permutation_refl]. split; [cbn; apply Permutation_app_comm|congruence]. }
  assert (ID : forall x : list N, Permutation x (x ++ [])) by (intros x; rewrite app_nil_r; apply Permutation_refl).
  destruct e as [l known grows|l n|l d opened|l ok grows|d ok|d res|l].
  - destruct known; cbn [arrived handed dropped settled flat_map app]; (split; [exists []; split; [|reflexivity]|]); unfold pool; cbn [ro_jobs ro_queue];
      rewrite ?moves_ready, ?moves_calls, ?app_nil_r; apply Permutation_refl.
  - cbn. split; [exists []; split; [apply ID|reflexivity]|apply Permutation_refl].
  - destruct (ro_credit r l =? 0) eqn:C.
    + split; [exists [d]; split; [cbn; apply Permutation_cons_append|intros N _; destruct N; exists l, d, opened; split; [reflexivity|left; reflexivity]]|apply Permutation_refl].
    + set (r1 := mk_router _ _ _ _ _ _).
      assert (P : Permutation (d :: pool r) (pool r1)).
      { unfold pool, r1. cbn [ro_jobs ro_queue]. rewrite map_app, app_assoc. cbn. apply Permutation_cons_append. }
      assert (J : ro_jobs r1 = ro_jobs r) by reflexivity. clearbody r1.
      assert (R1 : (exists gone : list N, Permutation (arrived [EArrives l d opened] ++ pool r) ([] ++ pool r1 ++ [] ++ gone)
         /\ (~ (exists l0 d0 o, EArrives l d opened = EArrives l0 d0 o /\ In (RClosed l0) []) -> ro_undefined r1 = false -> gone = []))
         /\ Permutation ([] ++ calls_of (ro_jobs r)) ([] ++ calls_of (ro_jobs r1))).
      { split; [exists []; split; [cbn; rewrite app_nil_r; exact P|reflexivity]|rewrite J; apply Permutation_refl]. }
      destruct opened; [|exact R1]. destruct (ro_handler r1 l); [exact R1|exact R1|]. clear R1.
      pose proof (start_job_pool false l r1) as SJ. destruct (start_job false l r1) as [n r2].
      destruct SJ as [S1 [S2 [S3 [S4 S5]]]]. rewrite S3, S4, S5, S2, J. split; [|apply Permutation_refl].
      exists []. split; [cbn; rewrite app_nil_r, <- S1; exact P|reflexivity].
  - destruct (existsb _ _).
    2: { cbn. split; [exists []; split; [apply ID|reflexivity]|apply Permutation_refl]. }
    destruct ok.
    2: { cbn. split; [exists []; split; [apply ID|reflexivity]|apply Permutation_refl]. }
    set (r1 := mk_router _ _ _ _ _ _).
    assert (P : pool r1 = pool r) by (unfold pool, r1; cbn [ro_jobs ro_queue]; rewrite moves_ready; reflexivity).
    assert (J : calls_of (ro_jobs r1) = calls_of (ro_jobs r)) by (unfold r1; cbn [ro_jobs]; apply moves_calls). clearbody r1.
    pose proof (start_job_pool true l r1) as SJ. destruct (start_job true l r1) as [n r2].
    destruct SJ as [S1 [S2 [S3 [S4 S5]]]]. rewrite S3, S4, S5, S2, J. split; [|apply Permutation_refl].
    exists []. split; [cbn; rewrite app_nil_r, <- S1, P; apply Permutation_refl|reflexivity].
  - destruct (take_job d waits_ready (ro_jobs r)) as [[j js]|] eqn:T.
    2: { cbn. split; [exists []; split; [apply ID|reflexivity]|apply Permutation_refl]. }
    apply take_job_spec in T. destruct T as [D [W [a [b [T ->]]]]].
    assert (PO : Permutation (pool r) (d :: ready_of (a ++ b) ++ map snd (ro_queue r))).
    { unfold pool. rewrite T, !ready_app. change (j :: b) with ([j] ++ b). rewrite ready_app.
      unfold ready_of at 2. cbn [filter map]. rewrite W. cbn [map app]. rewrite D, <- !app_assoc. symmetry. apply Permutation_middle. }
    assert (CA : calls_of (ro_jobs r) = calls_of (a ++ b)).
    { rewrite T, !calls_app. change (j :: b) with ([j] ++ b). rewrite calls_app. unfold calls_of at 2.
      cbn [filter map]. unfold waits_result. rewrite W. reflexivity. }
    unfold waits_ready in W. destruct (jb_phase j) as [[]|] eqn:PH; [| |discriminate].
    + split; [|cbn; rewrite CA; apply Permutation_refl]. exists [d]. split; [|cbn; discriminate].
      cbn [arrived flat_map app handed dropped]. rewrite PO. unfold pool. cbn [ro_jobs ro_queue]. apply Permutation_cons_append.
    + destruct ok.
      * assert (HN : handed ((if ro_credit r (jb_link j) =? 0 then [RCredit (jb_link j) 50] else []) ++ [RHanded (jb_link j) d]) = [d])
          by (destruct (_ =? 0); reflexivity).
        assert (SN : settled ((if ro_credit r (jb_link j) =? 0 then [RCredit (jb_link j) 50] else []) ++ [RHanded (jb_link j) d]) = [])
          by (destruct (_ =? 0); reflexivity).
        assert (DN : dropped ((if ro_credit r (jb_link j) =? 0 then [RCredit (jb_link j) 50] else []) ++ [RHanded (jb_link j) d]) = [])
          by (destruct (_ =? 0); reflexivity).
        rewrite HN, SN, DN. cbn [ro_jobs]. split.
        -- exists []. split; [|reflexivity]. cbn [arrived flat_map app]. rewrite app_nil_r. rewrite PO. unfold pool. cbn [ro_jobs ro_queue].
           rewrite (ready_app (a ++ b)). cbn. rewrite app_nil_r. apply Permutation_refl.
        -- rewrite CA. rewrite (calls_app (a ++ b)). cbn. apply Permutation_cons_append.
      * set (r1 := mk_router _ _ _ _ _ _). pose proof (attach_done_pool (jb_attach j) (jb_link j) r1) as A.
        destruct (attach_done (jb_attach j) (jb_link j) r1) as [n r2]. destruct A as [A1 [A2 [A3 [A4 [A5 [A6 _]]]]]].
        cbn [handed settled dropped flat_map app]. fold (handed n) (settled n) (dropped n). rewrite A4, A5, A6, A1, A2.
        split; [|unfold r1; cbn [ro_jobs app]; rewrite CA; apply Permutation_refl].
        exists []. split; [|reflexivity]. cbn [app arrived flat_map]. rewrite PO. unfold r1, pool. cbn [ro_jobs ro_queue].
        apply Permutation_cons_append.
  - destruct (take_job d waits_result (ro_jobs r)) as [[j js]|] eqn:T.
    2: { cbn. split; [exists []; split; [apply ID|reflexivity]|apply Permutation_refl]. }
    apply take_job_spec in T. destruct T as [D [W [a [b [T ->]]]]].
    assert (NR : waits_ready j = false) by (unfold waits_result in W; destruct (waits_ready j); [discriminate|reflexivity]).
    set (r1 := mk_router _ _ _ _ _ _). pose proof (attach_done_pool (jb_attach j) (jb_link j) r1) as A.
    destruct (attach_done (jb_attach j) (jb_link j) r1) as [n r2]. destruct A as [A1 [A2 [A3 [A4 [A5 [A6 _]]]]]].
    cbn [handed settled dropped flat_map app]. fold (handed n) (settled n) (dropped n). rewrite A4, A5, A6, A1, A2.
    split.
    + exists []. split; [|reflexivity]. cbn [app arrived flat_map]. rewrite app_nil_r. unfold r1, pool. cbn [ro_jobs ro_queue].
      rewrite T, !ready_app. change (j :: b) with ([j] ++ b). rewrite ready_app. unfold ready_of at 2. cbn [filter]. rewrite NR. apply Permutation_refl.
    + unfold r1. cbn [ro_jobs app]. rewrite T, !calls_app. change (j :: b) with ([j] ++ b). rewrite calls_app.
      unfold calls_of at 2. cbn [filter]. rewrite W. cbn [map app]. rewrite D. symmetry. apply Permutation_middle.
  - cbn [arrived handed dropped settled flat_map app]. split; [exists []; split; [|reflexivity]|]; unfold pool; cbn [ro_jobs ro_queue];
      rewrite ?moves_ready, ?moves_calls, ?app_nil_r; apply Permutation_refl.
Qed.

Lemma run_pool h :
  (exists gone, Permutation (arrived h) (handed (seen h) ++ pool (after h) ++ dropped (seen h) ++ gone))
  /\ Permutation (handed (seen h)) (settled (seen h) ++ calls_of (ro_jobs (after h))).
Proof.
  induction h as [|e h IH] using rev_ind.
  - split; [exists []|]; constructor.
  - destruct IH as [[g IH1] IH2]. rewrite seen_snoc, after_snoc. unfold then_seen.
    pose proof (step_pool e (after h)) as S. destruct (router_step e (after h)) as [n r']. cbn [fst snd].
    destruct S as [[g' [S1 _]] S2]. rewrite arrived_app, !handed_app, !settled_app, !dropped_app. split.
    + exists (g' ++ g). rewrite (Permutation_count_occ N.eq_dec) in IH1, S1 |- *. intros x.
      specialize (IH1 x). specialize (S1 x). rewrite !count_occ_app in *. lia.
    + rewrite IH2, <- !app_assoc. apply Permutation_app_head.
      etransitivity; [apply Permutation_app_comm|]. exact S2.
Qed.

Lemma handed_once h : exists left, Permutation (arrived h) (handed (seen h) ++ left).
Proof. destruct (run_pool h) as [[g H] _]. eexists. exact H. Qed.
Lemma settled_once h : exists left, Permutation (handed (seen h)) (settled (seen h) ++ left).
Proof. destruct (run_pool h) as [_ H]. eexists. exact H. Qed.

(** ** Results *)
Lemma settle_note e r d s : In (RSettled d s) (fst (router_step e r)) ->
  In d (calls_of (ro_jobs r)) /\ exists res, e = EDone d res /\ s = result_state res.
Proof.
  unfold router_step. destruct (ro_undefined r); [intros []|].
  assert (NA : forall a l x, ~ In (RSettled d s) (fst (attach_done a l x))).
  { intros [] l x; cbn; intuition discriminate. }
  assert (NS : forall a l x, ~ In (RSettled d s) (fst (start_job a l x))).
  { intros a l x. unfold start_job. destruct (take_delivery _ _) as [[? ?]|]; [intros []|apply NA]. }
  destruct e as [l known grows|l n|l d' opened|l ok grows|d' ok|d' res|l].
  - destruct known; cbn; intuition discriminate.
  - intros [].
  - destruct (_ =? 0); [cbn; intuition discriminate|]. destruct opened; [|intros []].
    destruct (ro_handler _ _); try (intros []). intros H. destruct (NS _ _ _ H).
  - destruct (existsb _ _); [|intros []]. destruct ok; [intros H; destruct (NS _ _ _ H)|cbn; intuition discriminate].
  - destruct (take_job _ _ _) as [[j js]|]; [|intros []].
    destruct (jb_phase j) as [[]|]; [intros []| |].
    + destruct ok.
      * cbn [fst]. intros H. apply in_app_or in H. destruct H as [H|[H|[]]]; [destruct (_ =? 0); cbn in H; intuition discriminate|discriminate].
      * set (r1 := mk_router _ _ _ _ _ _). specialize (NA (jb_attach j) (jb_link j) r1). destruct (attach_done _ _ _) as [n r2].
        cbn [fst] in *. intros [H|[H|H]]; try discriminate. contradiction.
    + destruct ok.
      * cbn [fst]. intros H. apply in_app_or in H. destruct H as [H|[H|[]]]; [destruct (_ =? 0); cbn in H; intuition discriminate|discriminate].
      * set (r1 := mk_router _ _ _ _ _ _). specialize (NA (jb_attach j) (jb_link j) r1). destruct (attach_done _ _ _) as [n r2].
        cbn [fst] in *. intros [H|[H|H]]; try discriminate. contradiction.
  - destruct (take_job d' waits_result (ro_jobs r)) as [[j js]|] eqn:T; [|intros []].
    set (r1 := mk_router _ _ _ _ _ _). specialize (NA (jb_attach j) (jb_link j) r1). destruct (attach_done _ _ _) as [n r2].
    cbn [fst] in *. intros [H|H]; [|contradiction]. injection H as <- <-.
    apply take_job_spec in T. destruct T as [D [W [a [b [T _]]]]]. split; [|eauto].
    unfold calls_of. rewrite T. apply in_map_iff. exists j. split; [exact D|]. apply filter_In. split; [apply in_or_app; right; left; reflexivity|exact W].
  - intros [].
Qed.
Lemma settled_result h e d s : In (RSettled d s) (then_seen h e) ->
  In d (handed (seen h)) /\ exists res, e = EDone d res /\ s = result_state res.
Proof.
  intros H. apply settle_note in H. destruct H as [H R]. split; [|exact R].
  destruct (run_pool h) as [_ P]. eapply Permutation_in; [symmetry; exact P|]. apply in_or_app. right. exact H.
Qed.
Lemma result_settles h d res : sound h -> In d (handed (seen h)) -> ~ In d (settled (seen h)) ->
  In (RSettled d (result_state res)) (then_seen h (EDone d res)).
Proof.
  intros SO H N. destruct (run_pool h) as [_ P]. apply (Permutation_in _ P) in H. apply in_app_or in H.
  destruct H as [H|H]; [contradiction|]. unfold calls_of in H. apply in_map_iff in H. destruct H as [j [D J]].
  apply filter_In in J. destruct J as [J W]. destruct (take_job_some d waits_result _ j J D W) as [k [js T]].
  unfold then_seen, router_step. rewrite SO, T. destruct (attach_done _ _ _) as [n r]. left. reflexivity.
Qed.

(** ** Deliveries on a served link *)

(** After [ECreated]: the service is there, nothing of the link is queued and
    no job of the link lost its entry. *)
Definition serves (l : N) (r : router) : Prop :=
  ro_handler r l = HReady /\ ~ In l (ro_creating r)
  /\ (forall x, In x (ro_queue r) -> fst x <> l)
  /\ (forall j, In j (ro_jobs r) -> jb_link j = l -> jb_phase j <> PReady true).

Definition keeps_event (l : N) (e : router_event) : Prop :=
  match e with
  | EDetached k => k <> l
  | EAttached k _ g => k <> l /\ g = false
  | ECreated k _ g => k <> l /\ g = false
  | EArrives k _ o => k = l -> o = true
  | _ => True
  end.

Lemma take_other l k q d q' : (forall x, In x q -> fst x <> l) -> take_delivery k q = Some (d, q') ->
  k <> l /\ forall x, In x q' -> fst x <> l.
Proof.
  intros H T. apply take_delivery_spec in T. destruct T as [a [b [-> [-> _]]]]. split.
  - apply (H (k, d)). apply in_or_app. right. left. reflexivity.
  - intros x I. apply H. apply in_app_or in I. apply in_or_app. destruct I; [left|right; right]; assumption.
Qed.
Lemma moves_in w js j : In j (map (moves w) js) -> exists k, In k js /\ jb_link j = jb_link k /\ jb_delivery j = jb_delivery k
  /\ (jb_phase j = PReady true -> jb_phase k = PReady true \/ w (jb_link k) = true)
  /\ waits_ready j = waits_ready k.
Proof.
  intros I. apply in_map_iff in I. destruct I as [k [<- I]]. exists k. split; [exact I|].
  unfold moves, waits_ready. destruct (jb_phase k) as [m|] eqn:P; cbn; repeat split; auto; try (rewrite P; auto).
  intros [= E]. destruct m; auto.
Qed.
Lemma moves_keeps w js l : w l = false -> (forall j, In j js -> jb_link j = l -> jb_phase j <> PReady true) ->
  forall j, In j (map (moves w) js) -> jb_link j = l -> jb_phase j <> PReady true.
Proof.
  intros W H j I L P. apply moves_in in I. destruct I as [k [I [E [_ [PK _]]]]]. destruct (PK P) as [A|A].
  - apply (H k I); congruence.
  - rewrite <- E, L, W in A. discriminate.
Qed.
Lemma remove_in (l x : N) q : In l (remove N.eq_dec x q) -> In l q.
Proof. intros H. apply in_remove in H. apply H. Qed.
Lemma upd_other {A} (f : N -> A) k v l : k <> l -> upd f k v l = f l.
Proof. intros N. unfold upd. destruct (l =? k) eqn:E; [lia|reflexivity]. Qed.
Lemma upd_same {A} (f : N -> A) k v : upd f k v k = v.
Proof. unfold upd. rewrite N.eqb_refl. reflexivity. Qed.

Lemma serves_attach_done l a k r : serves l r -> serves l (snd (attach_done a k r)).
Proof. intros S. destruct a; exact S. Qed.

Lemma serves_start_other l a k r : k <> l -> serves l r -> serves l (snd (start_job a k r)).
Proof.
  intros N [H1 [H2 [H3 H4]]]. unfold start_job. destruct (take_delivery k (ro_queue r)) as [[d q]|] eqn:T.
  - destruct (take_other l k _ d q H3 T) as [_ Q]. repeat split; cbn [ro_handler ro_creating ro_queue ro_jobs snd]; auto.
    intros j I. apply in_app_or in I. destruct I as [I|[<-|[]]]; [apply H4, I|discriminate].
  - apply serves_attach_done. repeat split; assumption.
Qed.

Lemma serves_step l e r : serves l r -> keeps_event l e -> serves l (snd (router_step e r)).
Proof.
  intros S K. pose proof S as [H1 [H2 [H3 H4]]]. unfold router_step. destruct (ro_undefined r); [exact S|].
  destruct e as [k known grows|k n|k d opened|k ok grows|d ok|d res|k]; cbn [keeps_event] in K.
  - destruct known; [|exact S]. destruct K as [K ->]. repeat split; cbn [ro_handler ro_creating ro_queue ro_jobs snd]; auto.
    + rewrite upd_other; auto.
    + intros I. apply in_app_or in I. destruct I as [I|[->|[]]]; auto.
    + apply moves_keeps; auto.
  - exact S.
  - destruct (ro_credit r k =? 0); [exact S|].
    destruct (N.eq_dec k l) as [->|N].
    + rewrite (K eq_refl). cbn [ro_handler]. rewrite H1. unfold start_job. cbn [ro_queue].
      destruct (take_delivery l (ro_queue r ++ [(l, d)])) as [[x q]|] eqn:T.
      * apply take_delivery_spec in T. destruct T as [a [b [E [-> NA]]]].
        assert (AB : a = ro_queue r /\ b = []).
        { assert (G : forall u a b, (forall x, In x u -> fst x <> l) -> (forall x, In x a -> fst x <> l) ->
             u ++ [(l, d)] = a ++ (l, x) :: b -> a = u /\ b = []).
          { clear. induction u as [|y u IH]; intros a b U A E.
            - destruct a as [|z a]; [inversion E; subst; auto|]. inversion E as [[E1 E2]]. destruct a; discriminate.
            - destruct a as [|z a]; [cbn in E; injection E as -> E; exfalso; apply (U (l, x)); [left; reflexivity|reflexivity]|].
              cbn in E. injection E as -> E. destruct (IH a b) as [-> ->]; auto.
              + intros x0 I. apply U. right. exact I.
              + intros x0 I. apply A. right. exact I. }
          exact (G _ _ _ H3 NA E). }
        destruct AB as [-> ->]. rewrite app_nil_r. repeat split; cbn [ro_handler ro_creating ro_queue ro_jobs snd]; auto.
        intros j I. apply in_app_or in I. destruct I as [I|[<-|[]]]; [apply H4, I|discriminate].
      * exfalso. apply (take_delivery_none _ _ T (l, d)); [apply in_or_app; right; left; reflexivity|reflexivity].
    + set (r1 := mk_router _ _ _ _ _ _).
      assert (S1 : serves l r1).
      { repeat split; cbn [r1 ro_handler ro_creating ro_queue ro_jobs snd]; auto. unfold r1; cbn [ro_queue].
        intros x I. apply in_app_or in I. destruct I as [I|[<-|[]]]; [apply H3, I|exact N]. }
      destruct opened; [|exact S1]. destruct (ro_handler r1 k); [exact S1|exact S1|].
      apply serves_start_other; assumption.
  - destruct K as [K ->]. destruct (existsb _ _); [|exact S]. destruct ok.
    + apply serves_start_other; [exact K|]. repeat split; cbn [ro_handler ro_creating ro_queue ro_jobs snd]; auto.
      * rewrite upd_other; auto.
      * intros I. apply H2. eapply remove_in. exact I.
      * apply moves_keeps; auto.
    + repeat split; cbn [ro_handler ro_creating ro_queue ro_jobs snd]; auto. intros I. apply H2. eapply remove_in. exact I.
  - destruct (take_job d waits_ready (ro_jobs r)) as [[j js]|] eqn:T; [|exact S].
    apply take_job_spec in T. destruct T as [D [W [a [b [T ->]]]]].
    assert (SUB : forall x, In x (a ++ b) -> In x (ro_jobs r)).
    { intros x I. rewrite T. apply in_app_or in I. apply in_or_app. destruct I; [left|right; right]; assumption. }
    destruct (jb_phase j) as [[]|] eqn:PH.
    + repeat split; cbn [ro_handler ro_creating ro_queue ro_jobs snd]; auto.
    + destruct ok.
      * repeat split; cbn [ro_handler ro_creating ro_queue ro_jobs snd]; auto.
        intros x I. apply in_app_or in I. destruct I as [I|[<-|[]]]; [apply H4, SUB, I|discriminate].
      * set (r1 := mk_router _ _ _ _ _ _). pose proof (serves_attach_done l (jb_attach j) (jb_link j) r1) as A.
        destruct (attach_done _ _ _) as [n r2]. apply A. repeat split; cbn [r1 ro_handler ro_creating ro_queue ro_jobs snd]; auto.
    + unfold waits_ready in W. rewrite PH in W. discriminate.
  - destruct (take_job d waits_result (ro_jobs r)) as [[j js]|] eqn:T; [|exact S].
    apply take_job_spec in T. destruct T as [D [W [a [b [T ->]]]]].
    set (r1 := mk_router _ _ _ _ _ _). pose proof (serves_attach_done l (jb_attach j) (jb_link j) r1) as A.
    destruct (attach_done _ _ _) as [n r2]. apply A. repeat split; cbn [r1 ro_handler ro_creating ro_queue ro_jobs snd]; auto.
    unfold r1; cbn [ro_jobs]. intros x I. apply H4. rewrite T. apply in_app_or in I. apply in_or_app. destruct I; [left|right; right]; assumption.
  - repeat split; cbn [ro_handler ro_creating ro_queue ro_jobs snd]; auto.
    + rewrite upd_other; auto.
    + apply moves_keeps; auto. lia.
Qed.

(** Before [ECreated]. *)
Definition fresh_link (l : N) (r : router) : Prop :=
  (forall x, In x (ro_queue r) -> fst x <> l) /\ (forall j, In j (ro_jobs r) -> jb_link j <> l).
Definition attaching_event (l : N) (e : router_event) : Prop :=
  match e with ECreated k _ _ => k <> l | EArrives k _ _ => k <> l | _ => True end.

Lemma fresh_attach_done l a k r : fresh_link l r -> fresh_link l (snd (attach_done a k r)).
Proof. intros S. destruct a; exact S. Qed.
Lemma fresh_start l a k r : fresh_link l r -> fresh_link l (snd (start_job a k r)).
Proof.
  intros [H1 H2]. unfold start_job. destruct (take_delivery k (ro_queue r)) as [[d q]|] eqn:T.
  - destruct (take_other l k _ d q H1 T) as [K Q]. split; cbn [ro_queue ro_jobs snd]; [exact Q|].
    intros j I. apply in_app_or in I. destruct I as [I|[<-|[]]]; [apply H2, I|exact K].
  - apply fresh_attach_done. split; assumption.
Qed.
Lemma fresh_moves l w js : (forall j, In j js -> jb_link j <> l) -> forall j, In j (map (moves w) js) -> jb_link j <> l.
Proof. intros H j I. apply moves_in in I. destruct I as [k [I [E _]]]. rewrite E. apply H, I. Qed.

Lemma fresh_step l e r : fresh_link l r -> attaching_event l e -> fresh_link l (snd (router_step e r)).
Proof.
  intros S K. pose proof S as [H1 H2]. unfold router_step. destruct (ro_undefined r); [exact S|].
  destruct e as [k known grows|k n|k d opened|k ok grows|d ok|d res|k]; cbn [attaching_event] in K.
  - destruct known; [|exact S]. split; cbn [ro_queue ro_jobs snd]; [exact H1|apply fresh_moves, H2].
  - exact S.
  - destruct (ro_credit r k =? 0); [exact S|]. set (r1 := mk_router _ _ _ _ _ _).
    assert (S1 : fresh_link l r1).
    { split; unfold r1; cbn [ro_queue ro_jobs]; [|exact H2].
      intros x I. apply in_app_or in I. destruct I as [I|[<-|[]]]; [apply H1, I|exact K]. }
    destruct opened; [|exact S1]. destruct (ro_handler r1 k); [exact S1|exact S1|apply fresh_start, S1].
  - destruct (existsb _ _); [|exact S]. destruct ok; [|exact S].
    apply fresh_start. split; cbn [ro_queue ro_jobs snd]; [exact H1|apply fresh_moves, H2].
  - destruct (take_job d waits_ready (ro_jobs r)) as [[j js]|] eqn:T; [|exact S].
    apply take_job_spec in T. destruct T as [D [W [a [b [T ->]]]]].
    assert (SUB : forall x, In x (a ++ b) -> jb_link x <> l).
    { intros x I. apply H2. rewrite T. apply in_app_or in I. apply in_or_app. destruct I; [left|right; right]; assumption. }
    assert (JL : jb_link j <> l) by (apply H2; rewrite T; apply in_or_app; right; left; reflexivity).
    assert (FF : forall c1 c2 u, fresh_link l (mk_router (ro_handler r) (ro_queue r) c1 c2 (a ++ b) u)).
    { intros c1 c2 u. split; [exact H1|exact SUB]. }
    destruct (jb_phase j) as [[]|] eqn:PH; [apply FF| |unfold waits_ready in W; rewrite PH in W; discriminate].
    destruct ok.
    + split; cbn [ro_queue ro_jobs snd]; [exact H1|].
      intros x I. apply in_app_or in I. destruct I as [I|[<-|[]]]; [apply SUB, I|exact JL].
    + set (r1 := mk_router _ _ _ _ _ _). pose proof (fresh_attach_done l (jb_attach j) (jb_link j) r1 (FF _ _ _)) as A.
      destruct (attach_done _ _ _) as [n r2]. exact A.
  - destruct (take_job d waits_result (ro_jobs r)) as [[j js]|] eqn:T; [|exact S].
    apply take_job_spec in T. destruct T as [D [W [a [b [T ->]]]]].
    set (r1 := mk_router _ _ _ _ _ _).
    assert (F1 : fresh_link l r1).
    { split; [exact H1|]. unfold r1; cbn [ro_jobs]. intros x I. apply H2. rewrite T. apply in_app_or in I. apply in_or_app.
      destruct I; [left|right; right]; assumption. }
    pose proof (fresh_attach_done l (jb_attach j) (jb_link j) r1 F1) as A. destruct (attach_done _ _ _) as [n r2]. exact A.
  - split; cbn [ro_queue ro_jobs snd]; [exact H1|apply fresh_moves, H2].
Qed.

Lemma creating_attach_done a k r : ro_creating (snd (attach_done a k r)) = ro_creating r.
Proof. destruct a; reflexivity. Qed.
Lemma creating_start a k r : ro_creating (snd (start_job a k r)) = ro_creating r.
Proof. unfold start_job. destruct (take_delivery _ _) as [[? ?]|]; [reflexivity|apply creating_attach_done]. Qed.
Lemma creating_step l e r : In l (ro_creating r) -> attaching_event l e -> In l (ro_creating (snd (router_step e r))).
Proof.
  intros H K. unfold router_step. destruct (ro_undefined r); [exact H|].
  destruct e as [k known grows|k n|k d opened|k ok grows|d ok|d res|k]; cbn [attaching_event] in K.
  - destruct known; [|exact H]. cbn [ro_creating snd]. apply in_or_app. left. exact H.
  - exact H.
  - destruct (ro_credit r k =? 0); [exact H|]. destruct opened; [|exact H].
    destruct (ro_handler _ k); [exact H|exact H|rewrite creating_start; exact H].
  - destruct (existsb _ _); [|exact H]. destruct ok.
    + rewrite creating_start. cbn [ro_creating]. apply in_in_remove; auto.
    + cbn [ro_creating snd]. apply in_in_remove; auto.
  - destruct (take_job _ _ _) as [[j js]|]; [|exact H]. destruct (jb_phase j) as [[]|]; [exact H| |].
    + destruct ok; [exact H|]. match goal with |- context [attach_done ?a ?l ?r] => pose proof (creating_attach_done a l r) as A end.
      destruct (attach_done _ _ _) as [n r2]. cbn [snd] in *. rewrite A. exact H.
    + destruct ok; [exact H|]. match goal with |- context [attach_done ?a ?l ?r] => pose proof (creating_attach_done a l r) as A end.
      destruct (attach_done _ _ _) as [n r2]. cbn [snd] in *. rewrite A. exact H.
  - destruct (take_job _ _ _) as [[j js]|]; [|exact H].
    match goal with |- context [attach_done ?a ?l ?r] => pose proof (creating_attach_done a l r) as A end.
    destruct (attach_done _ _ _) as [n r2]. cbn [snd] in *. rewrite A. exact H.
  - exact H.
Qed.

Lemma undefined_sticks e r : ro_undefined r = true -> router_step e r = ([], r).
Proof. intros U. unfold router_step. rewrite U. reflexivity. Qed.
Lemma sound_prefix a b : sound (a ++ b) -> sound a.
Proof.
  unfold sound. revert a. induction b as [|e b IH]; intros a H; [rewrite app_nil_r in H; exact H|].
  change (e :: b) with ([e] ++ b) in H. rewrite app_assoc in H. apply IH in H. rewrite after_snoc in H.
  destruct (ro_undefined (after a)) eqn:U; [|reflexivity]. rewrite (undefined_sticks e _ U) in H. cbn in H. congruence.
Qed.

Lemma attaches_state l h1 : sound h1 -> Forall (attaching_event l) h1 ->
  fresh_link l (after h1) /\ ((exists g, In (EAttached l true g) h1) -> In l (ro_creating (after h1))).
Proof.
  induction h1 as [|e h1 IH] using rev_ind; intros SO F.
  - split; [split; intros x []|intros [g []]].
  - apply Forall_app in F. destruct F as [F1 F2]. inversion F2 as [|? ? F3 _]; subst.
    specialize (IH (sound_prefix _ _ SO) F1). destruct IH as [I1 I2]. rewrite after_snoc. split.
    + apply fresh_step; assumption.
    + intros [g I]. apply in_app_or in I. destruct I as [I|[->|[]]].
      * apply creating_step; [apply I2; eauto|exact F3].
      * pose proof (sound_prefix _ _ SO) as U. unfold sound in U. unfold router_step. rewrite U. cbn [snd ro_creating].
        apply in_or_app. right. left. reflexivity.
Qed.
Lemma created_serves l g r : ro_undefined r = false -> fresh_link l r -> In l (ro_creating r) ->
  serves l (snd (router_step (ECreated l true g) r)).
Proof.
  intros U [F1 F2] C. unfold router_step. rewrite U.
  assert (E : existsb (N.eqb l) (ro_creating r) = true) by (apply existsb_exists; exists l; split; [exact C|apply N.eqb_refl]).
  rewrite E. unfold start_job. cbn [ro_queue].
  destruct (take_delivery l (ro_queue r)) as [[d q]|] eqn:T.
  - destruct (take_other l l _ d q F1 T) as [X _]. congruence.
  - apply serves_attach_done. repeat split; cbn [ro_handler ro_creating ro_queue ro_jobs].
    + apply upd_same.
    + apply remove_In.
    + exact F1.
    + intros j I L. exfalso. apply (fresh_moves l _ _ F2 j I L).
Qed.

(** What became of a delivery of a served link. *)
Definition placed (l d : N) (h : list router_event) : Prop :=
  In d (handed (seen h)) \/ In d (dropped (seen h))
  \/ exists j, In j (ro_jobs (after h)) /\ jb_link j = l /\ jb_delivery j = d /\ waits_ready j = true.

Lemma jobs_attach_done a k r : ro_jobs (snd (attach_done a k r)) = ro_jobs r.
Proof. destruct a; reflexivity. Qed.
Lemma jobs_start a k r j : In j (ro_jobs r) -> In j (ro_jobs (snd (start_job a k r))).
Proof.
  unfold start_job. destruct (take_delivery _ _) as [[? ?]|]; [|rewrite jobs_attach_done; auto].
  intros I. cbn [snd ro_jobs]. apply in_or_app. left. exact I.
Qed.
Lemma moves_job w js j : In j js -> In (moves w j) (map (moves w) js).
Proof. apply in_map. Qed.
Lemma moves_same w j : jb_link (moves w j) = jb_link j /\ jb_delivery (moves w j) = jb_delivery j /\ waits_ready (moves w j) = waits_ready j.
Proof. unfold moves, waits_ready. destruct (jb_phase j) eqn:P; cbn; rewrite ?P; auto. Qed.

Lemma placed_step l d h e : sound (h ++ [e]) -> serves l (after h) -> placed l d h -> placed l d (h ++ [e]).
Proof.
  intros SO SV [P|[P|[j [P1 [P2 [P3 P4]]]]]].
  - left. rewrite seen_snoc, handed_app. apply in_or_app. left. exact P.
  - right; left. rewrite seen_snoc, dropped_app. apply in_or_app. left. exact P.
  - unfold placed. rewrite seen_snoc, handed_app, dropped_app, after_snoc. unfold then_seen.
    pose proof (sound_prefix _ _ SO) as U0. unfold sound in U0. unfold sound in SO. rewrite after_snoc in SO.
    unfold router_step in *. rewrite U0 in *.
    assert (KEEP : forall js, (forall x, In x (ro_jobs (after h)) -> waits_ready x = true -> jb_delivery x = d -> jb_link x = l ->
        exists y, In y js /\ jb_link y = l /\ jb_delivery y = d /\ waits_ready y = true) ->
        exists y, In y js /\ jb_link y = l /\ jb_delivery y = d /\ waits_ready y = true) by (intros js G; apply (G j); assumption).
    assert (KM : forall w, exists y, In y (map (moves w) (ro_jobs (after h))) /\ jb_link y = l /\ jb_delivery y = d /\ waits_ready y = true).
    { intros w. exists (moves w j). destruct (moves_same w j) as [A [B C]]. rewrite A, B, C. split; [apply moves_job, P1|auto]. }
    destruct e as [k known grows|k n|k x opened|k ok grows|x ok|x res|k].
    + right; right. destruct known; cbn [snd ro_jobs]; [apply KM|eauto].
    + right; right. cbn [snd ro_jobs]. eauto.
    + right; right. destruct (ro_credit (after h) k =? 0); [cbn [snd]; eauto|]. destruct opened; [|cbn [snd ro_jobs]; eauto].
      destruct (ro_handler _ k); [cbn [snd ro_jobs]; eauto|cbn [snd ro_jobs]; eauto|].
      exists j. split; [apply jobs_start; exact P1|auto].
    + right; right. destruct (existsb _ _); [|cbn [snd]; eauto]. destruct ok; [|cbn [snd ro_jobs]; eauto].
      match goal with |- context [start_job true k ?r] => destruct (KM (fun _ => grows)) as [y [Y1 Y2]]; exists y; split; [|exact Y2];
        apply (jobs_start true k r y); exact Y1 end.
    + destruct (take_job x waits_ready (ro_jobs (after h))) as [[j0 js]|] eqn:T; [|right; right; cbn [snd]; eauto].
      apply take_job_spec in T. destruct T as [D [W [a [b [T ->]]]]].
      destruct (jb_phase j0) as [[]|] eqn:PH; [cbn in SO; discriminate| |unfold waits_ready in W; rewrite PH in W; discriminate].
      destruct (N.eq_dec x d) as [->|NE].
      * destruct ok.
        -- left. apply in_or_app. right. cbn [fst]. rewrite handed_app. apply in_or_app. right. left. reflexivity.
        -- right; left. apply in_or_app. right. destruct (attach_done _ _ _) as [n r2]. left. reflexivity.
      * assert (IJ : In j (a ++ b)).
        { rewrite T in P1. apply in_app_or in P1. apply in_or_app. destruct P1 as [I|[->|I]]; [auto|congruence|auto]. }
        right; right. exists j. split; [|auto]. destruct ok.
        -- cbn [snd ro_jobs]. apply in_or_app. left. exact IJ.
        -- match goal with |- context [attach_done ?a ?l ?r] => pose proof (jobs_attach_done a l r) as A end.
           destruct (attach_done _ _ _) as [n r2]. cbn [snd] in *. rewrite A. exact IJ.
    + destruct (take_job x waits_result (ro_jobs (after h))) as [[j0 js]|] eqn:T; [|right; right; cbn [snd]; eauto].
      apply take_job_spec in T. destruct T as [D [W [a [b [T ->]]]]].
      assert (IJ : In j (a ++ b)).
      { rewrite T in P1. apply in_app_or in P1. apply in_or_app. destruct P1 as [I|[->|I]]; [auto| |auto].
        unfold waits_result in W. rewrite P4 in W. discriminate. }
      right; right. exists j. split; [|auto].
      match goal with |- context [attach_done ?a ?l ?r] => pose proof (jobs_attach_done a l r) as A end.
      destruct (attach_done _ _ _) as [n r2]. cbn [snd] in *. rewrite A. exact IJ.
    + right; right. cbn [snd ro_jobs]. apply KM.
Qed.

Lemma serves_run l h h2 : serves l (after h) -> Forall (keeps_event l) h2 -> serves l (after (h ++ h2)).
Proof.
  revert h. induction h2 as [|e h2 IH]; intros h S K; [rewrite app_nil_r; exact S|].
  inversion K as [|? ? K1 K2]; subst. change (e :: h2) with ([e] ++ h2). rewrite app_assoc. apply IH; [|exact K2].
  rewrite after_snoc. apply serves_step; assumption.
Qed.
Lemma placed_run l d h h2 : sound (h ++ h2) -> serves l (after h) -> Forall (keeps_event l) h2 -> placed l d h -> placed l d (h ++ h2).
Proof.
  revert h. induction h2 as [|e h2 IH]; intros h SO S K P; [rewrite app_nil_r; exact P|].
  inversion K as [|? ? K1 K2]; subst. change (e :: h2) with ([e] ++ h2) in *. rewrite app_assoc in *. apply IH; auto.
  - rewrite after_snoc. apply serves_step; assumption.
  - apply placed_step; auto. apply sound_prefix in SO. exact SO.
Qed.

Lemma arrives_placed l d h : sound h -> serves l (after h) -> ~ In (RClosed l) (then_seen h (EArrives l d true)) ->
  placed l d (h ++ [EArrives l d true]).
Proof.
  intros U [H1 [H2 [H3 H4]]] N. right; right. rewrite after_snoc. unfold sound in U. unfold then_seen in N.
  unfold router_step in *. rewrite U in *. destruct (ro_credit (after h) l =? 0); [destruct N; left; reflexivity|].
  cbn [ro_handler] in *. rewrite H1 in *. unfold start_job in *. cbn [ro_queue] in *.
  assert (T : take_delivery l (ro_queue (after h) ++ [(l, d)]) = Some (d, ro_queue (after h))).
  { clear - H3. revert H3. generalize (ro_queue (after h)) as q. induction q as [|[k x] q IH]; intros H.
    - cbn. rewrite N.eqb_refl. reflexivity.
    - cbn [app take_delivery]. destruct (k =? l) eqn:E; [exfalso; apply (H (k, x)); [left; reflexivity|cbn; lia]|].
      rewrite IH; [reflexivity|]. intros y I. apply H. right. exact I. }
  rewrite T. cbn [snd ro_jobs]. eexists. split; [apply in_or_app; right; left; reflexivity|]. repeat split.
Qed.

Lemma nodup_app_l {A} (a b : list A) : NoDup (a ++ b) -> NoDup a.
Proof. induction a as [|x a IH]; intros H; [constructor|]. inversion H; subst. constructor; [|apply IH; assumption]. intros I. apply H2. apply in_or_app. left. exact I. Qed.
Lemma nodup_app_r {A} (a b : list A) : NoDup (a ++ b) -> NoDup b.
Proof. induction a as [|x a IH]; intros H; [exact H|]. inversion H; subst. apply IH. assumption. Qed.
Lemma nodup_map {A B} (f : A -> B) l x y : NoDup (map f l) -> In x l -> In y l -> f x = f y -> x = y.
Proof.
  induction l as [|z l IH]; intros N I J E; [destruct I|]. cbn in N. inversion N as [|? ? N1 N2]; subst.
  destruct I as [->|I], J as [->|J]; auto.
  - exfalso. apply N1. rewrite E. apply in_map. exact J.
  - exfalso. apply N1. rewrite <- E. apply in_map. exact I.
Qed.

Lemma served l d h1 g h2 : let h := h1 ++ ECreated l true g :: h2 in
  NoDup (arrived h) -> sound h -> attaches l h1 -> keeps l h2 -> admitted l d h ->
  In d (handed (seen h)) \/ In d (dropped (seen h)) \/ In (RHanded l d) (then_seen h (EReady d true)).
Proof.
  intros h ND SO [AT1 AT2] K [a [b [E N]]].
  assert (SO1 : sound h1) by (apply (sound_prefix h1 (ECreated l true g :: h2)); exact SO).
  destruct (attaches_state l h1 SO1 AT2) as [FR CR]. specialize (CR AT1).
  assert (SV : serves l (after (h1 ++ [ECreated l true g]))).
  { rewrite after_snoc. apply created_serves; assumption. }
  assert (HH : h = (h1 ++ [ECreated l true g]) ++ h2) by (subst h; rewrite <- app_assoc; reflexivity).
  (* the arrival is in h2 *)
  assert (SPLIT : exists c, h2 = c ++ EArrives l d true :: b /\ a = (h1 ++ [ECreated l true g]) ++ c).
  { clear - E AT2. subst h. revert a E. induction h1 as [|e h1 IH]; intros a E.
    - destruct a as [|x a]; [discriminate|]. cbn in E. injection E as <- E. exists a. split; [exact E|reflexivity].
    - inversion AT2 as [|? ? A1 A2]; subst. destruct a as [|x a].
      + cbn in E. injection E as -> E. exfalso. apply A1. reflexivity.
      + cbn in E. injection E as <- E. destruct (IH A2 a E) as [c [C1 C2]]. exists c. split; [exact C1|]. rewrite C2. reflexivity. }
  destruct SPLIT as [c [C1 C2]].
  pose proof K as K'. rewrite C1 in K'. apply Forall_app in K'. destruct K' as [KC KB]. inversion KB as [|? ? _ KB2]; subst x l0.
  assert (SVA : serves l (after a)) by (rewrite C2; apply serves_run; [exact SV|exact KC]).
  assert (SOA : sound (a ++ [EArrives l d true])).
  { apply (sound_prefix _ b). rewrite <- app_assoc. cbn [app]. rewrite <- E. exact SO. }
  assert (PL : placed l d h).
  { rewrite E. change (EArrives l d true :: b) with ([EArrives l d true] ++ b). rewrite app_assoc. apply placed_run.
    - rewrite <- app_assoc. cbn [app]. rewrite <- E. exact SO.
    - rewrite after_snoc. apply serves_step; [exact SVA|intros _; reflexivity].
    - exact KB2.
    - apply arrives_placed; [apply (sound_prefix _ _ SOA)|exact SVA|exact N]. }
  destruct PL as [PL|[PL|[j [J1 [J2 [J3 J4]]]]]]; [auto|auto|]. right; right.
  assert (SVH : serves l (after h)) by (rewrite HH; apply serves_run; assumption).
  destruct (take_job_some d waits_ready (ro_jobs (after h)) j J1 J3 J4) as [k [js T]].
  pose proof (take_job_spec _ _ _ _ _ T) as [T1 [T2 [u [v [T3 T4]]]]].
  assert (KJ : k = j).
  { destruct (run_pool h) as [[gn P] _]. apply (Permutation_NoDup P) in ND. apply nodup_app_r in ND. apply nodup_app_l in ND.
    unfold pool in ND. apply nodup_app_l in ND. unfold ready_of in ND.
    apply (nodup_map _ _ _ _ ND).
    - apply filter_In. split; [rewrite T3; apply in_or_app; right; left; reflexivity|exact T2].
    - apply filter_In. auto.
    - congruence. }
  subst k. destruct SVH as [_ [_ [_ SM]]]. specialize (SM j J1 J2).
  unfold then_seen, router_step. unfold sound in SO. rewrite SO, T.
  destruct (jb_phase j) as [[]|] eqn:PH; [congruence| |unfold waits_ready in J4; rewrite PH in J4; discriminate].
  cbn [fst]. apply in_or_app. right. left. rewrite J2. reflexivity.
Qed.

(** ** A delivery left behind *)
Definition passes_by (l : N) (e : router_event) : Prop :=
  match e with ECreated k _ _ => k <> l | EArrives k _ _ => k <> l | _ => True end.

Lemma take_leaves k q d q' l x : take_delivery k q = Some (d, q') -> k <> l -> In (l, x) q -> In (l, x) q'.
Proof.
  intros T N I. apply take_delivery_spec in T. destruct T as [a [b [-> [-> _]]]].
  apply in_app_or in I. apply in_or_app. destruct I as [I|[I|I]]; [auto|congruence|auto].
Qed.
Lemma queue_attach_done a k r : ro_queue (snd (attach_done a k r)) = ro_queue r.
Proof. destruct a; reflexivity. Qed.
Lemma queue_start a k r l x : k <> l -> In (l, x) (ro_queue r) -> In (l, x) (ro_queue (snd (start_job a k r))).
Proof.
  intros N I. unfold start_job. destruct (take_delivery k (ro_queue r)) as [[d q]|] eqn:T.
  - cbn [snd ro_queue]. eapply take_leaves; eassumption.
  - rewrite queue_attach_done. exact I.
Qed.
Lemma stays_queued l x e r : passes_by l e -> In (l, x) (ro_queue r) -> In (l, x) (ro_queue (snd (router_step e r))).
Proof.
  intros K I. unfold router_step. destruct (ro_undefined r); [exact I|].
  destruct e as [k known grows|k n|k d opened|k ok grows|d ok|d res|k]; cbn [passes_by] in K.
  - destruct known; exact I.
  - exact I.
  - destruct (ro_credit r k =? 0); [exact I|]. set (r1 := mk_router _ _ _ _ _ _).
    assert (I1 : In (l, x) (ro_queue r1)) by (unfold r1; cbn [ro_queue]; apply in_or_app; left; exact I).
    destruct opened; [|exact I1]. destruct (ro_handler r1 k); [exact I1|exact I1|apply queue_start; assumption].
  - destruct (existsb _ _); [|exact I]. destruct ok; [|exact I]. apply queue_start; assumption.
  - destruct (take_job _ _ _) as [[j js]|]; [|exact I]. destruct (jb_phase j) as [[]|]; [exact I| |].
    + destruct ok; [exact I|]. match goal with |- context [attach_done ?a ?l ?r] => pose proof (queue_attach_done a l r) as A end.
      destruct (attach_done _ _ _) as [n r2]. cbn [snd] in *. rewrite A. exact I.
    + destruct ok; [exact I|]. match goal with |- context [attach_done ?a ?l ?r] => pose proof (queue_attach_done a l r) as A end.
      destruct (attach_done _ _ _) as [n r2]. cbn [snd] in *. rewrite A. exact I.
  - destruct (take_job _ _ _) as [[j js]|]; [|exact I].
    match goal with |- context [attach_done ?a ?l ?r] => pose proof (queue_attach_done a l r) as A end.
    destruct (attach_done _ _ _) as [n r2]. cbn [snd] in *. rewrite A. exact I.
  - exact I.
Qed.
Lemma left_behind l x h h2 : In (l, x) (ro_queue (after h)) -> Forall (passes_by l) h2 -> NoDup (arrived (h ++ h2)) ->
  ~ In x (handed (seen (h ++ h2))).
Proof.
  intros I F ND.
  assert (Q : In (l, x) (ro_queue (after (h ++ h2)))).
  { clear ND. revert h I. induction h2 as [|e h2 IH]; intros h I; [rewrite app_nil_r; exact I|].
    inversion F; subst. change (e :: h2) with ([e] ++ h2). rewrite app_assoc. apply IH; [assumption|].
    rewrite after_snoc. apply stays_queued; assumption. }
  destruct (run_pool (h ++ h2)) as [[g P] _]. apply (Permutation_NoDup P) in ND. intros H.
  apply in_split in H. destruct H as [u [v H]]. rewrite H in ND. rewrite <- app_assoc in ND.
  apply nodup_app_r in ND. cbn in ND. inversion ND as [|? ? N1 _]; subst. apply N1. apply in_or_app. right.
  apply in_or_app. left. unfold pool. apply in_or_app. right. apply in_map_iff. exists (l, x). split; [reflexivity|exact Q].
Qed.

(** ** No released service is used *)
Definition unmoved (r : router) : Prop := forall j, In j (ro_jobs r) -> jb_phase j <> PReady true.
Definition none_waits (r : router) : Prop := forall j, In j (ro_jobs r) -> waits_ready j = false.
Lemma moves_idle w js : (forall j, In j js -> waits_ready j = false) -> map (moves w) js = js.
Proof.
  induction js as [|j js IH]; intros H; [reflexivity|]. cbn [map]. rewrite IH by (intros k I; apply H; right; exact I).
  f_equal. specialize (H j (or_introl eq_refl)). unfold moves, waits_ready in *. destruct (jb_phase j); [discriminate|reflexivity].
Qed.
Lemma unmoved_attach_done a k r : unmoved r -> unmoved (snd (attach_done a k r)).
Proof. destruct a; auto. Qed.
Lemma unmoved_start a k r : unmoved r -> unmoved (snd (start_job a k r)).
Proof.
  intros U. unfold start_job. destruct (take_delivery _ _) as [[? ?]|]; [|apply unmoved_attach_done, U].
  intros j I. cbn [snd ro_jobs] in I. apply in_app_or in I. destruct I as [I|[<-|[]]]; [apply U, I|discriminate].
Qed.
Lemma undef_attach_done a k r : ro_undefined (snd (attach_done a k r)) = ro_undefined r.
Proof. destruct a; reflexivity. Qed.
Lemma undef_start a k r : ro_undefined (snd (start_job a k r)) = ro_undefined r.
Proof. unfold start_job. destruct (take_delivery _ _) as [[? ?]|]; [reflexivity|apply undef_attach_done]. Qed.
Lemma sound_step e r : ro_undefined r = false -> unmoved r ->
  match e with EAttached _ _ _ | ECreated _ _ _ | EDetached _ => none_waits r | _ => True end ->
  ro_undefined (snd (router_step e r)) = false /\ unmoved (snd (router_step e r)).
Proof.
  intros U M N. unfold router_step. rewrite U.
  destruct e as [k known grows|k n|k d opened|k ok grows|d ok|d res|k].
  - rewrite (moves_idle _ _ N). destruct known; auto.
  - auto.
  - destruct (ro_credit r k =? 0); [auto|]. set (r1 := mk_router _ _ _ _ _ _).
    assert (M1 : unmoved r1) by exact M. destruct opened; [|auto].
    destruct (ro_handler r1 k); [auto|auto|]. rewrite undef_start. split; [reflexivity|apply unmoved_start, M1].
  - rewrite (moves_idle _ _ N). destruct (existsb _ _); [|auto]. destruct ok; [|auto].
    rewrite undef_start. split; [reflexivity|apply unmoved_start; exact M].
  - destruct (take_job d waits_ready (ro_jobs r)) as [[j js]|] eqn:T; [|auto].
    apply take_job_spec in T. destruct T as [D [W [a [b [T ->]]]]].
    assert (SUB : forall x, In x (a ++ b) -> jb_phase x <> PReady true).
    { intros x I. apply M. rewrite T. apply in_app_or in I. apply in_or_app. destruct I; [left|right; right]; assumption. }
    assert (MJ : jb_phase j <> PReady true) by (apply M; rewrite T; apply in_or_app; right; left; reflexivity).
    destruct (jb_phase j) as [[]|] eqn:PH; [congruence| |unfold waits_ready in W; rewrite PH in W; discriminate].
    destruct ok.
    + split; [reflexivity|]. intros x I. cbn [snd ro_jobs] in I. apply in_app_or in I. destruct I as [I|[<-|[]]]; [apply SUB, I|discriminate].
    + set (r1 := mk_router _ _ _ _ _ _). pose proof (undef_attach_done (jb_attach j) (jb_link j) r1) as A.
      pose proof (unmoved_attach_done (jb_attach j) (jb_link j) r1 SUB) as B. destruct (attach_done _ _ _) as [n r2]. auto.
  - destruct (take_job d waits_result (ro_jobs r)) as [[j js]|] eqn:T; [|auto].
    apply take_job_spec in T. destruct T as [D [W [a [b [T ->]]]]].
    assert (SUB : forall x, In x (a ++ b) -> jb_phase x <> PReady true).
    { intros x I. apply M. rewrite T. apply in_app_or in I. apply in_or_app. destruct I; [left|right; right]; assumption. }
    set (r1 := mk_router _ _ _ _ _ _). pose proof (undef_attach_done (jb_attach j) (jb_link j) r1) as A.
    pose proof (unmoved_attach_done (jb_attach j) (jb_link j) r1 SUB) as B. destruct (attach_done _ _ _) as [n r2]. auto.
  - rewrite (moves_idle _ _ N). auto.
Qed.
Lemma undisturbed_sound h : forall past, sound past -> unmoved (after past) -> undisturbed h past -> sound (past ++ h).
Proof.
  induction h as [|e h IH]; intros past S M U; [rewrite app_nil_r; exact S|]. destruct U as [U1 U2].
  change (e :: h) with ([e] ++ h). rewrite app_assoc.
  destruct (sound_step e (after past) S M) as [A B].
  { destruct e; auto. }
  apply IH; [unfold sound; rewrite after_snoc; exact A|rewrite after_snoc; exact B|exact U2].
Qed.

(** ** Credit *)
Lemma handed_credit e r l d : In (RHanded l d) (fst (router_step e r)) -> 0 < ro_credit (snd (router_step e r)) l.
Proof.
  unfold router_step. destruct (ro_undefined r); [intros []|].
  assert (NA : forall a k x, ~ In (RHanded l d) (fst (attach_done a k x))).
  { intros [] k x; cbn; intuition discriminate. }
  assert (NS : forall a k x, ~ In (RHanded l d) (fst (start_job a k x))).
  { intros a k x. unfold start_job. destruct (take_delivery _ _) as [[? ?]|]; [intros []|apply NA]. }
  destruct e as [k known grows|k n|k x opened|k ok grows|x ok|x res|k].
  - destruct known; cbn; intuition discriminate.
  - intros [].
  - destruct (_ =? 0); [cbn; intuition discriminate|]. destruct opened; [|intros []].
    destruct (ro_handler _ _); try (intros []). intros H. destruct (NS _ _ _ H).
  - destruct (existsb _ _); [|intros []]. destruct ok; [intros H; destruct (NS _ _ _ H)|cbn; intuition discriminate].
  - destruct (take_job _ _ _) as [[j js]|]; [|intros []].
    assert (G : forall js' : list job, In (RHanded l d) ((if ro_credit r (jb_link j) =? 0 then [RCredit (jb_link j) 50] else []) ++ [RHanded (jb_link j) x]) ->
       0 < upd (ro_credit r) (jb_link j) (ro_credit r (jb_link j) + (if ro_credit r (jb_link j) =? 0 then 50 else 0)) l).
    { intros _ H. apply in_app_or in H. destruct H as [H|[H|[]]]; [destruct (_ =? 0); cbn in H; intuition discriminate|].
      injection H as <- <-. rewrite upd_same. destruct (ro_credit r (jb_link j) =? 0) eqn:E; lia. }
    destruct (jb_phase j) as [[]|]; [intros []| |].
    + destruct ok; [exact (G js)|].
      set (r1 := mk_router _ _ _ _ _ _). specialize (NA (jb_attach j) (jb_link j) r1). destruct (attach_done _ _ _) as [n r2].
      cbn [fst] in *. intros [H|[H|H]]; try discriminate. contradiction.
    + destruct ok; [exact (G js)|].
      set (r1 := mk_router _ _ _ _ _ _). specialize (NA (jb_attach j) (jb_link j) r1). destruct (attach_done _ _ _) as [n r2].
      cbn [fst] in *. intros [H|[H|H]]; try discriminate. contradiction.
  - destruct (take_job _ _ _) as [[j js]|]; [|intros []].
    set (r1 := mk_router _ _ _ _ _ _). specialize (NA (jb_attach j) (jb_link j) r1). destruct (attach_done _ _ _) as [n r2].
    cbn [fst] in *. intros [H|H]; [discriminate|contradiction].
  - intros [].
Qed.

(** ** Credit *)
Lemma total_app a b : total (a ++ b) = total a + total b.
Proof. induction a as [|x a IH]; cbn [total app fold_right]; [reflexivity|]. unfold total in *. cbn [fold_right]. rewrite IH. lia. Qed.
Lemma let_in_snoc l h e : forall past, let_in l (h ++ [e]) past = let_in l h past + lets_in l (past ++ h) e.
Proof.
  induction h as [|x h IH]; intros past; cbn [let_in app].
  - rewrite app_nil_r. lia.
  - rewrite IH, <- app_assoc. cbn [app]. lia.
Qed.
Definition given_by (l : N) (e : router_event) : N := match e with EGranted k n => if k =? l then n else 0 | _ => 0 end.
Definition noted (l : N) (ns : list rnote) : N := total (map (fun x => match x with RCredit k n => if k =? l then n else 0 | _ => 0 end) ns).
Definition closed_in (l : N) (ns : list rnote) : bool := existsb (fun x => match x with RClosed k => k =? l | _ => false end) ns.
Lemma given_snoc l h e : credit_given l (h ++ [e]) = credit_given l h + given_by l e + noted l (then_seen h e).
Proof.
  unfold credit_given, noted. rewrite seen_snoc, !map_app, !total_app. cbn [map total fold_right given_by]. unfold given_by. lia.
Qed.
Lemma credit_done l a k r : ro_credit (snd (attach_done a k r)) l = ro_credit r l + noted l (fst (attach_done a k r)) /\ closed_in l (fst (attach_done a k r)) = false.
Proof.
  unfold attach_done. destruct a; cbn [fst snd ro_credit]; unfold noted, closed_in; cbn [map total fold_right existsb].
  - unfold upd. split; [|reflexivity]. rewrite N.eqb_sym. destruct (k =? l) eqn:E; [apply N.eqb_eq in E; subst k; lia | lia].
  - split; [lia | reflexivity].
Qed.
Lemma credit_start l a k r : ro_credit (snd (start_job a k r)) l = ro_credit r l + noted l (fst (start_job a k r)) /\ closed_in l (fst (start_job a k r)) = false.
Proof.
  unfold start_job. destruct (take_delivery k (ro_queue r)) as [[d q]|]; [|apply credit_done]. cbn [fst snd ro_credit]. unfold noted, closed_in. cbn. split; [lia|reflexivity].
Qed.
Lemma credit_step l e r : ro_undefined r = false ->
  ro_credit (snd (router_step e r)) l
  + (match e with EArrives k _ _ => if (k =? l) && negb (closed_in l (fst (router_step e r))) then 1 else 0 | _ => 0 end)
  = ro_credit r l + given_by l e + noted l (fst (router_step e r)).
Proof.
  intros U. unfold router_step. rewrite U. destruct e as [k kn g|k n|k d o|k ok g|d ok|d res|k]; cbn [given_by].
  - destruct kn; cbn; lia.
  - cbn [fst snd ro_credit]. unfold upd, noted. cbn [map total fold_right]. rewrite N.eqb_sym. destruct (k =? l) eqn:E; [apply N.eqb_eq in E; subst k; lia | lia].
  - destruct (ro_credit r k =? 0) eqn:Z.
    + cbn [fst snd]. unfold closed_in, noted. cbn [existsb map total fold_right]. destruct (k =? l) eqn:E; cbn [orb negb andb]; lia.
    + assert (X : forall r1, ro_credit r1 = upd (ro_credit r) k (ro_credit r k - 1) -> forall P : list rnote * router,
        (ro_credit (snd P) l = ro_credit r1 l + noted l (fst P) /\ closed_in l (fst P) = false) ->
        ro_credit (snd P) l + (if (k =? l) && negb (closed_in l (fst P)) then 1 else 0) = ro_credit r l + 0 + noted l (fst P)).
      { intros r1 E1 P [C1 C2]. rewrite C1, C2, E1. unfold upd. rewrite (N.eqb_sym l k). destruct (k =? l) eqn:E; cbn [andb negb]; [apply N.eqb_eq in E; subst k; lia | lia]. }
      match goal with |- context [ro_handler ?x k] => set (r1 := x) end.
      assert (E1 : ro_credit r1 = upd (ro_credit r) k (ro_credit r k - 1)) by reflexivity.
      assert (Y : ro_credit (snd (@nil rnote, r1)) l = ro_credit r1 l + noted l (fst (@nil rnote, r1)) /\ closed_in l (fst (@nil rnote, r1)) = false).
      { cbn. split; [lia|reflexivity]. }
      destruct o, (ro_handler r1 k); try exact (X r1 E1 _ Y). exact (X r1 E1 _ (credit_start l false k r1)).
  - destruct (existsb (N.eqb k) (ro_creating r)); [|cbn; lia]. destruct ok; [|cbn; lia]. rewrite (proj1 (credit_start _ _ _ _)). cbn [ro_credit]. lia.
  - destruct (take_job d waits_ready (ro_jobs r)) as [[j js]|]; [|cbn; lia].
    assert (A : forall ok : bool, let P := if ok then
                  ((if ro_credit r (jb_link j) =? 0 then [RCredit (jb_link j) 50] else []) ++ [RHanded (jb_link j) d],
                   mk_router (ro_handler r) (ro_queue r) (upd (ro_credit r) (jb_link j) (ro_credit r (jb_link j) + (if ro_credit r (jb_link j) =? 0 then 50 else 0))) (ro_creating r)
                     (js ++ [mk_job (jb_link j) d (jb_attach j) PCall]) false)
                else let (n, r) := attach_done (jb_attach j) (jb_link j) (mk_router (ro_handler r) (ro_queue r) (ro_credit r) (ro_creating r) js false) in
                     (RClosed (jb_link j) :: RDropped d :: n, r) in
              ro_credit (snd P) l + 0 = ro_credit r l + 0 + noted l (fst P)).
    { intros [|]; cbv zeta.
      - cbn [fst snd ro_credit]. unfold upd, noted. rewrite (N.eqb_sym l). destruct (ro_credit r (jb_link j) =? 0) eqn:Z; cbn [map app total fold_right];
          destruct (jb_link j =? l) eqn:E; try (apply N.eqb_eq in E; rewrite E in *); lia.
      - assert (D := credit_done l (jb_attach j) (jb_link j) (mk_router (ro_handler r) (ro_queue r) (ro_credit r) (ro_creating r) js false)).
        destruct (attach_done _ _ _) as [n r1]. cbn [fst snd ro_credit] in *. unfold noted in *. cbn [map total fold_right] in *. unfold total in *. lia. }
    destruct (jb_phase j) as [[|]|]; [cbn; lia | apply (A ok) | apply (A ok)].
  - destruct (take_job d waits_result (ro_jobs r)) as [[j js]|]; [|cbn; lia].
    assert (D := credit_done l (jb_attach j) (jb_link j) (mk_router (ro_handler r) (ro_queue r) (ro_credit r) (ro_creating r) js false)).
    destruct (attach_done _ _ _) as [n r1]. cbn [fst snd ro_credit] in *. unfold noted in *. cbn [map total fold_right] in *. unfold total in *. lia.
  - cbn; lia.
Qed.
Lemma credit_balance l h : sound h -> ro_credit (after h) l + let_in l h [] = credit_given l h.
Proof.
  induction h as [|e h IH] using rev_ind; intros S; [reflexivity|].
  assert (S0 := sound_prefix _ _ S). specialize (IH S0). rewrite let_in_snoc, given_snoc, after_snoc. cbn [app].
  assert (C := credit_step l e (after h) S0). unfold then_seen in *. unfold lets_in. unfold closed_in in C. destruct e; unfold then_seen; lia.
Qed.
Lemma admission l d o h : sound h -> (In (RClosed l) (then_seen h (EArrives l d o)) <-> let_in l h [] = credit_given l h).
Proof.
  intros S. assert (B := credit_balance l h S). unfold then_seen, router_step. rewrite S. destruct (ro_credit (after h) l =? 0) eqn:Z.
  - cbn [fst In]. split; [lia | auto].
  - split; [|lia]. intros H. exfalso.
    match type of H with context [ro_handler ?x l] => set (r1 := x) in * end.
    destruct o, (ro_handler r1 l); try exact (in_nil H).
    assert (C := proj2 (credit_start l false l r1)). unfold closed_in in C. assert (X : existsb (fun x => match x with RClosed k => k =? l | _ => false end) (fst (start_job false l r1)) = true).
    { apply existsb_exists. exists (RClosed l). split; [exact H | apply N.eqb_refl]. }
    congruence.
Qed.
Lemma confirmed_credit e r l : In (RConfirmed l) (fst (router_step e r)) -> In (RCredit l 50) (fst (router_step e r)).
Proof.
  assert (A : forall a k r, In (RConfirmed l) (fst (attach_done a k r)) -> In (RCredit l 50) (fst (attach_done a k r))).
  { intros a k r0. unfold attach_done. destruct a; cbn; [|intros []]. intros [H|[H|[]]]; [injection H as ->; auto | discriminate H]. }
  assert (B : forall a k r, In (RConfirmed l) (fst (start_job a k r)) -> In (RCredit l 50) (fst (start_job a k r))).
  { intros a k r0. unfold start_job. destruct (take_delivery k (ro_queue r0)) as [[d q]|]; [intros [] | apply A]. }
  unfold router_step. destruct (ro_undefined r); [intros []|]. destruct e as [k kn g|k n|k d o|k ok g|d ok|d res|k].
  - destruct kn; cbn; intuition discriminate.
  - intros [].
  - destruct (ro_credit r k =? 0); [cbn; intuition discriminate|]. cbv zeta. match goal with |- context [ro_handler ?x k] => set (r1 := x) end.
    destruct o, (ro_handler r1 k); try (intros []; fail). apply B.
  - destruct (existsb (N.eqb k) (ro_creating r)); [|intros []]. destruct ok; [apply B | cbn; intuition discriminate].
  - destruct (take_job d waits_ready (ro_jobs r)) as [[j js]|]; [|intros []].
    assert (X : In (RConfirmed l) (fst (if ok then
        ((if ro_credit r (jb_link j) =? 0 then [RCredit (jb_link j) 50] else []) ++ [RHanded (jb_link j) d],
         mk_router (ro_handler r) (ro_queue r) (upd (ro_credit r) (jb_link j) (ro_credit r (jb_link j) + (if ro_credit r (jb_link j) =? 0 then 50 else 0))) (ro_creating r)
           (js ++ [mk_job (jb_link j) d (jb_attach j) PCall]) false)
        else let (n, r) := attach_done (jb_attach j) (jb_link j) (mk_router (ro_handler r) (ro_queue r) (ro_credit r) (ro_creating r) js false) in
             (RClosed (jb_link j) :: RDropped d :: n, r))) ->
      In (RCredit l 50) (fst (if ok then
        ((if ro_credit r (jb_link j) =? 0 then [RCredit (jb_link j) 50] else []) ++ [RHanded (jb_link j) d],
         mk_router (ro_handler r) (ro_queue r) (upd (ro_credit r) (jb_link j) (ro_credit r (jb_link j) + (if ro_credit r (jb_link j) =? 0 then 50 else 0))) (ro_creating r)
           (js ++ [mk_job (jb_link j) d (jb_attach j) PCall]) false)
        else let (n, r) := attach_done (jb_attach j) (jb_link j) (mk_router (ro_handler r) (ro_queue r) (ro_credit r) (ro_creating r) js false) in
             (RClosed (jb_link j) :: RDropped d :: n, r)))).
    { destruct ok.
      - cbn [fst]. rewrite !in_app_iff. destruct (ro_credit r (jb_link j) =? 0); cbn; intuition discriminate.
      - assert (D := A (jb_attach j) (jb_link j) (mk_router (ro_handler r) (ro_queue r) (ro_credit r) (ro_creating r) js false)).
        destruct (attach_done _ _ _) as [n r1]. cbn [fst In] in *. intuition discriminate. }
    destruct (jb_phase j) as [[|]|]; [intros [] | exact X | exact X].
  - destruct (take_job d waits_result (ro_jobs r)) as [[j js]|]; [|intros []].
    assert (D := A (jb_attach j) (jb_link j) (mk_router (ro_handler r) (ro_queue r) (ro_credit r) (ro_creating r) js false)).
    destruct (attach_done _ _ _) as [n r1]. cbn [fst In] in *. intuition discriminate.
  - intros [].
Qed.
Lemma unknown_refused l g h : sound h -> then_seen h (EAttached l false g) = [RClosed l].
Proof. intros S. unfold then_seen, router_step. rewrite S. reflexivity. Qed.
Lemma creating_step' l e r : In l (ro_creating r) -> match e with ECreated k _ _ => k <> l | _ => True end -> In l (ro_creating (snd (router_step e r))).
Proof.
  intros I H. destruct e; try (apply creating_step; [exact I | exact Logic.I || exact H]).
  cbn [router_step] in *. destruct (N.eq_dec l0 l) as [->|N]; [|apply creating_step; [exact I | exact N]].
  unfold router_step. destruct (ro_undefined r); [exact I|]. destruct (ro_credit r l =? 0); [exact I|]. cbv zeta.
  match goal with |- context [ro_handler ?x l] => set (r1 := x) end. destruct opened, (ro_handler r1 l); try exact I. rewrite creating_start. exact I.
Qed.
Lemma being_created_in l h : sound h -> being_created l h -> In l (ro_creating (after h)).
Proof.
  intros S (a & g & b & -> & F). revert S. induction b as [|e b IH] using rev_ind; intros S.
  - rewrite after_snoc. unfold router_step. rewrite (sound_prefix _ _ S). cbn. apply in_or_app. right. left. reflexivity.
  - apply Forall_app in F as [F1 F2]. inversion F2; subst. change (EAttached l true g :: b ++ [e]) with ((EAttached l true g :: b) ++ [e]) in *. rewrite app_assoc in *.
    rewrite after_snoc. apply creating_step'; [apply IH; [exact F1 | exact (sound_prefix _ _ S)] | assumption].
Qed.
Lemma failed_closes l g h : sound h -> being_created l h -> then_seen h (ECreated l false g) = [RClosed l].
Proof.
  intros S B. apply (being_created_in _ _ S) in B. unfold then_seen, router_step. rewrite S.
  assert (existsb (N.eqb l) (ro_creating (after h)) = true) as -> by (apply existsb_exists; exists l; split; [exact B | apply N.eqb_refl]). reflexivity.
Qed.
Lemma created_confirms l g h : sound h -> attaches l h -> then_seen h (ECreated l true g) = [RConfirmed l; RCredit l 50].
Proof.
  intros S (X & F). destruct (attaches_state l h S F) as [[Q _] B]. specialize (B X). unfold then_seen, router_step. rewrite S.
  assert (existsb (N.eqb l) (ro_creating (after h)) = true) as -> by (apply existsb_exists; exists l; split; [exact B | apply N.eqb_refl]).
  unfold start_job. cbn [ro_queue]. destruct (take_delivery l (ro_queue (after h))) as [[d q]|] eqn:E; [|reflexivity].
  apply take_delivery_spec in E as (a & b & E & _). elim (Q (l, d)); [rewrite E; apply in_or_app; right; left; reflexivity | reflexivity].
Qed.
Lemma answer_is r : result_state r = answer_of r.
Proof. destruct r as [[]|]; reflexivity. Qed.
