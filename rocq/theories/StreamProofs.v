(** * The frame codec over a byte stream *)

From Verif Require Import Framing Spec SpecProtocol SpecFraming BaseProofs.
From Coq Require Import ZifyBool ZifyNat ZifyN.

Lemma firstn_blen (n : N) (a b : bytes) : n <= blen a -> firstn (N.to_nat n) (a ++ b) = firstn (N.to_nat n) a.
Proof.
  intros H. unfold blen in H. rewrite firstn_app.
  replace (N.to_nat n - length a)%nat with O by lia. cbn [firstn]. apply app_nil_r.
Qed.
Lemma skipn_blen (n : N) (a b : bytes) : n <= blen a -> skipn (N.to_nat n) (a ++ b) = skipn (N.to_nat n) a ++ b.
Proof.
  intros H. unfold blen in H. rewrite skipn_app.
  replace (N.to_nat n - length a)%nat with O by lia. reflexivity.
Qed.
Lemma firstn4 (a b : bytes) : 4 <= blen a -> firstn 4 (a ++ b) = firstn 4 a.
Proof. apply (firstn_blen 4). Qed.
Lemma skipn4 (a b : bytes) : 4 <= blen a -> skipn 4 (a ++ b) = skipn 4 a ++ b.
Proof. apply (skipn_blen 4). Qed.
Lemma blen_skipn n (src : bytes) : n <= blen src -> blen (skipn (N.to_nat n) src) = blen src - n.
Proof. intros H. unfold blen in *. rewrite skipn_length. lia. Qed.
Lemma blen_skipn4 (src : bytes) : 4 <= blen src -> blen (skipn 4 src) = blen src - 4.
Proof. apply (blen_skipn 4). Qed.

Section stream.
Context {T : Type} (dec : parser T) (max : N).

Definition st_ok (st : decode_state) : Prop :=
  match st with FrameHeader => True | FrameBody n => 1 <= n end.

(** A frame or an error does not depend on what follows in the buffer. *)
Lemma body_more n src x : (blen src <? n) = false ->
  decode_body dec n (src ++ x) = match decode_body dec n src with (r, st, s) => (r, st, s ++ x) end.
Proof.
  intros H. unfold decode_body. rewrite H. rewrite blen_app.
  replace (blen src + blen x <? n) with false by lia. cbv zeta.
  rewrite firstn_blen, skipn_blen by lia.
  destruct (dec _) as [[t [|c l]]|e|q|]; reflexivity.
Qed.
Lemma body_none n src r st s : decode_body dec n src = (r, st, s) -> r <> DNone -> (blen src <? n) = false.
Proof. unfold decode_body. destruct (blen src <? n); [|reflexivity]. intros [= <- _ _] H. congruence. Qed.
Lemma body_asks n src st s : decode_body dec n src = (DNone, st, s) -> blen src < n /\ st = FrameBody n /\ s = src.
Proof.
  unfold decode_body. destruct (blen src <? n) eqn:E.
  - intros [= <- <-]. split; [lia|auto].
  - destruct (dec _) as [[t [|c l]]|e|q|]; discriminate.
Qed.

Lemma call_more st src x r st' s : st_ok st ->
  decode_call dec max st src = (r, st', s) -> r <> DNone ->
  decode_call dec max st (src ++ x) = (r, st', s ++ x) .
Proof.
  intros Hok E Hr. destruct st as [|n]; cbn [decode_call] in *.
  - rewrite blen_app. destruct (blen src <? 8) eqn:E8; [congruence|].
    replace (blen src + blen x <? 8) with false by lia. rewrite firstn4 by lia.
    destruct (_ && _); [injection E as <- <- <-; reflexivity|].
    destruct (be_val (firstn 4 src) <=? 4) eqn:Ez; [injection E as <- <- <-; reflexivity|].
    cbv zeta in *. destruct (blen src <? be_val (firstn 4 src)) eqn:El; [congruence|].
    replace (blen src + blen x <? be_val (firstn 4 src)) with false by lia.
    rewrite skipn4 by lia.
    rewrite body_more by (eapply body_none; eassumption). rewrite E. reflexivity.
  - rewrite body_more by (eapply body_none; eassumption). rewrite E. reflexivity.
Qed.

(** When the codec asks for more, it goes on as if it had not been asked. *)
Lemma call_resume st src x st' s : st_ok st ->
  decode_call dec max st src = (DNone, st', s) ->
  decode_call dec max st (src ++ x) = decode_call dec max st' (s ++ x).
Proof.
  intros Hok E. destruct st as [|n]; cbn [decode_call] in E.
  - destruct (blen src <? 8) eqn:E8; [injection E as <- <-; reflexivity|].
    destruct (_ && _) eqn:Em; [discriminate|].
    destruct (be_val (firstn 4 src) <=? 4) eqn:Ez; [discriminate|]. cbv zeta in E.
    assert (S : decode_call dec max FrameHeader (src ++ x)
              = if blen src + blen x <? be_val (firstn 4 src)
                then (DNone, FrameBody (be_val (firstn 4 src) - 4), skipn 4 src ++ x)
                else decode_body dec (be_val (firstn 4 src) - 4) (skipn 4 src ++ x)).
    { cbn [decode_call]. rewrite blen_app.
      replace (blen src + blen x <? 8) with false by lia.
      rewrite firstn4, skipn4 by lia. rewrite Em, Ez. reflexivity. }
    assert (C : st' = FrameBody (be_val (firstn 4 src) - 4) /\ s = skipn 4 src).
    { destruct (blen src <? be_val (firstn 4 src)) eqn:El.
      - injection E as <- <-. auto.
      - apply body_asks in E. tauto. }
    destruct C as [-> ->]. rewrite S. cbn [decode_call].
    destruct (blen src + blen x <? be_val (firstn 4 src)) eqn:El2; [|reflexivity].
    unfold decode_body. rewrite blen_app, blen_skipn4 by lia.
    replace (blen src - 4 + blen x <? be_val (firstn 4 src) - 4) with true by lia. reflexivity.
  - apply body_asks in E. destruct E as [_ [-> ->]]. reflexivity.
Qed.

(** Progress and the state after a call. *)
Lemma call_ok st src r st' s : st_ok st -> decode_call dec max st src = (r, st', s) -> st_ok st'.
Proof.
  intros Hok E.
  assert (B : forall n src, 1 <= n -> decode_body dec n src = (r, st', s) -> st_ok st').
  { intros n src0 Hn. unfold decode_body.
    destruct (_ <? _); [intros [= _ <- _]; exact Hn|].
    destruct (dec _) as [[t [|c l]]|e|q|]; intros [= _ <- _]; try exact I; exact Hn. }
  destruct st as [|n]; cbn [decode_call] in E; [|exact (B _ _ Hok E)].
  destruct (_ <? 8); [injection E as _ <- _; exact I|].
  destruct (_ && _); [injection E as _ <- _; exact I|].
  destruct (_ <=? 4) eqn:Ez; [injection E as _ <- _; exact I|]. cbv zeta in E.
  destruct (_ <? _); [replace st' with (FrameBody (be_val (firstn 4 src) - 4)) by congruence; cbn [st_ok]; lia|]. refine (B _ _ _ E). lia.
Qed.
Lemma body_frame n src t st s : decode_body dec n src = (DFrame t, st, s) ->
  st = FrameHeader /\ exists c, src = c ++ s /\ blen c = n /\ dec c = Ok (t, []).
Proof.
  unfold decode_body. destruct (blen src <? n) eqn:E; [discriminate|].
  destruct (dec _) as [[t' [|c l]]|e|q|] eqn:D; intros [= <- <- <-].
  split; [reflexivity|]. exists (firstn (N.to_nat n) src). split; [symmetry; apply firstn_skipn|].
  split; [|exact D]. unfold blen in *. rewrite firstn_length. lia.
Qed.

(** What a delivered frame is: a size word within the limit and that many bytes. *)
Lemma header_frame src t st s : decode_call dec max FrameHeader src = (DFrame t, st, s) ->
  st = FrameHeader /\ exists size c, src = frame_bytes size c ++ s /\ blen c = size - 4 /\ 4 < size
    /\ size < 2 ^ 32 /\ (max = 0 \/ size <= max) /\ dec c = Ok (t, []).
Proof.
  cbn [decode_call]. intros E. revert E. destruct (_ <? 8) eqn:E8; [discriminate|].
  destruct (_ && _) eqn:Em; [discriminate|]. destruct (_ <=? 4) eqn:Ez; [discriminate|]. cbv zeta.
  destruct (blen src <? be_val (firstn 4 src)) eqn:El; [intros [=]|]. intros E. apply body_frame in E.
  destruct E as [-> [c [Ec [Hc D]]]]. split; [reflexivity|].
  exists (be_val (firstn 4 src)), c. assert (L : length (firstn 4 src) = 4%nat).
  { rewrite firstn_length. unfold blen in E8. lia. }
  pose proof (be_val_lt (firstn 4 src)) as B. rewrite L in B. change (256 ^ N.of_nat 4) with (2 ^ 32) in B.
  split; [|repeat split; try assumption; try lia].
  unfold frame_bytes. rewrite <- L at 1. rewrite be_be_val, <- app_assoc, <- Ec. symmetry. apply firstn_skipn.
Qed.
Lemma call_frame_shorter st src t st' s : st_ok st ->
  decode_call dec max st src = (DFrame t, st', s) -> (length s < length src)%nat /\ st' = FrameHeader.
Proof.
  intros Hok E. destruct st as [|n].
  - apply header_frame in E. destruct E as [-> [size [c [-> [Hc [H _]]]]]]. split; [|reflexivity].
    unfold frame_bytes. rewrite !app_length. unfold blen in Hc. lia.
  - cbn [decode_call] in E. apply body_frame in E. destruct E as [-> [c [-> [Hc _]]]].
    split; [|reflexivity]. rewrite app_length. unfold blen in Hc. cbn in Hok. lia.
Qed.

(** ** Draining *)
Lemma drain_fuel fuel : forall fuel' st src acc, st_ok st ->
  (length src < fuel)%nat -> (length src < fuel')%nat ->
  drain dec max fuel st src acc = drain dec max fuel' st src acc.
Proof.
  induction fuel as [|fuel IH]; intros fuel' st src acc Hok H H'; [lia|].
  destruct fuel' as [|fuel']; [lia|]. cbn [drain].
  destruct (decode_call dec max st src) as [[[|t|e] st'] s] eqn:E; try reflexivity.
  pose proof (call_ok _ _ _ _ _ Hok E). destruct (call_frame_shorter _ _ _ _ _ Hok E).
  apply IH; [assumption|lia|lia].
Qed.
Lemma drain_ok fuel : forall st src acc, st_ok st -> st_ok (rd_state (drain dec max fuel st src acc)).
Proof.
  induction fuel as [|fuel IH]; intros st src acc Hok; [exact Hok|]. cbn [drain].
  destruct (decode_call dec max st src) as [[[|t|e] st'] s] eqn:E;
    pose proof (call_ok _ _ _ _ _ Hok E); [assumption| |assumption]. apply IH. assumption.
Qed.

(** What is observable: the frames delivered and the first error. *)
Definition seen (r : reader T) : list T * option codec_error := (rd_frames r, rd_error r).

Lemma drain_split fuel : forall st src x acc fuel', st_ok st ->
  (length src < fuel)%nat -> (length (src ++ x) < fuel')%nat ->
  let r := drain dec max fuel st src acc in
  match rd_error r with
  | Some _ => seen (drain dec max fuel' st (src ++ x) acc) = seen r
  | None => drain dec max fuel' st (src ++ x) acc = read_chunk dec max r x
  end.
Proof.
  induction fuel as [|fuel IH]; intros st src x acc fuel' Hok H H'; [lia|].
  cbn [drain]. destruct (decode_call dec max st src) as [[[|t|e] st'] s] eqn:E; cbn zeta.
  - cbn [rd_error]. unfold read_chunk. cbn [rd_error rd_buf rd_state rd_frames].
    destruct fuel' as [|fuel']; [lia|]. cbn [drain].
    rewrite (call_resume _ _ _ _ _ Hok E).
    pose proof (call_ok _ _ _ _ _ Hok E) as Hok'.
    destruct (decode_call dec max st' (s ++ x)) as [[[|t'|e'] st2] s2] eqn:E2; try reflexivity.
    destruct (call_frame_shorter _ _ _ _ _ Hok' E2) as [L ->].
    apply drain_fuel; [exact I| |exact L].
    rewrite <- (call_resume _ _ x _ _ Hok E) in E2. destruct (call_frame_shorter _ _ _ _ _ Hok E2). lia.
  - destruct fuel' as [|fuel']; [lia|].
    pose proof (call_ok _ _ _ _ _ Hok E) as Hok'. destruct (call_frame_shorter _ _ _ _ _ Hok E) as [L _].
    assert (E2 : drain dec max (S fuel') st (src ++ x) acc = drain dec max fuel' st' (s ++ x) (acc ++ [t])).
    { cbn [drain]. rewrite (call_more _ _ x _ _ _ Hok E) by discriminate. reflexivity. }
    rewrite E2. rewrite app_length in H'.
    apply (IH st' s x (acc ++ [t]) fuel' Hok'); [lia|]. rewrite app_length. lia.
  - cbn [rd_error]. destruct fuel' as [|fuel']; [lia|]. cbn [drain].
    rewrite (call_more _ _ x _ _ _ Hok E) by discriminate. reflexivity.
Qed.

Lemma error_stays chunks r e : rd_error r = Some e -> fold_left (read_chunk dec max) chunks r = r.
Proof.
  intros H. induction chunks as [|c l IH]; [reflexivity|]. cbn [fold_left]. unfold read_chunk at 2.
  rewrite H. exact IH.
Qed.
(** A reader with nothing left to do. *)
Definition idle (r : reader T) : Prop := st_ok (rd_state r) /\
  (rd_error r = None -> decode_call dec max (rd_state r) (rd_buf r) = (DNone, rd_state r, rd_buf r)).
Lemma drain_idle fuel : forall st src acc, st_ok st -> (length src < fuel)%nat ->
  idle (drain dec max fuel st src acc).
Proof.
  induction fuel as [|fuel IH]; intros st src acc Hok H; [lia|]. cbn [drain].
  destruct (decode_call dec max st src) as [[[|t|e] st'] s] eqn:E; pose proof (call_ok _ _ _ _ _ Hok E) as Hok'.
  - split; [exact Hok'|]. intros _. cbn [rd_state rd_buf].
    pose proof (call_resume _ _ [] _ _ Hok E) as R. rewrite !app_nil_r in R. congruence.
  - apply IH; [exact Hok'|]. destruct (call_frame_shorter _ _ _ _ _ Hok E). lia.
  - split; [exact Hok'|]. discriminate.
Qed.
Lemma read_idle r c : idle r -> idle (read_chunk dec max r c).
Proof.
  intros [Hok Hr]. unfold read_chunk. destruct (rd_error r) eqn:E; [split; auto; congruence|].
  apply drain_idle; [exact Hok|lia].
Qed.
Lemma reader0_idle : idle reader0.
Proof. split; [exact I|reflexivity]. Qed.

Lemma read_two r a b : st_ok (rd_state r) ->
  seen (read_chunk dec max (read_chunk dec max r a) b) = seen (read_chunk dec max r (a ++ b))
  /\ (rd_error (read_chunk dec max r a) = None ->
      read_chunk dec max (read_chunk dec max r a) b = read_chunk dec max r (a ++ b)).
Proof.
  intros Hok. destruct (rd_error r) as [e|] eqn:Er.
  - assert (RC : forall x, read_chunk dec max r x = r) by (intros x; unfold read_chunk; rewrite Er; reflexivity).
    rewrite !RC. auto.
  - assert (RC : forall x, read_chunk dec max r x
        = drain dec max (S (length (rd_buf r ++ x))) (rd_state r) (rd_buf r ++ x) (rd_frames r))
      by (intros x; unfold read_chunk; rewrite Er; reflexivity).
    rewrite !RC. rewrite app_assoc.
    pose proof (drain_split (S (length (rd_buf r ++ a))) (rd_state r) (rd_buf r ++ a) b (rd_frames r)
      (S (length ((rd_buf r ++ a) ++ b))) Hok ltac:(lia) ltac:(lia)) as D. cbn zeta in D.
    set (r1 := drain dec max (S (length (rd_buf r ++ a))) (rd_state r) (rd_buf r ++ a) (rd_frames r)) in *.
    destruct (rd_error r1) eqn:E1.
    + rewrite D. split; [|discriminate]. unfold read_chunk. rewrite E1. reflexivity.
    + rewrite D. auto.
Qed.

Lemma read_concat chunks : forall r, idle r ->
  seen (fold_left (read_chunk dec max) chunks r) = seen (read_chunk dec max r (concat chunks))
  /\ (rd_error (fold_left (read_chunk dec max) chunks r) = None ->
      fold_left (read_chunk dec max) chunks r = read_chunk dec max r (concat chunks)).
Proof.
  induction chunks as [|c l IH]; intros r Hi.
  - cbn [fold_left concat]. destruct Hi as [Hok Hi].
    assert (E : read_chunk dec max r [] = r).
    { unfold read_chunk. destruct (rd_error r) eqn:E; [reflexivity|]. rewrite app_nil_r.
      cbn [drain]. rewrite (Hi eq_refl). destruct r; cbn in *; subst; reflexivity. }
    rewrite E. auto.
  - cbn [fold_left concat]. destruct (IH _ (read_idle r c Hi)) as [H1 H2].
    destruct (read_two r c (concat l) (proj1 Hi)) as [H3 H4].
    split; [rewrite H1; exact H3|]. intros E. rewrite (H2 E). apply H4.
    destruct (rd_error (read_chunk dec max r c)) eqn:E1; [|reflexivity].
    rewrite (error_stays _ _ _ E1) in E. congruence.
Qed.

Lemma chunking_independent chunks1 chunks2 : concat chunks1 = concat chunks2 ->
  rd_frames (read_all dec max chunks1) = rd_frames (read_all dec max chunks2)
  /\ rd_error (read_all dec max chunks1) = rd_error (read_all dec max chunks2)
  /\ (rd_error (read_all dec max chunks1) = None -> read_all dec max chunks1 = read_all dec max chunks2).
Proof.
  intros E. unfold read_all.
  destruct (read_concat chunks1 reader0 reader0_idle) as [A1 B1].
  destruct (read_concat chunks2 reader0 reader0_idle) as [A2 B2].
  rewrite E in A1, B1. rewrite <- A2 in A1. unfold seen in A1. injection A1 as F1 F2.
  split; [exact F1|split; [exact F2|]]. intros N. rewrite B1 by exact N. rewrite B2; [reflexivity|congruence].
Qed.

(** ** What the frames are *)
(** The stream is a run of pieces and an unread rest. *)
Lemma drain_sound fuel : forall st src acc, st_ok st -> (length src < fuel)%nat -> st = FrameHeader ->
  exists ps rest, src = flat_map piece_bytes ps ++ rest /\ Forall (piece_ok dec max) ps
    /\ rd_frames (drain dec max fuel st src acc) = acc ++ map piece_frame ps
    /\ let '(r, _, _) := decode_call dec max FrameHeader rest in
       match rd_error (drain dec max fuel st src acc) with
       | None => r = DNone
       | Some e => r = DErr e
       end.
Proof.
  induction fuel as [|fuel IH]; intros st src acc Hok H ->; [lia|]. cbn [drain].
  destruct (decode_call dec max FrameHeader src) as [[[|t|e] st'] s] eqn:E.
  - exists [], src. rewrite E. cbn. rewrite app_nil_r. auto.
  - destruct (call_frame_shorter FrameHeader _ _ _ _ I E) as [L ->].
    apply header_frame in E. destruct E as [_ [size [c [-> [Hc [H4 [H32 [Hm D]]]]]]]].
    destruct (IH FrameHeader s (acc ++ [t]) I ltac:(lia) eq_refl) as [ps [rest [E1 [F [R X]]]]].
    exists ((size, c, t) :: ps), rest. cbn [flat_map piece_bytes]. rewrite E1 at 1. rewrite app_assoc.
    split; [reflexivity|]. split; [constructor; [cbn; auto|exact F]|].
    split; [rewrite R; cbn [map]; rewrite <- app_assoc; reflexivity|exact X].
  - exists [], src. rewrite E. cbn. rewrite app_nil_r. auto.
Qed.

Lemma call_piece ps rest x : piece_ok dec max x ->
  decode_call dec max FrameHeader (flat_map piece_bytes (x :: ps) ++ rest)
  = (if blen (piece_bytes x) <? 8 then
       decode_call dec max FrameHeader (flat_map piece_bytes (x :: ps) ++ rest)
     else (DFrame (piece_frame x), FrameHeader, flat_map piece_bytes ps ++ rest)).
Proof.
  destruct x as [[size c] t]. cbn [piece_ok piece_bytes piece_frame flat_map snd].
  intros [H4 [H32 [Hc [Hm D]]]]. destruct (blen (frame_bytes size c) <? 8) eqn:E; [reflexivity|].
  rewrite <- app_assoc. set (tl := flat_map piece_bytes ps ++ rest).
  unfold frame_bytes in *. rewrite blen_app, blen_be in E. change (N.of_nat 4) with 4 in E.
  cbn [decode_call]. rewrite !blen_app, blen_be. change (N.of_nat 4) with 4.
  replace (4 + blen c + blen tl <? 8) with false by lia.
  rewrite <- app_assoc. rewrite firstn4, skipn4 by (rewrite blen_be; lia).
  rewrite (firstn_all2 (n := 4) (be 4 size)), (skipn_all2 (n := 4) (be 4 size)) by (rewrite length_be; lia).
  rewrite be_val_be_small by exact H32.
  replace (negb (max =? 0) && (max <? size)) with false by lia.
  replace (size <=? 4) with false by lia. cbv zeta.
  replace (4 + blen c + blen tl <? size) with false by lia. cbn [app].
  unfold decode_body. rewrite blen_app. replace (blen c + blen tl <? size - 4) with false by lia.
  rewrite <- Hc. rewrite firstn_blen, skipn_blen by lia. unfold blen at 1 2. rewrite Nat2N.id, firstn_all, skipn_all.
  rewrite D. reflexivity.
Qed.

(** A stream that starts with pieces of eight bytes or more is read as those. *)
Lemma drain_complete ps : forall rest acc fuel, Forall (piece_ok dec max) ps ->
  Forall (fun x => 8 <= blen (piece_bytes x)) ps ->
  (length (flat_map piece_bytes ps ++ rest) < fuel)%nat ->
  drain dec max fuel FrameHeader (flat_map piece_bytes ps ++ rest) acc
  = drain dec max (S (length rest)) FrameHeader rest (acc ++ map piece_frame ps).
Proof.
  induction ps as [|x ps IH]; intros rest acc fuel H H8 Hf.
  - cbn [flat_map app map] in *. rewrite app_nil_r. apply drain_fuel; [exact I|exact Hf|lia].
  - inversion H as [|x' ps' Hx Hps]; inversion H8 as [|x'' ps'' Hx8 Hps8]; subst.
    destruct fuel as [|fuel]; [lia|].
    pose proof (call_piece ps rest x Hx) as C.
    replace (blen (piece_bytes x) <? 8) with false in C by lia.
    destruct (call_frame_shorter FrameHeader _ _ _ _ I C) as [L _].
    cbn [drain]. rewrite C. rewrite IH; [|assumption|assumption|lia].
    cbn [map]. rewrite <- app_assoc. reflexivity.
Qed.

Lemma read_all_one chunks : seen (read_all dec max chunks)
  = seen (drain dec max (S (length (concat chunks))) FrameHeader (concat chunks) [])
  /\ (rd_error (read_all dec max chunks) = None -> read_all dec max chunks
      = drain dec max (S (length (concat chunks))) FrameHeader (concat chunks) []).
Proof. exact (read_concat chunks reader0 reader0_idle). Qed.

(** ** Summaries *)
Lemma stream_sound chunks : exists ps rest,
  concat chunks = flat_map piece_bytes ps ++ rest /\ Forall (piece_ok dec max) ps
  /\ rd_frames (read_all dec max chunks) = map piece_frame ps.
Proof.
  destruct (drain_sound (S (length (concat chunks))) FrameHeader (concat chunks) [] I ltac:(lia) eq_refl)
    as [ps [rest [E [F [R _]]]]].
  exists ps, rest. split; [exact E|split; [exact F|]].
  destruct (read_all_one chunks) as [S _]. rewrite (f_equal fst S : rd_frames _ = rd_frames _). exact R.
Qed.
Lemma stream_complete chunks ps rest : concat chunks = flat_map piece_bytes ps ++ rest ->
  Forall (piece_ok dec max) ps -> Forall (fun x : piece T => 8 <= blen (piece_bytes x)) ps ->
  let r := drain dec max (S (length rest)) FrameHeader rest (map piece_frame ps) in
  seen (read_all dec max chunks) = seen r
  /\ (rd_error (read_all dec max chunks) = None -> read_all dec max chunks = r).
Proof.
  intros E F F8 r. destruct (read_all_one chunks) as [A B]. rewrite E in A, B.
  rewrite drain_complete in A by (auto; lia). rewrite drain_complete in B by (auto; lia). auto.
Qed.
(** Too large a frame. *)
Lemma stream_limit chunks ps h junk : concat chunks = flat_map piece_bytes ps ++ h ++ junk ->
  Forall (piece_ok dec max) ps -> Forall (fun x : piece T => 8 <= blen (piece_bytes x)) ps ->
  blen h = 8 -> max <> 0 -> max < be_val (firstn 4 h) ->
  rd_frames (read_all dec max chunks) = map piece_frame ps
  /\ rd_error (read_all dec max chunks) = Some MaxSizeExceeded.
Proof.
  intros E F F8 H8 Hm Hh. destruct (stream_complete chunks ps (h ++ junk) E F F8) as [A _].
  revert A. cbn [drain decode_call]. rewrite blen_app. replace (blen h + blen junk <? 8) with false by lia.
  rewrite firstn4 by lia. replace (negb (max =? 0) && (max <? be_val (firstn 4 h))) with true by lia.
  unfold seen. cbn [rd_frames rd_error]. intros [= A B]. auto.
Qed.
(** Nothing is held back beyond one frame. *)
Definition st_max (st : decode_state) : Prop := match st with FrameHeader => True | FrameBody n => n + 4 <= max end.
Lemma call_max st src r st' s : max <> 0 -> st_max st -> decode_call dec max st src = (r, st', s) -> st_max st'.
Proof.
  intros Hm Hok E.
  assert (B : forall n src, n + 4 <= max -> decode_body dec n src = (r, st', s) -> st_max st').
  { intros n src0 Hn. unfold decode_body.
    destruct (_ <? _); [intros [= _ <- _]; exact Hn|].
    destruct (dec _) as [[t [|c l]]|e|q|]; intros [= _ <- _]; try exact I; exact Hn. }
  destruct st as [|n]; cbn [decode_call] in E; [|exact (B _ _ Hok E)].
  destruct (_ <? 8); [injection E as _ <- _; exact I|].
  destruct (negb (max =? 0) && (max <? be_val (firstn 4 src))) eqn:Em; [injection E as _ <- _; exact I|].
  destruct (be_val (firstn 4 src) <=? 4) eqn:Ez; [injection E as _ <- _; exact I|]. cbv zeta in E.
  assert (H : be_val (firstn 4 src) - 4 + 4 <= max) by lia.
  destruct (blen src <? _); [|exact (B _ _ H E)].
  replace st' with (FrameBody (be_val (firstn 4 src) - 4)) by congruence. exact H.
Qed.
Lemma drain_max fuel : forall st src acc, max <> 0 -> st_max st -> st_max (rd_state (drain dec max fuel st src acc)).
Proof.
  induction fuel as [|fuel IH]; intros st src acc Hm Hok; [exact Hok|]. cbn [drain].
  destruct (decode_call dec max st src) as [[[|t|e] st'] s] eqn:E;
    pose proof (call_max _ _ _ _ _ Hm Hok E); [assumption| |assumption]. apply IH; assumption.
Qed.
Lemma stream_buffer chunks : max <> 0 -> rd_error (read_all dec max chunks) = None ->
  blen (rd_buf (read_all dec max chunks)) < N.max 8 max.
Proof.
  intros Hm He. destruct (read_all_one chunks) as [_ B]. pose proof He as He'. rewrite (B He) in He' |- *.
  pose proof (drain_idle (S (length (concat chunks))) FrameHeader (concat chunks) [] I ltac:(lia)) as [_ D].
  pose proof (drain_max (S (length (concat chunks))) FrameHeader (concat chunks) [] Hm I) as M.
  specialize (D He'). set (r := drain _ _ _ _ _ _) in *. clearbody r.
  destruct (rd_state r) as [|n]; cbn [decode_call st_max] in *.
  - destruct (blen (rd_buf r) <? 8) eqn:E; [lia|].
    destruct (_ && _); [discriminate|]. destruct (_ <=? 4); [discriminate|]. cbv zeta in D.
    destruct (_ <? be_val _); [discriminate|]. apply body_asks in D. destruct D as [_ [D _]]. discriminate.
  - apply body_asks in D. lia.
Qed.
End stream.

(** Frames written by this library. *)
From Verif Require Import FrameProofs CodecProofs.

Definition amqp_piece (f : amqp_frame) : piece amqp_frame :=
  (sz_amqp_frame f, amqp_content f, received_amqp_frame f).
Definition sasl_piece (b : sasl_body) : piece sasl_body := (sz_sasl_frame b, sasl_content b, b).

Lemma amqp_piece_bytes f : piece_bytes (amqp_piece f) = enc_amqp_frame f.
Proof. reflexivity. Qed.
Lemma amqp_piece_ok p max f : legal_amqp_frame f -> max = 0 \/ blen (enc_amqp_frame f) <= max ->
  piece_ok (dec_amqp_frame p) max (amqp_piece f) /\ 8 <= blen (piece_bytes (amqp_piece f)).
Proof.
  intros H Hm. pose proof (amqp_content_rt p f H) as R. destruct H as [Hc [Hl Hs]].
  pose proof (amqp_frame_size f Hl) as Z.
  assert (L : blen (amqp_content f) = sz_amqp_frame f - 4).
  { unfold enc_amqp_frame in Z. rewrite blen_app, blen_be in Z.
    change (blen ([x02; x00] ++ be 2 (fr_channel f) ++ enc_frame (fr_body f))) with (blen (amqp_content f)) in Z. lia. }
  unfold sz_amqp_frame in *. rewrite Z in *. cbn [amqp_piece piece_ok]. unfold sz_amqp_frame.
  split; [repeat split; try assumption; lia|]. rewrite amqp_piece_bytes, Z. lia.
Qed.
Lemma sasl_piece_ok p max b : legal_sasl b -> blen (enc_sasl_frame b) < 2 ^ 32 ->
  max = 0 \/ blen (enc_sasl_frame b) <= max ->
  piece_ok (dec_sasl_frame p) max (sasl_piece b) /\ 8 <= blen (piece_bytes (sasl_piece b)).
Proof.
  intros H Hs Hm. pose proof (sasl_content_rt p b H Hs) as R.
  pose proof (sasl_frame_size b H) as Z.
  assert (L : blen (sasl_content b) = sz_sasl_frame b - 4).
  { unfold enc_sasl_frame in Z. rewrite blen_app, blen_be in Z.
    change (blen ([x02; x01] ++ be 2 0 ++ c_enc sasl_body_c b)) with (blen (sasl_content b)) in Z. lia. }
  unfold sz_sasl_frame in *. rewrite Z in *. cbn [sasl_piece piece_ok]. unfold sz_sasl_frame.
  split; [repeat split; try assumption; lia|].
  change (piece_bytes (sasl_piece b)) with (enc_sasl_frame b). rewrite Z. lia.
Qed.

Lemma flat_map_pieces {A T} (f : A -> piece T) (g : A -> bytes) l :
  (forall a, piece_bytes (f a) = g a) -> flat_map piece_bytes (map f l) = flat_map g l.
Proof. intros H. induction l as [|a l IH]; [reflexivity|]. cbn. rewrite H, IH. reflexivity. Qed.

(** A stream of frames, any cut, followed by the beginning of another frame. *)
Lemma amqp_stream p max fs rest chunks :
  Forall legal_amqp_frame fs -> Forall (fun f => max = 0 \/ blen (enc_amqp_frame f) <= max) fs ->
  blen rest < 8 -> concat chunks = flat_map enc_amqp_frame fs ++ rest ->
  read_all (dec_amqp_frame p) max chunks
  = mk_reader FrameHeader rest (map received_amqp_frame fs) None.
Proof.
  intros H Hm Hr E.
  assert (F : Forall (piece_ok (dec_amqp_frame p) max) (map amqp_piece fs)
              /\ Forall (fun x : piece amqp_frame => 8 <= blen (piece_bytes x)) (map amqp_piece fs)).
  { split; apply Forall_map, Forall_forall; intros f Hf; rewrite Forall_forall in H, Hm;
      apply (amqp_piece_ok p max f (H f Hf) (Hm f Hf)). }
  destruct F as [F1 F2]. rewrite <- (flat_map_pieces amqp_piece _ fs amqp_piece_bytes) in E.
  destruct (stream_complete _ max chunks _ _ E F1 F2) as [A B].
  revert A B. cbn [drain decode_call]. replace (blen rest <? 8) with true by lia.
  unfold seen. cbn [rd_frames rd_error]. intros [= _ A] B. rewrite (B A), map_map. reflexivity.
Qed.
Lemma sasl_stream p max fs rest chunks :
  Forall (fun b => legal_sasl b /\ blen (enc_sasl_frame b) < 2 ^ 32) fs ->
  Forall (fun b => max = 0 \/ blen (enc_sasl_frame b) <= max) fs ->
  blen rest < 8 -> concat chunks = flat_map enc_sasl_frame fs ++ rest ->
  read_all (dec_sasl_frame p) max chunks = mk_reader FrameHeader rest fs None.
Proof.
  intros H Hm Hr E.
  assert (F : Forall (piece_ok (dec_sasl_frame p) max) (map sasl_piece fs)
              /\ Forall (fun x : piece sasl_body => 8 <= blen (piece_bytes x)) (map sasl_piece fs)).
  { split; apply Forall_map, Forall_forall; intros f Hf; rewrite Forall_forall in H, Hm;
      destruct (H f Hf); apply (sasl_piece_ok p max f); auto. }
  destruct F as [F1 F2]. rewrite <- (flat_map_pieces sasl_piece enc_sasl_frame fs (fun _ => eq_refl)) in E.
  destruct (stream_complete _ max chunks _ _ E F1 F2) as [A B].
  revert A B. cbn [drain decode_call]. replace (blen rest <? 8) with true by lia.
  unfold seen. cbn [rd_frames rd_error]. intros [= _ A] B. rewrite (B A), map_map. cbn. rewrite map_id. reflexivity.
Qed.

