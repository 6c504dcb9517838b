(** Renaming the classes, for any kind of clause block. *)
From Coq Require Import ZArith List Bool QArith Lia Lqa ZifyBool.
From Verif Require Import Base BaseProofs Spec SpecLearning SpecRename SpecRenameSimd ModelInference ModelFeedback ModelExecutor ProofsInference ProofsFeedback ProofsRename.
Import ListNotations.
Open Scope Z_scope.

Section RenameBlocks.
  Variables (n : nat) (p : nat -> nat).
  Hypothesis Hp : renaming n p.
  Variables (X Bk : Type) (ex : X -> Bk -> Bk * list Z) (upd : X -> nat -> Q -> nat -> Q -> Bk -> Bk) (RB RB2 : Bk -> Bk -> Prop).
  Hypothesis HX1 : forall x b b2, RB b b2 -> RB2 (fst (ex x b)) (fst (ex x b2)) /\ renamed n p (snd (ex x b)) (snd (ex x b2)).
  Hypothesis HX2 : forall x pc pp nc np b b2, (pc < n)%nat -> (nc < n)%nat -> RB2 b b2 -> RB (upd x pc pp nc np b) (upd x (p pc) pp (p nc) np b2).
  Hypothesis HX3 : forall b b2, RB2 b b2 -> RB b b2.
  Definition gtrained (ds : list (X * nat)) (bs : list (bool * Bk)) (f : fblock) : list (bool * Bk) * fblock := train_list Bk X ex upd nat fb_process ds bs f.
  Definition grelabel (ds : list (X * nat)) : list (X * nat) := map (fun d => (fst d, p (snd d))) ds.

  Lemma gren_run : forall (ex0 : X -> Bk -> Bk * list Z) x T (P : Bk -> Bk -> Prop),
    (forall b b2, RB b b2 -> P (fst (ex0 x b)) (fst (ex0 x b2)) /\ renamed n p (snd (ex0 x b)) (snd (ex0 x b2))) ->
    forall bs bs2 f f2, Forall2 (fun a b : bool * Bk => fst b = fst a /\ RB (snd a) (snd b)) bs bs2 -> feedback_for n T f -> feedback_for n T f2 -> renamed n p (fb_votes f) (fb_votes f2) ->
    Forall2 (fun a b => fst b = fst a /\ P (snd a) (snd b)) (fst (run_examples Bk X ex0 x bs f)) (fst (run_examples Bk X ex0 x bs2 f2)) /\
    feedback_for n T (snd (run_examples Bk X ex0 x bs f)) /\ feedback_for n T (snd (run_examples Bk X ex0 x bs2 f2)) /\
    fb_rng (snd (run_examples Bk X ex0 x bs f)) = fb_rng f /\ fb_rng (snd (run_examples Bk X ex0 x bs2 f2)) = fb_rng f2 /\
    renamed n p (fb_votes (snd (run_examples Bk X ex0 x bs f))) (fb_votes (snd (run_examples Bk X ex0 x bs2 f2))).
  Proof.
    intros ex0 x T P H. induction bs as [|[t b] bs IH]; intros bs2 f f2 B F G R; inversion B as [|? [t2 b2] ? bs2' [B1 B2] B3]; subst; cbn [run_examples].
    - cbn [fst snd]. split; [constructor|auto].
    - cbn [fst snd] in B1, B2. subst t2. destruct (H b b2 B2) as [H1 H2]. destruct (ex0 x b) as [b' v]. destruct (ex0 x b2) as [b2' v2]. cbn [fst snd] in H1, H2.
      destruct ((ren_register n p Hp) T f f2 v v2 F G R H2) as [A1 [A2 A3]]. specialize (IH bs2' (fb_register v f) (fb_register v2 f2) B3 A1 A2 A3).
      destruct (run_examples Bk X ex0 x bs (fb_register v f)) as [q g]. destruct (run_examples Bk X ex0 x bs2' (fb_register v2 f2)) as [q2 g2].
      cbn [fst snd] in *. destruct IH as [I1 I2]. split; [constructor; auto|exact I2].
  Qed.

  (** One example. *)
  Lemma gren_one : forall T x l bs bs2 f f2 u2, (0 < T)%Q -> (2 <= n)%nat -> (l < n)%nat -> Forall2 (fun a b : bool * Bk => fst b = fst a /\ RB (snd a) (snd b)) bs bs2 -> feedback_for n T f -> feedback_for n T f2 ->
    let mid := run_examples Bk X ex x bs (fb_reset f) in
    draw (fb_rng f2) 0 = u2 ->
    (forall w2, renamed n p (fb_votes (snd mid)) w2 -> neg_of T w2 (p l) u2 = p (neg_of T (fb_votes (snd mid)) l (draw (fb_rng f) 0))) ->
    let s := train_one Bk X ex upd nat fb_process (x, l) bs f in
    let s2 := train_one Bk X ex upd nat fb_process (x, p l) bs2 f2 in
    Forall2 (fun a b : bool * Bk => fst b = fst a /\ RB (snd a) (snd b)) (fst s) (fst s2) /\ feedback_for n T (snd s) /\ feedback_for n T (snd s2) /\
    fb_rng (snd s) = mkRng (rng_src (fb_rng f)) (S (rng_pos (fb_rng f))) /\ fb_rng (snd s2) = mkRng (rng_src (fb_rng f2)) (S (rng_pos (fb_rng f2))) /\
    renamed n p (fb_votes (snd s)) (fb_votes (snd s2)) /\ fb_pos (snd s2) = p (fb_pos (snd s)) /\ fb_neg (snd s2) = p (fb_neg (snd s)) /\ fb_pp (snd s2) = fb_pp (snd s) /\ fb_np (snd s2) = fb_np (snd s).
  Proof.
    intros T x l bs bs2 f f2 u2 HT Hn Hl B F G mid D2 HU s s2.
    assert (RF : forall g, feedback_for n T g -> feedback_for n T (fb_reset g)).
    { intros g [G1 [G2 G3]]. unfold feedback_for, fb_reset. cbn [fb_ncls fb_thr fb_votes]. rewrite repeat_length. auto. }
    assert (RZ : renamed n p (fb_votes (fb_reset f)) (fb_votes (fb_reset f2))).
    { unfold fb_reset. cbn [fb_votes]. destruct F as [_ [_ F3]], G as [_ [_ G3]]. rewrite F3, G3. apply (ren_zero n p). }
    pose proof (gren_run ex x T RB2) as RR.
    specialize (RR (HX1 x) bs bs2 (fb_reset f) (fb_reset f2) B (RF f F) (RF f2 G) RZ).
    unfold s, s2, train_one. cbn [fst snd]. fold mid in RR. fold mid. destruct mid as [cs g]. destruct (run_examples Bk X ex x bs2 (fb_reset f2)) as [cs2 g2].
    cbn [fst snd] in *. destruct RR as [R1 [R2 [R3 [R4 [R5 R6]]]]]. cbn [fb_reset fb_rng] in R4, R5.
    rewrite ((process_neg n) T g l R2 Hn), ((process_neg n) T g2 (p l) R3 Hn). cbv zeta. specialize (HU (fb_votes g2) R6).
    rewrite R4, R5, D2, HU.
    set (neg := neg_of T (fb_votes g) l (draw (fb_rng f) 0)). set (w := neg_weights T (fb_votes g) l). set (w2 := neg_weights T (fb_votes g2) (p l)).
    assert (Hneg : (neg < n)%nat) by (apply (neg_of_range n); auto; apply R6).
    assert (EW : nth (p neg) w2 0%Q = nth neg w 0%Q) by (apply (ren_weights n p Hp); auto). rewrite EW.
    rewrite (proj2 (proj2 R6) l Hl). cbn [snd fb_votes fb_rng fb_pos fb_neg fb_pp fb_np].
    split; [|split; [repeat split; apply R6|split; [repeat split; apply R6|repeat split; apply R6]]].
    unfold run_updates. cbn [fb_pos fb_neg fb_pp fb_np]. clear -R1 Hl Hneg HX2 HX3. revert R1. generalize cs2. induction cs as [|[t b] cs IH]; intros c2 R1; inversion R1 as [|? [t2 b2] ? c2' [E1 E2] E4]; subst; cbn [map fst]; [constructor|].
    cbn [fst snd] in *. subst t2. constructor; [|apply IH; exact E4]. destruct t; cbn [fst snd]; split; auto.
  Qed.

  (** The draw for the renamed machine, from the state of the machine itself. *)
  Definition gmirror (T : Q) (d : X * nat) (s : list (bool * Bk) * fblock) : Q :=
    let v := fb_votes (snd (run_examples Bk X ex (fst d) (fst s) (fb_reset (snd s)))) in
    middle (neg_weights T (ren_list n p v) (p (snd d))) (p (neg_of T v (snd d) (draw (fb_rng (snd s)) 0))).

  (** All examples. *)
  Lemma gren_all : forall T, (0 < T)%Q -> (2 <= n)%nat -> forall ds bs bs2 f f2, Forall2 (fun a b : bool * Bk => fst b = fst a /\ RB (snd a) (snd b)) bs bs2 -> feedback_for n T f -> feedback_for n T f2 ->
    Forall (fun d => (snd d < n)%nat) ds -> (forall i, 0 < rng_src (fb_rng f) i <= 1)%Q ->
    (forall i d, nth_error ds i = Some d -> rng_src (fb_rng f2) (rng_pos (fb_rng f2) + i)%nat = gmirror T d (gtrained (firstn i ds) bs f)) ->
    let s := gtrained ds bs f in let s2 := gtrained (grelabel ds) bs2 f2 in
    Forall2 (fun a b : bool * Bk => fst b = fst a /\ RB (snd a) (snd b)) (fst s) (fst s2) /\ feedback_for n T (snd s) /\ feedback_for n T (snd s2) /\ (renamed n p (fb_votes f) (fb_votes f2) -> renamed n p (fb_votes (snd s)) (fb_votes (snd s2))) /\ (forall i d, nth_error ds i = Some d -> 0 < gmirror T d (gtrained (firstn i ds) bs f) < 1)%Q /\
    (ds <> [] -> fb_pos (snd s2) = p (fb_pos (snd s)) /\ fb_neg (snd s2) = p (fb_neg (snd s)) /\ fb_pp (snd s2) = fb_pp (snd s) /\ fb_np (snd s2) = fb_np (snd s)).
  Proof.
    intros T HT Hn. induction ds as [|[x l] ds IH]; intros bs bs2 f f2 B F G HL HD HM s s2.
    - unfold s, s2, gtrained. cbn [grelabel map train_list fst snd]. split; [exact B|]. split; [exact F|]. split; [exact G|]. split; [auto|]. split; [intros [|i] d E; discriminate E|]. intros N. congruence.
    - inversion HL as [|? ? L1 L2]; subst. cbn [snd] in L1.
      assert (D2 : draw (fb_rng f2) 0 = gmirror T (x, l) (bs, f)) by (exact (HM O (x, l) eq_refl)).
      pose proof (gren_one T x l bs bs2 f f2 (gmirror T (x, l) (bs, f)) HT Hn L1 B F G) as A. cbv zeta in A.
      specialize (A D2).
      assert (MG : (0 < gmirror T (x, l) (bs, f) < 1)%Q).
      { assert (RF : feedback_for n T (fb_reset f)) by (destruct F as [F1 [F2 F3]]; unfold feedback_for, fb_reset; cbn [fb_ncls fb_thr fb_votes]; rewrite repeat_length; auto).
        destruct (gren_run ex x T (fun _ _ => True) (fun b b2 Hb => conj I (proj2 (HX1 x b b2 Hb))) bs bs2 (fb_reset f) (fb_reset f) B RF RF) as [_ [[_ [_ LV]] _]].
        { unfold fb_reset. cbn [fb_votes]. rewrite (proj2 (proj2 F)). apply (ren_zero n p). }
        unfold gmirror. cbn [fst snd]. exact (proj2 ((mirror_good n p Hp) T _ l (draw (fb_rng f) 0) _ HT Hn L1 LV (HD _) ((ren_list_renamed n p Hp) _ LV))). }
      assert (HU : forall w2, renamed n p (fb_votes (snd (run_examples Bk X ex x bs (fb_reset f)))) w2 ->
        neg_of T w2 (p l) (gmirror T (x, l) (bs, f)) = p (neg_of T (fb_votes (snd (run_examples Bk X ex x bs (fb_reset f)))) l (draw (fb_rng f) 0))).
      { intros w2 R. unfold gmirror. cbn [fst snd]. apply ((mirror_good n p Hp) T _ l (draw (fb_rng f) 0) w2 HT Hn L1 (proj1 R)); [unfold draw; apply HD|exact R]. }
      specialize (A HU).
      assert (TC : forall ds' l' bs' f', gtrained ((x, l') :: ds') bs' f' = (let st := train_one Bk X ex upd nat fb_process (x, l') bs' f' in gtrained ds' (fst st) (snd st))).
      { intros ds' l' bs' f'. unfold gtrained. cbn [train_list]. destruct (train_one Bk X ex upd nat fb_process (x, l') bs' f') as [u1 u2]. reflexivity. }
      unfold s, s2. cbn [grelabel map fst snd]. rewrite !TC. cbv zeta.
      set (st := train_one Bk X ex upd nat fb_process (x, l) bs f) in *.
      set (st2 := train_one Bk X ex upd nat fb_process (x, p l) bs2 f2) in *.
      destruct A as [A1 [A2 [A3 [A4 [A5 [A6 A7]]]]]].
      specialize (IH (fst st) (fst st2) (snd st) (snd st2) A1 A2 A3 L2). rewrite A4, A5 in IH. cbn [rng_src rng_pos] in IH. specialize (IH HD).
      assert (HM2 : forall i d, nth_error ds i = Some d -> rng_src (fb_rng f2) (S (rng_pos (fb_rng f2)) + i)%nat = gmirror T d (gtrained (firstn i ds) (fst st) (snd st))).
      { intros i d E. specialize (HM (S i) d E). replace (S (rng_pos (fb_rng f2)) + i)%nat with (rng_pos (fb_rng f2) + S i)%nat by lia. rewrite HM. cbn [firstn]. rewrite TC. reflexivity. }
      specialize (IH HM2). cbv zeta in IH. destruct IH as [I1 [I2 [I3 [I4 [I6 I5]]]]].
      split; [exact I1|]. split; [exact I2|]. split; [exact I3|]. split; [intros _; apply I4; exact A6|]. split; [|intros _].
      { intros [|i] d E; [|cbn [firstn]; rewrite TC; apply I6; exact E]. cbn in E. injection E as <-. apply MG. }
      destruct ds as [|d ds]; [unfold gtrained; cbn [train_list snd grelabel map]; exact A7|]. apply I5. discriminate.
  Qed.

  (** For some draws of the feedback block the renamed machine learns what the machine learns. *)
  Lemma gren_exists : forall T ds bs bs2 f f2, (0 < T)%Q -> (2 <= n)%nat -> Forall2 (fun a b : bool * Bk => fst b = fst a /\ RB (snd a) (snd b)) bs bs2 ->
    feedback_for n T f -> feedback_for n T f2 -> Forall (fun d => (snd d < n)%nat) ds -> (forall i, 0 < rng_src (fb_rng f) i <= 1)%Q ->
    exists src, (forall i, 0 < src i < 1)%Q /\
      let s := gtrained ds bs f in let s2 := gtrained (grelabel ds) bs2 (with_draws src f2) in
      Forall2 (fun a b : bool * Bk => fst b = fst a /\ RB (snd a) (snd b)) (fst s) (fst s2) /\ feedback_for n T (snd s) /\ feedback_for n T (snd s2) /\
      (ds <> [] -> fb_pos (snd s2) = p (fb_pos (snd s)) /\ fb_neg (snd s2) = p (fb_neg (snd s)) /\ fb_pp (snd s2) = fb_pp (snd s) /\ fb_np (snd s2) = fb_np (snd s)).
  Proof.
    intros T ds bs bs2 f f2 HT Hn B F G HL HD.
    set (src := fun j => match nth_error ds (j - rng_pos (fb_rng f2)) with Some d => gmirror T d (gtrained (firstn (j - rng_pos (fb_rng f2)) ds) bs f) | None => (1 # 2)%Q end).
    assert (G2 : feedback_for n T (with_draws src f2)) by exact G.
    assert (HM : forall i d, nth_error ds i = Some d -> rng_src (fb_rng (with_draws src f2)) (rng_pos (fb_rng (with_draws src f2)) + i)%nat = gmirror T d (gtrained (firstn i ds) bs f)).
    { intros i d E. cbn [with_draws fb_rng rng_src rng_pos]. unfold src. replace (rng_pos (fb_rng f2) + i - rng_pos (fb_rng f2))%nat with i by lia. rewrite E. reflexivity. }
    destruct (gren_all T HT Hn ds bs bs2 f (with_draws src f2) B F G2 HL HD HM) as [A1 [A2 [A3 [_ [A4 A5]]]]].
    exists src. split; [|cbv zeta; auto].
    intros i. unfold src. destruct (nth_error ds (i - rng_pos (fb_rng f2))) as [d|] eqn:E; [apply A4; exact E|split; reflexivity].
  Qed.
  Lemma gren_sums : forall (ev : X -> Bk -> Bk * list Z) T bs bs2 f f2 x,
    (forall b b2, RB b b2 -> renamed n p (snd (ev x b)) (snd (ev x b2))) ->
    Forall2 (fun a b : bool * Bk => fst b = fst a /\ RB (snd a) (snd b)) bs bs2 -> feedback_for n T f -> feedback_for n T f2 ->
    renamed n p (fb_votes (snd (run_examples Bk X ev x bs (fb_reset f)))) (fb_votes (snd (run_examples Bk X ev x bs2 (fb_reset f2)))) /\
    fb_predict (snd (run_examples Bk X ev x bs (fb_reset f))) = argmax (fb_votes (snd (run_examples Bk X ev x bs (fb_reset f)))) /\
    fb_predict (snd (run_examples Bk X ev x bs2 (fb_reset f2))) = argmax (fb_votes (snd (run_examples Bk X ev x bs2 (fb_reset f2)))).
  Proof.
    intros ev T bs bs2 f f2 x HV B F G.
    assert (RF : forall g, feedback_for n T g -> feedback_for n T (fb_reset g)).
    { intros g [G1 [G2 G3]]. unfold feedback_for, fb_reset. cbn [fb_ncls fb_thr fb_votes]. rewrite repeat_length. auto. }
    destruct (gren_run ev x T (fun _ _ => True) (fun b b2 Hb => conj I (HV b b2 Hb)) bs bs2 (fb_reset f) (fb_reset f2) B (RF f F) (RF f2 G)) as [_ [[A1 [_ A2]] [[B1 [_ B2]] [_ [_ R]]]]].
    { unfold fb_reset. cbn [fb_votes]. rewrite (proj2 (proj2 F)), (proj2 (proj2 G)). apply ren_zero. }
    split; [exact R|]. unfold fb_predict. rewrite A1, B1, !firstn_all2 by lia. auto.
  Qed.

End RenameBlocks.
