(** Renaming the classes of AVX2 and NEON machines. *)
From Coq Require Import ZArith List Bool QArith Lia Lqa ZifyBool.
From Verif Require Import Base BaseProofs Spec SpecLearning SpecRename SpecRenameSimd ModelInference ModelDense ModelFeedback ModelExecutor ModelLayout ModelAvx2 ModelNeon ProofsRename ProofsRenameGen.
Import ListNotations.
Open Scope Z_scope.

Section RenameSimd.
  Variables (n : nat) (p : nat -> nat).
  Hypothesis Hp : renaming n p.
  Definition same_outputs (b b2 : ablock) : Prop := ablock_renamed n p b b2 /\ a_outputs b2 = a_outputs b.

  Lemma avx_ren_update_clause : forall bo boost bud cmp lmem x pc pp nc np c ws ws2 o cnt r f, (pc < n)%nat -> (nc < n)%nat -> renamed n p ws ws2 ->
    exists c' ws' ws2' o' r' f', avx_update_clause bo boost bud cmp lmem x pc pp nc np c ws o cnt r f = (c', ws', o', r', f') /\
      avx_update_clause bo boost bud cmp lmem x (p pc) pp (p nc) np c ws2 o cnt r f = (c', ws2', o', r', f') /\ renamed n p ws' ws2'.
  Proof.
    intros bo boost bud cmp lmem x pc pp nc np c ws ws2 o cnt r f Hpc Hnc R. unfold avx_update_clause.
    set (oo := if bo && (cnt >? bud) then 0 else o). destruct (draw_lt f pp) as [d1 f1].
    assert (S1 : exists c1 w1 w2 r1, (if d1 then let '(c', w', r') := avx_clause_update boost cmp lmem c (nth pc ws 0) 1 x oo r in (c', set_nth pc w' ws, r') else (c, ws, r)) = (c1, w1, r1) /\
      (if d1 then let '(c', w', r') := avx_clause_update boost cmp lmem c (nth (p pc) ws2 0) 1 x oo r in (c', set_nth (p pc) w' ws2, r') else (c, ws2, r)) = (c1, w2, r1) /\ renamed n p w1 w2).
    { destruct d1; [|exists c, ws, ws2, r; auto]. rewrite (proj2 (proj2 R) pc Hpc). destruct (avx_clause_update boost cmp lmem c (nth pc ws 0) 1 x oo r) as [[c' w'] r'].
      exists c', (set_nth pc w' ws), (set_nth (p pc) w' ws2), r'. split; [reflexivity|]. split; [reflexivity|]. apply (ren_set n p Hp); auto. }
    destruct S1 as [c1 [w1 [w2 [r1 [A1 [A2 A3]]]]]]. rewrite A1, A2. destruct (draw_lt f1 np) as [d2 f2]. destruct d2.
    - rewrite (proj2 (proj2 A3) nc Hnc). destruct (avx_clause_update boost cmp lmem c1 (nth nc w1 0) (-1) x oo r1) as [[c' w'] r'].
      exists c', (set_nth nc w' w1), (set_nth (p nc) w' w2), oo, r', f2. split; [reflexivity|]. split; [reflexivity|]. apply (ren_set n p Hp); auto.
    - exists c1, w1, w2, oo, r1, f2. auto.
  Qed.

  Lemma avx_ren_update_loop : forall bo boost bud cmp lmem x pc pp nc np, (pc < n)%nat -> (nc < n)%nat -> forall cs wss wss2 outs counts r f, Forall2 (renamed n p) wss wss2 ->
    exists cs' ws' ws2' o' r' f', avx_update_loop bo boost bud cmp lmem x pc pp nc np cs wss outs counts r f = (cs', ws', o', r', f') /\
      avx_update_loop bo boost bud cmp lmem x (p pc) pp (p nc) np cs wss2 outs counts r f = (cs', ws2', o', r', f') /\ Forall2 (renamed n p) ws' ws2'.
  Proof.
    intros bo boost bud cmp lmem x pc pp nc np Hpc Hnc. induction cs as [|c cs IH]; intros wss wss2 outs counts r f W.
    - cbn [avx_update_loop]. exists [], wss, wss2, outs, r, f. auto.
    - inversion W as [|w w2 ws ws2 W1 W2]; subst; cbn [avx_update_loop]; [exists (c :: cs), [], [], outs, r, f; auto|].
      destruct outs as [|o outs]; [exists (c :: cs), (w :: ws), (w2 :: ws2), [], r, f; auto|].
      destruct (avx_ren_update_clause bo boost bud cmp lmem x pc pp nc np c w w2 o (hd 0 counts) r f Hpc Hnc W1) as [c1 [u1 [u2 [o1 [r1 [f1 [A1 [A2 A3]]]]]]]].
      rewrite A1, A2. destruct (IH ws ws2 outs (tl counts) r1 f1 W2) as [cs' [v1 [v2 [o' [r' [f' [B1 [B2 B3]]]]]]]]. rewrite B1, B2.
      exists (c1 :: cs'), (u1 :: v1), (u2 :: v2), (o1 :: o'), r', f'. auto.
  Qed.

  Lemma neon_ren_update_clause : forall bo boost bud cmp lmem x pc pp nc np c ws ws2 o cnt r f, (pc < n)%nat -> (nc < n)%nat -> renamed n p ws ws2 ->
    exists c' ws' ws2' o' r' f', neon_update_clause bo boost bud cmp lmem x pc pp nc np c ws o cnt r f = (c', ws', o', r', f') /\
      neon_update_clause bo boost bud cmp lmem x (p pc) pp (p nc) np c ws2 o cnt r f = (c', ws2', o', r', f') /\ renamed n p ws' ws2'.
  Proof.
    intros bo boost bud cmp lmem x pc pp nc np c ws ws2 o cnt r f Hpc Hnc R. unfold neon_update_clause.
    set (oo := if bo && (cnt >? bud) then 0 else o). destruct (draw_lt f pp) as [d1 f1].
    assert (S1 : exists c1 w1 w2 r1, (if d1 then let '(c', w', r') := neon_clause_update boost cmp lmem c (nth pc ws 0) 1 x oo r in (c', set_nth pc w' ws, r') else (c, ws, r)) = (c1, w1, r1) /\
      (if d1 then let '(c', w', r') := neon_clause_update boost cmp lmem c (nth (p pc) ws2 0) 1 x oo r in (c', set_nth (p pc) w' ws2, r') else (c, ws2, r)) = (c1, w2, r1) /\ renamed n p w1 w2).
    { destruct d1; [|exists c, ws, ws2, r; auto]. rewrite (proj2 (proj2 R) pc Hpc). destruct (neon_clause_update boost cmp lmem c (nth pc ws 0) 1 x oo r) as [[c' w'] r'].
      exists c', (set_nth pc w' ws), (set_nth (p pc) w' ws2), r'. split; [reflexivity|]. split; [reflexivity|]. apply (ren_set n p Hp); auto. }
    destruct S1 as [c1 [w1 [w2 [r1 [A1 [A2 A3]]]]]]. rewrite A1, A2. destruct (draw_lt f1 np) as [d2 f2]. destruct d2.
    - rewrite (proj2 (proj2 A3) nc Hnc). destruct (neon_clause_update boost cmp lmem c1 (nth nc w1 0) (-1) x oo r1) as [[c' w'] r'].
      exists c', (set_nth nc w' w1), (set_nth (p nc) w' w2), oo, r', f2. split; [reflexivity|]. split; [reflexivity|]. apply (ren_set n p Hp); auto.
    - exists c1, w1, w2, oo, r1, f2. auto.
  Qed.

  Lemma neon_ren_update_loop : forall bo boost bud cmp lmem x pc pp nc np, (pc < n)%nat -> (nc < n)%nat -> forall cs wss wss2 outs counts r f, Forall2 (renamed n p) wss wss2 ->
    exists cs' ws' ws2' o' r' f', neon_update_loop bo boost bud cmp lmem x pc pp nc np cs wss outs counts r f = (cs', ws', o', r', f') /\
      neon_update_loop bo boost bud cmp lmem x (p pc) pp (p nc) np cs wss2 outs counts r f = (cs', ws2', o', r', f') /\ Forall2 (renamed n p) ws' ws2'.
  Proof.
    intros bo boost bud cmp lmem x pc pp nc np Hpc Hnc. induction cs as [|c cs IH]; intros wss wss2 outs counts r f W.
    - cbn [neon_update_loop]. exists [], wss, wss2, outs, r, f. auto.
    - inversion W as [|w w2 ws ws2 W1 W2]; subst; cbn [neon_update_loop]; [exists (c :: cs), [], [], outs, r, f; auto|].
      destruct outs as [|o outs]; [exists (c :: cs), (w :: ws), (w2 :: ws2), [], r, f; auto|].
      destruct (neon_ren_update_clause bo boost bud cmp lmem x pc pp nc np c w w2 o (hd 0 counts) r f Hpc Hnc W1) as [c1 [u1 [u2 [o1 [r1 [f1 [A1 [A2 A3]]]]]]]].
      rewrite A1, A2. destruct (IH ws ws2 outs (tl counts) r1 f1 W2) as [cs' [v1 [v2 [o' [r' [f' [B1 [B2 B3]]]]]]]]. rewrite B1, B2.
      exists (c1 :: cs'), (u1 :: v1), (u2 :: v2), (o1 :: o'), r', f'. auto.
  Qed.

  Lemma simd_count : forall b b2, same_outputs b b2 -> same_outputs (avx_count_votes b) (avx_count_votes b2) /\ renamed n p (a_votes (avx_count_votes b)) (a_votes (avx_count_votes b2)).
  Proof.
    intros b b2 [[R1 R2 R3 [R4 R5] R6 R7 R8 R9 R10 R11 R12] E]. unfold avx_count_votes. cbn [a_votes]. rewrite E, R4, R5. split; [|apply (ren_count n p Hp); [exact R7|apply ren_zero]].
    split; [|reflexivity]. constructor; cbn; auto.
  Qed.
  Lemma avx_ren_train : forall bo x b b2, ablock_renamed n p b b2 -> same_outputs (fst (avx_train_ex bo x b)) (fst (avx_train_ex bo x b2)) /\ renamed n p (snd (avx_train_ex bo x b)) (snd (avx_train_ex bo x b2)).
  Proof.
    intros bo x b b2 [R1 R2 R3 [R4 R5] R6 R7 R8 R9 R10 R11 R12]. unfold avx_train_ex. cbn [fst snd]. apply simd_count.
    unfold avx_train_output. rewrite R2, R3, R6, R8. split; [|reflexivity]. constructor; cbn; auto.
  Qed.
  Lemma neon_ren_train : forall x b b2, ablock_renamed n p b b2 -> same_outputs (fst (neon_train_ex x b)) (fst (neon_train_ex x b2)) /\ renamed n p (snd (neon_train_ex x b)) (snd (neon_train_ex x b2)).
  Proof.
    intros x b b2 [R1 R2 R3 [R4 R5] R6 R7 R8 R9 R10 R11 R12]. unfold neon_train_ex. cbn [fst snd]. apply simd_count.
    unfold neon_train_on. rewrite R2, R3, R6. split; [|reflexivity]. constructor; cbn; auto.
  Qed.
  Lemma avx_ren_eval : forall x b b2, ablock_renamed n p b b2 -> renamed n p (snd (avx_eval_ex x b)) (snd (avx_eval_ex x b2)).
  Proof.
    intros x b b2 [R1 R2 R3 [R4 R5] R6 R7 R8 R9 R10 R11 R12]. unfold avx_eval_ex. cbn [fst snd]. apply simd_count.
    unfold avx_eval_set. rewrite R2, R3, R6. split; [|reflexivity]. constructor; cbn; auto.
  Qed.
  Lemma neon_ren_eval : forall x b b2, ablock_renamed n p b b2 -> renamed n p (snd (neon_eval_ex x b)) (snd (neon_eval_ex x b2)).
  Proof.
    intros x b b2 [R1 R2 R3 [R4 R5] R6 R7 R8 R9 R10 R11 R12]. unfold neon_eval_ex. cbn [fst snd]. apply simd_count.
    unfold neon_eval_set. rewrite R2, R3, R6. split; [|reflexivity]. constructor; cbn; auto.
  Qed.
  Lemma avx_ren_upd : forall bo boost x pc pp nc np b b2, (pc < n)%nat -> (nc < n)%nat -> same_outputs b b2 ->
    ablock_renamed n p (avx_upd bo boost x pc pp nc np b) (avx_upd bo boost x (p pc) pp (p nc) np b2).
  Proof.
    intros bo boost x pc pp nc np b b2 Hpc Hnc [[R1 R2 R3 [R4 R5] R6 R7 R8 R9 R10 R11 R12] E]. unfold avx_upd, avx_train_update.
    rewrite R2, R6, R8, R9, R10, R11, R12, E.
    destruct (avx_ren_update_loop bo boost (a_budget b) (a_cmp b) (a_lmem b) x pc pp nc np Hpc Hnc (a_rows b) (a_weights b) (a_weights b2) (a_outputs b) (a_counts b) (a_vrng b) (a_fast b) R7)
      as [cs' [v1 [v2 [o' [r' [f' [B1 [B2 B3]]]]]]]]. rewrite B1, B2.
    constructor; cbn; auto.
  Qed.
  Lemma neon_ren_upd : forall boost x pc pp nc np b b2, (pc < n)%nat -> (nc < n)%nat -> same_outputs b b2 ->
    ablock_renamed n p (neon_upd boost x pc pp nc np b) (neon_upd boost x (p pc) pp (p nc) np b2).
  Proof.
    intros boost x pc pp nc np b b2 Hpc Hnc [[R1 R2 R3 [R4 R5] R6 R7 R8 R9 R10 R11 R12] E]. unfold neon_upd, neon_train_update.
    rewrite R2, R6, R8, R9, R10, R11, R12, E.
    destruct (neon_ren_update_loop true boost (a_budget b) (a_cmp b) (a_lmem b) x pc pp nc np Hpc Hnc (a_rows b) (a_weights b) (a_weights b2) (a_outputs b) (a_counts b) (a_vrng b) (a_fast b) R7)
      as [cs' [v1 [v2 [o' [r' [f' [B1 [B2 B3]]]]]]]]. rewrite B1, B2.
    constructor; cbn; auto.
  Qed.

  Definition ren_ablock (b : ablock) : ablock := mkABlock (a_nlit b) (a_lmem b) (a_mask b) (a_ncls b) (a_rows b) (map (ren_list n p) (a_weights b)) (a_outputs b) (a_counts b) (a_votes b) (a_budget b) (a_cmp b) (a_vrng b) (a_fast b).
  Lemma ren_ablock_ok : forall b, a_ncls b = n -> rows_of n (a_weights b) -> ablock_renamed n p b (ren_ablock b).
  Proof.
    intros b E W. constructor; cbn; auto. induction W; cbn [map]; constructor; auto. apply (ren_list_renamed n p Hp). assumption.
  Qed.
End RenameSimd.
