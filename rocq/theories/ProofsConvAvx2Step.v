(** Training steps and histories of the AVX2 convolutional block. *)
From Coq Require Import ZArith Arith List Bool QArith Lia ZifyBool.
From Verif Require Import Base BaseProofs Spec SpecLearning ModelInference ModelDense ModelLayout ModelFeedback ModelExecutor ModelDenseExec ModelAvx2 ModelConv ModelConvAvx2
  SpecAvx2 SpecConv SpecConvAvx2 ProofsClause ProofsLayout ProofsEval ProofsLearning ProofsStep ProofsExecutor ProofsDenseExec ProofsInput
  ProofsAvx2 ProofsAvx2Scalar ProofsAvx2Step ProofsAvx2Hist ProofsConv ProofsConvStep ProofsConvAvx2.
Import ListNotations.
Open Scope Z_scope.

Record xc_ok (n ncls : nat) (v : xcblock) : Prop := {
  xk_good : avx_good n (xc_b v);
  xk_ncls : a_ncls (xc_b v) = ncls;
  xk_weights : rows_of ncls (a_weights (xc_b v));
  xk_int16 : Forall (Forall is_int16) (a_weights (xc_b v));
  xk_wlen : length (a_weights (xc_b v)) = xclauses v;
  xk_counts : length (a_counts (xc_b v)) = xclauses v;
  xk_active : length (xc_active v) = xclauses v;
  xk_ppc : length (xc_ppc v) = xc_np v;
  xk_np : (0 < xc_np v)%nat
}.

Lemma row8_clause : forall n row, row8 row -> int8s (cl_pos (row_clause n (lmem_of n) row)) /\ int8s (cl_neg (row_clause n (lmem_of n) row)).
Proof.
  intros n row H. cbn [row_clause cl_pos cl_neg]. unfold slice, int8s, row8 in *. split.
  - apply Forall_forall. intros z Hz. rewrite Forall_forall in H. apply H. rewrite <- (firstn_skipn n row). apply in_or_app. auto.
  - apply Forall_forall. intros z Hz. rewrite Forall_forall in H. apply H. rewrite <- (firstn_skipn (lmem_of n) row). apply in_or_app. right.
    rewrite <- (firstn_skipn n (skipn (lmem_of n) row)). apply in_or_app. auto.
Qed.

Lemma xc_ok_view : forall n ncls si sm v, xc_ok n ncls v -> conv_ok n ncls (conv_view si sm v).
Proof.
  intros n ncls si sm v [[[O1 O2 O3 O4 O5] [R8 VR]] K1 K2 K3 K4 K5 K6 K7 K8]. unfold xclauses in *.
  constructor; cbn [conv_view scalar_view cv_b cv_np cv_active cv_ppc b_nlit b_counts b_clauses]; rewrite ?map_length; auto.
  constructor; [constructor| |]; unfold scalar_view; cbn [b_ncls b_clauses b_weights]; auto; rewrite ?map_length; auto.
  - rewrite O2, O3. apply Forall_map, Forall_forall. intros row Hr. rewrite Forall_forall in O5. specialize (O5 row Hr).
    split; [apply rc_pos_len|apply rc_neg_len]; auto.
  - rewrite O2, O3. apply Forall_map, Forall_forall. intros row Hr. rewrite Forall_forall in R8. apply row8_clause. auto.
Qed.

(** ** Outputs *)

Lemma xc_output_scalar : forall bo n np x lits, (0 < n)%nat -> conv_buffer n np x lits -> whole_patches n np ->
  forall rows aps cnts ppc ppc' r, Forall (fun row => length row = (2 * lmem_of n)%nat) rows -> (bo = true -> ppc' = ppc) ->
  length aps = length rows -> length cnts = length rows ->
  exists ppc2, let '(os, aps1, cnts1, ppc1, r1) := conv_output_loop bo n np x (map (row_clause n (lmem_of n)) rows) aps cnts ppc' r in
    xc_output_loop bo n (lmem_of n) np (mask_of n) lits rows aps cnts ppc r = Some (os, aps1, cnts1, ppc2, r1) /\
    (bo = true -> ppc2 = ppc1) /\ (bo = false -> ppc2 = ppc) /\
    (forall k, nth k os 0 = 1 -> (nth k aps1 O < np)%nat) /\ Forall (fun o => o = 0 \/ o = 1) os /\
    length os = length rows /\ length aps1 = length rows /\ length cnts1 = length rows.
Proof.
  intros bo n np x lits Hn Hb HW rows. induction rows as [|row rows IH]; intros [|ap aps] [|cnt cnts] ppc ppc' r HF HE HA HC; cbn [length] in HA, HC; try discriminate.
  - exists ppc. cbn [map conv_output_loop xc_output_loop]. split; [reflexivity|]. split; [intros E; rewrite (HE E); reflexivity|].
    split; [auto|]. split; [intros [|k]; cbn [nth]; discriminate|]. split; [constructor|]. auto.
  - inversion HF as [|? ? F1 F2]; subst. cbn [map conv_output_loop xc_output_loop].
    destruct (xc_clause_scalar n np x lits row Hn Hb F1 bo ap cnt ppc ppc' r HW HE) as [p2 A].
    destruct (conv_clause_output bo n np x (row_clause n (lmem_of n) row) ap cnt ppc' r) as [[[[o ap1] cnt1] ppc1] r1].
    destruct A as [A1 [A2 [A3 [A4 A5]]]]. rewrite A1.
    destruct (IH aps cnts p2 ppc1 r1 F2 ltac:(intros E; symmetry; auto) ltac:(lia) ltac:(lia)) as [p3 B].
    destruct (conv_output_loop bo n np x (map (row_clause n (lmem_of n)) rows) aps cnts ppc1 r1) as [[[[os aps2] cnts2] ppc2] r2].
    destruct B as [B1 [B2 [B3 [B4 [B5 [B6 [B7 B8]]]]]]]. rewrite B1. exists p3. split; [reflexivity|]. split; [exact B2|].
    split; [intros E; rewrite B3 by auto; auto|]. split; [intros [|k]; cbn [nth]; auto|]. split; [constructor; auto|]. cbn [length]. lia.
Qed.

(** A block after its outputs were set. *)
Definition outputs_set (v : xcblock) : Prop :=
  length (a_outputs (xc_b v)) = xclauses v /\ Forall (fun o => o = 0 \/ o = 1) (a_outputs (xc_b v)) /\
  forall k, nth k (a_outputs (xc_b v)) 0 = 1 -> (nth k (xc_active v) O < xc_np v)%nat.

Lemma conv_output_ppc_len : forall bo n np x cs aps cnts ppc r, length ppc = np -> conv_example n np x ->
  Forall (fun c => length (cl_pos c) = n /\ length (cl_neg c) = n) cs -> length aps = length cs -> length cnts = length cs ->
  length (snd (fst (conv_output_loop bo n np x cs aps cnts ppc r))) = np.
Proof.
  intros bo n np x cs aps cnts ppc r HP HX HF HA HC. pose proof (conv_output_loop_nth bo n np x HX cs aps cnts ppc r HF HA HC HP) as T.
  destruct (conv_output_loop bo n np x cs aps cnts ppc r) as [[[[os aps2] cnts2] ppc2] r2]. cbn [fst snd]. apply T.
Qed.

Theorem xc_train_scalar : forall bo n ncls si sm x lits v, xc_ok n ncls v -> conv_buffer n (xc_np v) x lits -> whole_patches n (xc_np v) ->
  exists v1, xc_train_ex bo lits (Some v) = (Some v1, snd (conv_train_ex bo x (conv_view si sm v))) /\
    xc_ok n ncls v1 /\ outputs_set v1 /\
    a_rows (xc_b v1) = a_rows (xc_b v) /\ a_vrng (xc_b v1) = a_vrng (xc_b v) /\ a_cmp (xc_b v1) = a_cmp (xc_b v) /\ xc_np v1 = xc_np v /\
    let w := fst (conv_train_ex bo x (conv_view si sm v)) in
    (bo = true -> conv_view si sm v1 = w) /\
    (bo = false -> exists ppc, conv_view si sm v1 = mkCv (cv_b w) (cv_np w) (cv_active w) ppc).
Proof.
  intros bo n ncls si sm x lits v OK Hb HW. pose proof OK as [[[O1 O2 O3 O4 O5] [R8 VR]] K1 K2 K3 K4 K5 K6 K7 K8]. unfold xclauses in *.
  pose proof (xc_ok_view n ncls si sm v OK) as CO.
  unfold xc_train_ex, xc_set_output, conv_train_ex, conv_set_output.
  cbn [conv_view scalar_view cv_b cv_np cv_active cv_ppc b_nlit b_ncls b_clauses b_weights b_outputs b_counts b_votes b_budget b_s_inv b_s_min1_inv b_rng b_fast].
  rewrite O2, O3, O4.
  destruct (xc_output_scalar bo n (xc_np v) x lits O1 Hb HW (a_rows (xc_b v)) (xc_active v) (a_counts (xc_b v)) (xc_ppc v) (xc_ppc v) (xc_rng v)
    O5 ltac:(auto) ltac:(lia) ltac:(lia)) as [p2 A].
  pose proof (conv_output_ppc_len bo n (xc_np v) x (map (row_clause n (lmem_of n)) (a_rows (xc_b v))) (xc_active v) (a_counts (xc_b v)) (xc_ppc v) (xc_rng v)
    K7 (proj1 Hb)) as PL. rewrite !map_length in PL.
  assert (FC : Forall (fun c => length (cl_pos c) = n /\ length (cl_neg c) = n) (map (row_clause n (lmem_of n)) (a_rows (xc_b v)))).
  { apply Forall_map, Forall_forall. intros row Hr. rewrite Forall_forall in O5. specialize (O5 row Hr). split; [apply rc_pos_len|apply rc_neg_len]; auto. }
  specialize (PL FC ltac:(lia) ltac:(lia)).
  destruct (conv_output_loop bo n (xc_np v) x (map (row_clause n (lmem_of n)) (a_rows (xc_b v))) (xc_active v) (a_counts (xc_b v)) (xc_ppc v) (xc_rng v)) as [[[[os aps1] cnts1] ppc1] r1].
  destruct A as [A1 [A2 [A3 [A4 [A5 [A6 [A7 A8]]]]]]]. cbn [fst snd] in PL. rewrite A1.
  unfold xc_count_votes, cv_count_votes, avx_count_votes, count_votes.
  cbn [fst snd xc_b xc_np xc_active xc_ppc xc_rng cv_b cv_np cv_active cv_ppc a_nlit a_lmem a_mask a_ncls a_rows a_weights a_outputs a_counts a_votes a_budget a_cmp a_vrng a_fast
       b_nlit b_ncls b_clauses b_weights b_outputs b_counts b_votes b_budget b_s_inv b_s_min1_inv b_rng b_fast].
  eexists. split; [reflexivity|]. split; [|split].
  - constructor; unfold xclauses; cbn [xc_b xc_np xc_active xc_ppc xc_rng a_ncls a_rows a_weights a_counts]; auto.
    + split; [constructor; auto|]. split; auto.
    + destruct bo; [rewrite A2 by auto; exact PL|rewrite A3 by auto; exact K7].
  - unfold outputs_set, xclauses. cbn [xc_b xc_np xc_active a_outputs a_rows]. auto.
  - cbn [xc_b a_rows a_vrng a_cmp xc_np]. do 4 (split; [reflexivity|]). split.
    + intros E. unfold conv_view, scalar_view. cbn [xc_b xc_np xc_active xc_ppc xc_rng a_nlit a_lmem a_mask a_ncls a_rows a_weights a_outputs a_counts a_votes a_budget a_fast].
      rewrite (A2 E). reflexivity.
    + intros E. exists p2. unfold conv_view, scalar_view. cbn [xc_b xc_np xc_active xc_ppc xc_rng a_nlit a_lmem a_mask a_ncls a_rows a_weights a_outputs a_counts a_votes a_budget a_fast].
      reflexivity.
Qed.

(** ** Evaluation *)

Lemma xc_eval_loop_scalar : forall n np x lits rows, (0 < n)%nat -> conv_buffer n np x lits -> whole_patches n np ->
  Forall (fun row => length row = (2 * lmem_of n)%nat) rows ->
  xc_eval_loop n (lmem_of n) np (mask_of n) lits rows =
  Some (map (fun c => conv_eval_patches n x c (seq 0 np)) (map (row_clause n (lmem_of n)) rows)).
Proof.
  intros n np x lits rows Hn Hb HW HF. induction HF as [|row rows H1 HF IH]; [reflexivity|]. cbn [xc_eval_loop map].
  rewrite (xc_eval_scalar n np x lits row Hn Hb H1 (seq 0 np) HW (seq_bound np)). rewrite IH. reflexivity.
Qed.

Theorem xc_eval_block : forall n ncls si sm x lits v, xc_ok n ncls v -> conv_buffer n (xc_np v) x lits -> whole_patches n (xc_np v) ->
  exists v1, xc_eval_ex lits (Some v) = (Some v1, snd (conv_eval_ex x (conv_view si sm v))) /\
    conv_view si sm v1 = fst (conv_eval_ex x (conv_view si sm v)) /\ xc_ok n ncls v1 /\
    a_rows (xc_b v1) = a_rows (xc_b v) /\ xc_np v1 = xc_np v.
Proof.
  intros n ncls si sm x lits v OK Hb HW. pose proof OK as [[[O1 O2 O3 O4 O5] [R8 VR]] K1 K2 K3 K4 K5 K6 K7 K8]. unfold xclauses in *.
  unfold xc_eval_ex, xc_eval_set, conv_eval_ex, conv_eval_set. rewrite O2, O3, O4.
  rewrite (xc_eval_loop_scalar n (xc_np v) x lits (a_rows (xc_b v)) O1 Hb HW O5).
  unfold xc_count_votes, cv_count_votes, avx_count_votes, count_votes, conv_view, scalar_view.
  cbn [fst snd xc_b xc_np xc_active xc_ppc xc_rng cv_b cv_np cv_active cv_ppc a_nlit a_lmem a_mask a_ncls a_rows a_weights a_outputs a_counts a_votes a_budget a_cmp a_vrng a_fast
       b_nlit b_ncls b_clauses b_weights b_outputs b_counts b_votes b_budget b_s_inv b_s_min1_inv b_rng b_fast].
  eexists. split; [rewrite O2, O3; reflexivity|]. cbn [xc_b xc_np xc_active xc_ppc xc_rng a_nlit a_lmem a_mask a_ncls a_rows a_weights a_outputs a_counts a_votes a_budget a_cmp a_vrng a_fast].
  split; [rewrite ?O2, ?O3; reflexivity|]. split; [|auto].
  constructor; unfold xclauses; cbn [xc_b xc_np xc_active xc_ppc xc_rng a_ncls a_rows a_weights a_counts]; auto.
  split; [constructor; auto|]. split; auto.
Qed.

(** ** Update *)

Lemma avx_clause_update_no_literals : forall boost cmp lmem row w t x x' o r, o <> 1 ->
  avx_clause_update boost cmp lmem row w t x o r = avx_clause_update boost cmp lmem row w t x' o r.
Proof. intros. unfold avx_clause_update. rewrite (proj2 (Z.eqb_neq o 1)) by auto. rewrite andb_false_r. reflexivity. Qed.

Lemma avx_update_clause_no_literals : forall bo boost bud cmp lmem x x' pc pp nc np row ws o cnt r f,
  (if bo && (cnt >? bud) then 0 else o) <> 1 ->
  avx_update_clause bo boost bud cmp lmem x pc pp nc np row ws o cnt r f = avx_update_clause bo boost bud cmp lmem x' pc pp nc np row ws o cnt r f.
Proof.
  intros bo boost bud cmp lmem x x' pc pp nc np row ws o cnt r f H. unfold avx_update_clause.
  set (out := if bo && (cnt >? bud) then 0 else o) in *. clearbody out.
  destruct (draw_lt f pp) as [d f1]. rewrite (avx_clause_update_no_literals boost cmp lmem row (nth pc ws 0) 1 x x') by auto.
  destruct d.
  - destruct (avx_clause_update boost cmp lmem row (nth pc ws 0) 1 x' out r) as [[c1 w1] r1]. destruct (draw_lt f1 np) as [d2 f2].
    rewrite (avx_clause_update_no_literals boost cmp lmem c1 _ (-1) x x') by auto. reflexivity.
  - destruct (draw_lt f1 np) as [d2 f2]. rewrite (avx_clause_update_no_literals boost cmp lmem row _ (-1) x x') by auto. reflexivity.
Qed.

Lemma avx_update_clause_fast : forall bo boost bud cmp lmem x pc pp nc np row ws o cnt r f,
  snd (avx_update_clause bo boost bud cmp lmem x pc pp nc np row ws o cnt r f) = advance 2 f.
Proof.
  intros. pose proof (avx_clause_effect bo boost bud cmp lmem x pc pp nc np row ws o cnt r f) as E.
  destruct (avx_update_clause bo boost bud cmp lmem x pc pp nc np row ws o cnt r f) as [[[[row1 ws1] o1] r1] f1]. cbn [snd].
  unfold clause_effect, draw_lt, next_u in E. cbn [rng_src rng_pos] in E. injection E as _ _ ->.
  destruct f as [src pos]. unfold advance. cbn [rng_src rng_pos]. f_equal. lia.
Qed.

Section Update.
  Variables (bo boost : bool) (bud cmp : Z) (n np : nat) (x lits : list Z) (pc nc : nat) (pp npr : Q).
  Hypothesis Hn : (0 < n)%nat.
  Hypothesis Hb : conv_buffer n np x lits.
  Hypothesis HW : whole_patches n np.
  Notation lmem := (lmem_of n).
  (** The update of one clause on patch [ap]. *)
  Notation upd1 := (fun ap row ws o cnt r f => avx_update_clause bo boost bud cmp lmem (patch_mem n lits ap) pc pp nc npr row ws o cnt r f).

  Lemma xc_update_clause_some : forall row ws o cnt ap r f, (o = 1 -> (ap < np)%nat) -> (o = 0 \/ o = 1) -> row_good lmem row -> vrng_ok r ->
    xc_update_clause bo boost bud cmp n lmem lits pc pp nc npr row ws o cnt ap r f = Some (upd1 ap row ws o cnt r f) /\
    row_good lmem (fst (fst (fst (fst (upd1 ap row ws o cnt r f))))) /\ vrng_ok (snd (fst (upd1 ap row ws o cnt r f))).
  Proof.
    intros row ws o cnt ap r f HA HO G VR. destruct (lmem_of_facts n Hn) as [F1 [F2 F3]]. split.
    - unfold xc_update_clause. destruct (draw_lt f pp) as [d1 f1]. destruct (draw_lt f1 npr) as [d2 f2].
      replace ((d1 || d2) && ((if bo && (cnt >? bud) then 0 else o) =? 1) && negb (patch_aligned n ap)) with false; [reflexivity|].
      symmetry. destruct (bo && (cnt >? bud)); [apply andb_false_intro1, andb_false_r|].
      destruct HO as [->| ->]; [apply andb_false_intro1, andb_false_r|]. rewrite (whole_aligned n np ap HW (HA eq_refl)). apply andb_false_r.
    - assert (K : exists l, (lmem <= length l)%nat /\ upd1 ap row ws o cnt r f = avx_update_clause bo boost bud cmp lmem l pc pp nc npr row ws o cnt r f).
      { destruct (Z.eq_dec o 1) as [E|E].
        - exists (patch_mem n lits ap). split; [|reflexivity]. apply (patch_buffer n np x lits ap Hb (HA E)).
        - exists (repeat 0 lmem). split; [rewrite repeat_length; lia|]. apply avx_update_clause_no_literals. destruct (bo && (cnt >? bud)); lia. }
      destruct K as [l [L1 L2]]. cbv beta in L2. rewrite L2.
      pose proof (avx_update_clause_keep l lmem L1 F3 bo boost bud cmp pc pp nc npr row ws o cnt r f G VR) as U.
      destruct (avx_update_clause bo boost bud cmp lmem l pc pp nc npr row ws o cnt r f) as [[[[row1 ws1] o1] r1] f1]. exact U.
  Qed.

  Lemma xc_update_loop_some : forall rows wss outs counts aps r f,
    length wss = length rows -> length outs = length rows -> Forall (row_good lmem) rows -> vrng_ok r ->
    (forall k, nth k outs 0 = 1 -> (nth k aps O < np)%nat) -> Forall (fun o => o = 0 \/ o = 1) outs ->
    exists rows2 wss2 outs2 r2 f2,
      xc_update_loop bo boost bud cmp n lmem lits pc pp nc npr rows wss outs counts aps r f = Some (rows2, wss2, outs2, r2, f2) /\
      length rows2 = length rows /\ length wss2 = length rows /\ length outs2 = length rows /\ Forall (row_good lmem) rows2 /\ vrng_ok r2 /\
      f2 = advance (2 * length rows) f /\
      forall k, (k < length rows)%nat -> exists rk, vrng_ok rk /\
        let t := upd1 (nth k aps O) (nth k rows []) (nth k wss []) (nth k outs 0) (nth k counts 0) rk (advance (2 * k) f) in
        nth k rows2 [] = fst (fst (fst (fst t))) /\ nth k wss2 [] = snd (fst (fst (fst t))) /\ nth k outs2 0 = snd (fst (fst t)).
  Proof.
    intros rows. induction rows as [|row rows IH]; intros [|ws wss] [|o outs] counts aps r f H1 H2 G VR HA HO; cbn [length] in H1, H2; try lia.
    - exists [], [], [], r, f. cbn [xc_update_loop length]. rewrite Nat.mul_0_r, advance_0. repeat split; auto. intros k Hk. lia.
    - inversion G as [|? ? G1 G2]; subst. inversion HO as [|? ? O1 O2]; subst. cbn [xc_update_loop].
      assert (HA0 : o = 1 -> (hd O aps < np)%nat) by (intros E; specialize (HA O E); destruct aps; exact HA).
      destruct (xc_update_clause_some row ws o (hd 0 counts) (hd O aps) r f HA0 O1 G1 VR) as [A1 [A2 A3]]. rewrite A1.
      pose proof (avx_update_clause_fast bo boost bud cmp lmem (patch_mem n lits (hd O aps)) pc pp nc npr row ws o (hd 0 counts) r f) as FA.
      cbv beta in *.
      destruct (avx_update_clause bo boost bud cmp lmem (patch_mem n lits (hd O aps)) pc pp nc npr row ws o (hd 0 counts) r f) as [[[[row1 ws1] o1] r1] f1] eqn:E1.
      cbn [fst snd] in *. subst f1.
      destruct (IH wss outs (tl counts) (tl aps) r1 (advance 2 f)) as [rows2 [wss2 [outs2 [r2 [f2 [B1 [B2 [B3 [B4 [B5 [B6 [B7 B8]]]]]]]]]]]]; auto; try lia.
      { intros k Hk. specialize (HA (S k) Hk). rewrite nth_tl_any. exact HA. }
      rewrite B1. exists (row1 :: rows2), (ws1 :: wss2), (o1 :: outs2), r2, f2. split; [reflexivity|]. cbn [length].
      split; [lia|]. split; [lia|]. split; [lia|]. split; [constructor; auto|]. split; [auto|].
      split; [rewrite B7, advance_advance; f_equal; lia|].
      intros [|k] Hk.
      + exists r. split; [auto|]. cbn [nth Nat.mul]. rewrite advance_0.
        replace (nth 0 counts 0) with (hd 0 counts) by (destruct counts; auto).
        replace (nth 0 aps O) with (hd O aps) by (destruct aps; auto). rewrite E1. cbn [fst snd]. auto.
      + destruct (B8 k ltac:(lia)) as [rk [V T]]. exists rk. split; [auto|]. cbn [nth]. rewrite advance_advance, !nth_tl_any in T.
        replace (2 * S k)%nat with (2 + 2 * k)%nat by lia. exact T.
  Qed.
End Update.

Lemma clause_effect_shape : forall bo bud pc pp nc np ws o cnt f,
  length (fst (fst (clause_effect bo bud pc pp nc np ws o cnt f))) = length ws /\
  (Forall is_int16 ws -> Forall is_int16 (fst (fst (clause_effect bo bud pc pp nc np ws o cnt f)))).
Proof.
  intros. unfold clause_effect, draw_lt. destruct (next_u f) as [u f1]. destruct (next_u f1) as [u2 f2].
  assert (W16 : forall w t o, is_int16 w -> is_int16 (weight_after w t o)).
  { intros w t o' H. unfold weight_after. destruct (t * _ >? 0).
    - destruct (o' =? 1); [apply wrap16_range|exact H].
    - destruct ((t * _ <? 0) && (o' =? 1)); [apply wrap16_range|exact H]. }
  destruct (Qlt_bool u pp), (Qlt_bool u2 np); cbn [fst snd]; rewrite ?set_nth_length; (split; [reflexivity|]); intros H; auto.
  - apply Forall_set_nth; [apply Forall_set_nth; auto; apply W16, nth_int16; auto|].
    apply W16, nth_int16. apply Forall_set_nth; auto. apply W16, nth_int16; auto.
  - apply Forall_set_nth; auto. apply W16, nth_int16; auto.
  - apply Forall_set_nth; auto. apply W16, nth_int16; auto.
Qed.
