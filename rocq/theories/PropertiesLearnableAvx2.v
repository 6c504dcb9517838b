(** C139: what an AVX2 block can learn. *)
From Coq Require Import ZArith List Bool QArith Lia.
From Verif Require Import Base BaseProofs Spec SpecLearning SpecLearnable SpecAvx2 SpecLearnableAvx2 ModelInference ModelDense ModelLayout ModelDenseExec ModelAvx2
  ProofsEval ProofsLearning ProofsStep ProofsLearnable ProofsLearnableAll ProofsAvx2 ProofsAvx2Scalar ProofsAvx2Step ProofsAvx2Hist ProofsLearnableAvx2.
Import ListNotations.
Open Scope Z_scope.

(** Without boosting, every training of the scalar block, for every s, is a training of the AVX2 block that starts with the same clauses and
    weights; the block then has the same clauses and weights again. *)
Theorem C139_simulates_unboosted : forall n ncls bo (p : probs) b b' a,
  avx_good n a -> length (a_counts a) = length (a_rows a) -> -127 <= a_cmp a <= 127 ->
  avx_clauses a = b_clauses b -> a_weights a = b_weights b -> a_budget a = b_budget b -> a_ncls a = b_ncls b ->
  trains n ncls bo false (scalar_probs p) b b' ->
  exists a', avx_trains n ncls bo false p a a' /\ avx_good n a' /\ avx_clauses a' = b_clauses b' /\ a_weights a' = b_weights b'.
Proof.
  intros n ncls bo p b b' a G HL HC A1 A2 A3 A4 T.
  destruct (avx_simulates n ncls bo p b b' T a) as [a' [T1 [[T2 _] [T3 [T4 _]]]]]; [split; auto|unfold agrees; auto|].
  exists a'. auto.
Qed.

(** Every classification of the inputs can be learnt, as in C138, boosted or not. *)
Theorem C139_function : forall n ncls bo boost (p : probs) (f : list Z -> nat) a, (2 <= ncls)%nat ->
  (forall cs ws x pc nc, (0 < fst (p cs ws x pc nc) < 1)%Q /\ (0 < snd (p cs ws x pc nc) < 1)%Q) ->
  avx_good n a -> length (a_counts a) = length (a_rows a) -> -127 <= a_cmp a <= 127 ->
  a_ncls a = ncls -> rows_of ncls (a_weights a) -> length (a_rows a) = length (a_weights a) -> Forall (Forall is_int16) (a_weights a) ->
  (2 ^ n <= length (a_rows a))%nat -> (bo = true -> Z.of_nat n <= a_budget a) ->
  (forall x, length x = n -> binary x -> (f x < ncls)%nat) ->
  exists a', avx_trains n ncls bo boost p a a' /\
    forall x lits c, buffer_of n x lits -> binary x -> (c < ncls)%nat ->
      nth c (snd (avx_eval_ex lits a')) 0 = if Nat.eqb c (f x) then 128 else 0.
Proof.
  intros n ncls bo boost p f a Hc HP G HL HC N1 N2 N3 N4 H2 HB Hf.
  pose proof G as [OK [R8 VR]]. pose proof OK as [O1 O2 O3 O4 O5].
  set (b := scalar_view (1#2) (1#2) (mkRng (fun _ => 0%Q) 0) a).
  assert (BK : block_ok n ncls b).
  { constructor; [constructor|unfold b; cbn [b_clauses scalar_view]|exact N4].
    - exact N1.
    - unfold b. cbn [b_clauses scalar_view]. apply Forall_map. rewrite O2, O3. eapply Forall_impl; [|exact O5]. intros row L. cbv beta in L.
      split; [apply (rc_pos_len n row O1 L)|apply (rc_neg_len n row O1 L)].
    - exact N2.
    - unfold b. cbn [b_clauses b_weights scalar_view]. rewrite map_length. exact N3.
    - apply Forall_map. eapply Forall_impl; [|exact R8]. intros row R. unfold row_clause, int8s, slice. cbn [cl_pos cl_neg]. unfold row8 in R.
      split; apply Forall_forall; intros v Hv; (rewrite Forall_forall in R; apply R); [rewrite <- (firstn_skipn (a_nlit a) row); apply in_or_app; auto|].
      rewrite <- (firstn_skipn (a_lmem a) row). apply in_or_app. right. rewrite <- (firstn_skipn (a_nlit a) (skipn (a_lmem a) row)). apply in_or_app. left. exact Hv. }
  destruct (function_learnable_zero n ncls bo boost (scalar_probs p) f b O1 Hc) as [b' [T [BK' D]]]; auto.
  - intros b0 x pc nc. apply HP.
  - discriminate.
  - split; [discriminate|reflexivity].
  - unfold b. cbn [b_clauses scalar_view]. rewrite map_length. exact H2.
  - destruct (avx_simulates_with zero_draws n ncls bo boost p b b' T) with (a := a) as [a' [T1 [[[T2 _] _] [T3 [T4 [T5 T6]]]]]]; [intros _; split; [auto|split; discriminate]|split; auto|unfold agrees; auto|].
    exists a'. split; [exact T1|]. intros x lits c Hbuf Hb Hcc. pose proof Hbuf as [Lx _].
    pose proof (avx_eval_scalar n x lits a' (1#2) (1#2) (mkRng (fun _ => 0%Q) 0) T2 Hbuf Hb) as V.
    destruct (avx_eval_ex lits a') as [a2 v]. destruct V as [V _]. apply (f_equal snd) in V. cbn [snd] in V |- *. rewrite V.
    rewrite <- (D x c Lx Hb Hcc). unfold dense_eval_ex, count_votes, eval_set_clause_output. cbn [snd b_votes b_outputs b_weights b_ncls b_clauses scalar_view].
    rewrite T3, T4, T6. reflexivity.
Qed.

(** A boosted AVX2 block cannot follow the scalar block: the scalar block may leave
    the automaton of a true negated literal where it is (func_tm.hpp 343-350), the
    AVX2 block never does (func_avx2.hpp 516-521). *)
Definition nx_block : ablock :=
  mkABlock 1 32 (mask_of 1) 2 [repeat (-5) 64] [[1; -1]] [0] [0] [0; 0] 4 0 (mkVrng (fun _ => repeat 0 32) 0) (mkRng (fun _ => 0%Q) 0).
Definition nx_fast : rng := mkRng (fun i => if Nat.eqb i 0 then 0%Q else (9#10)%Q) 0.
Definition nx_slow : rng := mkRng (fun _ => (9#10)%Q) 0.
Lemma neg_up : forall row lits vr, avx_clause_update true 0 32 row (-1) (-1) lits 1 vr = (fst (avx_t1a true 0 lits 32 row vr), -2, snd (avx_t1a true 0 lits 32 row vr)).
Proof.
  intros. unfold avx_clause_update. change (-1 * (if -1 >=? 0 then 1 else -1) >? 0) with true. change (1 =? 1) with true. cbv iota.
  destruct (avx_t1a _ _ _ _ _ _). reflexivity.
Qed.
Lemma boost_no_choice : forall lits vr f, vrng_ok vr -> buffer_of 1 [0] lits ->
  a_weights (avx_step false true lits 0 (1#2) 1 (1#2) (avx_gens vr f nx_block)) = [[2; -1]] ->
  nth 32 (nth 0 (a_rows (avx_step false true lits 0 (1#2) 1 (1#2) (avx_gens vr f nx_block))) []) 0 = -4.
Proof.
  intros lits vr f VR Hbuf.
  assert (RL : length (repeat (-5) 64) = (2 * lmem_of 1)%nat) by reflexivity.
  assert (R8 : row8 (repeat (-5) 64)) by (apply Forall_forall; intros v Hv; apply repeat_spec in Hv; subst v; vm_compute; split; discriminate).
  assert (Hb : binary [0]) by (apply Forall_cons; auto).
  pose proof (avx_set_output_scalar 1 [0] lits (repeat (-5) 64) ltac:(lia) Hbuf Hb RL false) as [AO _].
  replace (fst (set_output false [0] (row_clause 1 (lmem_of 1) (repeat (-5) 64)))) with 1 in AO by reflexivity.
  unfold avx_step, avx_upd, avx_train_update, avx_train_ex.
  cbn [fst avx_count_votes avx_train_output avx_gens nx_block a_nlit a_lmem a_mask a_ncls a_rows a_weights a_outputs a_counts a_votes a_budget a_cmp a_vrng a_fast map].
  change (lmem_of 1) with 32%nat in AO. rewrite AO. cbn [avx_update_loop]. unfold avx_update_clause. cbn [andb].
  destruct (draw_lt f (1#2)) as [d1 f1]. destruct d1.
  - pose proof (avx_t1a_exact 0 lits 32 ltac:(apply Hbuf) eq_refl true (repeat (-5) 64) vr VR RL R8) as A.
    assert (U1 : avx_clause_update true 0 32 (repeat (-5) 64) 1 1 lits 1 vr =
      (fst (avx_t1a true 0 lits 32 (repeat (-5) 64) vr), 2, snd (avx_t1a true 0 lits 32 (repeat (-5) 64) vr))).
    { unfold avx_clause_update. change (1 * (if 1 >=? 0 then 1 else -1) >? 0) with true. change (1 =? 1) with true. cbv iota.
      destruct (avx_t1a _ _ _ _ _ _). reflexivity. }
    change (nth 0 [1; -1] 0) with 1. rewrite U1. clear U1.
    destruct (avx_t1a true 0 lits 32 (repeat (-5) 64) vr) as [row1 vr1]. destruct A as [_ [_ [_ A]]]. cbn [fst snd].
    destruct (A O ltac:(lia)) as [_ A2]. rewrite Nat.add_0_r in A2.
    assert (ON : on lits 0 = false).
    { unfold on. destruct Hbuf as [_ [_ B]]. destruct lits as [|l lits]; [discriminate|]. cbn in B |- *. injection B as ->. reflexivity. }
    rewrite ON in A2. cbn [negb] in A2.
    destruct (draw_lt f1 (1#2)) as [d2 f2]. destruct d2.
    + change (nth 1 (set_nth 0 2 [1; -1]) 0) with (-1). rewrite neg_up. cbn [a_weights set_nth]. discriminate.
    + intros _. cbn [a_rows]. change (nth 32 row1 0 = -4). rewrite A2. reflexivity.
  - destruct (draw_lt f1 (1#2)) as [d2 f2]. destruct d2; [|cbn [a_weights]; discriminate].
    change (nth 1 [1; -1] 0) with (-1). rewrite neg_up. cbn [a_weights set_nth]. discriminate.
Qed.
Theorem C139_boost_refuted : exists b, avx_clauses nx_block = b_clauses b /\ a_weights nx_block = b_weights b /\ unit_draws nx_slow /\ unit_draws nx_fast /\
  forall vr f lits, vrng_ok vr -> buffer_of 1 [0] lits ->
    a_weights (avx_step false true lits 0 (1#2) 1 (1#2) (avx_gens vr f nx_block)) = b_weights (dense_step false true [0] 0 (1#2) 1 (1#2) (with_gens nx_slow nx_fast b)) ->
    avx_clauses (avx_step false true lits 0 (1#2) 1 (1#2) (avx_gens vr f nx_block)) <> b_clauses (dense_step false true [0] 0 (1#2) 1 (1#2) (with_gens nx_slow nx_fast b)).
Proof.
  exists (scalar_view (1#3) (2#3) nx_slow nx_block). split; [reflexivity|]. split; [reflexivity|].
  split; [intros i; split; [discriminate|reflexivity]|]. split; [intros i; cbn [nx_fast rng_src]; destruct (Nat.eqb i 0); split; (discriminate || reflexivity)|].
  intros vr f lits VR Hbuf EW EC.
  match type of EW with _ = ?w => replace w with [[2; -1]] in EW by (vm_compute; reflexivity) end.
  match type of EC with _ = ?w => replace w with [mkClause [-5] [-5]] in EC by (vm_compute; reflexivity) end.
  pose proof (boost_no_choice lits vr f VR Hbuf EW) as K.
  set (a' := avx_step false true lits 0 (1#2) 1 (1#2) (avx_gens vr f nx_block)) in *.
  unfold avx_clauses in EC. destruct (a_rows a') as [|row [|row2 rows]]; cbn [map] in EC; try discriminate.
  assert (NL : a_nlit a' = 1%nat /\ a_lmem a' = 32%nat) by (unfold a', avx_step, avx_upd, avx_train_update; destruct (avx_update_loop _ _ _ _ _ _ _ _ _ _ _ _ _ _ _ _) as [[[[? ?] ?] ?] ?]; split; reflexivity).
  destruct NL as [NL1 NL2]. rewrite NL1, NL2 in EC. injection EC as _ EC. unfold slice in EC. change (nth 0 (row :: nil) []) with row in K.
  rewrite <- (firstn_skipn 32 row) in K. destruct (Nat.le_gt_cases (length row) 32) as [L|L].
  - rewrite skipn_all2 in EC by auto. discriminate.
  - rewrite app_nth2 in K by (rewrite firstn_length; lia). rewrite firstn_length in K. replace (32 - Nat.min 32 (length row))%nat with O in K by lia.
    destruct (skipn 32 row) as [|v l]; [discriminate|]. cbn [firstn nth] in *. congruence.
Qed.

(** Non-vacuous case: exclusive or on two inputs. *)
Definition ny_row (p0 p1 q0 q1 : Z) : list Z := [p0; p1] ++ repeat (-109) 30 ++ [q0; q1] ++ repeat (-111) 30.
Definition ny_block : ablock :=
  mkABlock 2 32 (mask_of 2) 2 [ny_row 1 (-1) (-1) (-1); ny_row 5 7 9 (-1); ny_row (-1) 127 (-128) 3; ny_row (-1) (-1) 1 (-1)]
    [[2; -2]; [-2; 2]; [300; -7]; [0; 0]] [0; 0; 0; 0] [0; 0; 0; 0] [0; 0] 2 (gtcmp_for_s 4) (mkVrng (fun _ => repeat 0 32) 0) (mkRng (fun _ => (1#2)%Q) 0).
Example C139_case : avx_good 2 ny_block /\ length (a_counts ny_block) = length (a_rows ny_block) /\ -127 <= a_cmp ny_block <= 127 /\
  rows_of 2 (a_weights ny_block) /\ length (a_rows ny_block) = length (a_weights ny_block) /\ Forall (Forall is_int16) (a_weights ny_block) /\
  (2 ^ 2 <= length (a_rows ny_block))%nat /\ Z.of_nat 2 <= a_budget ny_block.
Proof.
  split; [|split; [reflexivity|split; [vm_compute; split; discriminate|split; [repeat constructor|split; [reflexivity|split; [|split; [cbn; lia|cbn; lia]]]]]]].
  - split; [constructor; try reflexivity; [lia|repeat constructor]|]. split; [|intros k; reflexivity].
    unfold ny_block, ny_row. cbn [a_rows app repeat]. repeat (apply Forall_cons || apply Forall_nil); unfold row8; repeat (apply Forall_cons || apply Forall_nil); vm_compute; split; discriminate.
  - cbn [a_weights ny_block]. repeat (apply Forall_cons || apply Forall_nil); vm_compute; split; discriminate.
Qed.
Example C139_boost_case : avx_good 1 nx_block /\ buffer_of 1 [0] (repeat 0 32).
Proof.
  split; [split; [constructor; try reflexivity; [lia|repeat constructor]|split; [|intros k; reflexivity]]|split; [reflexivity|split; [apply Nat.le_refl|reflexivity]]].
  cbn [a_rows nx_block repeat]. repeat (apply Forall_cons || apply Forall_nil); unfold row8; repeat (apply Forall_cons || apply Forall_nil); vm_compute; split; discriminate.
Qed.

Print Assumptions C139_simulates_unboosted.
Print Assumptions C139_function.
Print Assumptions C139_boost_refuted.
