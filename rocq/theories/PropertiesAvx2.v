(** C17, C59, C60 and the AVX2 parts of C01, C12 and C15. *)
From Coq Require Import ZArith List Bool QArith Qabs Lia ZifyBool.
From Verif Require Import Base Spec SpecLearning ModelRuleSet ModelInference ModelPredictor ModelDense ModelFeedback ModelExecutor ModelDenseExec ModelLayout ModelAvx2
  SpecAvx2 ProofsLayout ProofsEval ProofsStep ProofsAvx2 ProofsAvx2Scalar ProofsAvx2Step ProofsAvx2Hist ExampleData.
Import ListNotations.
Open Scope Z_scope.

(** 33 literals: one whole vector and one literal in the remainder vector. The
    padding of the automata (positions 33-63 and 97-127) is full of included
    states, the padding of the input buffer full of garbage. *)
Definition vx_row (p0 p32 q0 q32 : Z) : list Z :=
  (p0 :: repeat (-5) 31 ++ p32 :: repeat 99 31) ++ (q0 :: repeat (-5) 31 ++ q32 :: repeat 88 31).
Definition vx_vrng : vrng := mkVrng (fun k => map (fun i => Z.of_nat ((37 * k + 11 * i) mod 256) - 128) (seq 0 32)) 0.
Definition vx_block : ablock :=
  mkABlock 33 64 (mask_of 33) 2 [vx_row 3 0 (-1) (-2); vx_row (-1) (-1) 5 (-128); vx_row (-1) (-1) (-1) (-1); vx_row 127 127 (-4) (-9)]
    [[4;-2];[1;1];[7;0];[-3;32767]] [9;9;9;9] [50;51;52;53] [0;0] 1 (gtcmp_for_s (4#1)) vx_vrng ex_rng.
Definition vx_x (a b : Z) : list Z := a :: repeat 1 31 ++ [b].
Definition vx_lits (a b : Z) : list Z := vx_x a b ++ repeat 77 31.

Lemma bytes8 : forall l, forallb (fun v => (-128 <=? v) && (v <=? 127)) l = true -> row8 l.
Proof. intros l H. rewrite forallb_forall in H. apply Forall_forall. intros v Hv. specialize (H v Hv). unfold is_int8. lia. Qed.
Lemma vx_good : avx_good 33 vx_block.
Proof.
  split; [|split].
  - constructor; try reflexivity; try lia. repeat (apply Forall_cons || apply Forall_nil); reflexivity.
  - unfold vx_block. cbn [a_rows]. do 4 (apply Forall_cons; [apply bytes8; vm_compute; reflexivity|]). apply Forall_nil.
  - intros k. unfold vx_block, vx_vrng. cbn [a_vrng vr_src]. now rewrite map_length, seq_length.
Qed.
Lemma vx_buffer : forall a b, (a = 0 \/ a = 1) -> (b = 0 \/ b = 1) -> buffer_of 33 (vx_x a b) (vx_lits a b) /\ binary (vx_x a b).
Proof.
  intros a b Ha Hb. split; [repeat split; vm_compute; lia|]. unfold vx_x.
  constructor; auto. apply Forall_app. split; [apply Forall_forall; intros v Hv; apply repeat_spec in Hv; auto|]. constructor; auto.
Qed.

(** ** C17 *)

(** Training: outputs, votes, counts of the firing clauses. *)
Theorem C17_train : forall n x lits b bo si sm r, avx_ok n b -> buffer_of n x lits -> binary x ->
  a_outputs (fst (avx_train_ex bo lits b)) = b_outputs (fst (dense_train_ex bo x (scalar_view si sm r b))) /\
  snd (avx_train_ex bo lits b) = snd (dense_train_ex bo x (scalar_view si sm r b)) /\
  (bo = true -> length (a_counts b) = length (a_rows b) -> forall k, nth k (a_outputs (fst (avx_train_ex bo lits b))) 0 = 1 ->
     nth k (a_counts (fst (avx_train_ex bo lits b))) 0 = nth k (b_counts (fst (dense_train_ex bo x (scalar_view si sm r b)))) 0).
Proof.
  intros n x lits b bo si sm r H Hb Hx. split; [|split].
  - apply (avx_train_outputs n); auto.
  - apply (avx_train_votes n); auto.
  - intros -> HL k Hk. apply (avx_train_counts n); auto.
Qed.

(** Evaluation: outputs, votes and the whole remaining state. *)
Theorem C17_eval : forall n x lits b si sm r, avx_ok n b -> buffer_of n x lits -> binary x ->
  scalar_view si sm r (fst (avx_eval_ex lits b)) = fst (dense_eval_ex x (scalar_view si sm r b)) /\
  snd (avx_eval_ex lits b) = snd (dense_eval_ex x (scalar_view si sm r b)).
Proof.
  intros n x lits b si sm r H Hb Hx. pose proof (avx_eval_scalar n x lits b si sm r H Hb Hx) as A.
  destruct (avx_eval_ex lits b) as [b' v]. destruct A as [A _]. rewrite <- A. auto.
Qed.

(** Evaluating a data set gives the same predictions. *)
Theorem C17_eval_data : forall si sm r n (L : Type) (adata xdata : list (list Z * L)) out (e : exec ablock),
  Forall2 (presents n) (map fst adata) (map fst xdata) -> blocks_avx n (x_blocks e) ->
  fst (eval_predict ablock (list Z) avx_eval_ex L adata out e) =
  fst (eval_predict block (list Z) dense_eval_ex L xdata out (view_exec si sm r e)).
Proof.
  intros si sm r n L adata xdata out e P H. pose proof (eval_predict_view si sm r n L adata xdata out e P H) as A.
  destruct (eval_predict ablock (list Z) avx_eval_ex L adata out e) as [[ok ys] e']. destruct A as [A _]. rewrite A. reflexivity.
Qed.

(** A training step changes the weights and the shared generator as the scalar
    backend does, with the same draws. *)
Theorem C17_step_weights : forall n x lits b bo boost pc pp nc np si sm r, avx_ok n b -> buffer_of n x lits -> binary x ->
  length (a_counts b) = length (a_rows b) ->
  let b' := avx_step bo boost lits pc pp nc np b in
  let s' := dense_step bo boost x pc pp nc np (scalar_view si sm r b) in
  a_weights b' = b_weights s' /\ a_outputs b' = b_outputs s' /\ a_votes b' = b_votes s' /\ a_fast b' = b_fast s'.
Proof.
  intros n x lits b bo boost pc pp nc np si sm r H Hb Hx HL.
  destruct (avx_step_weights n x lits b bo boost pc pp nc np si sm r H Hb Hx HL) as [A1 [A2 [A3 [A4 _]]]]. auto.
Qed.

(** Type II feedback needs no draws: it is the scalar one. *)
Theorem C17_type2 : forall n x lits row, (0 < n)%nat -> buffer_of n x lits -> binary x ->
  length row = (2 * lmem_of n)%nat -> row8 row ->
  let c := row_clause n (lmem_of n) row in
  row_clause n (lmem_of n) (avx_t2 lits (lmem_of n) row) =
  mkClause (fst (type2 (cl_pos c) (cl_neg c) x)) (snd (type2 (cl_pos c) (cl_neg c) x)).
Proof.
  intros n x lits row Hn Hb Hx HL H8 c. pose proof (avx_t2_scalar n x lits row Hn Hb Hx HL H8) as A. fold c in A.
  destruct (type2 (cl_pos c) (cl_neg c) x) as [ps qs]. exact A.
Qed.

(** C01 for machines running on AVX2 blocks. *)
Theorem C17_predictor_agrees : forall (L : Type) n ncls s rs mode excl junk p cbs (e : exec ablock)
  (adata : list (list Z * L)) (xs : list (list Z)) out,
  Forall (flat_wf n ncls) cbs -> state_shape n (total_clauses cbs) ncls s ->
  Forall2 (fun f tb => avx_block_on n ncls f (snd tb)) (save_state_in_backend s cbs) (x_blocks e) ->
  fb_ready ncls (x_fb e) ->
  compile_from_dense_state s = Ok rs -> from_ruleset mode excl rs junk = Ok p ->
  length out = length adata ->
  (forall r c, (c < ncls)%nat -> is_int16 (merged_weight (ds_c s) (ds_w s) r c)) ->
  Forall2 (presents n) (map fst adata) xs ->
  Forall (fun x => forall c, (c < ncls)%nat -> is_int16 (clause_vote_total n x (ds_c s) (ds_w s) c)) xs ->
  exists ys e', eval_predict ablock (list Z) avx_eval_ex L adata out e = (true, ys, e') /\
    map (fun x => fst (pred_predict p x)) xs = map (fun y => Ok (AClass y)) ys.
Proof. exact avx_predictor_agrees. Qed.

Example C17_case : avx_ok 33 vx_block /\ buffer_of 33 (vx_x 1 1) (vx_lits 1 1) /\ binary (vx_x 1 1) /\
  a_outputs (fst (avx_train_ex true (vx_lits 1 1) vx_block)) = [1;0;1;1] /\
  a_counts (fst (avx_train_ex true (vx_lits 1 1) vx_block)) = [2;1;0;2] /\
  a_outputs (fst (avx_train_ex true (vx_lits 1 0) vx_block)) = [0;0;1;0] /\
  a_outputs (fst (avx_train_ex true (vx_lits 0 1) vx_block)) = [0;1;1;0] /\
  a_outputs (fst (avx_eval_ex (vx_lits 0 1) vx_block)) = [0;1;0;0] /\
  snd (avx_eval_ex (vx_lits 1 1) vx_block) = [1;32765].
Proof.
  split; [apply vx_good|]. destruct (vx_buffer 1 1) as [A B]; auto. split; [exact A|]. split; [exact B|].
  repeat split; vm_compute; reflexivity.
Qed.

Definition vx_flats : list flat := [mkFlat 5 3 32 2 16 (repeat 1 320) (repeat 1 80)].
Definition vx_exec : exec ablock :=
  mkExec (map (fun f => (true, mkABlock 3 32 (mask_of 3) 2 (map (view_row f) (seq 0 (f_ncl f))) (view_all_weights f)
                                 [] [] [] 65535 (gtcmp_for_s (4#1)) vx_vrng ex_rng)) (save_state_in_backend ex_state vx_flats))
         (new_fblock 2 (20#1) ex_rng) [] ex_irng.
Definition vx_data : list (list Z * nat) := map (fun d => (fst d ++ repeat 201 29, snd d)) ex_data.

Example C17_predictor_case :
  Forall (flat_wf 3 2) vx_flats /\ state_shape 3 (total_clauses vx_flats) 2 ex_state /\
  Forall2 (fun f tb => avx_block_on 3 2 f (snd tb)) (save_state_in_backend ex_state vx_flats) (x_blocks vx_exec) /\
  fb_ready 2 (x_fb vx_exec) /\ Forall2 (presents 3) (map fst vx_data) (map fst ex_data) /\
  fst (eval_predict ablock (list Z) avx_eval_ex nat vx_data [9;9;9;9]%nat vx_exec) = (true, [0; 1; 0; 1]%nat).
Proof.
  split; [|split; [|split; [|split; [|split]]]].
  - repeat (constructor; try (vm_compute; lia)).
  - vm_compute. repeat split; repeat constructor.
  - apply Forall2_cons; [|apply Forall2_nil]. split; [lia|]. repeat split; vm_compute; reflexivity.
  - vm_compute. auto.
  - repeat (apply Forall2_cons || apply Forall2_nil); (split; [repeat split; vm_compute; lia|]);
      unfold binary, ex_data; cbn [map fst]; repeat (apply Forall_cons || apply Forall_nil); auto.
  - vm_compute. reflexivity.
Qed.

(** ** C12 *)

(** Any program of training epochs and evaluations, any feedback rule, any
    buffers of whole vectors (not even 0/1): every automaton, padding included,
    stays an int8. *)
Theorem C12_avx_states_in_range : forall n bo boost (L : Type) (process : L -> fblock -> fblock) cs (x : exec ablock),
  Forall (fun c => Forall (fun d => (lmem_of n <= length (fst d))%nat) (gdata (list Z) L c)) cs ->
  Forall (fun tb => avx_good n (snd tb)) (x_blocks x) ->
  Forall (fun tb => avx_good n (snd tb))
    (x_blocks (grun ablock (list Z) (avx_train_ex bo) avx_eval_ex (avx_upd bo boost) L process cs x)).
Proof.
  intros n bo boost L process cs x HC HB.
  apply (grun_P ablock (list Z) (avx_train_ex bo) avx_eval_ex (avx_upd bo boost) L process (avx_good n) (fun e => (lmem_of n <= length e)%nat)); auto.
  - intros e b _. apply avx_train_good.
  - intros e b _. apply avx_eval_good.
  - intros e pc pp nc np b. apply avx_upd_good.
Qed.

Theorem C12_avx_initial : forall vec_of fast_of junk n ncl ncls budget s seed b, (0 < n)%nat -> (forall z, vrng_ok (vec_of z)) ->
  avx_initialize vec_of fast_of junk n ncl ncls budget s seed = Some b -> avx_good n b /\ length (a_rows b) = ncl.
Proof. exact avx_initialize_good. Qed.

(** No automaton jumps in one training step. *)
Theorem C12_avx_no_jump : forall n lits b bo boost pc pp nc np, avx_good n b -> (lmem_of n <= length lits)%nat ->
  length (a_weights b) = length (a_rows b) ->
  forall k j, (k < length (a_rows b))%nat ->
  let v := nth j (nth k (a_rows b) []) 0 in
  v - 2 <= nth j (nth k (a_rows (avx_step bo boost lits pc pp nc np b)) []) 0 <= v + 2.
Proof. intros n lits b bo boost pc pp nc np G HL HW k j Hk. apply (avx_step_delta n lits b bo boost pc pp nc np G HL HW k Hk j). Qed.

Example C12_avx_case : avx_good 33 vx_block /\ (lmem_of 33 <= length (vx_lits 1 1))%nat /\
  nth 0 (nth 3 (a_rows (avx_step false true (vx_lits 1 1) 1 1 0 1 vx_block)) []) 0 = 127 /\
  a_rows (avx_step false true (vx_lits 1 1) 1 1 0 1 vx_block) <> a_rows vx_block.
Proof. split; [exact vx_good|]. split; [vm_compute; lia|]. split; vm_compute; [reflexivity|discriminate]. Qed.

Example C12_avx_init_case : exists b, avx_initialize (fun _ => vx_vrng) (fun _ => ex_rng) [] 33 3 2 65535 (4#1) 42 = Some b /\
  (forall z : Z, vrng_ok ((fun _ => vx_vrng) z)) /\ nth 33 (nth 2 (a_rows b) []) 0 = -109.
Proof.
  eexists. split; [vm_compute; reflexivity|]. split; [|vm_compute; reflexivity].
  intros z k. cbn [vx_vrng vr_src]. now rewrite map_length, seq_length.
Qed.

(** ** C15 *)

(** A clause over the literal budget: weights unchanged, no automaton goes up. *)
Theorem C15_avx_over_budget : forall n x lits b boost pc pp nc np, avx_good n b -> buffer_of n x lits -> binary x ->
  length (a_counts b) = length (a_rows b) -> length (a_weights b) = length (a_rows b) ->
  let b' := avx_step true boost lits pc pp nc np b in
  forall k, (k < length (a_rows b))%nat ->
    a_budget b < n_included (row_of (row_clause n (lmem_of n) (nth k (a_rows b) []))) ->
    nth k (a_weights b') [] = nth k (a_weights b) [] /\
    forall j, (j < 2 * lmem_of n)%nat -> nth j (nth k (a_rows b') []) 0 <= nth j (nth k (a_rows b) []) 0.
Proof. exact avx_over_budget. Qed.

(** Clauses 0 and 3 include two literals, budget one; both match the example. *)
Example C15_avx_case : n_included (row_of (row_clause 33 64 (nth 3 (a_rows vx_block) []))) = 2 /\ a_budget vx_block = 1 /\
  a_weights (avx_step true false (vx_lits 1 1) 0 1 1 1 vx_block) = [[4;-2];[1;1];[8;-1];[-3;32767]] /\
  a_weights (avx_step false false (vx_lits 1 1) 0 1 1 1 vx_block) = [[5;-3];[1;1];[8;-1];[-2;32766]].
Proof. repeat split; vm_compute; reflexivity. Qed.

(** ** C59 *)

(** What each feedback does to the automata of the real literals: [j] counts the
    literals, position j of the row is literal j, position lmem+j its negation;
    vectors 2*(j/32) and 2*(j/32)+1 of the generator, lane j mod 32, decide. *)
Theorem C59_type1a : forall n x lits cmp boost row r, (0 < n)%nat -> buffer_of n x lits -> binary x ->
  vrng_ok r -> length row = (2 * lmem_of n)%nat -> row8 row ->
  let row' := fst (avx_t1a boost cmp lits (lmem_of n) row r) in
  forall j, (j < n)%nat ->
    let hit_pos := vdraw r (2 * (j / 32)) (j mod 32) <? cmp in
    let hit_neg := vdraw r (2 * (j / 32) + 1) (j mod 32) <? cmp in
    nth j row' 0 =
      (if nth j x 0 =? 1 then (if boost || negb hit_pos then up8 (nth j row 0) else nth j row 0)
       else (if hit_pos then down8 (nth j row 0) else nth j row 0)) /\
    nth (lmem_of n + j) row' 0 =
      (if nth j x 0 =? 0 then (if boost || negb hit_neg then up8 (nth (lmem_of n + j) row 0) else nth (lmem_of n + j) row 0)
       else (if hit_neg then down8 (nth (lmem_of n + j) row 0) else nth (lmem_of n + j) row 0)).
Proof.
  intros n x lits cmp boost row r Hn Hb Hx VR HL H8 row' j Hj hp hn.
  destruct (lmem_of_facts n Hn) as [F1 [F2 F3]].
  pose proof (avx_t1a_exact cmp lits (lmem_of n) ltac:(apply Hb) F3 boost row r VR HL H8) as A.
  unfold row'. destruct (avx_t1a boost cmp lits (lmem_of n) row r) as [rw r2]. destruct A as [_ [_ [_ A]]]. cbn [fst].
  destruct (A j ltac:(lia)) as [E1 E2]. rewrite E1, E2. unfold t1a_lane, on, hit.
  destruct (lit_val n x lits row Hn Hb Hx HL j Hj) as [V [V0|V0]]; rewrite V, V0; rewrite Nat.add_0_r; split; reflexivity.
Qed.

Theorem C59_type1b : forall n x lits cmp row r, (0 < n)%nat -> buffer_of n x lits ->
  vrng_ok r -> length row = (2 * lmem_of n)%nat -> row8 row ->
  let row' := fst (avx_t1b cmp (lmem_of n) row r) in
  forall j, (j < n)%nat ->
    nth j row' 0 = (if vdraw r (2 * (j / 32)) (j mod 32) <? cmp then down8 (nth j row 0) else nth j row 0) /\
    nth (lmem_of n + j) row' 0 =
      (if vdraw r (2 * (j / 32) + 1) (j mod 32) <? cmp then down8 (nth (lmem_of n + j) row 0) else nth (lmem_of n + j) row 0).
Proof.
  intros n x lits cmp row r Hn Hb VR HL H8 row' j Hj.
  destruct (lmem_of_facts n Hn) as [F1 [F2 F3]].
  pose proof (avx_t1b_exact cmp lits (lmem_of n) ltac:(apply Hb) F3 row r VR HL H8) as A.
  unfold row'. destruct (avx_t1b cmp (lmem_of n) row r) as [rw r2]. destruct A as [_ [_ [_ A]]]. cbn [fst].
  destruct (A j ltac:(lia)) as [E1 E2]. rewrite E1, E2. unfold t1b_lane, hit. rewrite Nat.add_0_r. auto.
Qed.

Theorem C59_type2 : forall n x lits row, (0 < n)%nat -> buffer_of n x lits -> binary x ->
  length row = (2 * lmem_of n)%nat -> row8 row ->
  let row' := avx_t2 lits (lmem_of n) row in
  forall j, (j < n)%nat ->
    nth j row' 0 = (if (nth j x 0 =? 0) && (nth j row 0 <? 0) then nth j row 0 + 1 else nth j row 0) /\
    nth (lmem_of n + j) row' 0 =
      (if (nth j x 0 =? 1) && (nth (lmem_of n + j) row 0 <? 0) then nth (lmem_of n + j) row 0 + 1 else nth (lmem_of n + j) row 0).
Proof.
  intros n x lits row Hn Hb Hx HL H8 row' j Hj.
  destruct (lmem_of_facts n Hn) as [F1 [F2 F3]].
  destruct (avx_t2_exact lits (lmem_of n) ltac:(apply Hb) F3 row HL H8) as [_ [_ A]].
  destruct (A j ltac:(lia)) as [E1 E2]. unfold row'. rewrite E1, E2. unfold t2_lane, off0.
  destruct (lit_val n x lits row Hn Hb Hx HL j Hj) as [V [V0|V0]]; rewrite V, V0; split; reflexivity.
Qed.

(** Boosting reaches the negated literals, unlike in the scalar backend
    (C13_boost_negated_refuted). *)
Theorem C59_boost_all : forall n x lits cmp row r, (0 < n)%nat -> buffer_of n x lits -> binary x ->
  vrng_ok r -> length row = (2 * lmem_of n)%nat -> row8 row ->
  let row' := fst (avx_t1a true cmp lits (lmem_of n) row r) in
  forall j, (j < n)%nat ->
    (nth j x 0 = 1 -> nth j row' 0 = Z.min 127 (nth j row 0 + 1)) /\
    (nth j x 0 = 0 -> nth (lmem_of n + j) row' 0 = Z.min 127 (nth (lmem_of n + j) row 0 + 1)).
Proof.
  intros n x lits cmp row r Hn Hb Hx VR HL H8 row' j Hj.
  destruct (C59_type1a n x lits cmp true row r Hn Hb Hx VR HL H8 j Hj) as [A B]. fold row' in A, B. cbn [orb] in A, B.
  split; intros E; rewrite E in A, B; [exact A|exact B].
Qed.

Example C59_case : let row := vx_row 3 127 (-128) (-2) in
  length row = (2 * lmem_of 33)%nat /\ gtcmp_for_s (4#1) = -63 /\
  map (fun j => nth j (fst (avx_t1a false (-63) (vx_lits 1 0) 64 row vx_vrng)) 0) [0;1;2;31;32;64;65;96]%nat = [3;-5;-5;-4;127;-128;-6;-1] /\
  map (fun j => nth j (avx_t2 (vx_lits 0 1) 64 row) 0) [0;1;32;64;65;96]%nat = [3;-5;127;-128;-4;-1].
Proof. cbv zeta. repeat split; vm_compute; reflexivity. Qed.

(** ** C60 *)

(** Out of the 256 values of a random byte, the number below the threshold
    stands for the probability 1/s within 1/128. *)
Theorem C60_threshold : forall s : Q, (1 <= s)%Q ->
  (Qabs (inject_Z (Z.of_nat (length (filter (fun v => v <? gtcmp_for_s s) all_bytes))) / 256 - 1 / s) <= 1 # 128)%Q.
Proof.
  intros s Hs. rewrite bytes_below_count by (pose proof (gtcmp_range s); lia). apply gtcmp_close. exact Hs.
Qed.

(** It never means "never" nor "always". *)
Theorem C60_never_certain : forall s : Q,
  (1 <= length (filter (fun v => v <? gtcmp_for_s s)%Z all_bytes) <= 254)%nat.
Proof.
  intros s. pose proof (gtcmp_range s) as G. pose proof (bytes_below_count (gtcmp_for_s s) ltac:(lia)) as B. lia.
Qed.

(** The exact probability is missed: with s = 1 a draw can fail to be below the
    threshold, with s = 1000000 the probability is 2/256. *)
Theorem C60_exact_refuted :
  length (filter (fun v => v <? gtcmp_for_s 1)%Z all_bytes) = 254%nat /\
  length (filter (fun v => v <? gtcmp_for_s (1000000#1))%Z all_bytes) = 2%nat.
Proof. split; vm_compute; reflexivity. Qed.

Example C60_case : length (filter (fun v => v <? gtcmp_for_s (4#1))%Z all_bytes) = 65%nat /\ (1 <= 4#1)%Q.
Proof. split; [vm_compute; reflexivity|vm_compute; discriminate]. Qed.

Print Assumptions C17_train.
Print Assumptions C17_eval.
Print Assumptions C17_eval_data.
Print Assumptions C17_step_weights.
Print Assumptions C17_type2.
Print Assumptions C17_predictor_agrees.
Print Assumptions C12_avx_states_in_range.
Print Assumptions C12_avx_initial.
Print Assumptions C12_avx_no_jump.
Print Assumptions C15_avx_over_budget.
Print Assumptions C59_type1a.
Print Assumptions C59_type1b.
Print Assumptions C59_type2.
Print Assumptions C59_boost_all.
Print Assumptions C60_threshold.
Print Assumptions C60_never_certain.
Print Assumptions C60_exact_refuted.
