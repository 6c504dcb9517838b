(** C12-C15, C48, C50: learning of the dense block (scalar backend). *)
From Coq Require Import ZArith List Bool QArith Lia Permutation.
From Verif Require Import Base Spec SpecLearning ModelInference ModelDense ModelFeedback ModelExecutor ModelDenseExec
  ProofsEval ProofsExecutor ProofsDenseExec ProofsLearning ProofsStep ProofsHistory ProofsTopLearning ExampleData.
Import ListNotations.
Open Scope Z_scope.

(** ** C12 *)

(** Any program of training epochs and evaluations, on any data and with any
    feedback rule, keeps every automaton in [lo,127], for lo = -128 and -127. *)
Theorem C12_states_in_range : forall lo ncls bo boost (L : Type) (process : L -> fblock -> fblock) cs (x : exec block),
  -128 <= lo <= -127 -> (forall l f, fb_ok ncls f -> fb_ok ncls (process l f)) -> exec_inv ncls x ->
  (forall tb, In tb (x_blocks x) -> automata_in lo (snd tb)) ->
  forall tb, In tb (x_blocks (snd (xrun bo boost L process cs x))) -> automata_in lo (snd tb).
Proof. exact states_in_range. Qed.

(** No automaton jumps: one training step moves it by at most two (one per
    feedback), so it cannot wrap from include to exclude. *)
Theorem C12_no_jump : forall bo boost x pc pp nc np b n ncls,
  block_ok n ncls b -> length x = n -> (pc < ncls)%nat -> (nc < ncls)%nat ->
  forall k i, (k < length (b_clauses b))%nat -> (i < 2 * n)%nat ->
  nth i (row_at b k) 0 - 2 <= nth i (row_at (dense_step bo boost x pc pp nc np b) k) 0 <= nth i (row_at b k) 0 + 2.
Proof. exact step_delta. Qed.

Example C12_case : exec_inv 2 (ex_exec ex_flats) /\
  (forall tb, In tb (x_blocks (ex_exec ex_flats)) -> automata_in (-127) (snd tb)) /\
  b_clauses (snd (nth 0 (x_blocks (snd (xrun true true nat fb_process [XTrain nat ex_data; XTrain nat ex_data] (ex_exec ex_flats)))) (true, lx_block)))
  <> b_clauses (snd (nth 0 (x_blocks (ex_exec ex_flats)) (true, lx_block))).
Proof.
  split; [|split].
  - repeat constructor.
  - intros tb H. vm_compute in H. repeat destruct H as [H|H]; try contradiction; subst tb; cbn [snd];
      repeat constructor; vm_compute; discriminate.
  - vm_compute. discriminate.
Qed.

(** ** C13 *)

(** Directions over the combined row: positions below n are literals, positions
    n..2n-1 negated literals. *)
Theorem C13_type1a_direction : forall boost si sm x pos neg r n,
  length x = n -> length pos = n -> length neg = n -> int8s pos -> int8s neg -> binary x ->
  let '(ps, qs, _) := type1a boost si sm pos neg x r in
  forall i, (i < 2 * n)%nat ->
    let v := nth i (pos ++ neg) 0 in
    let v' := nth i (ps ++ qs) 0 in
    (lit_true n x i = true -> v <= v' <= v + 1) /\
    (lit_true n x i = false -> v - 1 <= v' <= v) /\
    (boost = true -> lit_true n x i = true -> (i < n)%nat -> v' = Z.min 127 (v + 1)).
Proof. exact type1a_direction. Qed.

Theorem C13_type1b_direction : forall si pos neg r n,
  length pos = n -> length neg = n -> int8s pos -> int8s neg ->
  let '(ps, qs, _) := type1b si pos neg r in
  forall i, (i < 2 * n)%nat ->
    nth i (pos ++ neg) 0 - 1 <= nth i (ps ++ qs) 0 <= nth i (pos ++ neg) 0.
Proof. exact type1b_direction. Qed.

(** Type II: exactly the excluded false literals go up by one. *)
Theorem C13_type2_direction : forall x pos neg n,
  length x = n -> length pos = n -> length neg = n -> int8s pos -> int8s neg -> binary x ->
  let '(ps, qs) := type2 pos neg x in
  forall i, (i < 2 * n)%nat ->
    let v := nth i (pos ++ neg) 0 in
    nth i (ps ++ qs) 0 = (if negb (lit_true n x i) && (v <? 0) then v + 1 else v).
Proof. exact type2_direction. Qed.

(** Boosting does not reach negated literals in the scalar backend: here input
    0 is false, so "not 0" is true, and its automaton stays where it is. *)
Theorem C13_boost_negated_refuted : exists si sm x pos neg r,
  length pos = length x /\ length neg = length x /\ int8s pos /\ int8s neg /\ binary x /\
  (0 < si < 1)%Q /\ (sm == 1 - si)%Q /\
  let '(ps, qs, _) := type1a true si sm pos neg x r in
  lit_true 1 x 1 = true /\ nth 1 (pos ++ neg) 0 < 127 /\ nth 1 (ps ++ qs) 0 = nth 1 (pos ++ neg) 0.
Proof.
  exists (1#4)%Q, (3#4)%Q, [0], [5], [-3], (mkRng (fun _ => 9#10)%Q 0).
  repeat split; try (repeat constructor; vm_compute; discriminate); try (vm_compute; reflexivity); try (repeat constructor; lia).
Qed.

Example C13_case : let x := [1;0;1] in
  length (cl_pos lx_clause1) = length x /\ length (cl_neg lx_clause1) = length x /\ binary x /\
  int8s (cl_pos lx_clause1) /\ int8s (cl_neg lx_clause1) /\
  fst (type1a false (1#4) (3#4) (cl_pos lx_clause1) (cl_neg lx_clause1) x ex_rng) = ([6;-3;-126],[-1;127;0]) /\
  type2 (cl_pos lx_clause1) (cl_neg lx_clause1) x = ([5;-2;-127],[0;127;0]).
Proof.
  cbv zeta. split; [reflexivity|]. split; [reflexivity|]. split; [repeat constructor; lia|].
  split; [repeat constructor; vm_compute; discriminate|]. split; [repeat constructor; vm_compute; discriminate|].
  split; vm_compute; reflexivity.
Qed.

(** ** C14 *)

(** The clause takes part when it matches the example and is within budget.
    Draws 2k and 2k+1 of the fast generator decide for clause k. *)
Theorem C14_weight_updates : forall bo boost x pc pp nc np b n ncls,
  block_ok n ncls b -> length x = n -> binary x -> (pc < ncls)%nat -> (nc < ncls)%nat -> pc <> nc ->
  let b' := dense_step bo boost x pc pp nc np b in
  forall k, (k < length (b_clauses b))%nat ->
    let fired := clause_matches n x (row_at b k) = true /\ (bo = true -> n_included (row_at b k) <= b_budget b) in
    (forall c, c <> pc -> c <> nc -> weight_at b' k c = weight_at b k c) /\
    (~ fired -> forall c, weight_at b' k c = weight_at b k c) /\
    (fired -> weight_at b' k pc = (if Qlt_bool (draw (b_fast b) (2 * k)) pp then wrap16 (weight_at b k pc + 1) else weight_at b k pc)) /\
    (fired -> weight_at b' k nc = (if Qlt_bool (draw (b_fast b) (2 * k + 1)) np then wrap16 (weight_at b k nc - 1) else weight_at b k nc)).
Proof. exact step_weights. Qed.

Example C14_case : block_ok 3 2 lx_block /\ binary [1;0;0] /\
  b_weights (dense_step false false [1;0;0] 0 (9#10) 1 (9#10) lx_block) = [[5;-3];[0;0];[32767;3]].
Proof. split; [exact lx_block_ok|]. split; [repeat constructor; lia|vm_compute; reflexivity]. Qed.

(** ** C15 *)

Theorem C15_over_budget_not_reinforced : forall boost x pc pp nc np b n ncls,
  block_ok n ncls b -> length x = n -> binary x -> (pc < ncls)%nat -> (nc < ncls)%nat ->
  let b' := dense_step true boost x pc pp nc np b in
  forall k, (k < length (b_clauses b))%nat -> b_budget b < n_included (row_at b k) ->
    (forall c, weight_at b' k c = weight_at b k c) /\
    (forall i, (i < 2 * n)%nat -> nth i (row_at b' k) 0 <= nth i (row_at b k) 0) /\
    incl (included (row_at b' k)) (included (row_at b k)).
Proof. exact over_budget. Qed.

(** Clause 2 of the block includes two literals, budget one; the example makes
    it match. *)
Example C15_case : block_ok 3 2 lx_block /\ b_budget lx_block < n_included (row_at lx_block 2) /\
  clause_matches 3 [1;1;0] (row_at lx_block 2) = true /\
  weight_at (dense_step true false [1;1;0] 0 1 1 1 lx_block) 2 0 = 32767 /\
  row_at (dense_step true false [1;1;0] 0 1 1 1 lx_block) 2 <> row_at lx_block 2.
Proof.
  split; [exact lx_block_ok|]. repeat split; vm_compute; try reflexivity; discriminate.
Qed.

(** ** C48 *)

(** The exact count: raises/lowers count the steps at which the clause was
    active, the class was the true/negative class, and the draw fell below the
    probability. *)
Theorem C48_weight_mod : forall bo boost n ncls k c h b, block_ok n ncls b -> Forall (valid_upd n ncls) h ->
  (k < length (b_clauses b))%nat ->
  weight_at (run_steps bo boost h b) k c =
  wrap16 (weight_at b k c + raises bo boost n k c h b - lowers bo boost n k c h b).
Proof. exact weight_history. Qed.

Theorem C48_weight_exact : forall bo boost n ncls k c h b, block_ok n ncls b -> Forall (valid_upd n ncls) h ->
  (k < length (b_clauses b))%nat ->
  Z.of_nat (length h) < 32768 - Z.abs (weight_at b k c) ->
  weight_at (run_steps bo boost h b) k c =
  weight_at b k c + raises bo boost n k c h b - lowers bo boost n k c h b.
Proof. exact weight_history_exact. Qed.

(** Whole programs of epochs: as long as fewer than 32768-|w0| examples are
    trained on, no weight wraps. *)
Theorem C48_programs : forall ncls bo boost (L : Type) (process : L -> fblock -> fblock) (Lok : L -> Prop) n cs (x : exec block),
  (forall l f, fb_ok ncls f -> fb_ok ncls (process l f)) ->
  (forall l f, Lok l -> fb_ok ncls f -> (fb_pos (process l f) < ncls)%nat /\ (fb_neg (process l f) < ncls)%nat) ->
  exec_inv ncls x -> Forall (data_ok L Lok n) (call_data L cs) ->
  forall j t b, nth_error (x_blocks x) j = Some (t, b) -> block_ok n ncls b ->
  exists b', nth_error (x_blocks (snd (xrun bo boost L process cs x))) j = Some (t, b') /\
    forall k c, (k < length (b_clauses b))%nat ->
      Z.of_nat (length (call_data L cs)) < 32768 - Z.abs (weight_at b k c) ->
      exists up down, 0 <= up /\ 0 <= down /\ up + down <= 2 * Z.of_nat (length (call_data L cs)) /\
        weight_at b' k c = weight_at b k c + up - down /\ Z.abs (up - down) <= Z.of_nat (length (call_data L cs)).
Proof. exact weights_of_program. Qed.

Theorem C48_process_valid : forall ncls l f, (l < ncls)%nat -> fb_ok ncls f ->
  (fb_pos (fb_process l f) < ncls)%nat /\ (fb_neg (fb_process l f) < ncls)%nat.
Proof. exact fb_process_valid. Qed.

(** The bound is sharp: at 32767 one more step for the true class wraps to
    -32768, and the sign of the vote flips. *)
Theorem C48_wrap_refuted : exists b u, block_ok 3 2 b /\ valid_upd 3 2 u /\
  weight_at b 2 0 = 32767 /\ raises false false 3 2 0 [u] b = 1 /\ lowers false false 3 2 0 [u] b = 0 /\
  weight_at (run_steps false false [u] b) 2 0 = -32768.
Proof.
  exists lx_block, (mkUpd [1;1;0] 0 1 1 0). split; [exact lx_block_ok|].
  split; [repeat split; repeat constructor; lia|]. repeat split; vm_compute; reflexivity.
Qed.

Example C48_case : let h := [mkUpd [1;0;0] 0 (9#10) 1 (9#10); mkUpd [1;0;0] 1 (9#10) 0 (9#10)] in
  block_ok 3 2 lx_block /\ Forall (valid_upd 3 2) h /\
  (raises false false 3 0 0 h lx_block, lowers false false 3 0 0 h lx_block) = (1, 1) /\
  (raises false false 3 0 1 h lx_block, lowers false false 3 0 1 h lx_block) = (1, 1).
Proof.
  cbv zeta. split; [exact lx_block_ok|]. split; [repeat constructor; lia|]. split; vm_compute; reflexivity.
Qed.

(** ** C50 *)

(** Seed 0 is the only one refused.  Otherwise the i-th automaton of clause k is
    determined by draw k*2n+i of the engine, the weight of (k,c) by draw
    k*ncls+c of the fast generator. *)
Theorem C50_initialisation : forall std_of fast_of junk nlit ncl ncls budget si sm seed b,
  initialize std_of fast_of junk nlit ncl ncls budget si sm seed = Some b ->
  seed <> 0 /\ block_ok nlit ncls b /\ length (b_clauses b) = ncl /\
  (forall k i, (k < ncl)%nat -> (i < 2 * nlit)%nat ->
     nth i (row_at b k) 7 = (if Qle_bool (draw (std_of seed) (k * (2 * nlit) + i)) (1#2) then -1 else 0)) /\
  (forall k c, (k < ncl)%nat -> (c < ncls)%nat ->
     weight_at b k c = (if Qlt_bool (1#2) (draw (fast_of seed) (k * ncls + c)) then 1 else -1)) /\
  b_rng b = advance (ncl * (2 * nlit)) (std_of seed) /\ b_fast b = advance (ncl * ncls) (fast_of seed).
Proof. exact initialize_spec. Qed.

Theorem C50_only_seed_zero_fails : forall std_of fast_of junk nlit ncl ncls budget si sm seed,
  initialize std_of fast_of junk nlit ncl ncls budget si sm seed = None <-> seed = 0.
Proof. exact initialize_fails. Qed.

(** The uninitialised literal_counts never matter: two machines that differ only
    there (and in scratch arrays) stay equal under every history. *)
Theorem C50_junk_irrelevant : forall bo boost h b1 b2, sim_counts b1 b2 ->
  sim_counts (run_steps bo boost h b1) (run_steps bo boost h b2).
Proof. exact run_steps_sim. Qed.

Example C50_case : exists b, initialize (fun _ => ex_rng) (fun _ => ex_rng) [9;9] 2 2 3 65535 (1#4) (3#4) 42 = Some b /\
  b_clauses b = [mkClause [-1;-1] [0;-1]; mkClause [-1;0] [0;-1]] /\ b_weights b = [[-1;-1;1];[-1;-1;1]].
Proof. eexists. repeat split; vm_compute; reflexivity. Qed.

Print Assumptions C12_states_in_range.
Print Assumptions C12_no_jump.
Print Assumptions C13_type1a_direction.
Print Assumptions C13_type1b_direction.
Print Assumptions C13_type2_direction.
Print Assumptions C13_boost_negated_refuted.
Print Assumptions C14_weight_updates.
Print Assumptions C15_over_budget_not_reinforced.
Print Assumptions C48_weight_mod.
Print Assumptions C48_weight_exact.
Print Assumptions C48_programs.
Print Assumptions C48_process_valid.
Print Assumptions C48_wrap_refuted.
Print Assumptions C50_initialisation.
Print Assumptions C50_only_seed_zero_fails.
Print Assumptions C50_junk_irrelevant.
