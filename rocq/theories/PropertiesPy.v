(** Properties of the pure python fallback (green_tsetlin/py_gtc): C41, C65 - C69. *)
From Coq Require Import ZArith List Bool QArith Lia ZifyBool Arith Lqa.
From Verif Require Import Base BaseProofs Spec SpecLearning ModelInference ModelDense ModelDenseExec ModelFeedback ModelExecutor
  ProofsClause ProofsLearning ProofsLayout ProofsStep ProofsEval ProofsFeedback ModelPy ProofsPy ProofsPyStep ProofsPyHist.
Import ListNotations.
Open Scope Z_scope.

(** ** C41: several blocks, evaluation *)

(** A python machine of two literals and two classes: one block with a clause
    "x0", one with a clause "not x1". *)
Definition py_row_a : list Z := [5; -3; -7; -2].
Definition py_row_b : list Z := [-5; -3; -7; 2].
Definition py_ex (row : list Z) (w : list Z) : pyblock :=
  mkPy 2 2 [row] [w] [] [0] None false 3 (mkRng (fun _ => 1 # 2) 0).
Definition nat_ex (row : list Z) (w : list Z) : block :=
  mkBlock 2 2 [split_row 2 row] [w] [0] [0] [0; 0] 0 (1 / 3) ((3 - 1) / 3) (mkRng (fun _ => 1 # 2) 0) (mkRng (fun _ => 1 # 2) 0).
Definition py_fb : fblock := new_fblock 2 10 (mkRng (fun _ => 1 # 2) 0).

(** The votes of the blocks do not add up: those of the last block replace the
    others, in training and in evaluation. *)
Theorem C41_last_block_partial : forall f e bs t p fb,
  fb_votes (snd (py_run_examples f e (bs ++ [(t, p)]) fb)) = snd (f e p).
Proof.
  intros. pose proof (py_run_last f e bs t p fb) as H.
  destruct (py_run_examples f e (bs ++ [(t, p)]) fb) as [bs1 fb1]. tauto.
Qed.

Theorem C41_last_block_predicts_partial : forall data out bs t p fb r,
  fst (py_eval_predict data out (mkPx (bs ++ [(t, p)]) fb r)) = fst (py_eval_predict data out (mkPx [(t, p)] fb r)).
Proof.
  intros. unfold py_eval_predict. cbn [px_blocks px_fb px_rng]. destruct (negb _); auto.
  pose proof (py_eval_last (map fst data) bs t p fb fb eq_refl) as E.
  destruct (py_eval_list (map fst data) (bs ++ [(t, p)]) fb) as [[y1 ?] ?].
  destruct (py_eval_list (map fst data) [(t, p)] fb) as [[y2 ?] ?]. cbn [fst] in *. congruence.
Qed.

Theorem C41_votes_refuted : exists x b1 b2,
  binary x /\ fb_votes (snd (py_run_examples py_eval_ex x [(true, b1); (true, b2)] (py_reset py_fb)))
  <> map2 Z.add (snd (py_eval_ex x b1)) (snd (py_eval_ex x b2)).
Proof.
  exists [1; 0], (py_ex py_row_a [3; -1]), (py_ex py_row_b [-2; 4]). split.
  - unfold binary. repeat (apply Forall_cons || apply Forall_nil); auto.
  - vm_compute. discriminate.
Qed.

(** What a python clause answers at evaluation: it fires as a native clause
    would whose automata are all one state lower. *)
Theorem C41_evaluation_exact : forall n x row, length row = (2 * n)%nat -> length x = n -> binary x ->
  py_eval_output n x row = b2z (clause_fires n x (map (fun v => v - 1) row)).
Proof. exact py_eval_exact. Qed.

(** It therefore differs from the native answer in both directions. *)
Theorem C41_outputs_refuted : exists x c1 c2, binary x /\
  py_eval_output 2 x (cl_pos c1 ++ cl_neg c1) = 1 /\ eval_output x c1 = 0 /\
  py_eval_output 2 x (cl_pos c2 ++ cl_neg c2) = 0 /\ eval_output x c2 = 1.
Proof.
  exists [1; 0], (mkClause [5; 0] [-1; -1]), (mkClause [0; -1] [-1; -1]). split.
  - unfold binary. repeat (apply Forall_cons || apply Forall_nil); auto.
  - vm_compute. auto.
Qed.

(** Without an automaton in state 0 the outputs agree. *)
Theorem C41_outputs_partial : forall n x c, length (cl_pos c) = n -> length (cl_neg c) = n -> length x = n -> binary x ->
  Forall (fun v => v <> 0) (cl_pos c ++ cl_neg c) -> py_eval_output n x (cl_pos c ++ cl_neg c) = eval_output x c.
Proof. exact py_eval_agrees. Qed.

(** One block, no automaton in state 0: the two backends predict the same. *)
Theorem C41_predictions_partial : forall n ncls data out t p b fp fb r rn idx,
  p_nlit p = n -> p_ncls p = ncls -> b_nlit b = n -> b_ncls b = ncls ->
  p_rows p = map (fun c => cl_pos c ++ cl_neg c) (b_clauses b) -> p_weights p = b_weights b ->
  Forall (fun c => length (cl_pos c) = n /\ length (cl_neg c) = n) (b_clauses b) -> rows_of ncls (b_weights b) ->
  Forall (fun c => Forall (fun v => v <> 0) (cl_pos c ++ cl_neg c)) (b_clauses b) ->
  Forall (fun d : list Z * nat => length (fst d) = n /\ binary (fst d)) data ->
  fb_ncls fp = ncls -> fb_ncls fb = ncls -> length (fb_votes fb) = ncls ->
  fst (py_eval_predict data out (mkPx [(t, p)] fp r)) =
  fst (eval_predict block (list Z) dense_eval_ex nat data out (mkExec [(t, b)] fb idx rn)).
Proof.
  intros n ncls data out t p b fp fb r rn idx H1 H2 H3 H4 H5 H6 H7 H8 H9 H10 H11 H12 H13.
  unfold py_eval_predict, eval_predict. destruct (negb _); auto. cbn [px_blocks px_fb x_blocks x_fb].
  assert (M : same_machine n ncls p b) by (unfold same_machine; tauto).
  assert (D : Forall (fun x => length x = n /\ binary x) (map fst data)) by (apply Forall_map; exact H10).
  pose proof (py_eval_one_block n ncls (map fst data) t t p b fp fb M H9 D H11 (conj H12 H13)) as E.
  destruct (py_eval_list (map fst data) [(t, p)] fp) as [[y1 ?] ?].
  destruct (eval_list block (list Z) dense_eval_ex (map fst data) [(t, b)] fb) as [[y2 ?] ?]. cbn [fst] in *. congruence.
Qed.

(** The hypotheses are met by the machine above; it predicts both classes. *)
Example C41_example :
  let data := [([1; 0], 0%nat); ([0; 0], 1%nat); ([1; 1], 1%nat)] in
  let p := mkPy 2 2 [py_row_a; py_row_b] [[3; -1]; [-2; 4]] [] [0; 0] None false 3 (mkRng (fun _ => 1 # 2) 0) in
  let b := mkBlock 2 2 [split_row 2 py_row_a; split_row 2 py_row_b] [[3; -1]; [-2; 4]] [0; 0] [0; 0] [0; 0] 0 1 1
             (mkRng (fun _ => 1 # 2) 0) (mkRng (fun _ => 1 # 2) 0) in
  p_rows p = map (fun c => cl_pos c ++ cl_neg c) (b_clauses b) /\
  fst (py_eval_predict data [7; 7; 7]%nat (mkPx [(true, p)] py_fb (mkIrng (fun _ => 0%nat) 0))) = (true, [1; 1; 0]%nat) /\
  fst (eval_predict block (list Z) dense_eval_ex nat data [7; 7; 7]%nat (mkExec [(true, b)] py_fb [] (mkIrng (fun _ => 0%nat) 0)))
  = (true, [1; 1; 0]%nat).
Proof. vm_compute. auto. Qed.

(** ** C65: training outputs *)

(** Outputs and literal counts of a training example are those of the native
    block, for every automata state. *)
Theorem C65_training_outputs : forall n bo x p b, p_nlit p = n -> p_do_budget p = bo ->
  p_rows p = map (fun c => cl_pos c ++ cl_neg c) (b_clauses b) ->
  Forall (fun c => length (cl_pos c) = n /\ length (cl_neg c) = n) (b_clauses b) -> length x = n ->
  p_outputs (py_train_output x p) = b_outputs (train_set_clause_output bo x b) /\
  (bo = true -> p_counts (py_train_output x p) = b_counts (train_set_clause_output bo x b)).
Proof.
  intros n bo x p b H1 H2 H3 H4 H5. unfold py_train_output, py_with_outputs, train_set_clause_output.
  cbn [p_outputs p_counts b_outputs b_counts].
  assert (E : map (py_set_output (p_do_budget p) (p_nlit p) x) (p_rows p) = map (set_output bo x) (b_clauses b)).
  { rewrite H1, H2, H3, map_map. apply map_ext_in. intros c Hc.
    pose proof (proj1 (Forall_forall _ _) H4 c Hc) as [K1 K2]. apply py_set_native; auto. }
  rewrite E. split; auto. intros ->. rewrite H2. reflexivity.
Qed.

(** What they are: the clause matches, and then the count is the number of its
    literals. *)
Theorem C65_training_meaning : forall n bo x row, length row = (2 * n)%nat -> length x = n -> binary x ->
  fst (py_set_output bo n x row) = b2z (clause_matches n x row) /\
  (clause_matches n x row = true -> snd (py_set_output true n x row) = n_included row).
Proof.
  intros n bo x row H1 H2 H3. destruct (split_len n row H1) as [L1 L2].
  assert (E : forall bo', py_set_output bo' n x row = set_output bo' x (split_row n row)).
  { intros bo'. rewrite <- (split_row_row n row) at 1. apply py_set_native; auto. }
  assert (R : row = cl_pos (split_row n row) ++ cl_neg (split_row n row)) by (symmetry; apply split_row_row).
  rewrite !E. set (c := split_row n row) in *. clearbody c. subst row.
  split.
  - apply set_output_matches; auto.
  - intros M. unfold n_included. apply (set_output_count n); auto. rewrite (set_output_matches true n) by auto. rewrite M. reflexivity.
Qed.

Example C65_example :
  p_outputs (py_train_output [1; 0] (mkPy 2 2 [py_row_a; [0; -3; 0; -1]; [-1; -1; -1; -1]] [] [] [] (Some 1) true 3 (mkRng (fun _ => 1 # 2) 0)))
  = [1; 0; 1] /\
  p_counts (py_train_output [1; 0] (mkPy 2 2 [py_row_a; [0; -3; -9; 4]; [-1; -1; -1; -1]] [] [] [] (Some 1) true 3 (mkRng (fun _ => 1 # 2) 0)))
  = [1; 2; 0].
Proof. vm_compute. auto. Qed.

(** ** C66: one python update is a native update *)

Definition with_gens (b : block) (r f : rng) : block :=
  mkBlock (b_nlit b) (b_ncls b) (b_clauses b) (b_weights b) (b_outputs b) (b_counts b) (b_votes b)
          (b_budget b) (b_s_inv b) (b_s_min1_inv b) r f.

(** For every python generator there are native generators with which the
    native block, boosting off, makes exactly the same update, as long as no
    weight is at the end of the int8 range. *)
Theorem C66_update : forall n ncls lits pc pp nc np p b,
  p_nlit p = n -> p_rows p = map (fun c => cl_pos c ++ cl_neg c) (b_clauses b) -> p_weights p = b_weights b ->
  p_outputs p = b_outputs b -> p_counts p = b_counts b -> (p_do_budget p = true -> p_budget p = Some (b_budget b)) ->
  b_s_inv b = (1 / p_s p)%Q -> b_s_min1_inv b = ((p_s p - 1) / p_s p)%Q ->
  Forall (fun c => length (cl_pos c) = n /\ length (cl_neg c) = n) (b_clauses b) -> length lits = n ->
  Forall (fun ws => length ws = ncls /\ Forall (fun w => -127 <= w <= 126) ws) (b_weights b) ->
  (pc < ncls)%nat -> (nc < ncls)%nat -> pc <> nc ->
  exists r f,
    let b' := train_update (p_do_budget p) false lits pc pp nc np (with_gens b r f) in
    let p' := py_train_update lits pc pp nc np p in
    p_rows p' = map (fun c => cl_pos c ++ cl_neg c) (b_clauses b') /\ p_weights p' = b_weights b' /\ p_outputs p' = b_outputs b'.
Proof.
  intros n ncls lits pc pp nc np p b H1 H2 H3 H4 H5 H6 H7 H8 H9 H10 H11 H12 H13 H14.
  set (bud := match p_budget p with Some b => b | None => 0 end).
  destruct (py_loop_native (p_do_budget p) bud n (p_s p) lits pc pp nc np ncls (b_clauses b) (b_weights b)
    (b_outputs b) (b_counts b) (p_rng p) H9 H10 H11 H12 H13 H14) as [kr [dr [kf [df [cs [wss [outs [r1 [E1 E2]]]]]]]]].
  exists (mkRng dr 0), (mkRng df 0). cbv zeta. unfold train_update, py_train_update, with_gens.
  cbn [b_budget b_s_inv b_s_min1_inv b_clauses b_weights b_outputs b_counts b_rng b_fast].
  assert (E3 := E2 (mkRng dr 0) (mkRng df 0) (fun i _ => eq_refl) (fun i _ => eq_refl)).
  assert (E4 : train_update_loop (p_do_budget p) false (b_budget b) (b_s_inv b) (b_s_min1_inv b) lits pc pp nc np
      (b_clauses b) (b_weights b) (b_outputs b) (b_counts b) (mkRng dr 0) (mkRng df 0) =
      (cs, wss, outs, advance kr (mkRng dr 0), advance kf (mkRng df 0))).
  { rewrite H7, H8. destruct (p_do_budget p) eqn:Ed.
    - unfold bud in E3. rewrite (H6 eq_refl) in E3. exact E3.
    - rewrite <- E3. apply no_budget_loop. }
  rewrite E4. fold bud. rewrite H1, H2, H3, H4, H5.
  change (fun c : clause => cl_pos c ++ cl_neg c) with clause_row. rewrite E1.
  cbn [p_rows p_weights p_outputs b_clauses b_weights b_outputs]. auto.
Qed.

(** At the end of the range the int8 weight jumps to the other end. *)
Theorem C66_weight_limit_refuted : exists row lits r,
  snd (fst (py_update_clause 1 3 row [127; 0] 1 lits 1 0 r)) = [-128; 0].
Proof. exists [0; -1], [1], (mkRng (fun _ => 1 # 2) 0). vm_compute. reflexivity. Qed.

Example C66_example :
  let p := mkPy 2 2 [py_row_a; py_row_b] [[3; -1]; [-2; 4]] [1; 1] [1; 1] (Some 5) true 3 (mkRng (fun k => if Nat.even k then 1 # 4 else 9 # 10) 0) in
  let p' := py_train_update [1; 0] 0 1 1 (1 # 2) p in
  p_rows p' = [[5; -3; -8; -1]; [-5; -2; -6; 2]] /\ p_weights p' = [[4; -1]; [-1; 4]].
Proof. vm_compute. auto. Qed.

(** ** C67: invariants of whole trainings *)

(** Whatever is trained and evaluated, in any order: every block keeps its
    shape, the automata stay within -127..127 and the weights are int8. *)
Definition py_block_good (n ncls : nat) (tb : bool * pyblock) (ncl : nat) : Prop :=
  let p := snd tb in
  p_nlit p = n /\ p_ncls p = ncls /\ length (p_rows p) = ncl /\ length (p_weights p) = ncl /\
  Forall (fun row => length row = (2 * n)%nat /\ Forall (fun v => -127 <= v <= 127) row) (p_rows p) /\
  Forall (fun ws => length ws = ncls /\ Forall (fun w => -128 <= w <= 127) ws) (p_weights p) /\ length (p_counts p) = ncl.

Theorem C67_history : forall n ncls cs x x' sizes,
  Forall2 (py_block_good n ncls) (px_blocks x) sizes -> py_calls cs x = Ok x' ->
  Forall2 (py_block_good n ncls) (px_blocks x') sizes.
Proof. exact py_history_ok. Qed.

(** A fresh block satisfies it, whatever the seed (0 included). *)
Theorem C67_initialized : forall g n ncl ncls budget do_budget s seed t,
  py_block_good n ncls (t, py_initialize g n ncl ncls budget do_budget s seed) ncl.
Proof. intros. apply py_initialize_ok. Qed.

Example C67_example :
  let g := fun _ : Z => mkRng (fun k => (Z.of_nat (k * 7 mod 10)) # 10) 0 in
  let x := mkPx [(true, py_initialize g 2 3 2 None true 3 0)] py_fb (mkIrng (fun k => k) 0) in
  exists x', py_calls [PyTrain [([1; 0], 0%nat); ([0; 1], 1%nat)]; PyEval [([1; 1], 0%nat)] [0%nat]; PyTrain [([1; 1], 1%nat)]] x = Ok x'
    /\ map (fun tb => p_rows (snd tb)) (px_blocks x') <> map (fun tb => p_rows (snd tb)) (px_blocks x).
Proof. vm_compute. eexists. split; [reflexivity|discriminate]. Qed.

(** ** C68: the negative class *)

(** With at least two classes processing succeeds, and the negative class is a
    class other than the label - for every draw in [0,1), including 0. *)
Theorem C68_negative_class : forall label f, (0 < fb_thr f)%Q -> length (fb_votes f) = fb_ncls f -> (label < fb_ncls f)%nat ->
  (2 <= fb_ncls f)%nat -> (0 <= draw (fb_rng f) 0 < 1)%Q ->
  exists f', py_process label f = Ok f' /\ fb_pos f' = label /\ (fb_neg f' < fb_ncls f)%nat /\ fb_neg f' <> label /\
    fb_np f' = neg_prob (fb_thr f) (nth (fb_neg f') (fb_votes f) 0) /\ (0 < fb_np f')%Q /\
    (0 < fb_pp f')%Q /\ (fb_pp f' == (fb_thr f - clampQ (inject_Z (nth label (fb_votes f) 0%Z)) (fb_thr f)) / (2 * fb_thr f) + (1 # 10000000000000000))%Q.
Proof.
  intros label f HT Hv Hl H2 [Hu0 Hu1]. unfold py_process.
  assert (Ev : firstn (fb_ncls f) (fb_votes f) = fb_votes f) by (apply firstn_all2; lia).
  rewrite Ev. fold (neg_weights (fb_thr f) (fb_votes f) label).
  destruct (neg_weights_spec (fb_thr f) (fb_votes f) label HT ltac:(lia)) as [L [NN [Z0 N]]].
  pose proof (neg_weights_sum (fb_thr f) (fb_votes f) label HT ltac:(lia) ltac:(lia)) as S0.
  set (ps := neg_weights (fb_thr f) (fb_votes f) label) in *.
  destruct (Qeq_bool (qsum ps) 0) eqn:E.
  { apply Qeq_bool_iff in E. rewrite E in S0. exfalso. lra. }
  unfold next_u. cbv zeta.
  assert (U : (rng_src (fb_rng f) (rng_pos (fb_rng f)) == draw (fb_rng f) 0)%Q) by (unfold draw; rewrite Nat.add_0_r; reflexivity).
  destruct (py_pick_spec (qsum ps) (rng_src (fb_rng f) (rng_pos (fb_rng f))) S0 ps 0%Q 0%nat NN) as [j [J1 [J2 J3]]].
  { rewrite U. exact Hu0. }
  { rewrite U. assert (D : (qsum ps / qsum ps == 1)%Q) by (field; lra). rewrite D. lra. }
  rewrite J1. cbn [Nat.add] in *. eexists. split; [reflexivity|]. cbn [fb_pos fb_neg fb_np fb_pp].
  assert (Hj : j <> label). { intros ->. rewrite Z0 in J3. lra. }
  rewrite L in J2.
  split; auto. split; [lia|]. split; auto. split; [apply N; lia|]. split; auto.
  assert (P : (0 <= pos_prob (fb_thr f) (nth label (fb_votes f) 0%Z))%Q) by (apply pos_prob_unit; auto).
  unfold py_pos_prob, eps. split; [lra|reflexivity].
Qed.

(** One class: rng.choice refuses, training raises ValueError. *)
Theorem C68_one_class : forall f, (0 < fb_thr f)%Q -> fb_ncls f = 1%nat -> length (fb_votes f) = 1%nat ->
  py_process 0 f = Raise ValueError.
Proof.
  intros f HT H1 H2. unfold py_process. rewrite H1. destruct (fb_votes f) as [|v [|? ?]]; try discriminate. reflexivity.
Qed.

Example C68_example :
  py_process 0 (mkFb 3 10 [4; -3; 2] [] 0 0 0 0 0 0 (mkRng (fun _ => 0%Q) 0)) <> Raise ValueError /\
  match py_process 0 (mkFb 3 10 [4; -3; 2] [] 0 0 0 0 0 0 (mkRng (fun _ => 0%Q) 0)) with Ok f => fb_neg f | Raise _ => 9%nat end = 1%nat.
Proof. split; [vm_compute; discriminate|vm_compute; reflexivity]. Qed.

(** ** C69: training accuracy *)

(** The class counted as predicted during training: the first class with the
    most votes if any class has more than -threshold votes, and class 0
    otherwise. *)
Theorem C69_predicted : forall thr votes,
  ((exists v, In v votes /\ (- thr < inject_Z v)%Q) -> first_argmax votes (py_predicted thr votes)) /\
  ((forall v, In v votes -> (inject_Z v <= - thr)%Q) -> py_predicted thr votes = 0%nat).
Proof.
  intros thr votes. split; intros H.
  - destruct (py_predicted_spec votes 0 0 (- thr)%Q H) as [j [J1 J2]]. unfold py_predicted. rewrite J1. exact J2.
  - apply py_predicted_low. auto.
Qed.

(** Hence the training accuracy can differ from that of the native backend,
    which starts from the votes of class 0. *)
Theorem C69_native_refuted : exists thr votes, (0 < thr)%Q /\ py_predicted thr votes <> predicted_class votes.
Proof. exists 3%Q, [-5; -4]. split; [reflexivity|vm_compute; discriminate]. Qed.

(** The counters: one example is counted, as correct exactly if the predicted
    class is the label. *)
Theorem C69_counters : forall label f f', py_process label f = Ok f' ->
  fb_total f' = fb_total f + 1 /\
  fb_correct f' = fb_correct f + (if Nat.eqb (py_predicted (fb_thr f) (firstn (fb_ncls f) (fb_votes f))) label then 1 else 0).
Proof.
  intros label f f' H. unfold py_process in H. destruct (Qeq_bool _ _); [discriminate|].
  destruct (next_u (fb_rng f)) as [u r]. inversion H; subst. cbn [fb_total fb_correct]. split; auto.
  destruct (Nat.eqb _ _); lia.
Qed.

Example C69_example : py_predicted 3 [-5; -2; 1; 1] = 2%nat /\ py_predicted 3 [-5; -4] = 0%nat.
Proof. vm_compute. auto. Qed.

Print Assumptions C41_last_block_partial.
Print Assumptions C41_last_block_predicts_partial.
Print Assumptions C41_votes_refuted.
Print Assumptions C41_evaluation_exact.
Print Assumptions C41_outputs_refuted.
Print Assumptions C41_outputs_partial.
Print Assumptions C41_predictions_partial.
Print Assumptions C65_training_outputs.
Print Assumptions C65_training_meaning.
Print Assumptions C66_update.
Print Assumptions C66_weight_limit_refuted.
Print Assumptions C67_history.
Print Assumptions C67_initialized.
Print Assumptions C68_negative_class.
Print Assumptions C68_one_class.
Print Assumptions C69_predicted.
Print Assumptions C69_native_refuted.
Print Assumptions C69_counters.
