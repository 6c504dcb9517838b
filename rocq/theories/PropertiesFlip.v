(** C141: inputs and their negations. *)
From Coq Require Import ZArith List Bool QArith Lia.
From Verif Require Import Base BaseProofs Spec SpecLearning SpecFlip ModelDense ModelDenseExec ProofsFlip.
Import ListNotations.
Open Scope Z_scope.

(** Negating some inputs of an example and exchanging their automata in the block
    changes none of the votes. *)
Theorem C141_eval : forall base m b b2 x, alike base m b b2 -> Forall (sized m) (b_clauses b) -> length x = length m -> binary x ->
  snd (dense_eval_ex (flip_x m x) b2) = snd (dense_eval_ex x b).
Proof. exact flip_eval. Qed.

(** Training without boosting on the examples with the inputs negated, with the
    draws of these inputs exchanged pairwise, keeps the blocks alike: the same
    weights and the same clauses with the automata exchanged, whatever the
    examples, the budget and the update probabilities are. *)
Theorem C141_training_partial : forall base m bo prob es b b2, alike base m b b2 -> Forall (sized m) (b_clauses b) ->
  Forall (fun e => length (fst (fst e)) = length m /\ binary (fst (fst e))) es ->
  alike base m (train_over bo false prob es b) (train_over bo false prob (map (flip_example m) es) b2) /\
  forall x, length x = length m -> binary x ->
    snd (dense_eval_ex (flip_x m x) (train_over bo false prob (map (flip_example m) es) b2)) = snd (dense_eval_ex x (train_over bo false prob es b)).
Proof.
  intros base m bo prob es b b2 K SZ H. destruct (flip_train_over base m bo prob es b b2 K SZ H) as [A1 A2]. split; [exact A1|].
  intros x Lx B. eapply flip_eval; eauto.
Qed.

(** In every such step the clauses fire alike and the class sums agree. *)
Theorem C141_step_partial : forall base m bo prob x pc nc b b2, alike base m b b2 -> Forall (sized m) (b_clauses b) -> length x = length m -> binary x ->
  b_outputs (train_on bo false prob b2 (flip_x m x, pc, nc)) = b_outputs (train_on bo false prob b (x, pc, nc)) /\
  b_votes (train_on bo false prob b2 (flip_x m x, pc, nc)) = b_votes (train_on bo false prob b (x, pc, nc)).
Proof. intros base m bo prob x pc nc b b2 K SZ Lx B. destruct (flip_train_on base m bo prob x pc nc b b2 K SZ Lx B) as [_ [A1 [A2 _]]]. auto. Qed.

(** The exchange of the draws is a permutation of them that never leaves the two
    draws of an input in a round of feedback, so independent draws stay so. *)
Theorem C141_draws : forall n m q, swap_pos n m (swap_pos n m q) = q /\ (swap_pos n m q / 2 = q / 2)%nat.
Proof.
  intros n m q. split; [apply swap_pos_twice|]. unfold swap_pos. destruct (nth ((q / 2) mod n) m false); [|reflexivity]. destruct (Nat.even q) eqn:V.
  - apply Nat.even_spec in V. destruct V as [h V]. subst q. replace (S (2 * h)) with (h * 2 + 1)%nat by lia. rewrite Nat.div_add_l by lia. rewrite (Nat.mul_comm 2 h), Nat.div_mul by lia. cbn. lia.
  - assert (OD : Nat.odd q = true) by (rewrite <- Nat.negb_even, V; reflexivity). apply Nat.odd_spec in OD. destruct OD as [h OD]. subst q. replace (pred (2 * h + 1)) with (h * 2)%nat by lia.
    replace (2 * h + 1)%nat with (h * 2 + 1)%nat by lia. rewrite Nat.div_add_l, Nat.div_mul by lia. cbn. lia.
Qed.

(** Every block has such a counterpart, from wherever its generator stands. *)
Theorem C141_exists : forall m b, exists b2, alike (rng_pos (b_rng b)) m b b2.
Proof.
  intros m b. set (base := rng_pos (b_rng b)).
  exists (mkBlock (b_nlit b) (b_ncls b) (map (flip_clause m) (b_clauses b)) (b_weights b) (b_outputs b) (b_counts b) (b_votes b) (b_budget b) (b_s_inv b) (b_s_min1_inv b)
    (mkRng (fun i => rng_src (b_rng b) (base + swap_pos (length m) m (i - base))%nat) base) (b_fast b)).
  constructor; cbn [b_nlit b_ncls b_clauses b_weights b_budget b_s_inv b_s_min1_inv b_fast b_rng rng_src rng_pos]; auto.
  - intros q. f_equal. f_equal. f_equal. lia.
  - exists O. unfold base. lia.
Qed.

(** A boosted step may leave the automaton of a true negated literal; with the
    input written as its negation no draws let it leave the automaton. *)
Theorem C141_boost_refuted : exists m b e prob, Forall (sized m) (b_clauses b) /\ length (fst (fst e)) = length m /\ binary (fst (fst e)) /\
  forall b2, b_clauses b2 = map (flip_clause m) (b_clauses b) -> b_weights b2 = b_weights b -> b_ncls b2 = b_ncls b -> b_budget b2 = b_budget b ->
    b_s_inv b2 = b_s_inv b -> b_s_min1_inv b2 = b_s_min1_inv b -> b_fast b2 = b_fast b ->
    b_clauses (train_on true true prob b2 (flip_example m e)) <> map (flip_clause m) (b_clauses (train_on true true prob b e)).
Proof.
  exists [true], (mkBlock 1 2 [mkClause [-5] [-5]] [[1; 1]] [0] [0] [0; 0] 1 (1 # 2) (1 # 2) (mkRng (fun _ => 99 # 100) 0) (mkRng (fun _ => 1 # 2) 0)), ([0], 0%nat, 1%nat), (fun _ _ _ => (1, 0)%Q).
  split; [repeat (apply Forall_cons; [split; reflexivity|]); apply Forall_nil|]. split; [reflexivity|]. split; [repeat (apply Forall_cons; [cbv; auto|]); apply Forall_nil|].
  intros [nl ncls cs ws os cn vo bu si sm r f]. cbn [b_clauses b_weights b_ncls b_budget b_s_inv b_s_min1_inv b_fast]. intros -> -> -> -> -> -> ->.
  destruct r as [src pos]. cbn -[Qle_bool]. unfold draw_le, next_u. cbn -[Qle_bool]. destruct (Qle_bool (src pos) (1 # 2)); discriminate.
Qed.

(** Two inputs, the second written as its negation; three trainings examples. *)
Example C141_alike : let m := [false; true] in
  let b := mkBlock 2 2 [mkClause [3; -2] [-1; 4]; mkClause [-1; -1] [0; -7]] [[5; -3]; [-2; 8]] [0; 0] [0; 0] [0; 0] 4 (1 # 3) (2 # 3) (mkRng (fun i => Z.of_nat (i mod 7) # 8) 0) (mkRng (fun i => Z.of_nat (i mod 5) # 6) 0) in
  let b2 := mkBlock 2 2 [mkClause [3; 4] [-1; -2]; mkClause [-1; -7] [0; -1]] [[5; -3]; [-2; 8]] [0; 0] [0; 0] [0; 0] 4 (1 # 3) (2 # 3) (mkRng (fun i => Z.of_nat (swap_pos 2 m i mod 7) # 8) 0) (mkRng (fun i => Z.of_nat (i mod 5) # 6) 0) in
  let es := [([1; 0], 0%nat, 1%nat); ([0; 1], 1%nat, 0%nat); ([0; 0], 0%nat, 1%nat)] in
  let prob := fun (_ : list Z) (_ _ : nat) => (2 # 3, 1 # 2)%Q in
  alike 0 m b b2 /\ Forall (sized m) (b_clauses b) /\
  map (flip_example m) es = [([1; 1], 0%nat, 1%nat); ([0; 0], 1%nat, 0%nat); ([0; 1], 0%nat, 1%nat)] /\
  b_clauses (train_over true false prob es b) <> b_clauses b /\
  b_clauses (train_over true false prob (map (flip_example m) es) b2) = map (flip_clause m) (b_clauses (train_over true false prob es b)).
Proof.
  intros m b b2 es prob. split; [|split; [|split; [reflexivity|split; [vm_compute; discriminate|vm_compute; reflexivity]]]].
  - constructor; try reflexivity. exists O. reflexivity.
  - repeat (apply Forall_cons; [split; reflexivity|]). apply Forall_nil.
Qed.

Print Assumptions C141_eval.
Print Assumptions C141_training_partial.
Print Assumptions C141_step_partial.
Print Assumptions C141_draws.
Print Assumptions C141_exists.
Print Assumptions C141_boost_refuted.
