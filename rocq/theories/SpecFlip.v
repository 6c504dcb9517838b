(** Inputs written as their negations. *)
From Coq Require Import ZArith List Bool QArith Lia.
From Verif Require Import Base Spec ModelDense.
Import ListNotations.
Open Scope Z_scope.

(** The elements of [b] where [m] says so, of [a] elsewhere. *)
Fixpoint mix (m : list bool) (a b : list Z) : list Z :=
  match m, a, b with
  | s :: m', u :: a', v :: b' => (if s then v else u) :: mix m' a' b'
  | _, _, _ => []
  end.
(** The example with the inputs marked in [m] negated. *)
Definition flip_x (m : list bool) (x : list Z) : list Z := mix m x (map (fun v => 1 - v) x).
(** The clause with the automata of these inputs and of their negations exchanged. *)
Definition flip_clause (m : list bool) (c : clause) : clause := mkClause (mix m (cl_pos c) (cl_neg c)) (mix m (cl_neg c) (cl_pos c)).

(** Type I feedback makes two draws per input, literal first: the exchange of the
    two draws of every marked input, [n] inputs, counted from the start. *)
Definition swap_pos (n : nat) (m : list bool) (q : nat) : nat :=
  if nth ((q / 2) mod n) m false then (if Nat.even q then S q else pred q) else q.

(** [alike base m b b2]: [b2] is [b] with the marked inputs written as their
    negations, and draws from its generators what [b] does, exchanged. *)
Record alike (base : nat) (m : list bool) (b b2 : block) : Prop := {
  lk_nlit : b_nlit b2 = b_nlit b;
  lk_ncls : b_ncls b2 = b_ncls b;
  lk_clauses : b_clauses b2 = map (flip_clause m) (b_clauses b);
  lk_weights : b_weights b2 = b_weights b;
  lk_budget : b_budget b2 = b_budget b;
  lk_si : b_s_inv b2 = b_s_inv b;
  lk_sm : b_s_min1_inv b2 = b_s_min1_inv b;
  lk_fast : b_fast b2 = b_fast b;
  lk_pos : rng_pos (b_rng b2) = rng_pos (b_rng b);
  lk_rng : forall q, rng_src (b_rng b2) (base + q)%nat = rng_src (b_rng b) (base + swap_pos (length m) m q)%nat;
  lk_whole : exists k, rng_pos (b_rng b) = (base + k * (2 * length m))%nat
}.

(** Training on a list of examples with their two classes; the update
    probabilities are any function of the votes and the classes. *)
Definition train_on (bo boost : bool) (prob : list Z -> nat -> nat -> Q * Q) (b : block) (e : list Z * nat * nat) : block :=
  let '(x, pc, nc) := e in
  let b1 := count_votes (train_set_clause_output bo x b) in
  let '(pp, np) := prob (b_votes b1) pc nc in
  train_update bo boost x pc pp nc np b1.
Definition train_over (bo boost : bool) (prob : list Z -> nat -> nat -> Q * Q) (es : list (list Z * nat * nat)) (b : block) : block :=
  fold_left (train_on bo boost prob) es b.
Definition flip_example (m : list bool) (e : list Z * nat * nat) : list Z * nat * nat := let '(x, pc, nc) := e in (flip_x m x, pc, nc).
(** Clauses over the inputs of [m]. *)
Definition sized (m : list bool) (c : clause) : Prop := length (cl_pos c) = length m /\ length (cl_neg c) = length m.
