(** What a block can learn: training steps with any examples and any draws. *)
From Coq Require Import ZArith List Bool QArith Lia.
From Verif Require Import Base Spec SpecLearning ModelDense ProofsStep.
Import ListNotations.
Open Scope Z_scope.

(** A conjunction over [n] inputs that some example satisfies: literals below [2n],
    none together with its negation, none twice. *)
Record conjunction (n : nat) (R : list nat) : Prop := {
  cj_range : forall i, In i R -> (i < 2 * n)%nat;
  cj_sat : forall i, ~ (In i R /\ In (n + i)%nat R);
  cj_once : NoDup R
}.

Definition unit_draws (r : rng) : Prop := forall i, (0 <= rng_src r i)%Q /\ (rng_src r i < 1)%Q.

(** The block with other generators. *)
Definition with_gens (r f : rng) (b : block) : block :=
  mkBlock (b_nlit b) (b_ncls b) (b_clauses b) (b_weights b) (b_outputs b) (b_counts b) (b_votes b) (b_budget b) (b_s_inv b) (b_s_min1_inv b) r f.

(** [trains b b']: some examples of [n] inputs, some pairs of classes and some
    draws in [0,1) lead from [b] to [b'].  [prob] gives the two update
    probabilities of a step.  [trains_with draws]: the draws of the feedback are
    restricted to [draws]. *)
Inductive trains_with (draws : rng -> Prop) (n ncls : nat) (bo boost : bool) (prob : block -> list Z -> nat -> nat -> Q * Q) : block -> block -> Prop :=
| trained : forall b, trains_with draws n ncls bo boost prob b b
| train_more : forall b x pc nc r f b',
    length x = n -> binary x -> (pc < ncls)%nat -> (nc < ncls)%nat -> pc <> nc -> draws r -> unit_draws f ->
    trains_with draws n ncls bo boost prob
      (dense_step bo boost x pc (fst (prob b x pc nc)) nc (snd (prob b x pc nc)) (with_gens r f b)) b' ->
    trains_with draws n ncls bo boost prob b b'.
Notation trains := (trains_with unit_draws).
Definition zero_draws (r : rng) : Prop := forall i, rng_src r i = 0%Q.
Definition open_probs (prob : block -> list Z -> nat -> nat -> Q * Q) : Prop :=
  forall b x pc nc, (0 < fst (prob b x pc nc) < 1)%Q /\ (0 < snd (prob b x pc nc) < 1)%Q.
