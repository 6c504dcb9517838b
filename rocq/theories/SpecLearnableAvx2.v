(** Training of an AVX2 block with any examples and any draws. *)
From Coq Require Import ZArith List Bool QArith Lia.
From Verif Require Import Base Spec SpecLearning ModelDense ModelAvx2 SpecAvx2 SpecLearnable ProofsEval ProofsStep ProofsAvx2Step.
Import ListNotations.
Open Scope Z_scope.

(** The block with other generators. *)
Definition avx_gens (vr : vrng) (f : rng) (b : ablock) : ablock :=
  mkABlock (a_nlit b) (a_lmem b) (a_mask b) (a_ncls b) (a_rows b) (a_weights b) (a_outputs b) (a_counts b) (a_votes b) (a_budget b) (a_cmp b) vr f.

(** The clauses of a block without the padding. *)
Definition avx_clauses (b : ablock) : list clause := map (row_clause (a_nlit b) (a_lmem b)) (a_rows b).

(** Update probabilities that depend on clauses, weights, example and classes. *)
Definition probs := list clause -> list (list Z) -> list Z -> nat -> nat -> Q * Q.
Definition scalar_probs (p : probs) : block -> list Z -> nat -> nat -> Q * Q := fun b => p (b_clauses b) (b_weights b).

(** [avx_trains a a']: some examples (in buffers with anything behind them), some
    pairs of classes and some draws lead from [a] to [a']. *)
Inductive avx_trains (n ncls : nat) (bo boost : bool) (p : probs) : ablock -> ablock -> Prop :=
| avx_trained : forall a, avx_trains n ncls bo boost p a a
| avx_train_more : forall a x lits pc nc vr f a',
    buffer_of n x lits -> binary x -> (pc < ncls)%nat -> (nc < ncls)%nat -> pc <> nc -> vrng_ok vr -> unit_draws f ->
    avx_trains n ncls bo boost p
      (avx_step bo boost lits pc (fst (p (avx_clauses a) (a_weights a) x pc nc)) nc (snd (p (avx_clauses a) (a_weights a) x pc nc)) (avx_gens vr f a)) a' ->
    avx_trains n ncls bo boost p a a'.
