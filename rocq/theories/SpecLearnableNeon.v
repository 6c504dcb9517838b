(** Training of a NEON block with any examples and any draws. *)
From Coq Require Import ZArith List Bool QArith Lia.
From Verif Require Import Base Spec SpecLearning ModelDense ModelAvx2 ModelNeon SpecAvx2 SpecNeon SpecLearnable SpecLearnableAvx2 ProofsNeonStep.
Import ListNotations.
Open Scope Z_scope.

(** [neon_trains a a']: some examples (in buffers with anything behind them), some
    pairs of classes and some draws lead from [a] to [a'].  The two halves of
    every random vector are equal, as those of the code are. *)
Inductive neon_trains (n ncls : nat) (boost : bool) (p : probs) : ablock -> ablock -> Prop :=
| neon_trained : forall a, neon_trains n ncls boost p a a
| neon_train_more : forall a x lits pc nc vr f a',
    nbuffer_of n x lits -> binary x -> (pc < ncls)%nat -> (nc < ncls)%nat -> pc <> nc -> nvrng_ok vr -> twin_rng vr -> unit_draws f ->
    neon_trains n ncls boost p
      (neon_step boost lits pc (fst (p (avx_clauses a) (a_weights a) x pc nc)) nc (snd (p (avx_clauses a) (a_weights a) x pc nc)) (avx_gens vr f a)) a' ->
    neon_trains n ncls boost p a a'.
