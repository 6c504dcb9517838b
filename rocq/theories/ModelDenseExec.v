(** The dense clause block as seen by the executor (src/clause_block.hpp:65-77,
    187-212 with the kernels of src/func_tm.hpp). *)
From Coq Require Import ZArith List Bool QArith Lia.
From Verif Require Import Base ModelDense ModelFeedback ModelExecutor.
Import ListNotations.
Open Scope Z_scope.

(** train_example: pull, SetClauseOutput, CountVotes, register. *)
Definition dense_train_ex (budget_on : bool) (lits : list Z) (b : block) : block * list Z :=
  let b := count_votes (train_set_clause_output budget_on lits b) in (b, b_votes b).

(** eval_example. *)
Definition dense_eval_ex (lits : list Z) (b : block) : block * list Z :=
  let b := count_votes (eval_set_clause_output lits b) in (b, b_votes b).

(** train_update on the literals pulled by train_example. *)
Definition dense_upd (budget_on boost : bool) (lits : list Z) (pc : nat) (pp : Q) (nc : nat) (np : Q)
  (b : block) : block := train_update budget_on boost lits pc pp nc np b.

(** Evaluation of one example: reset, all blocks, predict
    (src/executor.hpp:171-192). *)
Definition dense_eval_one (bs : list (bool * block)) (fb : fblock) (x : list Z) : nat :=
  fb_predict (snd (run_examples block (list Z) dense_eval_ex x bs (fb_reset fb))).
