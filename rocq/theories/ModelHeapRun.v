(** allocate_clause_blocks (green_tsetlin/tsetlin_machine.py:399-428) around a
    training run of the single-threaded executor, on the heap. *)
From Coq Require Import ZArith List Bool QArith.
From Verif Require Import Base ModelHeap ModelDense ModelFeedback ModelTMHeap.
Import ListNotations.
Open Scope Z_scope.

(** The loop before the yield (420-423): the result of initialize is ignored,
    the seed grows by one per block. *)
Fixpoint h_init_blocks (budget_on : bool) (std_of fast_of : Z -> rng) (seed : Z) (bs : list (bool * hstate))
  : M (list (bool * hstate)) :=
  match bs with
  | [] => ret []
  | (t, s) :: bs' =>
      p <- h_initialize budget_on std_of fast_of seed s ;;
      r <- h_init_blocks budget_on std_of fast_of (seed + 1) bs' ;;
      ret ((t, snd p) :: r)
  end.

(** The loop after the yield (427-428). *)
Fixpoint h_cleanup_blocks (budget_on : bool) (bs : list (bool * hstate)) : M (list (bool * hstate)) :=
  match bs with
  | [] => ret []
  | (t, s) :: bs' =>
      s <- h_cleanup budget_on s ;;
      r <- h_cleanup_blocks budget_on bs' ;;
      ret ((t, s) :: r)
  end.

(** with allocate_clause_blocks(cbs, seed): the examples [idx] are trained
    (trainer.py:282-313 with one thread and no loaded state).  The executor as
    it was before cleanup, and the blocks after it. *)
Definition h_session (fl : hflags) (std_of fast_of : Z -> rng) (seed : Z) (idx : list nat)
  (inp : hinput) (bs : list (bool * hstate)) (f : fblock) : M (hexec * list (bool * hstate)) :=
  bs <- h_init_blocks (fl_budget fl) std_of fast_of seed bs ;;
  x <- h_train_list fl idx (mkHx inp bs f) ;;
  bs <- h_cleanup_blocks (fl_budget fl) (hx_blocks x) ;;
  ret (x, bs).

(** A caller that initialises and cleans up the same object [k] times. *)
Fixpoint h_cycles (budget_on : bool) (std_of fast_of : Z -> rng) (seed : Z) (k : nat) (s : hstate) : M hstate :=
  match k with
  | O => ret s
  | S k' => p <- h_initialize budget_on std_of fast_of seed s ;;
            s <- h_cleanup budget_on (snd p) ;;
            h_cycles budget_on std_of fast_of seed k' s
  end.
