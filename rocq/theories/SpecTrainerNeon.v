(** Vocabulary for complete training runs on NEON blocks. *)
From Coq Require Import ZArith List Bool QArith Lia.
From Verif Require Import Base Spec ModelRuleSet ModelDense ModelFeedback ModelExecutor ModelAvx2 ModelNeon ModelMachine ModelTrainer ModelTrainerDense
  ModelTrainerAvx2 ModelTrainerNeon SpecNeon SpecTrainerDense SpecTrainerAvx2 ProofsExecutor.
Import ListNotations.
Open Scope Z_scope.

(** Every vector drawn from the vector generator has 16 bytes. *)
Definition whole_nvectors (G : ngens) : Prop := forall seed, nvrng_ok (n_vec G seed).

(** The machine has a literal budget. *)
Definition budgeted (m : tm) : Prop := hd_error (tm_budgets m) <> Some None.

(** Every clause without literals stands before every clause with one. *)
Definition empties_first (s : dense_state) : Prop :=
  forall j k, (j < k)%nat -> (k < length (ds_c s))%nat -> included (nth j (ds_c s) []) <> [] -> included (nth k (ds_c s) []) <> [].

(** Every outcome of the schedule is one the pool can produce. *)
Definition neon_pool (Sc : vschedule) : Prop :=
  forall k ncls d x, avx_exec_fits ncls (vu_exec x) ->
    mt_train_epoch ablock (list Z) neon_train_ex (neon_upd (vu_boost x)) nat fb_process
      (avx_feed (vu_n x) d) (vu_exec x) (vs_epoch Sc k d x) /\
    (let out := repeat O (length (y_rows (d_y d))) in
     if Nat.eqb (length out) (length (avx_feed (vu_n x) d)) then
       exists ys bs fb, mt_eval_list ablock (list Z) neon_eval_ex (map fst (avx_feed (vu_n x) d))
           (x_blocks (vu_exec x), x_fb (vu_exec x)) (ys, bs, fb) /\
         vs_eval Sc k d x = (true, ys, mkExec bs fb (x_index (vu_exec x)) (x_rng (vu_exec x)))
     else vs_eval Sc k d x = (false, out, vu_exec x)).
