(** Vocabulary for complete training runs on AVX2 blocks. *)
From Coq Require Import ZArith List Bool QArith Lia.
From Verif Require Import Base Spec ModelDense ModelFeedback ModelExecutor ModelAvx2 ModelMachine ModelTrainer ModelTrainerDense ModelTrainerAvx2
  SpecAvx2 ProofsExecutor.
Import ListNotations.
Open Scope Z_scope.

(** Every vector drawn from the vector generator has 32 bytes. *)
Definition whole_vectors (G : vgens) : Prop := forall seed, vrng_ok (v_vec G seed).

(** Blocks and votes array of the sizes of [ncls] classes, int16 weights. *)
Definition avx_exec_fits (ncls : nat) (x : exec ablock) : Prop :=
  Forall (fun tb : bool * ablock => a_ncls (snd tb) = ncls /\
    Forall (fun w => length w = ncls) (a_weights (snd tb)) /\ Forall (Forall is_int16) (a_weights (snd tb))) (x_blocks x) /\
  fb_ok ncls (x_fb x).

(** Every outcome of the schedule is one the pool can produce. *)
Definition avx_pool (Sc : vschedule) : Prop :=
  forall k ncls d x, avx_exec_fits ncls (vu_exec x) ->
    mt_train_epoch ablock (list Z) (avx_train_ex (vu_bo x)) (avx_upd (vu_bo x) (vu_boost x)) nat fb_process
      (avx_feed (vu_n x) d) (vu_exec x) (vs_epoch Sc k d x) /\
    (let out := repeat O (length (y_rows (d_y d))) in
     if Nat.eqb (length out) (length (avx_feed (vu_n x) d)) then
       exists ys bs fb, mt_eval_list ablock (list Z) avx_eval_ex (map fst (avx_feed (vu_n x) d))
           (x_blocks (vu_exec x), x_fb (vu_exec x)) (ys, bs, fb) /\
         vs_eval Sc k d x = (true, ys, mkExec bs fb (x_index (vu_exec x)) (x_rng (vu_exec x)))
     else vs_eval Sc k d x = (false, out, vu_exec x)).
