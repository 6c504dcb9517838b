(** Vocabulary for runs with another feedback_type. *)
From Coq Require Import ZArith List Bool QArith Lia.
From Verif Require Import Base Spec ModelDense ModelFeedback ModelExecutor ModelDenseExec ModelMachine ModelTrainer ModelTrainerDense
  ModelEngine ProofsExecutor ProofsDenseExec.
Import ListNotations.
Open Scope Z_scope.

(** Every outcome of the schedule is one the pool can produce, with [step] as the
    feedback of an example. *)
Definition pool_with (step : nat -> fblock -> fblock) (Sc : schedule) : Prop :=
  forall k ncls d x, exec_inv ncls (dr_exec x) ->
    mt_train_epoch block (list Z) (dense_train_ex (dr_bo x)) (dense_upd (dr_bo x) (dr_boost x)) nat step
      (feed (dr_n x) d) (dr_exec x) (s_epoch Sc k d x) /\
    (let out := repeat O (length (y_rows (d_y d))) in
     if Nat.eqb (length out) (length (feed (dr_n x) d)) then
       exists ys bs fb, mt_eval_list block (list Z) dense_eval_ex (map fst (feed (dr_n x) d))
           (x_blocks (dr_exec x), x_fb (dr_exec x)) (ys, bs, fb) /\
         s_eval Sc k d x = (true, ys, mkExec bs fb (x_index (dr_exec x)) (x_rng (dr_exec x)))
     else s_eval Sc k d x = (false, out, dr_exec x)).

(** What goes on when the loop does not end keeps the sizes of the feedback block and
    names classes that exist. *)
Definition tame (stuck : nat -> fblock -> fblock) : Prop :=
  forall label f, fb_ncls (stuck label f) = fb_ncls f /\ length (fb_votes (stuck label f)) = length (fb_votes f) /\
    fb_pos (stuck label f) = label /\ fb_neg (stuck label f) = label.

(** The class draws of a machine with [ncls] classes come from the seeded engine of
    the feedback block (feedback_block.hpp:30-32, 321). *)
Definition engine_draws (ncls : nat) (G : gens) : Prop := forall seed, g_fb G seed = uni_rng ncls (eng_seed seed).
