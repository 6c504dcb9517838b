(** The feedback_type argument of green_tsetlin/trainer.py (38-57, 215-235): which
    feedback block a run on the scalar machine uses.  Everything else of the run is
    that of ModelTrainerDense.v. *)
From Coq Require Import ZArith List Bool QArith Lia.
From Verif Require Import Base ModelRuleSet ModelDense ModelFeedback ModelExecutor ModelDenseExec ModelLayout
  ModelMachine ModelTrainer ModelTrainerDense.
Import ListNotations.
Open Scope Z_scope.

(** The strings the code compares with (216, 225); anything else. *)
Inductive feedback_type := FFocused | FUniform | FUnknown.
(** The classes of main.cpp (backend.py: feedback_block, feedback_block_multi_label,
    feedback_block_uniform). *)
Inductive feedback_cls := ClsFocused | ClsMulti | ClsUniform.

(** _get_feedback_block (trainer.py:215-235). *)
Definition get_feedback_block (k : feedback_type) (multi : bool) : res feedback_cls :=
  match k with
  | FFocused => if multi then Ok ClsMulti else Ok ClsFocused
  | FUniform => if multi then Raise NotImplementedError else Ok ClsUniform
  | FUnknown => Raise ValueError
  end.

(** process of the chosen block.  The loop of FeedbackBlockUniform::process
    (feedback_block.hpp:323-325) may not end: [fuel] bounds its draws and [stuck] is what the
    run goes on with when they are used up.  The multi-label block takes rows of
    labels and is not run here: dense_launch refuses such labels. *)
Definition fb_step (stuck : nat -> fblock -> fblock) (fuel : nat) (k : feedback_type) (label : nat) (f : fblock) : fblock :=
  match k with
  | FUniform => match fbu_process fuel label f with Some f' => f' | None => stuck label f end
  | _ => fb_process label f
  end.
(** A stand-in for [stuck]: no feedback for this example. *)
Definition no_feedback (label : nat) (f : fblock) : fblock :=
  mkFb (fb_ncls f) (fb_thr f) (fb_votes f) (fb_probs f) label label 0 0 (fb_correct f) (fb_total f) (fb_rng f).

(** trainer.py:267-277: the feedback block is chosen before the machine is touched. *)
Definition chosen_construct (k : feedback_type) (m : tm) (n_jobs seed : Z) (d : data) : res (list cblock) * tm :=
  match get_feedback_block k (tm_multi m) with
  | Raise e => (Raise e, m)
  | Ok _ => dense_construct m n_jobs seed d
  end.

(** exec.train_epoch() (316) with this feedback. *)
Definition fed_epoch (step : nat -> fblock -> fblock) (d : data) (x : drun) : fl * drun :=
  let '(acc, e) := train_epoch block (list Z) (dense_train_ex (dr_bo x)) (dense_upd (dr_bo x) (dr_boost x)) nat step
                     (feed (dr_n x) d) (dr_exec x) in
  (Fin acc, mkDrun (dr_n x) (dr_bo x) (dr_boost x) e).
Definition fed_backend (G : gens) (k : feedback_type) (step : nat -> fblock -> fblock) (score : yarr -> list nat -> res fl)
  (callback : nat -> fl -> fl -> option exn) (assign : Z -> Z -> data -> res (list nat))
  : backend tm (list cblock) drun dense_state (list nat) :=
  mkBk tm_nlit (fun _ => false) (chosen_construct k) (dense_launch G) (fed_epoch step) dense_evaluate dense_snap
       score callback assign.

(** With the thread pool (ModelTrainerDense.v, "With the thread pool"). *)
Definition fed_mt_epoch (step : nat -> fblock -> fblock) (Sc : schedule) (d : data) (p : trun) : fl * trun :=
  let '(acc, x) := if tr_jobs p =? 1 then fed_epoch step d (tr_run p)
                   else let '(acc, e) := s_epoch Sc (tr_time p) d (tr_run p) in (Fin acc, with_exec (tr_run p) e) in
  (acc, mkTrun (tr_jobs p) (S (tr_time p)) x).
Definition fed_threaded (G : gens) (k : feedback_type) (step : nat -> fblock -> fblock) (Sc : schedule)
  (score : yarr -> list nat -> res fl) (callback : nat -> fl -> fl -> option exn) (assign : Z -> Z -> data -> res (list nat))
  : backend tm (list cblock) trun dense_state (list nat) :=
  mkBk tm_nlit (fun _ => false) (chosen_construct k)
       (fun m cbs st n_jobs seed d => match dense_launch G m cbs st n_jobs seed d with
                                      | Raise e => Raise e
                                      | Ok x => Ok (mkTrun n_jobs O x)
                                      end)
       (fed_mt_epoch step Sc) (threaded_evaluate Sc) (fun m p => dense_snap m (tr_run p)) score callback assign.

(** Trainer(..., feedback_type=k).train(). *)
Definition chosen_backend (G : gens) (k : feedback_type) (stuck : nat -> fblock -> fblock) (fuel : nat) (Sc : schedule)
  (score : yarr -> list nat -> res fl) (callback : nat -> fl -> fl -> option exn) (assign : Z -> Z -> data -> res (list nat)) :=
  fed_threaded G k (fb_step stuck fuel k) Sc score callback assign.
