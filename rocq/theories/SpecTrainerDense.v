(** Specification vocabulary for complete training runs of the dense machine. *)
From Coq Require Import ZArith List Bool QArith Lia.
From Verif Require Import Base Spec ModelRuleSet ModelDense ModelFeedback ModelExecutor ModelDenseExec ModelPredictor ModelMachine ModelTrainer
  ModelTrainerDense ProofsMachine ProofsDenseExec.
Import ListNotations.
Open Scope Z_scope.

(** A single-label machine object: constructed, then configured by any sequence of successful
    calls of set_literal_budget, set_num_clause_blocks, construct_clause_blocks. *)
Definition configured (m : tm) : Prop :=
  exists nlit ncl ncls s thr budget boost m0 calls results,
    tm_init nlit ncl ncls s thr budget boost false = Ok m0 /\ s <> SList [] /\
    crun calls m0 = (results, m) /\ Forall (fun r => r = Ok tt) results.

(** A state that fits a machine: [ncl] clauses over 2n literals, int8 automata,
    int16 weights for [ncls] classes. *)
Definition state_fits (n ncl ncls : nat) (s : dense_state) : Prop :=
  ds_ncols s = (2 * n)%nat /\ ds_nclasses s = ncls /\
  length (ds_c s) = ncl /\ length (ds_w s) = ncl /\
  rows_of (2 * n) (ds_c s) /\ rows_of ncls (ds_w s) /\
  Forall (Forall is_int8) (ds_c s) /\ Forall (Forall is_int16) (ds_w s).
Definition machine_fits (m : tm) (st : option dense_state) : Prop :=
  match st with None => True | Some s => state_fits (tm_nlit m) (Z.to_nat (tm_ncl m)) (tm_ncls m) s end.

(** 0/1 examples of [n] literals, each with a label below [ncls]. *)
Definition data_fits (n ncls : nat) (d : data) : Prop :=
  length (literal_rows n (d_x d)) = length (y_rows (d_y d)) /\
  Forall (fun x => length x = n /\ binary x) (literal_rows n (d_x d)) /\
  Forall (fun y => (label_of y < ncls)%nat) (y_rows (d_y d)).

(** The votes of a state stay in the int16 range on the given examples, and so do
    the weights the rule compiler adds up for equal clauses. *)
Definition votes_fit (n ncls : nat) (s : dense_state) (rows : list (list Z)) : Prop :=
  (forall r c, (c < ncls)%nat -> is_int16 (merged_weight (ds_c s) (ds_w s) r c)) /\
  Forall (fun x => forall c, (c < ncls)%nat -> is_int16 (clause_vote_total n x (ds_c s) (ds_w s) c)) rows.

(** What the predictor answers on a list of examples. *)
Definition answers (p : predictor) (rows : list (list Z)) : list (res answer) := map (fun x => fst (pred_predict p x)) rows.

(** [v] is the score, by [score], of the predictor exported from [s] on the
    examples of [d]: the state compiles, and every predictor built from the rule
    set answers with classes that have this score. *)
Definition predictor_scores (score : yarr -> list nat -> res fl) (n ncls : nat) (s : dense_state) (d : data) (v : fl) : Prop :=
  exists rs, compile_from_dense_state s = Ok rs /\
    forall mode excl junk p, from_ruleset mode excl rs junk = Ok p ->
      votes_fit n ncls s (literal_rows n (d_x d)) ->
      exists ys, answers p (literal_rows n (d_x d)) = map (fun y => Ok (AClass y)) ys /\ score (d_y d) ys = Ok v.

(** A trainer around a dense single-label machine; the states it holds and the
    data set so far fit the machine. *)
Record sound (t : trainer tm dense_state) : Prop := {
  sd_m : configured (t_m t);
  sd_state : machine_fits (t_m t) (t_state t);
  sd_best : machine_fits (t_m t) (t_best t);
  sd_train : forall d, t_train t = Some d -> data_fits (tm_nlit (t_m t)) (tm_ncls (t_m t)) d;
  sd_eval : forall d, t_eval t = Some d -> data_fits (tm_nlit (t_m t)) (tm_ncls (t_m t)) d
}.

(** Using a trainer: successful calls of set_train_data, set_eval_data and train. *)
Inductive used {X : Type} (B : backend tm (list cblock) X dense_state (list nat)) (t : trainer tm dense_state)
  : trainer tm dense_state -> Prop :=
| used_new : used B t t
| used_train : forall t1 o t2, used B t t1 -> train B t1 = (Ok o, t2) -> used B t t2
| used_set_train : forall t1 x y t2, used B t t1 -> set_train_data B (Some x) y t1 = (Ok tt, t2) ->
    data_fits (tm_nlit (t_m t1)) (tm_ncls (t_m t1)) (mkData x y) -> used B t t2
| used_set_eval : forall t1 x y t2, used B t t1 -> set_eval_data B (Some x) y t1 = (Ok tt, t2) ->
    data_fits (tm_nlit (t_m t1)) (tm_ncls (t_m t1)) (mkData x y) -> used B t t2.

(** How many answers are the class of their example. *)
Fixpoint hits (l : list (res answer)) (labels : list nat) : Z :=
  match l, labels with
  | Ok (AClass y) :: l', y' :: labels' => (if Nat.eqb y' y then 1 else 0) + hits l' labels'
  | _, _ => 0
  end.

(** The same trainer made with another n_jobs. *)
Definition with_jobs {M S} (j : Z) (t : trainer M S) : trainer M S :=
  mkTr j (t_seed t) (t_epochs t) (t_early t) (t_load t) (t_folds t) (t_train t) (t_eval t) (t_best t) (t_results t) (t_m t) (t_state t).

(** Every outcome of the schedule is one the pool can produce (the interleavings
    of ModelExecutor.v), started on blocks and votes arrays of the right sizes. *)
Definition pool_schedule (Sc : schedule) : Prop :=
  forall k ncls d x, exec_inv ncls (dr_exec x) ->
    mt_train_epoch block (list Z) (dense_train_ex (dr_bo x)) (dense_upd (dr_bo x) (dr_boost x)) nat fb_process
      (feed (dr_n x) d) (dr_exec x) (s_epoch Sc k d x) /\
    (let out := repeat O (length (y_rows (d_y d))) in
     if Nat.eqb (length out) (length (feed (dr_n x) d)) then
       exists ys bs fb, mt_eval_list block (list Z) dense_eval_ex (map fst (feed (dr_n x) d))
           (x_blocks (dr_exec x), x_fb (dr_exec x)) (ys, bs, fb) /\
         s_eval Sc k d x = (true, ys, mkExec bs fb (x_index (dr_exec x)) (x_rng (dr_exec x)))
     else s_eval Sc k d x = (false, out, dr_exec x)).
