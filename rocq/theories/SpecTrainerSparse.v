(** Vocabulary for complete training runs of the sparse machine. *)
From Coq Require Import ZArith List Bool QArith Lia.
From Verif Require Import Base Spec ModelInference ModelRuleSet ModelDense ModelFeedback ModelExecutor ModelPredictor ModelSparse ModelMachine ModelTrainer
  ModelTrainerDense ModelTrainerSparse SpecSparse SpecTrainerDense ProofsExecutor.
Import ListNotations.
Open Scope Z_scope.

(** The data of a sparse machine: csr rows with increasing column numbers below
    [n], each with a label below [ncls]. *)
Definition csr_data (n ncls : nat) (d : data) : Prop :=
  x_kind (d_x d) = KCsr /\
  length (x_rows (d_x d)) = length (y_rows (d_y d)) /\
  Forall (fun r => increasing (map Z.to_nat r) /\ Forall (fun c => (Z.to_nat c < n)%nat) r) (x_rows (d_x d)) /\
  Forall (fun y => (label_of y < ncls)%nat) (y_rows (d_y d)).

(** A block of the machine in a legal state (sorted clauses within clause_size,
    active literals within their limit, weights of the right shape). *)
Definition legal_block (m : smachine) (b : sblock) : Prop :=
  sp_good (tm_nlit (sm_tm m)) (tm_ncls (sm_tm m)) b /\
  sp_csize b = Z.to_nat (sm_csize m) /\ sp_alsize b = Z.to_nat (sm_alsize m).

(** [s] is what reading out legal blocks of the machine's block sizes gives. *)
Definition read_from (m : smachine) (s : sparse_state) (cbs : list sblock) : Prop :=
  Forall (legal_block m) cbs /\ tm_sizes (sm_tm m) = Some (map (fun b => Z.of_nat (sp_ncl b)) cbs) /\
  s = sp_load_state (tm_nlit (sm_tm m)) (nsum (map sp_ncl cbs)) (tm_ncls (sm_tm m)) cbs.
Definition sparse_fits (m : smachine) (st : option sparse_state) : Prop :=
  match st with None => True | Some s => exists cbs, read_from m s cbs end.

(** A trainer around a sparse single-label machine of at least one class; the
    states it holds and the data set so far fit the machine. *)
Record sparse_sound (t : trainer smachine sparse_state) : Prop := {
  ssd_m : configured (sm_tm (t_m t));
  ssd_ncls : (1 <= tm_ncls (sm_tm (t_m t)))%nat;
  ssd_state : sparse_fits (t_m t) (t_state t);
  ssd_best : sparse_fits (t_m t) (t_best t);
  ssd_train : forall d, t_train t = Some d -> csr_data (tm_nlit (sm_tm (t_m t))) (tm_ncls (sm_tm (t_m t))) d;
  ssd_eval : forall d, t_eval t = Some d -> csr_data (tm_nlit (sm_tm (t_m t))) (tm_ncls (sm_tm (t_m t))) d
}.

(** Using a trainer: successful calls of set_train_data, set_eval_data, train. *)
Inductive sparse_used {X : Type} (B : backend smachine (list cblock) X sparse_state (list nat)) (t : trainer smachine sparse_state)
  : trainer smachine sparse_state -> Prop :=
| sused_new : sparse_used B t t
| sused_train : forall t1 o t2, sparse_used B t t1 -> train B t1 = (Ok o, t2) -> sparse_used B t t2
| sused_set_train : forall t1 x y t2, sparse_used B t t1 -> set_train_data B (Some x) y t1 = (Ok tt, t2) ->
    csr_data (tm_nlit (sm_tm (t_m t1))) (tm_ncls (sm_tm (t_m t1))) (mkData x y) -> sparse_used B t t2
| sused_set_eval : forall t1 x y t2, sparse_used B t t1 -> set_eval_data B (Some x) y t1 = (Ok tt, t2) ->
    csr_data (tm_nlit (sm_tm (t_m t1))) (tm_ncls (sm_tm (t_m t1))) (mkData x y) -> sparse_used B t t2.

(** The 0/1 rows of the data. *)
Definition csr_vectors (n : nat) (d : data) : list (list Z) := map (fun r => vec n (map Z.to_nat r)) (x_rows (d_x d)).

(** [v] is the score, by [score], of the predictor exported from [s] on the
    examples of [d]: the state compiles, and if evaluation and rule set read
    every clause of the blocks [cbs] the same way on every example (C34), and
    the votes fit int16, every predictor made from the rule set answers with
    classes of this score. *)
Definition sparse_scores (score : yarr -> list nat -> res fl) (n ncls : nat) (s : sparse_state) (cbs : list sblock) (d : data) (v : fl) : Prop :=
  exists rs, compile_from_sparse_state s = Ok rs /\
    forall mode excl junk p, from_ruleset mode excl rs junk = Ok p ->
      Forall (fun r => Forall (all_plain (map Z.to_nat r)) cbs) (x_rows (d_x d)) ->
      Forall (fun x => forall c, (c < ncls)%nat -> is_int16 (rule_vote_total n x (rs_rules rs) (rs_weights rs) c)) (csr_vectors n d) ->
      exists ys, answers p (csr_vectors n d) = map (fun y => Ok (AClass y)) ys /\ score (d_y d) ys = Ok v.

(** Every active literal list of the blocks the state was read from has the
    length of the others of its block. *)
Definition even_state (s : sparse_state) : Prop := Forall even_al (ss_al s).

(** Blocks and votes array of the sizes of [ncls] classes. *)
Definition sparse_exec_fits (ncls : nat) (x : exec sblock) : Prop :=
  Forall (fun tb : bool * sblock => sp_ncls (snd tb) = ncls /\ Forall (fun w => length w = ncls) (sp_weights (snd tb))) (x_blocks x) /\
  fb_ok ncls (x_fb x).

(** Every outcome of the schedule is one the pool can produce. *)
Definition sparse_pool (Sc : sschedule) : Prop :=
  forall k ncls d x, sparse_exec_fits ncls (su_exec x) ->
    mt_train_epoch sblock (list nat) (sp_train_ex (su_bo x)) (sp_train_update (su_bo x) (su_boost x) (su_dyn x)) nat fb_process
      (sparse_feed d) (su_exec x) (ss_epoch Sc k d x) /\
    (let out := repeat O (length (y_rows (d_y d))) in
     if Nat.eqb (length out) (length (sparse_feed d)) then
       exists ys bs fb, mt_eval_list sblock (list nat) sp_eval_ex (map fst (sparse_feed d))
           (x_blocks (su_exec x), x_fb (su_exec x)) (ys, bs, fb) /\
         ss_eval Sc k d x = (true, ys, mkExec bs fb (x_index (su_exec x)) (x_rng (su_exec x)))
     else ss_eval Sc k d x = (false, out, su_exec x)).
