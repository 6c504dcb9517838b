(** C20-C22: epochs, schedules, evaluation without side effects. *)
From Coq Require Import ZArith List Bool QArith Lia Permutation.
From Verif Require Import Base Spec ModelInference ModelDense ModelFeedback ModelExecutor ModelDenseExec
  ProofsExecutor ProofsDenseExec ProofsTopExecutor ExampleData.
Import ListNotations.
Open Scope Z_scope.

(** ** C20 *)

(** The list of examples one epoch trains on, in order: [epoch_order].  It is a
    permutation of the data ... *)
Theorem C20_epoch_is_permutation : forall E L B (data : list (E * L)) (x : exec B),
  Permutation (epoch_order data x) data.
Proof. exact epoch_order_perm. Qed.

(** ... and the epoch is exactly training on that list, one example after the
    other. *)
Theorem C20_epoch_runs_order : forall B E train_ex update (data : list (E * nat)) (x : exec B),
  let s := train_list B E train_ex update nat fb_process (epoch_order data x) (x_blocks x) (fb_reset_counter (x_fb x)) in
  x_blocks (snd (train_epoch B E train_ex update nat fb_process data x)) = fst s /\
  x_fb (snd (train_epoch B E train_ex update nat fb_process data x)) = snd s.
Proof. exact epoch_trajectory. Qed.

(** [hits] counts the steps at which the prediction (fb_predict on the votes
    just counted) equals the label. *)
Theorem C20_epoch_accuracy : forall B E train_ex update (data : list (E * nat)) (x : exec B), data <> [] ->
  let h := hits B E train_ex update (epoch_order data x) (x_blocks x) (fb_reset_counter (x_fb x)) in
  (fst (train_epoch B E train_ex update nat fb_process data x) == inject_Z h / inject_Z (Z.of_nat (length data)))%Q /\
  0 <= h <= Z.of_nat (length data).
Proof. exact epoch_accuracy. Qed.

Theorem C20_accuracy_in_unit_interval : forall B E train_ex update (data : list (E * nat)) (x : exec B),
  (0 <= fst (train_epoch B E train_ex update nat fb_process data x) <= 1)%Q.
Proof. exact accuracy_unit. Qed.

Example C20_case : map fst (epoch_order ex_data (ex_exec ex_flats)) <> map fst ex_data /\
  (fst (train_epoch block (list Z) (dense_train_ex true) (dense_upd true false) nat fb_process (ex_data ++ [([1;0;0]%Z, 1%nat)]) (ex_exec ex_flats)) == 4 # 5)%Q.
Proof. split; [vm_compute; discriminate|vm_compute; reflexivity]. Qed.

(** ** C21 *)

(** Every schedule of the pool that finishes gives the result of the
    single-thread executor: training. *)
Theorem C21_train_schedule_independent : forall ncls bo boost (L : Type) (process : L -> fblock -> fblock)
  (data : list (list Z * L)) (x : exec block) r,
  (forall l f, fb_ok ncls f -> fb_ok ncls (process l f)) ->
  exec_inv ncls x ->
  mt_train_epoch block (list Z) (dense_train_ex bo) (dense_upd bo boost) L process data x r ->
  r = train_epoch block (list Z) (dense_train_ex bo) (dense_upd bo boost) L process data x.
Proof. exact dense_mt_epoch. Qed.

(** Evaluation. *)
Theorem C21_eval_schedule_independent : forall ncls (es : list (list Z)) bs fb r,
  blocks_inv ncls bs -> fb_ok ncls fb ->
  mt_eval_list block (list Z) dense_eval_ex es (bs, fb) r ->
  r = eval_list block (list Z) dense_eval_ex es bs fb.
Proof. exact dense_mt_eval. Qed.

(** No schedule can get stuck or run for ever: each atomic step reduces the
    work left by one, and every partial schedule can be completed. *)
Theorem C21_steps_reduce_work : forall B E (f : E -> B -> B * list Z) e s1 s2,
  phase_step B E f e s1 s2 -> work_left B (fst s1) = S (work_left B (fst s2)).
Proof. exact work_left_step. Qed.
Theorem C21_schedules_complete : forall B E (f : E -> B -> B * list Z) e n ks fb, work_left B ks = n ->
  exists bs1 fb1, phase_steps B E f e (ks, fb) (finished B bs1, fb1).
Proof. exact phase_completes. Qed.
Theorem C21_train_run_exists : forall ncls bo boost (L : Type) (process : L -> fblock -> fblock)
  (data : list (list Z * L)) (x : exec block),
  (forall l f, fb_ok ncls f -> fb_ok ncls (process l f)) -> exec_inv ncls x ->
  mt_train_epoch block (list Z) (dense_train_ex bo) (dense_upd bo boost) L process data x
    (train_epoch block (list Z) (dense_train_ex bo) (dense_upd bo boost) L process data x).
Proof. exact dense_mt_epoch_exists. Qed.

(** The same for any kind of block whose votes have one entry per class. *)
Theorem C21_any_block : forall B E ncls (inv : B -> Prop) train_ex update (L : Type) (process : L -> fblock -> fblock)
  (data : list (E * L)) (x : exec B) r,
  good_ex B E ncls inv train_ex ->
  (forall e p pp n np b, inv b -> inv (update e p pp n np b)) ->
  (forall l f, fb_ok ncls f -> fb_ok ncls (process l f)) ->
  all_inv B inv (x_blocks x) -> fb_ok ncls (x_fb x) ->
  mt_train_epoch B E train_ex update L process data x r ->
  train_epoch B E train_ex update L process data x = r.
Proof. exact any_mt_epoch. Qed.

(** The standard feedback block meets the hypothesis on [process]. *)
Theorem C21_process_ok : forall ncls l f, fb_ok ncls f -> fb_ok ncls (fb_process l f).
Proof. exact fb_process_good. Qed.

Example C21_case : exec_inv 2 (ex_exec ex_flats) /\
  mt_train_epoch block (list Z) (dense_train_ex true) (dense_upd true false) nat fb_process ex_data (ex_exec ex_flats)
    (train_epoch block (list Z) (dense_train_ex true) (dense_upd true false) nat fb_process ex_data (ex_exec ex_flats)).
Proof. exact ex_mt_case. Qed.

(** ** C22 *)

(** Evaluation changes nothing but scratch arrays: automata, weights, literal
    counts, generators, budgets, the feedback block's counters and generators,
    the executor's index set and generator are as before. *)
Theorem C22_eval_pure : forall ncls (L : Type) (data : list (list Z * L)) out (x : exec block), exec_inv ncls x ->
  same_exec (snd (eval_predict block (list Z) dense_eval_ex L data out x)) x /\
  exec_inv ncls (snd (eval_predict block (list Z) dense_eval_ex L data out x)).
Proof. exact eval_predict_same. Qed.

(** A program of epochs and evaluations trains like the program without the
    evaluations: same reported accuracies, same final state. *)
Theorem C22_evals_do_not_matter : forall ncls bo boost (L : Type) (process : L -> fblock -> fblock)
  (cs : list (xcall L)) (x : exec block),
  (forall l f, fb_ok ncls f -> fb_ok ncls (process l f)) -> exec_inv ncls x ->
  fst (xrun bo boost L process cs x) = fst (xrun bo boost L process (filter (is_train L) cs) x) /\
  same_exec (snd (xrun bo boost L process cs x)) (snd (xrun bo boost L process (filter (is_train L) cs) x)).
Proof. exact evals_irrelevant. Qed.

(** Each example's prediction does not depend on the other examples. *)
Theorem C22_eval_pointwise : forall ncls (L : Type) (data : list (list Z * L)) out (x : exec block), exec_inv ncls x ->
  length out = length data ->
  fst (eval_predict block (list Z) dense_eval_ex L data out x) =
  (true, map (fun d => dense_eval_one (x_blocks x) (x_fb x) (fst d)) data).
Proof. exact eval_pointwise. Qed.

(** A wrong output length is reported and nothing is written. *)
Theorem C22_length_mismatch : forall B E eval_ex (L : Type) (data : list (E * L)) out (x : exec B),
  length out <> length data ->
  eval_predict B E eval_ex L data out x = (false, out, x).
Proof. exact eval_mismatch. Qed.

Example C22_case : exec_inv 2 (ex_exec ex_flats) /\
  fst (xrun true false nat fb_process [XEval nat ex_data [0;0;0;0]%nat; XTrain nat ex_data; XEval nat ex_data [0]%nat; XTrain nat ex_data] (ex_exec ex_flats))
  = fst (xrun true false nat fb_process [XTrain nat ex_data; XTrain nat ex_data] (ex_exec ex_flats)).
Proof. exact ex_pure_case. Qed.

Print Assumptions C20_epoch_is_permutation.
Print Assumptions C20_epoch_runs_order.
Print Assumptions C20_epoch_accuracy.
Print Assumptions C20_accuracy_in_unit_interval.
Print Assumptions C21_train_schedule_independent.
Print Assumptions C21_eval_schedule_independent.
Print Assumptions C21_steps_reduce_work.
Print Assumptions C21_schedules_complete.
Print Assumptions C21_train_run_exists.
Print Assumptions C21_any_block.
Print Assumptions C21_process_ok.
Print Assumptions C22_eval_pure.
Print Assumptions C22_evals_do_not_matter.
Print Assumptions C22_eval_pointwise.
Print Assumptions C22_length_mismatch.
