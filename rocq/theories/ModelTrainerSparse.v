(** The sparse machine behind green_tsetlin/trainer.py: what _train_inner
    (258-368) does with a native SparseTsetlinMachine (src/func_sparse.hpp) on
    csr data handed out by SparseInputBlock (input_block.hpp:211-276).

    Covered: single-label machines with feedback_type
    "focused_negative_sampling" (trainer.py:215-224).  The machine is the only
    sparse machine of the process, so that the class comparisons of
    trainer.py:140, 192, 246 say "sparse" (ModelRegistry.v has the general case).
    csr index arrays are int32, as scipy makes them below 2^31 entries. *)
From Coq Require Import ZArith List Bool QArith Lia.
From Verif Require Import Base ModelDense ModelRuleSet ModelFeedback ModelExecutor ModelSparse ModelMachine ModelTrainer ModelTrainerDense.
Import ListNotations.
Open Scope Z_scope.

(** SparseTsetlinMachine (sparse_tsetlin_machine.py:91-102): the attributes of
    TsetlinMachine, and its own. *)
Record smachine := mkSm { sm_tm : tm; sm_csize : Z; sm_alsize : Z; sm_thr : Z; sm_dyn : bool }.
Definition with_tm (t : tm) (m : smachine) : smachine := mkSm t (sm_csize m) (sm_alsize m) (sm_thr m) (sm_dyn m).

(** np.ceil(np.sqrt(n)) (98-99), exact below 2^52. *)
Definition ceil_sqrt (n : nat) : nat := let r := Nat.sqrt n in if (r * r =? n)%nat then r else S r.
Definition sparse_init (nlit : nat) (ncl : Z) (ncls : nat) (s : sarg) (threshold : Z) (budget : option Z) (boost dynamic multi : bool)
  : res smachine :=
  match tm_init nlit ncl ncls s threshold budget boost multi with
  | Raise e => Raise e
  | Ok t => Ok (mkSm t (Z.of_nat (ceil_sqrt nlit)) (Z.of_nat (ceil_sqrt nlit)) (-40) dynamic)
  end.

(** _set_extra_params_on_cb (198-212) raises on every block or on none. *)
Definition extra_bad (m : smachine) : bool := (sm_alsize m <? 1) || (sm_csize m <? 1) || (0 <? sm_thr m).
(** construct_clause_blocks (tsetlin_machine.py:289-319) with it: the first block
    that would have been appended is not. *)
Definition sparse_build (m : smachine) : res (list cblock) * smachine :=
  let '(r, t) := construct_clause_blocks (sm_tm m) in
  if extra_bad m then
    match tm_sizes (sm_tm m), tm_cbs t with
    | Some _, Some (_ :: _) => (Raise ValueError, with_tm (with_cbs (Some []) t) m)
    | _, _ => (r, with_tm t m)
    end
  else (r, with_tm t m).

(** trainer.py:264-277. *)
Definition sparse_construct (m : smachine) (n_jobs seed : Z) (d : data) : res (list cblock) * smachine :=
  let '(r, t) := match tm_sizes (sm_tm m) with
                 | None => set_num_clause_blocks (BInt n_jobs) (sm_tm m)
                 | Some _ => (Ok tt, sm_tm m)
                 end in
  match r with Raise e => (Raise e, with_tm t m) | Ok _ => sparse_build (with_tm t m) end.

(** cb.initialize(seed) (clause_block.hpp:158-163, func_sparse.hpp:24-94). *)
Definition sparse_alloc_block (G : gens) (m : smachine) (cb : cblock) (seed : Z) : option sblock :=
  sp_initialize (fst (c_kind cb)) (g_fast G) (g_junk G seed) (c_nlit cb) (Z.to_nat (c_ncl cb)) (c_ncls cb)
                (Z.to_nat (sm_csize m)) (Z.to_nat (sm_alsize m)) (sm_thr m) (c_budget cb)
                (s_inv_of (c_s cb)) (s_min1_inv_of (c_s cb)) seed.
Fixpoint sparse_alloc_all (G : gens) (m : smachine) (l : list (cblock * Z * bool)) : option (list sblock) :=
  match l with
  | [] => Some []
  | e :: l' => match sparse_alloc_block G m (fst (fst e)) (snd (fst e)), sparse_alloc_all G m l' with
               | Some b, Some bs => Some (b :: bs)
               | _, _ => None
               end
  end.

(** The examples as SparseInputBlock hands them out: the stored column indices of
    the row (input_block.hpp:235-252). *)
Definition sparse_feed (d : data) : list (list nat * nat) :=
  combine (map (map Z.to_nat) (x_rows (d_x d))) (map label_of (y_rows (d_y d))).

(** The running backend: template flags and the executor with its blocks. *)
Record srun := mkSrun { su_bo : bool; su_boost : bool; su_dyn : bool; su_exec : exec sblock }.

(** trainer.py:282-290 and the executor constructor.  Blocks that initialize left
    uninitialised (seed 0, budget 0) make the executor constructor throw; a state
    is written into them first (undefined), the exception stands for that too. *)
Definition sparse_launch (G : gens) (m : smachine) (cbs : list cblock) (st : option sparse_state) (n_jobs seed : Z) (d : data)
  : res srun :=
  match allocate_clause_blocks cbs seed with
  | Raise e => Raise e
  | Ok l =>
      if negb (executor_accepts l) then Raise RuntimeError
      else
        match sparse_alloc_all G m l with
        | None => Raise RuntimeError
        | Some bs =>
            match (match st with None => Ok bs | Some s => sp_save_state s bs end) with
            | Raise e => Raise e
            | Ok bs =>
                if (1 <? labels_per_example (d_y d))%nat then Raise RuntimeError
                else Ok (mkSrun (fst (get_backend (sm_tm m))) (snd (get_backend (sm_tm m))) (sm_dyn m)
                           (mkExec (map (fun b => (true, b)) bs)
                                   (new_fblock (tm_ncls (sm_tm m)) (inject_Z (tm_threshold (sm_tm m))) (g_fb G seed)) []
                                   (g_shuffle G seed)))
            end
        end
  end.

(** exec.train_epoch() (316) and exec.eval_predict(y_hat) (324-328). *)
Definition sparse_epoch (d : data) (x : srun) : fl * srun :=
  let '(acc, e) := train_epoch sblock (list nat) (sp_train_ex (su_bo x)) (sp_train_update (su_bo x) (su_boost x) (su_dyn x)) nat fb_process
                     (sparse_feed d) (su_exec x) in
  (Fin acc, mkSrun (su_bo x) (su_boost x) (su_dyn x) e).
Definition sparse_evaluate (d : data) (x : srun) : list nat * srun :=
  let '(_, ys, e) := eval_predict sblock (list nat) sp_eval_ex nat
                       (sparse_feed d) (repeat O (length (y_rows (d_y d)))) (su_exec x) in
  (ys, mkSrun (su_bo x) (su_boost x) (su_dyn x) e).

(** tm._load_state_from_backend(only_return_copy=True)
    (sparse_tsetlin_machine.py:110-136). *)
Definition sparse_snap (m : smachine) (x : srun) : sparse_state :=
  sp_load_state (tm_nlit (sm_tm m)) (Z.to_nat (tm_ncl (sm_tm m))) (tm_ncls (sm_tm m)) (map snd (x_blocks (su_exec x))).

Definition sparse_backend (G : gens) (score : yarr -> list nat -> res fl) (callback : nat -> fl -> fl -> option exn)
  (assign : Z -> Z -> data -> res (list nat)) : backend smachine (list cblock) srun sparse_state (list nat) :=
  mkBk (fun m => tm_nlit (sm_tm m)) (fun _ => true) sparse_construct (sparse_launch G) sparse_epoch sparse_evaluate sparse_snap
       score callback assign.

(** ** With the thread pool (trainer.py:286-290): as in ModelTrainerDense.v *)
Record sschedule := mkSschedule {
  ss_epoch : nat -> data -> srun -> Q * exec sblock;
  ss_eval : nat -> data -> srun -> bool * list nat * exec sblock
}.
Record strun := mkStrun { st_jobs : Z; st_time : nat; st_run : srun }.

Definition with_sexec (x : srun) (e : exec sblock) : srun := mkSrun (su_bo x) (su_boost x) (su_dyn x) e.
Definition sparse_mt_epoch (Sc : sschedule) (d : data) (p : strun) : fl * strun :=
  let '(acc, x) := if st_jobs p =? 1 then sparse_epoch d (st_run p)
                   else let '(acc, e) := ss_epoch Sc (st_time p) d (st_run p) in (Fin acc, with_sexec (st_run p) e) in
  (acc, mkStrun (st_jobs p) (S (st_time p)) x).
Definition sparse_mt_evaluate (Sc : sschedule) (d : data) (p : strun) : list nat * strun :=
  let '(ys, x) := if st_jobs p =? 1 then sparse_evaluate d (st_run p)
                  else let '(_, ys, e) := ss_eval Sc (st_time p) d (st_run p) in (ys, with_sexec (st_run p) e) in
  (ys, mkStrun (st_jobs p) (S (st_time p)) x).

Definition sparse_threaded (G : gens) (Sc : sschedule) (score : yarr -> list nat -> res fl)
  (callback : nat -> fl -> fl -> option exn) (assign : Z -> Z -> data -> res (list nat))
  : backend smachine (list cblock) strun sparse_state (list nat) :=
  mkBk (fun m => tm_nlit (sm_tm m)) (fun _ => true) sparse_construct
       (fun m cbs st n_jobs seed d => match sparse_launch G m cbs st n_jobs seed d with
                                      | Raise e => Raise e
                                      | Ok x => Ok (mkStrun n_jobs O x)
                                      end)
       (sparse_mt_epoch Sc) (sparse_mt_evaluate Sc) (fun m p => sparse_snap m (st_run p)) score callback assign.
