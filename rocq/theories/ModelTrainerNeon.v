(** The NEON machine behind green_tsetlin/trainer.py: what _train_inner (258-368)
    does with the blocks backend.py:66-70 selects where has_neon() says yes
    (ClauseBlockNeon_L?_B?, main.cpp:210-234, kernels of src/func_neon.hpp).

    Covered: as in ModelTrainerAvx2.v, whose run, feed and state transfer are
    shared (the blocks are AlignedTsetlinStates too, rows of 16 byte vectors).
    Simplification: a machine without a literal budget trains into a null pointer
    at its first example (C78), which no result of train describes; launching one
    raises here, and the theorems leave such machines out by hypothesis. *)
From Coq Require Import ZArith List Bool QArith Lia.
From Verif Require Import Base ModelRuleSet ModelDense ModelFeedback ModelExecutor ModelLayout
  ModelMachine ModelTrainer ModelAvx2 ModelNeon ModelTrainerDense ModelTrainerAvx2.
Import ListNotations.
Open Scope Z_scope.

(** What the seeded generators produce (func_neon.hpp:66-71;
    feedback_block.hpp:30-32, executor.hpp:86). *)
Record ngens := mkNgens {
  n_vec : Z -> vrng;       (* block: the vector generator *)
  n_std : Z -> rng;        (* block: std::default_random_engine, first rows and weights *)
  n_fast : Z -> rng;       (* block: Wyhash64 *)
  n_fb : Z -> rng;         (* feedback block *)
  n_shuffle : Z -> irng;   (* executor *)
  n_junk : Z -> list Z
}.

(** cb.initialize(seed) (clause_block.hpp:158-163). *)
Definition neon_alloc_block (G : ngens) (cb : cblock) (seed : Z) : option ablock :=
  neon_initialize (n_vec G) (n_std G) (n_fast G) (n_junk G seed) (c_nlit cb) (Z.to_nat (c_ncl cb)) (c_ncls cb) (c_budget cb)
                  (s_of (c_s cb)) seed.
Fixpoint neon_alloc_all (G : ngens) (l : list (cblock * Z * bool)) : option (list ablock) :=
  match l with
  | [] => Some []
  | e :: l' => match neon_alloc_block G (fst (fst e)) (snd (fst e)), neon_alloc_all G l' with
               | Some b, Some bs => Some (b :: bs)
               | _, _ => None
               end
  end.

(** trainer.py:282-290 and the executor constructor. *)
Definition neon_launch (G : ngens) (m : tm) (cbs : list cblock) (st : option dense_state) (n_jobs seed : Z) (d : data)
  : res vrun :=
  match allocate_clause_blocks cbs seed with
  | Raise e => Raise e
  | Ok l =>
      if (1 <? labels_per_example (d_y d))%nat || negb (executor_accepts l) || negb (fst (get_backend m)) then Raise RuntimeError
      else
        match neon_alloc_all G l with
        | None => Raise RuntimeError
        | Some bs =>
            let bs := match st with
                      | None => bs
                      | Some s => map2 with_aflat (save_state_in_backend s (map flat_of_ablock bs)) bs
                      end in
            Ok (mkVrun (tm_nlit m) (fst (get_backend m)) (snd (get_backend m))
                  (mkExec (map (fun b => (true, b)) bs)
                          (new_fblock (tm_ncls m) (inject_Z (tm_threshold m)) (n_fb G seed)) []
                          (n_shuffle G seed)))
        end
  end.

(** exec.train_epoch() (316) and exec.eval_predict(y_hat) (324-328). *)
Definition neon_epoch (d : data) (x : vrun) : fl * vrun :=
  let '(acc, e) := train_epoch ablock (list Z) neon_train_ex (neon_upd (vu_boost x)) nat fb_process
                     (avx_feed (vu_n x) d) (vu_exec x) in
  (Fin acc, mkVrun (vu_n x) (vu_bo x) (vu_boost x) e).
Definition neon_evaluate (d : data) (x : vrun) : list nat * vrun :=
  let '(_, ys, e) := eval_predict ablock (list Z) neon_eval_ex nat
                       (avx_feed (vu_n x) d) (repeat O (length (y_rows (d_y d)))) (vu_exec x) in
  (ys, mkVrun (vu_n x) (vu_bo x) (vu_boost x) e).

Definition neon_backend (G : ngens) (score : yarr -> list nat -> res fl) (callback : nat -> fl -> fl -> option exn)
  (assign : Z -> Z -> data -> res (list nat)) : backend tm (list cblock) vrun dense_state (list nat) :=
  mkBk tm_nlit (fun _ => false) dense_construct (neon_launch G) neon_epoch neon_evaluate avx_snap
       score callback assign.

(** ** With the thread pool (trainer.py:286-290): as in ModelTrainerDense.v *)
Definition neon_mt_epoch (Sc : vschedule) (d : data) (p : vtrun) : fl * vtrun :=
  let '(acc, x) := if vt_jobs p =? 1 then neon_epoch d (vt_run p)
                   else let '(acc, e) := vs_epoch Sc (vt_time p) d (vt_run p) in (Fin acc, with_vexec (vt_run p) e) in
  (acc, mkVtrun (vt_jobs p) (S (vt_time p)) x).
Definition neon_mt_evaluate (Sc : vschedule) (d : data) (p : vtrun) : list nat * vtrun :=
  let '(ys, x) := if vt_jobs p =? 1 then neon_evaluate d (vt_run p)
                  else let '(_, ys, e) := vs_eval Sc (vt_time p) d (vt_run p) in (ys, with_vexec (vt_run p) e) in
  (ys, mkVtrun (vt_jobs p) (S (vt_time p)) x).

Definition neon_threaded (G : ngens) (Sc : vschedule) (score : yarr -> list nat -> res fl)
  (callback : nat -> fl -> fl -> option exn) (assign : Z -> Z -> data -> res (list nat))
  : backend tm (list cblock) vtrun dense_state (list nat) :=
  mkBk tm_nlit (fun _ => false) dense_construct
       (fun m cbs st n_jobs seed d => match neon_launch G m cbs st n_jobs seed d with
                                      | Raise e => Raise e
                                      | Ok x => Ok (mkVtrun n_jobs O x)
                                      end)
       (neon_mt_epoch Sc) (neon_mt_evaluate Sc) (fun m p => avx_snap m (vt_run p)) score callback assign.
