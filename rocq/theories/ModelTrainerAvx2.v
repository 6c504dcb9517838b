(** The AVX2 machine behind green_tsetlin/trainer.py: what _train_inner
    (258-368) does with the blocks backend.py:57-64 selects on a CPU with AVX2
    (ClauseBlockAVX2_L?_B?, main.cpp:161-178, kernels of src/func_avx2.hpp).

    Covered: single-label machines with feedback_type
    "focused_negative_sampling" on dense data, or on csr data decoded by
    SparseInputDenseOutputBlock; everything around the blocks is shared with
    ModelTrainerDense.v. *)
From Coq Require Import ZArith List Bool QArith Lia.
From Verif Require Import Base ModelRuleSet ModelDense ModelFeedback ModelExecutor ModelLayout
  ModelMachine ModelTrainer ModelAvx2 ModelTrainerDense.
Import ListNotations.
Open Scope Z_scope.

(** What the seeded generators produce, and the uninitialised literal_counts
    arrays (func_avx2.hpp:28-30, 59-60; feedback_block.hpp:30-32,
    executor.hpp:86). *)
Record vgens := mkVgens {
  v_vec : Z -> vrng;       (* block: XorShift128plus4G *)
  v_fast : Z -> rng;       (* block: Wyhash64 *)
  v_fb : Z -> rng;         (* feedback block *)
  v_shuffle : Z -> irng;   (* executor *)
  v_junk : Z -> list Z
}.

(** The s of a block (aligned_tsetlin_state.hpp:62-73).  An infinite s gives the
    byte threshold of any s above 255; for a NaN s, which the constructor accepts
    too, the conversion to int32 is undefined: here it gives the same threshold. *)
Definition s_of (s : fl) : Q := match s with Fin q => q | _ => 1000%Q end.

(** cb.initialize(seed) (clause_block.hpp:158-163). *)
Definition avx_alloc_block (G : vgens) (cb : cblock) (seed : Z) : option ablock :=
  avx_initialize (v_vec G) (v_fast G) (v_junk G seed) (c_nlit cb) (Z.to_nat (c_ncl cb)) (c_ncls cb) (c_budget cb)
                 (s_of (c_s cb)) seed.
Fixpoint avx_alloc_all (G : vgens) (l : list (cblock * Z * bool)) : option (list ablock) :=
  match l with
  | [] => Some []
  | e :: l' => match avx_alloc_block G (fst (fst e)) (snd (fst e)), avx_alloc_all G l' with
               | Some b, Some bs => Some (b :: bs)
               | _, _ => None
               end
  end.

(** The arrays of an AVX2 block: clause rows padded to whole vectors
    (func_avx2.hpp:36-57), weights not padded (79-84; main.cpp:167). *)
Definition flat_of_ablock (b : ablock) : flat :=
  mkFlat (length (a_rows b)) (a_nlit b) (a_lmem b) (a_ncls b) (a_ncls b) (concat (a_rows b)) (concat (a_weights b)).
(** The block after its arrays have been written; [rows_in]: the rows of the
    clause array (func_avx2.hpp:181-186). *)
Definition rows_in (f : flat) : list (list Z) :=
  map (fun k => slice (f_clauses f) (k * (f_lmem f * 2)) (f_lmem f * 2)) (seq 0 (f_ncl f)).
Definition with_aflat (f : flat) (b : ablock) : ablock :=
  mkABlock (a_nlit b) (a_lmem b) (a_mask b) (a_ncls b) (rows_in f) (view_all_weights f) (a_outputs b) (a_counts b)
           (a_votes b) (a_budget b) (a_cmp b) (a_vrng b) (a_fast b).

(** m_current_example (input_block.hpp:48-68): whole blocks of 32 bytes, zeros
    behind the example. *)
Definition padded (n : nat) (x : list Z) : list Z := x ++ repeat 0 ((n / 32 + 1) * 32 - n).
Definition avx_feed (n : nat) (d : data) : list (list Z * nat) :=
  map (fun e => (padded n (fst e), snd e)) (feed n d).

(** The running backend. *)
Record vrun := mkVrun { vu_n : nat; vu_bo : bool; vu_boost : bool; vu_exec : exec ablock }.

(** trainer.py:282-290 and the executor constructor. *)
Definition avx_launch (G : vgens) (m : tm) (cbs : list cblock) (st : option dense_state) (n_jobs seed : Z) (d : data)
  : res vrun :=
  match allocate_clause_blocks cbs seed with
  | Raise e => Raise e
  | Ok l =>
      if (1 <? labels_per_example (d_y d))%nat || negb (executor_accepts l) then Raise RuntimeError
      else
        match avx_alloc_all G l with
        | None => Raise RuntimeError
        | Some bs =>
            let bs := match st with
                      | None => bs
                      | Some s => map2 with_aflat (save_state_in_backend s (map flat_of_ablock bs)) bs
                      end in
            Ok (mkVrun (tm_nlit m) (fst (get_backend m)) (snd (get_backend m))
                  (mkExec (map (fun b => (true, b)) bs)
                          (new_fblock (tm_ncls m) (inject_Z (tm_threshold m)) (v_fb G seed)) []
                          (v_shuffle G seed)))
        end
  end.

(** exec.train_epoch() (316) and exec.eval_predict(y_hat) (324-328). *)
Definition avx_epoch (d : data) (x : vrun) : fl * vrun :=
  let '(acc, e) := train_epoch ablock (list Z) (avx_train_ex (vu_bo x)) (avx_upd (vu_bo x) (vu_boost x)) nat fb_process
                     (avx_feed (vu_n x) d) (vu_exec x) in
  (Fin acc, mkVrun (vu_n x) (vu_bo x) (vu_boost x) e).
Definition avx_evaluate (d : data) (x : vrun) : list nat * vrun :=
  let '(_, ys, e) := eval_predict ablock (list Z) avx_eval_ex nat
                       (avx_feed (vu_n x) d) (repeat O (length (y_rows (d_y d)))) (vu_exec x) in
  (ys, mkVrun (vu_n x) (vu_bo x) (vu_boost x) e).

(** tm._load_state_from_backend(only_return_copy=True) (tsetlin_machine.py:201-222). *)
Definition avx_snap (m : tm) (x : vrun) : dense_state :=
  load_state_from_backend (map (fun tb : bool * ablock => flat_of_ablock (snd tb)) (x_blocks (vu_exec x)))
                          (zero_state (tm_nlit m) (Z.to_nat (tm_ncl m)) (tm_ncls m)).

Definition avx_backend (G : vgens) (score : yarr -> list nat -> res fl) (callback : nat -> fl -> fl -> option exn)
  (assign : Z -> Z -> data -> res (list nat)) : backend tm (list cblock) vrun dense_state (list nat) :=
  mkBk tm_nlit (fun _ => false) dense_construct (avx_launch G) avx_epoch avx_evaluate avx_snap
       score callback assign.

(** ** With the thread pool (trainer.py:286-290): as in ModelTrainerDense.v *)
Record vschedule := mkVschedule {
  vs_epoch : nat -> data -> vrun -> Q * exec ablock;
  vs_eval : nat -> data -> vrun -> bool * list nat * exec ablock
}.
Record vtrun := mkVtrun { vt_jobs : Z; vt_time : nat; vt_run : vrun }.

Definition with_vexec (x : vrun) (e : exec ablock) : vrun := mkVrun (vu_n x) (vu_bo x) (vu_boost x) e.
Definition avx_mt_epoch (Sc : vschedule) (d : data) (p : vtrun) : fl * vtrun :=
  let '(acc, x) := if vt_jobs p =? 1 then avx_epoch d (vt_run p)
                   else let '(acc, e) := vs_epoch Sc (vt_time p) d (vt_run p) in (Fin acc, with_vexec (vt_run p) e) in
  (acc, mkVtrun (vt_jobs p) (S (vt_time p)) x).
Definition avx_mt_evaluate (Sc : vschedule) (d : data) (p : vtrun) : list nat * vtrun :=
  let '(ys, x) := if vt_jobs p =? 1 then avx_evaluate d (vt_run p)
                  else let '(_, ys, e) := vs_eval Sc (vt_time p) d (vt_run p) in (ys, with_vexec (vt_run p) e) in
  (ys, mkVtrun (vt_jobs p) (S (vt_time p)) x).

Definition avx_threaded (G : vgens) (Sc : vschedule) (score : yarr -> list nat -> res fl)
  (callback : nat -> fl -> fl -> option exn) (assign : Z -> Z -> data -> res (list nat))
  : backend tm (list cblock) vtrun dense_state (list nat) :=
  mkBk tm_nlit (fun _ => false) dense_construct
       (fun m cbs st n_jobs seed d => match avx_launch G m cbs st n_jobs seed d with
                                      | Raise e => Raise e
                                      | Ok x => Ok (mkVtrun n_jobs O x)
                                      end)
       (avx_mt_epoch Sc) (avx_mt_evaluate Sc) (fun m p => avx_snap m (vt_run p)) score callback assign.
