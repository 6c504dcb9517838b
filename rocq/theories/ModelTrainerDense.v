(** The dense scalar machine behind green_tsetlin/trainer.py: what _train_inner
    (258-368) does with a native TsetlinMachine (src/func_tm.hpp) on dense data
    or on csr data decoded by SparseInputDenseOutputBlock.

    Covered: single-label machines with feedback_type
    "focused_negative_sampling" (trainer.py:215-224).  Both executors are the
    same function here; that a thread pool cannot change results is a separate
    theorem about ModelExecutor.v.  Labels with more than one column make the
    executor constructor throw (executor.hpp:56-66). *)
From Coq Require Import ZArith List Bool QArith Lia.
From Verif Require Import Base ModelRuleSet ModelDense ModelFeedback ModelExecutor ModelDenseExec ModelLayout
  ModelMachine ModelTrainer.
Import ListNotations.
Open Scope Z_scope.

(** What the seeded generators produce, and the uninitialised literal_counts
    arrays (func_tm.hpp:36-40, feedback_block.hpp:30-32, executor.hpp:86). *)
Record gens := mkGens {
  g_std : Z -> rng;        (* block: std::default_random_engine *)
  g_fast : Z -> rng;       (* block: Wyhash64 *)
  g_fb : Z -> rng;         (* feedback block *)
  g_shuffle : Z -> irng;   (* executor *)
  g_junk : Z -> list Z
}.

(** set_s (aligned_tsetlin_state.hpp:62-67): 1/s and (s-1)/s.  For an infinite or
    NaN s some of these are NaN; the code only tests draw <= value with draws
    >= 0, which a NaN and -1 answer alike. *)
Definition s_inv_of (s : fl) : Q := match s with Fin q => (1 / q)%Q | Fpinf => 0%Q | _ => (-1)%Q end.
Definition s_min1_inv_of (s : fl) : Q := match s with Fin q => ((q - 1) / q)%Q | _ => (-1)%Q end.

(** cb.initialize(seed) (clause_block.hpp:158-163). *)
Definition alloc_block (G : gens) (cb : cblock) (seed : Z) : option block :=
  initialize (g_std G) (g_fast G) (g_junk G seed) (c_nlit cb) (Z.to_nat (c_ncl cb)) (c_ncls cb) (c_budget cb)
             (s_inv_of (c_s cb)) (s_min1_inv_of (c_s cb)) seed.

(** The arrays of a scalar block: no padding (func_tm.hpp:22-31). *)
Definition flat_of_block (b : block) : flat :=
  mkFlat (length (b_clauses b)) (b_nlit b) (b_nlit b) (b_ncls b) (b_ncls b)
         (concat (map (fun c => cl_pos c ++ cl_neg c) (b_clauses b))) (concat (b_weights b)).
Definition with_flat (f : flat) (b : block) : block :=
  mkBlock (b_nlit b) (b_ncls b) (view_clauses f) (view_all_weights f) (b_outputs b) (b_counts b) (b_votes b)
          (b_budget b) (b_s_inv b) (b_s_min1_inv b) (b_rng b) (b_fast b).

(** Literals of the examples as the input block hands them out
    (input_block.hpp:83-89, 162-174). *)
Definition decode_row (n : nat) (cols : list Z) : list Z :=
  fold_left (fun row c => set_nth (Z.to_nat c) 1 row) cols (repeat 0 n).
Definition literal_rows (n : nat) (x : xarr) : list (list Z) :=
  match x_kind x with KCsr => map (decode_row n) (x_rows x) | _ => x_rows x end.
(** pull_current_label()[0] (input_block.hpp:85-86, 96-99). *)
Definition label_of (row : list Z) : nat := Z.to_nat (hd 0 row).
Definition feed (n : nat) (d : data) : list (list Z * nat) :=
  combine (literal_rows n (d_x d)) (map label_of (y_rows (d_y d))).

(** get_num_labels_per_example after set_data (input_block.hpp:125-128). *)
Definition labels_per_example (y : yarr) : nat := match y_shape y with _ :: k :: _ => k | _ => 1%nat end.

(** The running backend: template flags of the block class and the executor with
    its blocks. *)
Record drun := mkDrun { dr_n : nat; dr_bo : bool; dr_boost : bool; dr_exec : exec block }.

(** trainer.py:264-277. *)
Definition dense_construct (m : tm) (n_jobs seed : Z) (d : data) : res (list cblock) * tm :=
  let '(r, m) := match tm_sizes m with
                 | None => set_num_clause_blocks (BInt n_jobs) m
                 | Some _ => (Ok tt, m)
                 end in
  match r with Raise e => (Raise e, m) | Ok _ => construct_clause_blocks m end.

Fixpoint alloc_all (G : gens) (l : list (cblock * Z * bool)) : option (list block) :=
  match l with
  | [] => Some []
  | e :: l' => match alloc_block G (fst (fst e)) (snd (fst e)), alloc_all G l' with
               | Some b, Some bs => Some (b :: bs)
               | _, _ => None
               end
  end.

(** trainer.py:282-290 and the executor constructor.  With seed 0 a machine that
    has a state writes it into unallocated blocks first (undefined); here the
    exception the constructor would throw stands for that too. *)
Definition dense_launch (G : gens) (m : tm) (cbs : list cblock) (st : option dense_state) (n_jobs seed : Z) (d : data)
  : res drun :=
  match allocate_clause_blocks cbs seed with
  | Raise e => Raise e
  | Ok l =>
      if (1 <? labels_per_example (d_y d))%nat || negb (executor_accepts l) then Raise RuntimeError
      else
        match alloc_all G l with
        | None => Raise RuntimeError
        | Some bs =>
            let bs := match st with
                      | None => bs
                      | Some s => map2 with_flat (save_state_in_backend s (map flat_of_block bs)) bs
                      end in
            Ok (mkDrun (tm_nlit m) (fst (get_backend m)) (snd (get_backend m))
                  (mkExec (map (fun b => (true, b)) bs)
                          (new_fblock (tm_ncls m) (inject_Z (tm_threshold m)) (g_fb G seed)) []
                          (g_shuffle G seed)))
        end
  end.

(** exec.train_epoch() (316) and exec.eval_predict(y_hat) (324-328), y_hat having
    one entry per label. *)
Definition dense_epoch (d : data) (x : drun) : fl * drun :=
  let '(acc, e) := train_epoch block (list Z) (dense_train_ex (dr_bo x)) (dense_upd (dr_bo x) (dr_boost x)) nat fb_process
                     (feed (dr_n x) d) (dr_exec x) in
  (Fin acc, mkDrun (dr_n x) (dr_bo x) (dr_boost x) e).
Definition dense_evaluate (d : data) (x : drun) : list nat * drun :=
  let '(_, ys, e) := eval_predict block (list Z) dense_eval_ex nat
                       (feed (dr_n x) d) (repeat O (length (y_rows (d_y d)))) (dr_exec x) in
  (ys, mkDrun (dr_n x) (dr_bo x) (dr_boost x) e).

(** tm._load_state_from_backend(only_return_copy=True) (tsetlin_machine.py:201-222). *)
Definition dense_snap (m : tm) (x : drun) : dense_state :=
  load_state_from_backend (map (fun tb : bool * block => flat_of_block (snd tb)) (x_blocks (dr_exec x)))
                          (zero_state (tm_nlit m) (Z.to_nat (tm_ncl m)) (tm_ncls m)).

Definition dense_backend (G : gens) (score : yarr -> list nat -> res fl) (callback : nat -> fl -> fl -> option exn)
  (assign : Z -> Z -> data -> res (list nat)) : backend tm (list cblock) drun dense_state (list nat) :=
  mkBk tm_nlit (fun _ => false) dense_construct (dense_launch G) dense_epoch dense_evaluate dense_snap
       score callback assign.

(** accuracy_score, the default fn_eval_score (trainer.py:79-82): the fraction of
    equal labels; sklearn refuses arrays of different length, and the mean of
    nothing is NaN. *)
Definition accuracy_score (y : yarr) (p : list nat) : res fl :=
  let ys := map label_of (y_rows y) in
  if negb (Nat.eqb (length ys) (length p)) then Raise ValueError
  else match ys with
       | [] => Ok Fnan
       | _ => Ok (Fin (inject_Z (zsum (map2 (fun a b => if Nat.eqb a b then 1%Z else 0%Z) ys p)) / inject_Z (Z.of_nat (length ys)))%Q)
       end.

(** ** With the thread pool

    trainer.py:286-290 makes a SingleThreadExecutor when n_jobs is 1 and a
    MultiThreadExecutor otherwise.  How the pool interleaves its tasks differs
    from epoch to epoch; [s_epoch k] and [s_eval k] are the outcomes of the k-th
    piece of work given to the pool. *)
Record schedule := mkSchedule {
  s_epoch : nat -> data -> drun -> Q * exec block;
  s_eval : nat -> data -> drun -> bool * list nat * exec block
}.
Record trun := mkTrun { tr_jobs : Z; tr_time : nat; tr_run : drun }.

Definition with_exec (x : drun) (e : exec block) : drun := mkDrun (dr_n x) (dr_bo x) (dr_boost x) e.
Definition threaded_epoch (Sc : schedule) (d : data) (p : trun) : fl * trun :=
  let '(acc, x) := if tr_jobs p =? 1 then dense_epoch d (tr_run p)
                   else let '(acc, e) := s_epoch Sc (tr_time p) d (tr_run p) in (Fin acc, with_exec (tr_run p) e) in
  (acc, mkTrun (tr_jobs p) (S (tr_time p)) x).
Definition threaded_evaluate (Sc : schedule) (d : data) (p : trun) : list nat * trun :=
  let '(ys, x) := if tr_jobs p =? 1 then dense_evaluate d (tr_run p)
                  else let '(_, ys, e) := s_eval Sc (tr_time p) d (tr_run p) in (ys, with_exec (tr_run p) e) in
  (ys, mkTrun (tr_jobs p) (S (tr_time p)) x).

Definition threaded_backend (G : gens) (Sc : schedule) (score : yarr -> list nat -> res fl)
  (callback : nat -> fl -> fl -> option exn) (assign : Z -> Z -> data -> res (list nat))
  : backend tm (list cblock) trun dense_state (list nat) :=
  mkBk tm_nlit (fun _ => false) dense_construct
       (fun m cbs st n_jobs seed d => match dense_launch G m cbs st n_jobs seed d with
                                      | Raise e => Raise e
                                      | Ok x => Ok (mkTrun n_jobs O x)
                                      end)
       (threaded_epoch Sc) (threaded_evaluate Sc) (fun m p => dense_snap m (tr_run p)) score callback assign.
