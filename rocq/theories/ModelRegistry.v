(** Model of green_tsetlin/backend.py, of the module definition in src/main.cpp
    (the names it exports, has_avx2, has_neon), of the _get_backend functions of
    the three machine classes and of the predictor, and of the part of
    trainer.py that reads the registry: __init__, set_train_data,
    set_eval_data, _select_backend_ib, _get_feedback_block and _train_inner up
    to the construction of the executor.

    The registry [impl] is one mutable dictionary shared by all machines and
    trainers of a process; the model is a small-step world with that dictionary,
    any number of machines and any number of trainers. *)
From Coq Require Import String Ascii ZArith List Bool Lia.
From Verif Require Import Base ModelMachine ModelTrainer ModelPredictor.
Import ListNotations.
Open Scope string_scope.
Open Scope Z_scope.

(** ** Classes *)

Inductive isa := Scalar | Avx2 | Neon.
(** Classes of py_gtc (py_gtc/__init__.py:8-11) used in the registry. *)
Inductive pycls := PyBlock | PyDenseIn | PySparseIn | PySparseDenseIn
                 | PyFeedback | PyMulti | PySingle | PyThread.
(** Classes of green_tsetlin_core (main.cpp:343-485) and of py_gtc.
    [CDense i L B]: ClauseBlockTM/AVX2/Neon_L?_B? (424-450); [CConv]:
    ClauseBlockConvTM/ConvAVX2 (431, 441); [CSparse L D B] (455-462);
    [CInf F L W]: Inference8u_F?_L?_W? (474-485). *)
Inductive cls :=
| CDense (i : isa) (l b : bool)
| CConv (i : isa)
| CSparse (l d b : bool)
| CDenseIn | CSparseDenseIn | CSparseIn
| CFeedback | CUniform | CMulti
| CSingle | CThread
| CInf (f l w : bool)
| CPy (c : pycls).

(** What the dictionary can hold: a class, None, or a tuple of one class. *)
Inductive entry := ECls (c : cls) | ENone | ETuple (c : cls).

Definition isa_eq_dec (a b : isa) : {a = b} + {a <> b}.
Proof. decide equality. Defined.
Definition pycls_eq_dec (a b : pycls) : {a = b} + {a <> b}.
Proof. decide equality. Defined.
Definition cls_eq_dec (a b : cls) : {a = b} + {a <> b}.
Proof. decide equality; auto using bool_dec, isa_eq_dec, pycls_eq_dec. Defined.
Definition entry_eq_dec (a b : entry) : {a = b} + {a <> b}.
Proof. decide equality; auto using cls_eq_dec. Defined.
(** == on classes is identity; on one-element tuples it compares the element. *)
Definition entry_eqb (a b : entry) : bool := if entry_eq_dec a b then true else false.

(** Calling an entry: None and tuples are not callable. *)
Definition call (e : entry) : res cls :=
  match e with ECls c => Ok c | ENone | ETuple _ => Raise TypeError end.

(** ** The dictionary *)

Definition reg := list (string * entry).
Fixpoint lookup (r : reg) (k : string) : option entry :=
  match r with
  | [] => None
  | (k', e) :: r => if String.eqb k k' then Some e else lookup r k
  end.
(** impl[k] (KeyError when absent). *)
Definition item (r : reg) (k : string) : res entry :=
  match lookup r k with Some e => Ok e | None => Raise KeyError end.
(** impl[k] = e. *)
Fixpoint put (k : string) (e : entry) (r : reg) : reg :=
  match r with
  | [] => [(k, e)]
  | (k', e') :: r => if String.eqb k k' then (k, e) :: r else (k', e') :: put k e r
  end.

(** "t"/"f" in the names. *)
Definition tf (b : bool) : string := if b then "t" else "f".
Definition dense_name (p : string) (l b : bool) : string := p ++ "_L" ++ tf l ++ "_B" ++ tf b.
Definition sparse_name (p : string) (l d b : bool) : string :=
  p ++ "_L" ++ tf l ++ "_D" ++ tf d ++ "_B" ++ tf b.
Definition inf_name (f l w : bool) : string :=
  "Inference8u_F" ++ tf f ++ "_L" ++ tf l ++ "_W" ++ tf w.

(** ** The processor and the compiled core *)

(** Registers after cpuid; [cpu] gives them for a leaf (sub-leaf 0). *)
Record cpuregs := mkRegs { r_eax : Z; r_ebx : Z; r_ecx : Z; r_edx : Z }.
Definition cpu := Z -> cpuregs.
(** Preprocessor symbols the module was compiled with: USE_AVX2, USE_NEON
    (setup.py:28-46) and the compiler's own __ARM_NEON__. *)
Record build := mkBuild { b_avx2 : bool; b_neon : bool; b_arm : bool }.

(** bit_AVX2 of gcc's cpuid.h. *)
Definition bit_AVX2 : Z := 32.
(** __get_cpuid of gcc's cpuid.h: None when the leaf is above the largest one the
    processor reports in eax of leaf 0 (or that is 0). *)
Definition get_cpuid (p : cpu) (leaf : Z) : option cpuregs :=
  let maxl := r_eax (p 0) in
  if (maxl =? 0) || (maxl <? leaf) then None else Some (p leaf).
(** has_avx2 (main.cpp:24-34). *)
Definition has_avx2 (b : build) (p : cpu) : bool :=
  if b_avx2 b then
    match get_cpuid p 0 with
    | Some r => negb (Z.land bit_AVX2 (r_edx r) =? 0)
    | None => false
    end
  else false.
(** has_neon (main.cpp:36-47). *)
Definition has_neon (b : build) : bool := b_neon b && b_arm b.

Definition bools : list bool := [true; false].
(** The classes the module exports (main.cpp:343-485).  The names of the four,
    eight and seven variants are generated from their flags. *)
Definition core_attrs (b : build) : list (string * cls) :=
  ([ ("DenseInputBlock", CDenseIn); ("SparseInputDenseOutputBlock", CSparseDenseIn);
    ("SparseInputBlock", CSparseIn); ("FeedbackBlock", CFeedback);
    ("FeedbackBlockMultiLabel", CMulti); ("FeedbackBlockUniform", CUniform);
    ("SingleThreadExecutor", CSingle); ("MultiThreadExecutor", CThread) ]
  ++ flat_map (fun l => map (fun t => (dense_name "ClauseBlockTM" l t, CDense Scalar l t)) bools) bools
  ++ [ ("ClauseBlockConvTM", CConv Scalar) ]
  ++ (if b_avx2 b then
        flat_map (fun l => map (fun t => (dense_name "ClauseBlockAVX2" l t, CDense Avx2 l t)) bools) bools
        ++ [ ("ClauseBlockConvAVX2", CConv Avx2) ]
      else [])
  ++ (if b_neon b then
        flat_map (fun l => map (fun t => (dense_name "ClauseBlockNeon" l t, CDense Neon l t)) bools) bools
      else [])
  ++ flat_map (fun l => flat_map (fun d =>
       map (fun t => (sparse_name "ClauseBlockSparse" l d t, CSparse l d t)) bools) bools) bools
  ++ map (fun '(f, l, w) => (inf_name f l w, CInf f l w))
       [ (false, false, false); (false, true, false); (false, true, true); (true, false, false);
         (true, false, true); (true, true, false); (true, true, true) ])%list.
Fixpoint attr_of (l : list (string * cls)) (n : string) : option cls :=
  match l with
  | [] => None
  | (n', c) :: l => if String.eqb n n' then Some c else attr_of l n
  end.
(** gtc.name. *)
Definition core_attr (b : build) (n : string) : option cls := attr_of (core_attrs b) n.

(** ** Filling the dictionary (backend.py) *)

(** backend.py:5-17. *)
Definition pure_impl : reg :=
  [ ("cb", ECls (CPy PyBlock)); ("conv_cb", ENone); ("sparse_cb", ECls (CPy PySparseIn));
    ("feedback", ECls (CPy PyFeedback)); ("feedback_uniform", ENone);
    ("feedback_multi", ECls (CPy PyMulti)); ("single_executor", ECls (CPy PySingle));
    ("thread_executor", ECls (CPy PyThread)); ("dense_input", ECls (CPy PyDenseIn));
    ("sparse_input", ECls (CPy PySparseIn));
    ("sparse_input_dense_output", ECls (CPy PySparseDenseIn)) ].

(** impl[key] = gtc.name, or gtc.name, with a trailing comma ([tup]). *)
Record assign := mkAssign { a_key : string; a_name : string; a_tup : bool }.
Definition asg (k n : string) : assign := mkAssign k n false.
Fixpoint assign_all (b : build) (l : list assign) (r : reg) : res reg :=
  match l with
  | [] => Ok r
  | a :: l =>
      match core_attr b (a_name a) with
      | None => Raise AttributeError
      | Some c => assign_all b l (put (a_key a) (if a_tup a then ETuple c else ECls c) r)
      end
  end.

(** backend.py:23-55. *)
Definition core_assigns : list assign :=
  [ asg "cb" "ClauseBlockTM_Lt_Bt"; mkAssign "conv_cb" "ClauseBlockConvTM" true;
    asg "sparse_cb" "ClauseBlockSparse_Lt_Dt_Bf"; asg "feedback" "FeedbackBlock";
    asg "feedback_uniform" "FeedbackBlockUniform"; asg "feedback_multi" "FeedbackBlockMultiLabel";
    asg "single_executor" "SingleThreadExecutor"; asg "thread_executor" "MultiThreadExecutor";
    asg "dense_input" "DenseInputBlock"; asg "sparse_input" "SparseInputBlock";
    asg "sparse_input_dense_output" "SparseInputDenseOutputBlock";
    asg "cb_Lt_Bt" "ClauseBlockTM_Lt_Bt"; asg "cb_Lt_Bf" "ClauseBlockTM_Lt_Bf";
    asg "cb_Lf_Bt" "ClauseBlockTM_Lf_Bt"; asg "cb_Lf_Bf" "ClauseBlockTM_Lf_Bf";
    asg "sparse_cb_Lt_Dt_Bt" "ClauseBlockSparse_Lt_Dt_Bt";
    asg "sparse_cb_Lt_Dt_Bf" "ClauseBlockSparse_Lt_Dt_Bf";
    asg "sparse_cb_Lt_Df_Bt" "ClauseBlockSparse_Lt_Df_Bt";
    asg "sparse_cb_Lt_Df_Bf" "ClauseBlockSparse_Lt_Df_Bf";
    asg "sparse_cb_Lf_Dt_Bt" "ClauseBlockSparse_Lf_Dt_Bt";
    asg "sparse_cb_Lf_Dt_Bf" "ClauseBlockSparse_Lf_Dt_Bf";
    asg "sparse_cb_Lf_Df_Bt" "ClauseBlockSparse_Lf_Df_Bt";
    asg "sparse_cb_Lf_Df_Bf" "ClauseBlockSparse_Lf_Df_Bf";
    asg "Inference8u_Ff_Lf_Wf" "Inference8u_Ff_Lf_Wf"; asg "Inference8u_Ff_Lt_Wf" "Inference8u_Ff_Lt_Wf";
    asg "Inference8u_Ff_Lt_Wt" "Inference8u_Ff_Lt_Wt"; asg "Inference8u_Ft_Lf_Wf" "Inference8u_Ft_Lf_Wf";
    asg "Inference8u_Ft_Lf_Wt" "Inference8u_Ft_Lf_Wt"; asg "Inference8u_Ft_Lt_Wf" "Inference8u_Ft_Lt_Wf";
    asg "Inference8u_Ft_Lt_Wt" "Inference8u_Ft_Lt_Wt" ].
(** backend.py:57-64. *)
Definition avx2_assigns : list assign :=
  [ asg "cb" "ClauseBlockAVX2_Lt_Bt"; asg "conv_cb" "ClauseBlockConvAVX2";
    asg "cb_Lt_Bt" "ClauseBlockAVX2_Lt_Bt"; asg "cb_Lt_Bf" "ClauseBlockAVX2_Lt_Bf";
    asg "cb_Lf_Bt" "ClauseBlockAVX2_Lf_Bt"; asg "cb_Lf_Bf" "ClauseBlockAVX2_Lf_Bf" ].
(** backend.py:66-70. *)
Definition neon_assigns : list assign :=
  [ asg "cb_Lt_Bt" "ClauseBlockNeon_Lt_Bt"; asg "cb_Lt_Bf" "ClauseBlockNeon_Lt_Bf";
    asg "cb_Lf_Bt" "ClauseBlockNeon_Lf_Bt"; asg "cb_Lf_Bf" "ClauseBlockNeon_Lf_Bf" ].

(** Importing green_tsetlin.backend.  [None]: green_tsetlin_core cannot be
    imported and the dictionary stays as written (73-74); otherwise the core of
    the given build runs on the given processor (20-70).  Only ImportError is
    caught, so a missing name would end the import with AttributeError. *)
Definition import_backend (core : option (build * cpu)) : res reg :=
  match core with
  | None => Ok pure_impl
  | Some (b, p) =>
      match assign_all b core_assigns pure_impl with
      | Raise e => Raise e
      | Ok r =>
          match (if has_avx2 b p then assign_all b avx2_assigns r else Ok r) with
          | Raise e => Raise e
          | Ok r => if has_neon b then assign_all b neon_assigns r else Ok r
          end
      end
  end.

(** ** Machines, trainers and the world *)

Inductive mkind := KDense | KSparse | KConv.
(** The attributes of a machine that select its backend.  [k_budget]:
    literal_budgets[0] is not None.  [k_cls] is _backend_clause_block_cls. *)
Record mach := mkMach {
  k_kind : mkind; k_nlit : nat; k_budget : bool; k_boost : bool; k_dyn : bool; k_multi : bool;
  k_cls : entry }.
Definition with_cls (e : entry) (m : mach) : mach :=
  mkMach (k_kind m) (k_nlit m) (k_budget m) (k_boost m) (k_dyn m) (k_multi m) e.

Inductive fbkind := FFocused | FUniform | FOther.
(** A trainer: its machine (an index into the world), the feedback type, the
    input-block and feedback classes read by __init__ (trainer.py:94-102; the
    two executor classes play no part before the blocks are connected), and the
    accepted data. *)
Record rtrainer := mkRT {
  rt_m : nat; rt_fb : fbkind;
  rt_dense : entry; rt_sparse : entry; rt_sdense : entry;
  rt_focused : entry; rt_uniform : entry; rt_multi : entry;
  rt_train : option data; rt_eval : option data }.
Definition with_train (d : data) (t : rtrainer) : rtrainer :=
  mkRT (rt_m t) (rt_fb t) (rt_dense t) (rt_sparse t) (rt_sdense t) (rt_focused t) (rt_uniform t)
       (rt_multi t) (Some d) (rt_eval t).
Definition with_eval (d : data) (t : rtrainer) : rtrainer :=
  mkRT (rt_m t) (rt_fb t) (rt_dense t) (rt_sparse t) (rt_sdense t) (rt_focused t) (rt_uniform t)
       (rt_multi t) (rt_train t) (Some d).

Record world := mkWorld { w_reg : reg; w_machs : list mach; w_trainers : list rtrainer }.

Fixpoint upd {A} (l : list A) (i : nat) (a : A) : list A :=
  match l, i with
  | [], _ => []
  | _ :: l, O => a :: l
  | x :: l, S i => x :: upd l i a
  end.
Definition put_mach (i : nat) (m : mach) (w : world) : world :=
  mkWorld (w_reg w) (upd (w_machs w) i m) (w_trainers w).
Definition put_trainer (i : nat) (t : rtrainer) (w : world) : world :=
  mkWorld (w_reg w) (w_machs w) (upd (w_trainers w) i t).
Definition put_reg (k : string) (e : entry) (w : world) : world :=
  mkWorld (put k e (w_reg w)) (w_machs w) (w_trainers w).

(** The constructors (tsetlin_machine.py:79-127, 378-386;
    sparse_tsetlin_machine.py:96-108), with arguments that pass the checks on s
    and threshold.  ConvolutionalTsetlinMachine passes its multi_label in the
    place of boost_true_positives (383).  dynamic_AL does not exist on the
    dense classes; the model keeps false. *)
Definition new_dense (nlit : nat) (budget boost multi : bool) (w : world) : res mach :=
  match item (w_reg w) "cb" with
  | Ok e => Ok (mkMach KDense nlit budget boost false multi e)
  | Raise x => Raise x
  end.
Definition new_sparse (nlit : nat) (budget boost dyn multi : bool) (w : world) : res mach :=
  match item (w_reg w) "cb" with
  | Raise x => Raise x
  | Ok _ =>
      match item (w_reg w) "sparse_cb" with
      | Ok e => Ok (mkMach KSparse nlit budget boost dyn multi e)
      | Raise x => Raise x
      end
  end.
Definition new_conv (nlit : nat) (budget multi : bool) (w : world) : res mach :=
  match new_dense nlit budget multi false w with
  | Ok m => Ok (mkMach KConv nlit (k_budget m) (k_boost m) false (k_multi m) (k_cls m))
  | Raise x => Raise x
  end.

(** _get_backend (tsetlin_machine.py:350-371, 388-393;
    sparse_tsetlin_machine.py:216-241): the class, and the world with the
    overwritten "cb" or "sparse_cb". *)
Definition get_backend (m : mach) (w : world) : res (entry * world) :=
  match k_kind m with
  | KDense =>
      match item (w_reg w) (dense_name "cb" (k_budget m) (k_boost m)) with
      | Ok e => Ok (e, put_reg "cb" e w)
      | Raise x => Raise x
      end
  | KSparse =>
      match item (w_reg w) (sparse_name "sparse_cb" (k_budget m) (k_dyn m) (k_boost m)) with
      | Ok e => Ok (e, put_reg "sparse_cb" e w)
      | Raise x => Raise x
      end
  | KConv =>
      match item (w_reg w) "conv_cb" with
      | Ok e => Ok (e, w)
      | Raise x => Raise x
      end
  end.

(** Trainer.__init__ (trainer.py:94-102). *)
Definition new_trainer (i : nat) (fb : fbkind) (w : world) : res rtrainer :=
  let r := w_reg w in
  match item r "dense_input", item r "feedback", item r "feedback_uniform",
        item r "feedback_multi", item r "sparse_input", item r "sparse_input_dense_output" with
  | Ok d, Ok f, Ok u, Ok m, Ok s, Ok sd => Ok (mkRT i fb d s sd f u m None None)
  | _, _, _, _, _, _ => Raise KeyError
  end.

(** tm._backend_clause_block_cls == _backend_impl["sparse_cb"]
    (trainer.py:140, 192, 246). *)
Definition recognised (m : mach) (w : world) : res bool :=
  match item (w_reg w) "sparse_cb" with
  | Ok e => Ok (entry_eqb (k_cls m) e)
  | Raise x => Raise x
  end.

(** set_train_data and set_eval_data (trainer.py:110-224).  The comparison is
    only made for an ndarray, but "sparse_cb" is always present. *)
Definition data_call (m : mach) (other : option data) (x : option xarr) (y : yarr) (w : world) : res data :=
  match recognised m w with
  | Raise e => Raise e
  | Ok sp => check_data (k_nlit m) sp (option_map d_x other) x y
  end.

(** _select_backend_ib (trainer.py:238-255). *)
Definition select_ib (m : mach) (t : rtrainer) (w : world) : res entry :=
  match rt_train t, rt_eval t with
  | Some a, Some b =>
      if is_csr (d_x a) && is_csr (d_x b) then
        match recognised m w with
        | Raise e => Raise e
        | Ok true => Ok (rt_sparse t)
        | Ok false => Ok (rt_sdense t)
        end
      else if is_array (d_x a) && is_array (d_x b) then Ok (rt_dense t)
      else Raise ValueError
  | _, _ => Raise ValueError
  end.

(** _get_feedback_block (trainer.py:216-235), as far as the class goes. *)
Definition feedback_cls (m : mach) (t : rtrainer) : res entry :=
  match rt_fb t with
  | FFocused => if k_multi m then Ok (rt_multi t) else Ok (rt_focused t)
  | FUniform => if k_multi m then Raise NotImplementedError else Ok (rt_uniform t)
  | FOther => Raise ValueError
  end.

(** cb.set_input_block(ib): the native blocks take a DenseInputBlock8u* (main.cpp:97,
    124, 180, 202, 231; SparseInputDenseOutputBlock derives from it, 348) or a
    SparseInputBlock32u* (150); pybind11 raises TypeError for anything else.  The
    python block checks with isinstance and raises ValueError
    (py_gtc/clause_block.py:70-75). *)
Definition accepts (cb ib : cls) : res unit :=
  match cb, ib with
  | CDense _ _ _, CDenseIn | CDense _ _ _, CSparseDenseIn => Ok tt
  | CConv _, CDenseIn | CConv _, CSparseDenseIn => Ok tt
  | CSparse _ _ _, CSparseIn => Ok tt
  | CPy PyBlock, CPy PyDenseIn | CPy PyBlock, CPy PySparseDenseIn => Ok tt
  | CPy PyBlock, _ => Raise ValueError
  | _, _ => Raise TypeError
  end.

(** cb.initialize succeeds (tsetlin_machine.py:425, clause_block.hpp:158-163)
    for a seed other than 0 (seed 0: C45).  The convolutional blocks refuse while
    num_patches_per_example is not positive (func_conv_tm.hpp:26-31,
    func_conv_avx2.hpp:23-28); it is -1 at construction
    (aligned_tsetlin_state.hpp:43) and no python code calls
    set_number_of_patches_per_example. *)
Definition initialises (cb : cls) : bool := match cb with CConv _ => false | _ => true end.

(** _train_inner (trainer.py:258-292) up to the executor, whose constructor
    throws for a block that is not initialised (executor.hpp:73-74); the answer is
    the class of the clause blocks and the class of the input block.  Assumed:
    the block sizes are valid and there is at least one block (C08, C29, C55 are
    about those), set_data takes the data (C28, C30), the sparse extras pass
    their checks, the seed is not 0, n_epochs is positive and a loaded state fits.  The blocks all have the same class, so the loop fails at the
    first or not at all. *)
Definition train_start (m : mach) (t : rtrainer) (w : world) : res (cls * cls) * world :=
  match rt_train t with
  | None => (Raise ValueError, w)
  | Some _ =>
      match select_ib m t w with
      | Raise e => (Raise e, w)
      | Ok eib =>
          match call eib with
          | Raise e => (Raise e, w)
          | Ok ib =>
              match (match feedback_cls m t with Ok e => call e | Raise e => Raise e end) with
              | Raise e => (Raise e, w)
              | Ok _ =>
                  match get_backend m w with
                  | Raise e => (Raise e, w)
                  | Ok (ecb, w') =>
                      let w' := put_mach (rt_m t) (with_cls ecb m) w' in
                      match call ecb with
                      | Raise e => (Raise e, w')
                      | Ok cb =>
                          match accepts cb ib with
                          | Raise e => (Raise e, w')
                          | Ok _ => if initialises cb then (Ok (cb, ib), w') else (Raise RuntimeError, w')
                          end
                      end
                  end
              end
          end
      end
  end.

(** ** Programs *)

Inductive action :=
| ANewDense (nlit : nat) (budget boost multi : bool)
| ANewSparse (nlit : nat) (budget boost dyn multi : bool)
| ANewConv (nlit : nat) (budget multi : bool)
| ABudget (i : nat)
| ATrainer (i : nat) (fb : fbkind)
| ATrainData (t : nat) (x : option xarr) (y : yarr)
| AEvalData (t : nat) (x : option xarr) (y : yarr)
| ATrain (t : nat).

Inductive outcome := ODone | OTrain (cb ib : cls).

Definition add_mach (r : res mach) (w : world) : res outcome * world :=
  match r with
  | Ok m => (Ok ODone, mkWorld (w_reg w) (app (w_machs w) [m]) (w_trainers w))
  | Raise e => (Raise e, w)
  end.

(** One call of the program, exceptions caught by the caller.  A call on a
    machine or trainer that does not exist is an IndexError of the program and
    changes nothing.  ABudget is set_literal_budget with an int
    (tsetlin_machine.py:151-169): literal_budgets[0] is an int afterwards even
    when the call raises. *)
Definition step (a : action) (w : world) : res outcome * world :=
  match a with
  | ANewDense n l b mu => add_mach (new_dense n l b mu w) w
  | ANewSparse n l b d mu => add_mach (new_sparse n l b d mu w) w
  | ANewConv n l mu => add_mach (new_conv n l mu w) w
  | ABudget i =>
      match nth_error (w_machs w) i with
      | None => (Raise IndexError, w)
      | Some m => (Ok ODone, put_mach i (mkMach (k_kind m) (k_nlit m) true (k_boost m) (k_dyn m)
                                                (k_multi m) (k_cls m)) w)
      end
  | ATrainer i fb =>
      match nth_error (w_machs w) i with
      | None => (Raise IndexError, w)
      | Some _ =>
          match new_trainer i fb w with
          | Ok t => (Ok ODone, mkWorld (w_reg w) (w_machs w) (app (w_trainers w) [t]))
          | Raise e => (Raise e, w)
          end
      end
  | ATrainData ti x y =>
      match nth_error (w_trainers w) ti with
      | None => (Raise IndexError, w)
      | Some t =>
          match nth_error (w_machs w) (rt_m t) with
          | None => (Raise IndexError, w)
          | Some m =>
              match data_call m (rt_eval t) x y w with
              | Ok d => (Ok ODone, put_trainer ti (with_train d t) w)
              | Raise e => (Raise e, w)
              end
          end
      end
  | AEvalData ti x y =>
      match nth_error (w_trainers w) ti with
      | None => (Raise IndexError, w)
      | Some t =>
          match nth_error (w_machs w) (rt_m t) with
          | None => (Raise IndexError, w)
          | Some m =>
              match data_call m (rt_train t) x y w with
              | Ok d => (Ok ODone, put_trainer ti (with_eval d t) w)
              | Raise e => (Raise e, w)
              end
          end
      end
  | ATrain ti =>
      match nth_error (w_trainers w) ti with
      | None => (Raise IndexError, w)
      | Some t =>
          match nth_error (w_machs w) (rt_m t) with
          | None => (Raise IndexError, w)
          | Some m =>
              match train_start m t w with
              | (Ok (cb, ib), w') => (Ok (OTrain cb ib), w')
              | (Raise e, w') => (Raise e, w')
              end
          end
      end
  end.

(** A whole program: the outcome of each call, and the final world. *)
Fixpoint steps (p : list action) (w : world) : list (res outcome) * world :=
  match p with
  | [] => ([], w)
  | a :: p => let '(o, w1) := step a w in let '(os, w2) := steps p w1 in (o :: os, w2)
  end.

(** A fresh process: the package imported, nothing created. *)
Definition start (r : reg) : world := mkWorld r [] [].

(** ** The predictor *)

(** Predictor._get_backend and the call of the class (predictor.py:168-192); the
    predictors themselves are ModelPredictor. *)
Definition inference_cls (r : reg) (x : xmode) (exclude : bool) : res cls :=
  match (match x with
         | XNone => Some (inf_name false false false)
         | XLiterals => Some (inf_name false true exclude)
         | XFeatures => Some (inf_name true false exclude)
         | XBoth => Some (inf_name true true exclude)
         | XOther => None
         end) with
  | None => Raise ValueError
  | Some n => match item r n with Ok e => call e | Raise e => Raise e end
  end.
