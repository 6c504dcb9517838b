(** Model of the configuration half of green_tsetlin/tsetlin_machine.py:
    TsetlinMachine.__init__, set_trainable_flags, set_literal_budget,
    set_num_clause_blocks, construct_clause_blocks, allocate_clause_blocks, the
    file functions of DenseState, load_state and save_state. *)
From Coq Require Import String Ascii ZArith List Bool QArith Lia.
From Verif Require Import Base ModelRuleSet ModelLayout.
Import ListNotations.
Open Scope Z_scope.

(** python floats as far as the code compares them: not-a-number, the two
    infinities, and finite values (every finite double is a rational). *)
Inductive fl := Fnan | Fninf | Fin (q : Q) | Fpinf.
(** a < b; false whenever a NaN is involved. *)
Definition fl_ltb (a b : fl) : bool :=
  match a, b with
  | Fnan, _ | _, Fnan => false
  | Fninf, Fninf => false
  | Fninf, _ => true
  | _, Fninf => false
  | Fpinf, _ => false
  | Fin _, Fpinf => true
  | Fin p, Fin q => Qlt_bool p q
  end.

(** Arguments that python code distinguishes with isinstance. *)
Inductive sarg := SFloat (f : fl) | SInt (z : Z) | SList (l : list fl).
Inductive barg := BInt (n : Z) | BList (l : list Z).

(** One backend clause block as constructed (clause_block.hpp:106-124):
    [c_kind] is the class chosen by _get_backend (budget?, boost?);
    [c_budget] starts as 0xFFFF (aligned_tsetlin_state.hpp:40). *)
Record cblock := mkCb {
  c_kind : bool * bool;
  c_nlit : nat; c_ncl : Z; c_ncls : nat;
  c_s : fl;
  c_budget : Z
}.

(** Attributes of TsetlinMachine (81-127).  [tm_nlb] is the attribute
    n_literals_budget that only set_literal_budget creates.  Lists are stored by
    value: later mutation of an argument list by the caller is not modelled. *)
Record tm := mkTm {
  tm_nlit : nat; tm_ncl : Z; tm_ncls : nat;
  tm_s : list fl; tm_threshold : Z;
  tm_budgets : list (option Z); tm_nlb : option (list Z);
  tm_boost : bool; tm_multi : bool;
  tm_sizes : option (list Z); tm_flags : option (list bool);
  tm_cbs : option (list cblock)
}.

Definition with_sizes (sz : option (list Z)) (t : tm) : tm :=
  mkTm (tm_nlit t) (tm_ncl t) (tm_ncls t) (tm_s t) (tm_threshold t) (tm_budgets t) (tm_nlb t)
       (tm_boost t) (tm_multi t) sz (tm_flags t) (tm_cbs t).
Definition with_flags (fs : option (list bool)) (t : tm) : tm :=
  mkTm (tm_nlit t) (tm_ncl t) (tm_ncls t) (tm_s t) (tm_threshold t) (tm_budgets t) (tm_nlb t)
       (tm_boost t) (tm_multi t) (tm_sizes t) fs (tm_cbs t).
Definition with_budgets (bs : list (option Z)) (nlb : option (list Z)) (t : tm) : tm :=
  mkTm (tm_nlit t) (tm_ncl t) (tm_ncls t) (tm_s t) (tm_threshold t) bs nlb
       (tm_boost t) (tm_multi t) (tm_sizes t) (tm_flags t) (tm_cbs t).
Definition with_cbs (cbs : option (list cblock)) (t : tm) : tm :=
  mkTm (tm_nlit t) (tm_ncl t) (tm_ncls t) (tm_s t) (tm_threshold t) (tm_budgets t) (tm_nlb t)
       (tm_boost t) (tm_multi t) (tm_sizes t) (tm_flags t) cbs.

(** TsetlinMachine.__init__ (81-127).  An int s is not a float and cannot be
    iterated (104-108). *)
Definition tm_init (nlit : nat) (ncl : Z) (ncls : nat) (s : sarg) (threshold : Z)
  (budget : option Z) (boost multi : bool) : res tm :=
  match (match s with SFloat f => Some [f] | SInt _ => None | SList l => Some l end) with
  | None => Raise TypeError
  | Some ss =>
      if existsb (fun v => fl_ltb v (Fin 1)) ss then Raise ValueError
      else if threshold <? 1 then Raise ValueError
      else Ok (mkTm nlit ncl (if multi then (ncls * 2)%nat else ncls) ss threshold [budget] None
                    boost multi None None None)
  end.

(** set_trainable_flags (130-148); always ends in an exception. *)
Definition set_trainable_flags (flags : list bool) (t : tm) : res unit * tm :=
  match tm_sizes t with
  | None => (Raise ValueError, t)
  | Some sz =>
      if negb (Nat.eqb (length flags) (length sz)) then (Raise ValueError, t)
      else (Raise NotImplementedError, with_flags (Some flags) t)
  end.

(** The check loop (167-169); None < 1 is a TypeError. *)
Fixpoint budget_check (bs : list (option Z)) : res unit :=
  match bs with
  | [] => Ok tt
  | None :: _ => Raise TypeError
  | Some b :: t => if b <? 1 then Raise ValueError else budget_check t
  end.

(** set_literal_budget (151-169). *)
Definition set_literal_budget (a : barg) (t : tm) : res unit * tm :=
  let t' := match a with
            | BInt z => with_budgets [Some z] (tm_nlb t) t
            | BList l => with_budgets (tm_budgets t) (Some l) t
            end in
  (budget_check (tm_budgets t'), t').

(** set_num_clause_blocks (172-198).  python // and % round towards minus
    infinity, as Z.div and Z.modulo do; range of a negative number is empty. *)
Definition set_num_clause_blocks (a : barg) (t : tm) : res unit * tm :=
  let finish (sz : list Z) (t' : tm) : res unit * tm :=
    if existsb (fun z => z <? 1) sz then (Raise ValueError, t') else (Ok tt, t') in
  match a with
  | BInt n =>
      if n =? 0 then (Raise ZeroDivisionError, t)
      else
        match repeat (tm_ncl t / n) (Z.to_nat n) with
        | [] => (Raise IndexError, with_sizes (Some []) t)
        | h :: r => let sz := h + tm_ncl t mod n :: r in finish sz (with_sizes (Some sz) t)
        end
  | BList l =>
      if negb (zsum l =? tm_ncl t) then (Raise ValueError, t)
      else finish l (with_sizes (Some l) t)
  end.

(** _get_backend (350-369): with the C++ core loaded all four keys exist. *)
Definition get_backend (t : tm) : bool * bool :=
  ((match tm_budgets t with None :: _ => false | _ => true end), tm_boost t).

(** cb.set_literal_budget(uint32_t): pybind11 refuses None, negative and too
    large arguments with a TypeError. *)
Definition as_uint32 (b : option Z) : option Z :=
  match b with
  | Some z => if (0 <=? z) && (z <? 4294967296) then Some z else None
  | None => None
  end.

(** zip(cycle(s), cycle(budgets), sizes, flags) (307): [sq]/[bq] are what is
    left of the current round of the cycles.  A cycle over an empty list ends
    the zip.  Result: the blocks appended to _cbs, and the exception if one
    stopped the loop. *)
Fixpoint build_loop (t : tm) (sq : list fl) (bq : list (option Z)) (sizes : list Z) (flags : list bool)
  : list cblock * option exn :=
  match sizes, flags with
  | n :: sizes', _ :: flags' =>
      match (match sq with [] => tm_s t | _ => sq end), (match bq with [] => tm_budgets t | _ => bq end) with
      | s :: sq', b :: bq' =>
          let limited := match tm_budgets t with None :: _ => false | _ => true end in
          match (if limited then as_uint32 b else Some 65535) with
          | None => ([], Some TypeError)
          | Some bud =>
              let '(r, e) := build_loop t sq' bq' sizes' flags' in
              (mkCb (get_backend t) (tm_nlit t) n (tm_ncls t) s bud :: r, e)
          end
      | _, _ => ([], None)
      end
  | _, _ => ([], None)
  end.

(** construct_clause_blocks (289-319).  Without sizes: len(None) or zip over
    None, a TypeError; in the latter case _cbs is already [].  That block sizes
    fit a C int is not checked here. *)
Definition construct_clause_blocks (t : tm) : res (list cblock) * tm :=
  match tm_sizes t with
  | None => match tm_flags t with None => (Raise TypeError, t) | Some _ => (Raise TypeError, with_cbs (Some []) t) end
  | Some sizes =>
      let flags := match tm_flags t with None => repeat true (length sizes) | Some f => f end in
      match build_loop t [] [] sizes flags with
      | (cbs, Some e) => (Raise e, with_cbs (Some cbs) t)
      | (cbs, None) => (Ok cbs, with_cbs (Some cbs) t)
      end
  end.

(** allocate_clause_blocks on a list (415-423).  The argument of initialize is an
    unsigned int: pybind11 refuses values outside [0, 2^32).  initialize returns
    false for seed 0 (func_tm.hpp:19-20) and the result is ignored, so such a
    block stays uninitialised.  The result lists, per block, the seed it got and
    whether it is initialised. *)
Fixpoint allocate_loop (seed : Z) (cbs : list cblock) : res (list (cblock * Z * bool)) :=
  match cbs with
  | [] => Ok []
  | cb :: r =>
      if (seed <? 0) || (4294967296 <=? seed) then Raise TypeError
      else match allocate_loop (seed + 1) r with
           | Raise e => Raise e
           | Ok l => Ok ((cb, seed, negb (seed =? 0)) :: l)
           end
  end.
Definition allocate_clause_blocks (cbs : list cblock) (seed : Z) : res (list (cblock * Z * bool)) :=
  match cbs with [] => Raise ValueError | _ => allocate_loop seed cbs end.

(** Executor constructor (executor.hpp:41-42, 68-84): at least one block, and all
    of them initialised. *)
Definition executor_accepts (l : list (cblock * Z * bool)) : bool :=
  negb (Nat.eqb (length l) 0) && forallb (fun e => snd e) l.

(** Start of Trainer._train_inner up to the executor (trainer.py:270-290), for
    n_epochs >= 1: choose the number of blocks if the user did not, construct,
    allocate, build the executor. *)
Definition train_start (n_jobs seed : Z) (t : tm) : res (list (cblock * Z * bool)) * tm :=
  let '(r0, t0) := match tm_sizes t with
                   | None => set_num_clause_blocks (BInt n_jobs) t
                   | Some _ => (Ok tt, t)
                   end in
  match r0 with
  | Raise e => (Raise e, t0)
  | Ok _ =>
      let '(r1, t1) := construct_clause_blocks t0 in
      match r1 with
      | Raise e => (Raise e, t1)
      | Ok cbs =>
          match allocate_clause_blocks cbs seed with
          | Raise e => (Raise e, t1)
          | Ok l => if executor_accepts l then (Ok l, t1) else (Raise RuntimeError, t1)
          end
      end
  end.

(** Memory of the started blocks just before the first epoch (trainer.py:282-285).
    [init] is the initialiser of whichever backend is in use: it maps a block and
    a seed to its arrays. *)
Definition started (init : cblock -> Z -> flat) (state : option dense_state) (l : list (cblock * Z * bool)) : list flat :=
  let cbs := map (fun e => init (fst (fst e)) (snd (fst e))) l in
  match state with
  | None => cbs
  | Some s => save_state_in_backend s cbs
  end.

(** ** Files *)

(** An array inside an npz file. *)
Inductive dtype := DInt8 | DInt16 | DObject | DOther.
Definition dtype_eqb (a b : dtype) : bool :=
  match a, b with
  | DInt8, DInt8 | DInt16, DInt16 | DObject, DObject | DOther, DOther => true
  | _, _ => false
  end.
Record array := mkArr { a_dtype : dtype; a_shape : list nat; a_data : list Z }.

(** A file: an archive of named arrays, or something np.load refuses. *)
Inductive file := Npz (members : list (string * array)) | NotNpz.
Definition fs := string -> option file.

(** str.endswith(".npz") (39, 58). *)
Definition is_npz (p : string) : bool :=
  let n := String.length p in
  Nat.leb 4 n && String.eqb (substring (n - 4) 4 p) ".npz".

(** d[key]: members are read on access; object arrays are refused
    (allow_pickle=False). *)
Fixpoint npz_find (k : string) (m : list (string * array)) : option array :=
  match m with
  | [] => None
  | (k', a) :: t => if String.eqb k' k then Some a else npz_find k t
  end.
Definition npz_get (k : string) (m : list (string * array)) : res array :=
  match npz_find k m with
  | None => Raise KeyError
  | Some a => if dtype_eqb (a_dtype a) DObject then Raise ValueError else Ok a
  end.

(** A DenseState object: both arrays, or None where the attribute is None. *)
Record dstate := mkDs { d_w : option array; d_c : option array }.

(** np.savez stores None as a 0-d object array. *)
Definition savez_arr (a : option array) : array :=
  match a with Some a => a | None => mkArr DObject [] [] end.

(** save_to_file (57-61): writes exactly this path, since it ends in .npz.
    I/O errors are not modelled. *)
Definition save_to_file (path : string) (s : dstate) (f : fs) : res unit * fs :=
  if negb (is_npz path) then (Raise ValueError, f)
  else (Ok tt, fun p => if String.eqb p path
                        then Some (Npz [("w"%string, savez_arr (d_w s)); ("c"%string, savez_arr (d_c s))])
                        else f p).

(** load_from_file (37-55).  In the two dtype branches the error message itself
    fails: ds["w"] subscripts a DenseState, a TypeError. *)
Definition load_from_file (path : string) (f : fs) : res dstate :=
  if negb (is_npz path) then Raise ValueError
  else match f path with
  | None => Raise FileNotFound
  | Some NotNpz => Raise ValueError
  | Some (Npz m) =>
      match npz_get "w" m with
      | Raise e => Raise e
      | Ok w =>
          match a_shape w with
          | [] => Raise IndexError
          | rw :: _ =>
              match npz_get "c" m with
              | Raise e => Raise e
              | Ok c =>
                  match a_shape c with
                  | [] => Raise IndexError
                  | rc :: _ =>
                      if negb (Nat.eqb rw rc) then Raise ValueError
                      else if negb (dtype_eqb (a_dtype w) DInt16) then Raise TypeError
                      else if negb (dtype_eqb (a_dtype c) DInt8) then Raise TypeError
                      else Ok (mkDs (Some w) (Some c))
                  end
              end
          end
      end
  end.

(** load_state (241-254) and save_state (257-274) with the state attribute as
    argument; [backend] is what _load_state_from_backend would deliver, None when
    there are no blocks. *)
Inductive larg := LPath (p : string) | LObj (s : dstate).
Definition load_state (a : larg) (f : fs) (cur : option dstate) : res unit * option dstate :=
  match a with
  | LObj s => (Ok tt, Some s)
  | LPath p => match load_from_file p f with
               | Ok s => (Ok tt, Some s)
               | Raise e => (Raise e, cur)
               end
  end.
Definition save_state (path : string) (cur backend : option dstate) (f : fs) : res unit * option dstate * fs :=
  match (match cur with Some s => Some s | None => backend end) with
  | None => (Raise ValueError, cur, f)
  | Some s => let '(r, f') := save_to_file path s f in (r, Some s, f')
  end.
