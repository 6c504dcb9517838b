(** Files of sparse states: SparseState.save_to_file and load_from_file
    (green_tsetlin/sparse_tsetlin_machine.py:58-92), and what can be done with a
    loaded state: RuleSet.compile_from_sparse_state (green_tsetlin/ruleset.py:43-103)
    and _save_state_in_backend (sparse_tsetlin_machine.py:135-149). *)
From Coq Require Import ZArith List Bool Lia.
From Verif Require Import Base ModelRuleSet ModelLayout ModelSparse.
Import ListNotations.
Open Scope Z_scope.

(** The value at one index of c_data, c_indices or c_indptr: a numpy array with
    the dtype it had, or a python list of ints. *)
Inductive held (A : Type) := Arr (l : list A) | Lst (l : list A).
Arguments Arr {A} l.
Arguments Lst {A} l.
Definition content {A} (h : held A) : list A := match h with Arr l | Lst l => l end.
Definition is_array {A} (h : held A) : bool := match h with Arr _ => true | Lst _ => false end.

Record held_state := mkHeld {
  h_nlit : nat;
  h_ncls : nat;
  h_w : list (list Z);
  h_data : list (held Z);
  h_indices : list (held nat);
  h_indptr : list (held nat);
  h_al : list (list (list nat))
}.

(** np.array(l, dtype=object) on a list of one-dimensional arrays (92), stored by
    np.savez, loaded by np.load, and .tolist() (82-84): if the arrays have the same
    length they were stacked to one two-dimensional array of python ints, and
    tolist() gives lists; otherwise the arrays were kept as objects. *)
Definition same_length {A} (l : list (list A)) : bool := forallb (fun a => (length a =? length (hd [] l))%nat) l.
Definition through_file {A} (l : list (list A)) : list (held A) :=
  if same_length l then map Lst l else map Arr l.

(** load_from_file after save_to_file, for a state that knows n_literals (as the
    states read from the backend do).  w is an int16 array, so the check of line 76
    passes.  n_literals comes back as an array with that number (not distinguished
    here); so do the active literals, as lists of lists or of arrays, both of
    which set_active_literals accepts (not distinguished here). *)
Definition save_and_load (s : sparse_state) (nlit : nat) : held_state :=
  mkHeld nlit (ss_ncls s) (ss_w s)
    (through_file (map (fun c => fst (fst c)) (ss_c s)))
    (through_file (map (fun c => snd (fst c)) (ss_c s)))
    (through_file (map snd (ss_c s)))
    (ss_al s).

(** A state that was not written to a file. *)
Definition in_memory (s : sparse_state) (nlit : nat) : held_state :=
  mkHeld nlit (ss_ncls s) (ss_w s)
    (map (fun c => Arr (fst (fst c))) (ss_c s))
    (map (fun c => Arr (snd (fst c))) (ss_c s))
    (map (fun c => Arr (snd c)) (ss_c s))
    (ss_al s).

(** The loop of compile_from_sparse_state over the blocks (62-98): c_indptr.shape
    (67) does not exist on a list. *)
Fixpoint held_compile_loop (nlit ncls : nat) (data : list (held Z)) (indices indptr : list (held nat))
  (w : list (list Z)) (done : nat) (m : rule_map) : res rule_map :=
  match data with
  | [] => Ok m
  | d :: data' =>
      match indices, indptr with
      | i :: indices', p :: indptr' =>
          if is_array p then
            let num := Nat.div (length (content p) - 1) 2 in
            match compile_sparse_block nlit ncls (content d, content i, content p) num 0 num w done m with
            | Ok (m, done) => held_compile_loop nlit ncls data' indices' indptr' w done m
            | Raise e => Raise e
            end
          else Raise AttributeError
      | _, _ => Raise IndexError
      end
  end.
Definition held_compile (h : held_state) : res ruleset :=
  match held_compile_loop (h_nlit h) (h_ncls h) (h_data h) (h_indices h) (h_indptr h) (h_w h) 0 [] with
  | Ok m => Ok (mkRuleSet (map fst m) (map snd m) (h_nlit h) (h_ncls h))
  | Raise e => Raise e
  end.

(** _save_state_in_backend (144-149): set_clause_state_sparse takes three
    pybind11::array arguments (clause_block.hpp:322), which a list is not
    converted to: TypeError. *)
Fixpoint held_save_loop (h : held_state) (cbs : list sblock) (index off : nat) : res (list sblock) :=
  match cbs with
  | [] => Ok []
  | cb :: t =>
      match nth_error (h_data h) index, nth_error (h_indices h) index, nth_error (h_indptr h) index with
      | Some d, Some i, Some p =>
          if is_array d && is_array i && is_array p then
            match nth_error (h_al h) index with
            | None => Raise IndexError
            | Some al =>
                match al_set al (sp_set_weights (h_w h) off (csr_set (content d, content i, content p) cb)) with
                | Ok cb' => match held_save_loop h t (S index) (off + sp_ncl cb) with
                            | Ok t' => Ok (cb' :: t')
                            | Raise e => Raise e
                            end
                | Raise e => Raise e
                end
            end
          else Raise TypeError
      | _, _, _ => Raise IndexError
      end
  end.
Definition held_save (h : held_state) (cbs : list sblock) : res (list sblock) := held_save_loop h cbs 0 0.
