(** Flat memory of a clause block (src/aligned_tsetlin_state.hpp) and the
    transfer of a DenseState to and from the blocks
    (green_tsetlin/tsetlin_machine.py:201-238). *)
From Coq Require Import ZArith List Bool Lia.
From Verif Require Import Base ModelRuleSet ModelDense.
Import ListNotations.
Open Scope nat_scope.

(** memcpy(&dst[doff], &src[soff], n) on arrays of equal element type; n counts
    elements.  Reads or writes outside the arrays are undefined in C; the
    theorems only use in-range calls. *)
Definition memcpy (dst : list Z) (doff : nat) (src : list Z) (soff n : nat) : list Z :=
  firstn doff dst ++ firstn n (skipn soff src) ++ skipn (doff + n) dst.

(** for(int i = 0; i < n; i++) body(i) *)
Fixpoint for_loop {A} (n : nat) (body : nat -> A -> A) (a : A) : A :=
  match n with
  | O => a
  | S k => body k (for_loop k body a)
  end.

(** The arrays of one block (aligned_tsetlin_state.hpp:25-36).  The scalar
    backend has f_lmem = f_nlit and f_wmem = f_ncls (func_tm.hpp:25, 31), the
    SIMD backends round up to the vector width (func_avx2.hpp:45-75). *)
Record flat := mkFlat {
  f_ncl : nat;          (* num_clauses *)
  f_nlit : nat;         (* num_literals *)
  f_lmem : nat;         (* num_literals_mem *)
  f_ncls : nat;         (* num_classes *)
  f_wmem : nat;         (* num_class_weights_mem *)
  f_clauses : list Z;   (* clauses *)
  f_weights : list Z    (* clause_weights *)
}.

(** get_clause_state (aligned_tsetlin_state.hpp:84-97); int offsets are kept
    unbounded. *)
Definition get_clause_state (f : flat) (dst : list Z) (off : nat) : list Z :=
  for_loop (f_ncl f) (fun i dst =>
    let src_o := i * f_lmem f * 2 in
    let dst_o := (i + off) * f_nlit f * 2 in
    let dst := memcpy dst dst_o (f_clauses f) src_o (f_nlit f) in
    memcpy dst (dst_o + f_nlit f) (f_clauses f) (src_o + f_lmem f) (f_nlit f)) dst.

(** set_clause_state (99-113). *)
Definition set_clause_state (f : flat) (src : list Z) (off : nat) : flat :=
  let mem := for_loop (f_ncl f) (fun i mem =>
    let src_o := (i + off) * (f_nlit f * 2) in
    let dst_o := i * (f_lmem f * 2) in
    let mem := memcpy mem dst_o src src_o (f_nlit f) in
    memcpy mem (dst_o + f_lmem f) src (src_o + f_nlit f) (f_nlit f)) (f_clauses f) in
  mkFlat (f_ncl f) (f_nlit f) (f_lmem f) (f_ncls f) (f_wmem f) mem (f_weights f).

(** set_clause_weights (115-128). *)
Definition set_clause_weights (f : flat) (src : list Z) (off : nat) : flat :=
  let mem := for_loop (f_ncl f) (fun i mem =>
    memcpy mem (i * f_wmem f) src ((i + off) * f_ncls f) (f_ncls f)) (f_weights f) in
  mkFlat (f_ncl f) (f_nlit f) (f_lmem f) (f_ncls f) (f_wmem f) (f_clauses f) mem.

(** get_clause_weights (130-140). *)
Definition get_clause_weights (f : flat) (dst : list Z) (off : nat) : list Z :=
  for_loop (f_ncl f) (fun i dst =>
    memcpy dst ((i + off) * f_ncls f) (f_weights f) (i * f_wmem f) (f_ncls f)) dst.

(** numpy C-contiguous 2-d array: rows one after the other; the pybind wrappers
    (clause_block.hpp:126-156) hand over the buffer pointer. *)
Definition flatten (m : list (list Z)) : list Z := concat m.
Fixpoint unflatten (width n : nat) (mem : list Z) : list (list Z) :=
  match n with
  | O => []
  | S k => firstn width mem :: unflatten width k (skipn width mem)
  end.

(** Loop of _save_state_in_backend (tsetlin_machine.py:234-238). *)
Fixpoint save_loop (c w : list Z) (off : nat) (cbs : list flat) : list flat :=
  match cbs with
  | [] => []
  | cb :: t =>
      set_clause_weights (set_clause_state cb c off) w off :: save_loop c w (off + f_ncl cb) t
  end.

(** Loop of _load_state_from_backend (tsetlin_machine.py:213-217). *)
Fixpoint load_loop (cbs : list flat) (off : nat) (c w : list Z) : list Z * list Z :=
  match cbs with
  | [] => (c, w)
  | cb :: t => load_loop t (off + f_ncl cb) (get_clause_state cb c off) (get_clause_weights cb w off)
  end.

Definition save_state_in_backend (s : dense_state) (cbs : list flat) : list flat :=
  save_loop (flatten (ds_c s)) (flatten (ds_w s)) 0 cbs.

(** [s] is the machine's current state object (or a fresh zero one,
    tsetlin_machine.py:206-211); its arrays are written in place. *)
Definition load_state_from_backend (cbs : list flat) (s : dense_state) : dense_state :=
  let '(c, w) := load_loop cbs 0 (flatten (ds_c s)) (flatten (ds_w s)) in
  mkDense (ds_ncols s) (ds_nclasses s)
          (unflatten (ds_ncols s) (length (ds_c s)) c) (unflatten (ds_nclasses s) (length (ds_w s)) w).

(** DenseState(n_literals, n_clauses, n_classes) (tsetlin_machine.py:22-25). *)
Definition zero_state (nlit ncl ncls : nat) : dense_state :=
  mkDense (nlit * 2) ncls (repeat (repeat 0%Z (nlit * 2)) ncl) (repeat (repeat 0%Z ncls) ncl).

(** The clauses and weights the kernels see in the flat arrays
    (func_tm.hpp:107-114, 162-170: pointers clauses + k*num_literals_mem*2, the
    negated half num_literals_mem further; 209-217 for the weights). *)
Definition slice (mem : list Z) (off n : nat) : list Z := firstn n (skipn off mem).
Definition view_clause (f : flat) (k : nat) : clause :=
  mkClause (slice (f_clauses f) (k * (f_lmem f * 2)) (f_nlit f))
           (slice (f_clauses f) (k * (f_lmem f * 2) + f_lmem f) (f_nlit f)).
Definition view_weights (f : flat) (k : nat) : list Z := slice (f_weights f) (k * f_wmem f) (f_ncls f).
Definition view_clauses (f : flat) : list clause := map (view_clause f) (seq 0 (f_ncl f)).
Definition view_all_weights (f : flat) : list (list Z) := map (view_weights f) (seq 0 (f_ncl f)).
