(** Initialising and cleaning up a sparse block object: InitializeSparseTM and
    CleanupSparseTM of src/func_sparse.hpp acting on the members a block object
    already has.  [sp_initialize] of ModelSparse.v is the first call on a new
    object. *)
From Coq Require Import ZArith List Bool QArith Lia.
From Verif Require Import Base ModelDense ModelSparse.
Import ListNotations.
Open Scope Z_scope.

(** Members that are vectors (sparse_tsetlin_state.hpp:30-52); the arrays are
    allocated anew by every initialize. *)
Record svecs := mkSV { sv_rows : list (list nat); sv_states : list (list Z); sv_al : list (list nat); sv_repl : list nat }.
Definition sv_new : svecs := mkSV [] [] [] [].
Definition sv_of (b : sblock) : svecs := mkSV (sp_rows b) (sp_states b) (sp_al b) (sp_repl b).

(** std::vector::resize with default elements. *)
Definition resize {A : Type} (n : nat) (d : A) (l : list A) : list A := firstn n l ++ repeat d (n - length l).

(** CleanupSparseTM (func_sparse.hpp:95-122), the vectors: active_literals is not
    mentioned. *)
Definition sv_cleanup (v : svecs) : svecs := mkSV [] [] (sv_al v) [].

(** InitializeSparseTM (22-75) on an object with vectors [v]: resize keeps what
    is there; al_replace_index is set to 0 entry by entry. *)
Definition sv_initialize (budget_on : bool) (fast_of : Z -> rng) (junk : list Z)
  (nlit ncl ncls csize alsize : nat) (thr budget : Z) (si sm : Q) (seed : Z) (v : svecs) : option sblock :=
  if seed =? 0 then None
  else if budget_on && (budget <? 1) then None
  else
    let '(ws, f) := init_weights ncls ncl (fast_of seed) in
    Some (mkSB nlit ncl ncls csize alsize thr (resize (2 * ncl) [] (sv_rows v)) (resize (2 * ncl) [] (sv_states v))
               (resize ncls [] (sv_al v)) (map (fun _ => O) (resize ncls O (sv_repl v)))
               ws (repeat 0 ncl) junk (repeat 0 ncls) budget si sm f).
