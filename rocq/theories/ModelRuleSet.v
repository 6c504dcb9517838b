(** Model of green_tsetlin/ruleset.py and the state containers it reads. *)
From Coq Require Import ZArith List Bool Lia.
From Verif Require Import Base.
Import ListNotations.
Open Scope Z_scope.

(** green_tsetlin/tsetlin_machine.py:13-31 (DenseState): weights [w]
    (n_clauses x n_classes, int16) and automata [c] (n_clauses x 2*n_literals,
    int8).  The column counts stand for w.shape[1] and c.shape[1]; they are
    kept because numpy knows them even when there are no rows. *)
Record dense_state := mkDense {
  ds_ncols : nat;             (* c.shape[1] = 2 * n_literals *)
  ds_nclasses : nat;          (* w.shape[1] *)
  ds_c : list (list Z);
  ds_w : list (list Z)
}.

(** np.nonzero(row >= 0)[0]  (ruleset.py:27), starting at column [i]. *)
Fixpoint nonzero_ge0 (i : nat) (row : list Z) : list nat :=
  match row with
  | [] => []
  | v :: t => if v >=? 0 then i :: nonzero_ge0 (S i) t else nonzero_ge0 (S i) t
  end.

(** The dictionary rule_map (ruleset.py:25): insertion ordered. *)
Definition rule_map := list (list nat * list Z).

Fixpoint list_nat_eqb (a b : list nat) : bool :=
  match a, b with
  | [], [] => true
  | x :: a', y :: b' => Nat.eqb x y && list_nat_eqb a' b'
  | _, _ => false
  end.

Fixpoint rm_get (key : list nat) (m : rule_map) : option (list Z) :=
  match m with
  | [] => None
  | (k, v) :: t => if list_nat_eqb k key then Some v else rm_get key t
  end.

Fixpoint rm_set (key : list nat) (v : list Z) (m : rule_map) : rule_map :=
  match m with
  | [] => [(key, v)]
  | (k, v0) :: t => if list_nat_eqb k key then (k, v) :: t else (k, v0) :: rm_set key v t
  end.

(** numpy in-place int16 addition (ruleset.py:33, 97): wraps. *)
Definition add16 (a b : list Z) : list Z := map2 (fun p q => wrap16 (p + q)) a b.

(** (w[k] == 0).all()  (ruleset.py:35). *)
Definition all_zero (w : list Z) : bool := forallb (fun v => v =? 0) w.

(** One iteration of the loop ruleset.py:26-38.  rule_map.get returns the
    stored array itself, so "weights += w[k]" already changes the stored entry
    when the key is present. *)
Definition compile_dense_step (ncls : nat) (m : rule_map) (row wk : list Z) : rule_map :=
  let on := nonzero_ge0 0 row in
  if (length on <? 1)%nat then m
  else
    match rm_get on m with
    | Some weights =>
        let weights' := add16 weights wk in
        let m1 := rm_set on weights' m in          (* in-place += *)
        if all_zero wk then m1 else rm_set on weights' m1
    | None =>
        let weights' := add16 (repeat 0 ncls) wk in
        if all_zero wk then m else rm_set on weights' m
    end.

(** Loop ruleset.py:26-38 over the rows of c; w[k] raises IndexError when w
    has too few rows. *)
Fixpoint compile_dense_loop (ncls : nat) (m : rule_map) (c w : list (list Z)) : res rule_map :=
  match c with
  | [] => Ok m
  | row :: c' =>
      match w with
      | wk :: w' => compile_dense_loop ncls (compile_dense_step ncls m row wk) c' w'
      | [] => if (length (nonzero_ge0 0 row) <? 1)%nat
              then compile_dense_loop ncls m c' []
              else Raise IndexError
      end
  end.

(** RuleSet (ruleset.py:7-14). *)
Record ruleset := mkRuleSet {
  rs_rules : list (list nat);
  rs_weights : list (list Z);
  rs_nliterals : nat;
  rs_nclasses : nat
}.

(** RuleSet.compile_from_dense_state (ruleset.py:18-41). *)
Definition compile_from_dense_state (s : dense_state) : res ruleset :=
  match compile_dense_loop (ds_nclasses s) [] (ds_c s) (ds_w s) with
  | Ok m => Ok (mkRuleSet (map fst m) (map snd m) (Nat.div (ds_ncols s) 2) (ds_nclasses s))
  | Raise e => Raise e
  end.
