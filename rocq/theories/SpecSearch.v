(** Specification of hyper-parameter search, from the docstring of
    HyperparameterSearch (hpsearch.py:59-107). *)
From Coq Require Import ZArith List Bool QArith Lia.
From Verif Require Import Base Spec ModelMachine ModelTrainer SpecTraining ModelSearch.
Import ListNotations.
Open Scope Z_scope.

(** The values of an integer space: the value itself, every integer of the range
    [low, high], or every step-th one. *)
Definition int_value (sp : space Z) (v : Z) : Prop :=
  match sp with
  | VInt z => v = z
  | VTup [low; high] => low <= v <= high
  | VTup [low; high; step] => low <= v <= high /\ exists k, 0 <= k /\ v = low + k * step
  | _ => False
  end.
(** The three documented forms. *)
Definition int_form (sp : space Z) : Prop :=
  match sp with VInt _ | VTup [_; _] | VTup [_; _; _] => True | _ => False end.

(** The values of the s space with step [st] for pairs; documented: 1. *)
Definition s_value (st : Q) (sp : space Q) (v : fl) : Prop :=
  let grid low high step := exists k q, 0 <= k /\ v = Fin q /\ (q == low + inject_Z k * step)%Q /\ (q <= high)%Q in
  match sp with
  | VFloat f => v = f
  | VInt z => v = Fin (inject_Z z)
  | VTup [low; high] => grid low high st
  | VTup [low; high; step] => grid low high step
  | _ => False
  end.
Definition s_form (sp : space Q) : Prop :=
  match sp with VFloat _ | VInt _ | VTup [_; _] | VTup [_; _; _] => True | _ => False end.

(** A matrix of examples with one label each, as the trainer wants them. *)
Definition plain (nlit : nat) (x : xarr) (y : yarr) : Prop :=
  x_kind x = KArray /\ x_u8 x = true /\ y_u32 y = true /\
  x_shape x = [length (y_rows y); nlit] /\ y_shape y = [length (y_rows y)] /\
  length (x_rows x) = length (y_rows y) /\ y_rows y <> [] /\ Forall (fun r => length r = 1%nat) (y_rows y) /\
  Forall (fun r => length r = nlit /\ binary r) (x_rows x).

(** The labels of a data set. *)
Definition label (y : yarr) (v : Z) : Prop := exists r, In r (y_rows y) /\ In v r.
(** The classes are numbered 0, 1, ..., k-1 in the training data, and the
    evaluation data has no others. *)
Definition numbered (yt ye : yarr) : Prop :=
  exists k, (forall v, label yt v <-> 0 <= v < k) /\ (forall v, label ye v -> 0 <= v < k).

(** StratifiedKFold: with one label per example and at least [k] examples of some class
    it splits the examples into [k] folds none of which is empty. *)
Definition stratified (assign : Z -> Z -> data -> res (list nat)) : Prop := forall k seed d v, 2 <= k ->
  Forall (fun r => length r = 1%nat) (y_rows (d_y d)) ->
  k <= Z.of_nat (count_occ Z.eq_dec (concat (y_rows (d_y d))) v) ->
  exists folds, assign k seed d = Ok folds /\ length folds = length (y_rows (d_y d)) /\
    forall i, (i < Z.to_nat k)%nat -> In i folds.

(** Ranges every value of which the machine, the blocks and the trainer take. *)
Definition workable (h : search) : Prop :=
  s_form (h_s h) /\ int_form (h_clauses h) /\ int_form (h_threshold h) /\ int_form (h_epochs h) /\ int_form (h_budget h) /\
  match h_s h with
  | VFloat f => ~ fl_lt f (Fin 1)
  | VTup [low; high] => (1 <= low)%Q /\ (low <= high)%Q
  | VTup [low; high; step] => (1 <= low)%Q /\ (low <= high)%Q /\ (0 < step)%Q
  | _ => False
  end /\
  Forall (fun sp => match sp with
                    | VTup [low; high] => low <= high
                    | VTup [low; high; step] => low <= high /\ 1 <= step
                    | _ => True
                    end) [h_clauses h; h_threshold h; h_epochs h; h_budget h] /\
  (forall v, int_value (h_threshold h) v -> 1 <= v) /\
  (forall v, int_value (h_epochs h) v -> 1 <= v) /\
  (forall v, int_value (h_budget h) v -> 0 <= v < 4294967296) /\
  1 <= h_seed h /\ 1 <= h_jobs h /\ h_seed h + h_jobs h <= 4294967296 /\
  exists nlit xt yt xe ye, h_train h = Some (Some xt, yt) /\ h_eval h = Some (Some xe, ye) /\
    plain nlit xt yt /\ plain nlit xe ye /\ numbered yt ye /\
    (h_folds h <= 1 \/ exists v, h_folds h <= Z.of_nat (count_occ Z.eq_dec (concat (y_rows yt ++ y_rows ye)) v)).
(** Every clause block gets a clause: no trial has fewer clauses than jobs. *)
Definition enough_clauses (h : search) : Prop := forall v, int_value (h_clauses h) v -> h_jobs h <= v.
