(** What it means that memory holds a convolutional block. *)
From Coq Require Import ZArith List Bool QArith Lia.
From Verif Require Import Base ModelHeap ModelDense ModelFeedback ModelConv ModelTMHeap ModelConvHeap SpecHeap.
Import ListNotations.
Open Scope Z_scope.

(** The values of an array, element [k] of new memory being [j k]. *)
Definition seen (j : nat -> Z) (k : nat) (c : option Z) : Z := match c with Some v => v | None => j k end.
Fixpoint fill_from (j : nat -> Z) (k : nat) (cs : list (option Z)) : list Z :=
  match cs with [] => [] | c :: t => seen j k c :: fill_from j (S k) t end.
Definition fill (j : nat -> Z) (cs : list (option Z)) : list Z := fill_from j 0 cs.

(** A written element of active_patches is a patch. *)
Definition in_patches (np : nat) (c : option Z) : Prop := match c with Some a => 0 <= a < Z.of_nat np | None => True end.

(** The object [c] with the memory [h] is the block [v]; its arrays are [i], [ia]
    (active_patches) and [ip] (literal_counts_per_patch). *)
Record is_conv (budget_on : bool) (j : junk) (i : ids) (ia ip : nat) (h : heap) (c : hconv) (v : cvblock) : Prop := {
  ic_block : is_block budget_on false i h (hc_s c) (cv_b v);
  ic_np : hc_np c = Z.of_nat (cv_np v);
  ic_distinct : NoDup (ia :: ip :: owned budget_on i);
  ic_fits : Z.of_nat (cv_np v * b_nlit (cv_b v)) <= int_max;
  ic_active : hc_active c = start ia /\
    exists cs, cells h ia cs /\ length cs = length (b_clauses (cv_b v)) /\ Forall (in_patches (cv_np v)) cs /\
               fill (fun k => Z.of_nat (j_active j k)) cs = map Z.of_nat (cv_active v);
  ic_ppc : hc_ppc c = start ip /\ exists cs, cells h ip cs /\ length cs = cv_np v /\ fill (j_ppc j) cs = cv_ppc v;
  ic_len : length (b_counts (cv_b v)) = length (b_clauses (cv_b v));
  ic_counts : budget_on = true ->
    exists cs, cells h (i_counts i) cs /\ length cs = length (b_clauses (cv_b v)) /\ fill (j_counts j) cs = b_counts (cv_b v)
}.

(** All arrays of a block. *)
Definition conv_ids (budget_on : bool) (i : ids) (ia ip : nat) : list nat := ia :: ip :: owned budget_on i.

(** Every element of an array has been written. *)
Definition written (h : heap) (id : nat) : Prop := exists vs, holds h id vs.
(** ... of all arrays initialize leaves unwritten. *)
Definition all_written (budget_on : bool) (i : ids) (ia ip : nat) (h : heap) : Prop :=
  written h ia /\ (budget_on = true -> written h (i_counts i) /\ written h ip).

(** The clauses that fire know a patch. *)
Definition ready (ia : nat) (h : heap) (v : cvblock) : Prop :=
  exists cs, cells h ia cs /\
    forall k, nth_error (b_outputs (cv_b v)) k = Some 1 -> exists a, nth_error cs k = Some (Some a).

(** The calls on the list model: the rows of the data set. *)
Definition c_call (budget_on boost : bool) (data : list (list Z * nat)) (v : cvblock) (x : ccall) : cvblock :=
  match x with
  | CTrain index pc pp nc np =>
      let lits := fst (nth index data ([], O)) in
      conv_update budget_on boost lits pc pp nc np (fst (conv_train_ex budget_on lits v))
  | CEval index => fst (conv_eval_ex (fst (nth index data ([], O))) v)
  end.
Definition ccall_ok (n ncls : nat) (x : ccall) : Prop :=
  match x with
  | CTrain index pc _ nc _ => (index < n)%nat /\ (pc < ncls)%nat /\ (nc < ncls)%nat
  | CEval index => (index < n)%nat
  end.

(** Two blocks a caller cannot tell apart: only the arrays initialize leaves
    unwritten may differ. *)
Definition same_block (v w : cvblock) : Prop :=
  cv_np v = cv_np w /\ b_nlit (cv_b v) = b_nlit (cv_b w) /\ b_ncls (cv_b v) = b_ncls (cv_b w) /\
  b_clauses (cv_b v) = b_clauses (cv_b w) /\ b_weights (cv_b v) = b_weights (cv_b w) /\
  b_outputs (cv_b v) = b_outputs (cv_b w) /\ b_votes (cv_b v) = b_votes (cv_b w) /\
  b_budget (cv_b v) = b_budget (cv_b w) /\ b_s_inv (cv_b v) = b_s_inv (cv_b w) /\
  b_s_min1_inv (cv_b v) = b_s_min1_inv (cv_b w) /\ b_rng (cv_b v) = b_rng (cv_b w) /\ b_fast (cv_b v) = b_fast (cv_b w).
