(** Vocabulary for the index safety of the sparse block. *)
From Coq Require Import ZArith List Bool QArith Lia.
From Verif Require Import Base Spec ModelSparse ModelSparseImp.
Import ListNotations.
Open Scope Z_scope.

(** The arrays of a block have the sizes it was initialised with, every clause
    vector has one state per automaton, and the next active literal to be
    replaced is one of the first active_literals_size >= 1.  Nothing is said
    about the contents: rows may be unsorted or have duplicates, literals may be
    any numbers. *)
Record shape (budget_on : bool) (b : sblock) : Prop := {
  sh_rows : length (sp_rows b) = (2 * sp_ncl b)%nat;
  sh_states : length (sp_states b) = (2 * sp_ncl b)%nat;
  sh_row : forall i, (i < 2 * sp_ncl b)%nat -> length (nth i (sp_states b) []) = length (nth i (sp_rows b) []);
  sh_al : length (sp_al b) = sp_ncls b;
  sh_repl : length (sp_repl b) = sp_ncls b;
  sh_alpos : (1 <= sp_alsize b)%nat;
  sh_next : forall c, (c < sp_ncls b)%nat -> (nth c (sp_repl b) O < sp_alsize b)%nat;
  sh_weights : length (sp_weights b) = sp_ncl b;
  sh_width : rows_of (sp_ncls b) (sp_weights b);
  sh_outputs : length (sp_outputs b) = sp_ncl b;
  sh_counts : budget_on = true -> length (sp_counts b) = sp_ncl b;
  sh_votes : length (sp_votes b) = sp_ncls b
}.

(** The block in memory: the weights are one array. *)
Definition flat (b : sblock) : simp :=
  mkI (sp_nlit b) (sp_ncl b) (sp_ncls b) (sp_csize b) (sp_alsize b) (sp_thr b) (sp_rows b) (sp_states b) (sp_al b) (sp_repl b)
      (concat (sp_weights b)) (sp_outputs b) (sp_counts b) (sp_votes b) (sp_budget b) (sp_si b) (sp_sm b) (sp_fast b).

(** The sizes stay. *)
Definition same_dims (a b : sblock) : Prop :=
  sp_ncl a = sp_ncl b /\ sp_ncls a = sp_ncls b /\ sp_nlit a = sp_nlit b /\ sp_csize a = sp_csize b /\ sp_alsize a = sp_alsize b.

(** What the executor does with a block, in any order. *)
Inductive call :=
| CTrain (lits : list nat)
| CEval (lits : list nat)
| CUpdate (lits : list nat) (pc : nat) (pp : Q) (nc : nat) (np : Q).
Definition call_ok (ncls : nat) (c : call) : Prop :=
  match c with CUpdate _ pc _ nc _ => (pc < ncls)%nat /\ (nc < ncls)%nat | _ => True end.
Definition sp_call (budget_on boost dynamic : bool) (b : sblock) (c : call) : sblock :=
  match c with
  | CTrain l => fst (sp_train_ex budget_on l b)
  | CEval l => fst (sp_eval_ex l b)
  | CUpdate l pc pp nc np => sp_train_update budget_on boost dynamic l pc pp nc np b
  end.
Definition imp_call (budget_on boost dynamic : bool) (s : simp) (c : call) : R simp :=
  match c with
  | CTrain l => imp_train_ex budget_on l s
  | CEval l => imp_eval_ex l s
  | CUpdate l pc pp nc np => imp_train_update budget_on boost dynamic l pc pp nc np s
  end.
Fixpoint imp_calls (budget_on boost dynamic : bool) (cs : list call) (s : simp) : R simp :=
  match cs with
  | [] => Ret s
  | c :: t => bindR (imp_call budget_on boost dynamic s c) (imp_calls budget_on boost dynamic t)
  end.

(** A CSR matrix whose row ends lie inside its arrays. *)
Definition csr_in (c : csr) : Prop :=
  let '(data, indices, indptr) := c in
  indptr <> [] /\ forall i, (S i < length indptr)%nat -> (nth (S i) indptr O <= length data)%nat /\ (nth (S i) indptr O <= length indices)%nat.
