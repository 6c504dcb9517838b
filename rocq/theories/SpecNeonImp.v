(** Vocabulary for the memory safety of the NEON block. *)
From Coq Require Import ZArith List Bool QArith Lia.
From Verif Require Import Base Spec ModelDense ModelLayout ModelAvx2 ModelNeon SpecAvx2 SpecNeon ModelSparseImp ModelAvx2Imp SpecAvx2Imp ModelNeonImp.
Import ListNotations.
Open Scope Z_scope.

(** The number of allocated outputs. *)
Definition nouts_of (ncl : nat) : nat := ((ncl / 64 + 1) * 64)%nat.

(** The sizes are [int]s; the weights and the votes take two bytes each and their
    size is rounded up to a multiple of 32 in an [int]. *)
Definition nfits (nlit ncl ncls : nat) : Prop :=
  Z.of_nat (nlmem_of nlit) <= int_max /\ Z.of_nat (ncl * nlmem_of nlit * 2) <= int_max /\
  Z.of_nat (nouts_of ncl) <= int_max /\ 2 * Z.of_nat (ncl * ncls) <= int_max - 31 /\ 2 * Z.of_nat ncls <= int_max - 31.

(** The arrays have the sizes initialize gives them; the contents are free. *)
Record nshape (budget_on : bool) (b : ablock) : Prop := {
  ns_pos : (0 < a_nlit b)%nat;
  ns_lmem : a_lmem b = nlmem_of (a_nlit b);
  ns_mask : length (a_mask b) = 16%nat;
  ns_rows : Forall (fun row => length row = (2 * a_lmem b)%nat) (a_rows b);
  ns_weights : length (a_weights b) = length (a_rows b);
  ns_width : Forall (fun w => length w = a_ncls b) (a_weights b);
  ns_outputs : length (a_outputs b) = length (a_rows b);
  ns_counts : length (a_counts b) = if budget_on then length (a_rows b) else O;
  ns_votes : length (a_votes b) = a_ncls b;
  ns_vec : nvrng_ok (a_vrng b);
  ns_fits : nfits (a_nlit b) (length (a_rows b)) (a_ncls b)
}.

(** What lies in the arrays behind the block: the sizes are rounded up. *)
Record behind := mkBehind { bh_mask : list Z; bh_clauses : list Z; bh_weights : list Z; bh_votes : list Z }.
Definition in_neon (h : behind) (b : ablock) : vimp :=
  mkV (a_nlit b) (a_lmem b) (length (a_rows b)) (a_ncls b) (a_ncls b) (a_mask b ++ bh_mask h)
      (concat (a_rows b) ++ bh_clauses h) (concat (a_weights b) ++ bh_weights h)
      (widen (nouts_of (length (a_rows b))) (a_outputs b)) (a_counts b) (a_votes b ++ bh_votes h)
      (a_budget b) (a_cmp b) (a_vrng b) (a_fast b).

(** The buffer has room for the padded literals, the classes exist; training
    outputs need the literal budget unless there are no clauses. *)
Definition ncall_ok (budget_on : bool) (nlit ncl ncls : nat) (c : vcall) : Prop :=
  match c with
  | VTrain l => (nlmem_of nlit <= length l)%nat /\ (budget_on = true \/ ncl = O)
  | VEval l => (nlmem_of nlit <= length l)%nat
  | VUpdate l pc _ nc _ => (nlmem_of nlit <= length l)%nat /\ (pc < ncls)%nat /\ (nc < ncls)%nat
  | VState c off => window c (2 * nlit) off ncl
  | VWeights w off => window w ncls off ncl
  end.
Definition n_call (budget_on boost : bool) (b : ablock) (c : vcall) : ablock :=
  match c with
  | VTrain l => fst (neon_train_ex l b)
  | VEval l => fst (neon_eval_ex l b)
  | VUpdate l pc pp nc np => neon_train_update budget_on boost l pc pp nc np b
  | VState c off => with_rows (map2 (put_row (a_nlit b) (a_lmem b)) (skipn off c) (a_rows b)) b
  | VWeights w off => with_weights (firstn (length (a_rows b)) (skipn off w)) b
  end.
Definition ni_call (budget_on boost : bool) (s : vimp) (c : vcall) : R vimp :=
  match c with
  | VTrain l => nimp_train budget_on l s
  | VEval l => nimp_test l s
  | VUpdate l pc pp nc np => nimp_update budget_on boost l pc pp nc np s
  | VState c off => imp_set_state (concat c) off s
  | VWeights w off => imp_set_wts (concat w) off s
  end.
Fixpoint ni_calls (budget_on boost : bool) (cs : list vcall) (s : vimp) : R vimp :=
  match cs with
  | [] => Ret s
  | c :: t => bindR (ni_call budget_on boost s c) (ni_calls budget_on boost t)
  end.
