(** Vocabulary for the memory safety of the AVX2 block. *)
From Coq Require Import ZArith List Bool QArith Lia.
From Verif Require Import Base Spec ModelDense ModelLayout ModelAvx2 SpecAvx2 ModelSparseImp ModelAvx2Imp.
Import ListNotations.
Open Scope Z_scope.

Definition int_max : Z := 2147483647.

(** num_class_weights_mem, and the number of allocated outputs. *)
Definition wmem_of (pad : bool) (ncls : nat) : nat := if pad then ((ncls / 128 + 1) * 128)%nat else ncls.
Definition outs_of (ncl : nat) : nat := ((ncl / 128 + 1) * 128)%nat.

(** The sizes are [int]s. *)
Definition fits (pad : bool) (nlit ncl ncls : nat) : Prop :=
  Z.of_nat (lmem_of nlit) <= int_max /\ Z.of_nat (ncl * lmem_of nlit * 2) <= int_max /\
  Z.of_nat (outs_of ncl) <= int_max /\ Z.of_nat (wmem_of pad ncls) <= int_max /\ Z.of_nat (ncl * wmem_of pad ncls) <= int_max.

(** The arrays have the sizes initialize gives them; the contents are free. *)
Record vshape (budget_on pad : bool) (b : ablock) : Prop := {
  vs_pos : (0 < a_nlit b)%nat;
  vs_lmem : a_lmem b = lmem_of (a_nlit b);
  vs_mask : length (a_mask b) = 32%nat;
  vs_rows : Forall (fun row => length row = (2 * a_lmem b)%nat) (a_rows b);
  vs_weights : length (a_weights b) = length (a_rows b);
  vs_width : Forall (fun w => length w = a_ncls b) (a_weights b);
  vs_outputs : length (a_outputs b) = length (a_rows b);
  vs_counts : budget_on = true -> length (a_counts b) = length (a_rows b);
  vs_votes : length (a_votes b) = a_ncls b;
  vs_vec : vrng_ok (a_vrng b);
  vs_fits : fits pad (a_nlit b) (length (a_rows b)) (a_ncls b)
}.

(** The block in memory: one array of clauses, [rest] behind it (an empty request
    gets 32 bytes); weight rows, outputs and votes padded with zeros. *)
Definition widen (n : nat) (l : list Z) : list Z := l ++ repeat 0 (n - length l).
Definition inmem (pad : bool) (rest : list Z) (b : ablock) : vimp :=
  mkV (a_nlit b) (a_lmem b) (length (a_rows b)) (a_ncls b) (wmem_of pad (a_ncls b)) (a_mask b)
      (concat (a_rows b) ++ rest) (concat (map (widen (wmem_of pad (a_ncls b))) (a_weights b)))
      (widen (outs_of (length (a_rows b))) (a_outputs b)) (a_counts b) (widen (wmem_of pad (a_ncls b)) (a_votes b))
      (a_budget b) (a_cmp b) (a_vrng b) (a_fast b).

(** What a clause of [n] literals keeps in a file, and a row that took it over:
    the padding is left alone. *)
Definition own_row (n lmem : nat) (row : list Z) : list Z := firstn n row ++ slice row lmem n.
Definition put_row (n lmem : nat) (src row : list Z) : list Z :=
  firstn n src ++ slice row n (lmem - n) ++ slice src n n ++ skipn (lmem + n) row.
Definition with_rows (rows : list (list Z)) (b : ablock) : ablock :=
  mkABlock (a_nlit b) (a_lmem b) (a_mask b) (a_ncls b) rows (a_weights b) (a_outputs b) (a_counts b) (a_votes b) (a_budget b) (a_cmp b) (a_vrng b) (a_fast b).
Definition with_weights (ws : list (list Z)) (b : ablock) : ablock :=
  mkABlock (a_nlit b) (a_lmem b) (a_mask b) (a_ncls b) (a_rows b) ws (a_outputs b) (a_counts b) (a_votes b) (a_budget b) (a_cmp b) (a_vrng b) (a_fast b).

(** The calls of the executor and, for a block whose first clause is clause [off]
    of the machine, of _save_state_in_backend. *)
Inductive vcall :=
| VTrain (lits : list Z)
| VEval (lits : list Z)
| VUpdate (lits : list Z) (pc : nat) (pp : Q) (nc : nat) (np : Q)
| VState (c : list (list Z)) (off : nat)
| VWeights (w : list (list Z)) (off : nat).
(** [n] rows of width [w] are there from [off] on, and the array can be indexed
    by an [int]. *)
Definition window (rows : list (list Z)) (width off n : nat) : Prop :=
  Forall (fun r => length r = width) rows /\ (off + n <= length rows)%nat /\ Z.of_nat ((off + n) * width) <= int_max.
(** The buffer has room for the padded literals, the classes exist. *)
Definition vcall_ok (nlit ncl ncls : nat) (c : vcall) : Prop :=
  match c with
  | VTrain l | VEval l => (lmem_of nlit <= length l)%nat
  | VUpdate l pc _ nc _ => (lmem_of nlit <= length l)%nat /\ (pc < ncls)%nat /\ (nc < ncls)%nat
  | VState c off => window c (2 * nlit) off ncl
  | VWeights w off => window w ncls off ncl
  end.
Definition v_call (budget_on boost : bool) (b : ablock) (c : vcall) : ablock :=
  match c with
  | VTrain l => fst (avx_train_ex budget_on l b)
  | VEval l => fst (avx_eval_ex l b)
  | VUpdate l pc pp nc np => avx_upd budget_on boost l pc pp nc np b
  | VState c off => with_rows (map2 (put_row (a_nlit b) (a_lmem b)) (skipn off c) (a_rows b)) b
  | VWeights w off => with_weights (firstn (length (a_rows b)) (skipn off w)) b
  end.
Definition vi_call (budget_on boost : bool) (s : vimp) (c : vcall) : R vimp :=
  match c with
  | VTrain l => imp_vtrain budget_on l s
  | VEval l => imp_vtest l s
  | VUpdate l pc pp nc np => imp_vupdate budget_on boost l pc pp nc np s
  | VState c off => imp_set_state (concat c) off s
  | VWeights w off => imp_set_wts (concat w) off s
  end.
Fixpoint vi_calls (budget_on boost : bool) (cs : list vcall) (s : vimp) : R vimp :=
  match cs with
  | [] => Ret s
  | c :: t => bindR (vi_call budget_on boost s c) (vi_calls budget_on boost t)
  end.
