(** Vocabulary for the memory of the AVX2 convolutional block. *)
From Coq Require Import ZArith List Bool QArith Lia.
From Verif Require Import Base Spec ModelDense ModelLayout ModelAvx2 ModelConv ModelConvAvx2 ModelSparseImp ModelAvx2Imp ModelConvAvx2Imp SpecAvx2 SpecAvx2Imp.
Import ListNotations.
Open Scope Z_scope.

(** Without a literal budget there is no array of literal counts. *)
Definition hide (budget_on : bool) (b : ablock) : ablock :=
  mkABlock (a_nlit b) (a_lmem b) (a_mask b) (a_ncls b) (a_rows b) (a_weights b) (a_outputs b) (if budget_on then a_counts b else []) (a_votes b)
           (a_budget b) (a_cmp b) (a_vrng b) (a_fast b).

(** The arrays have the sizes initialize gives them; the contents are free. *)
Record xshape (budget_on pad : bool) (v : xcblock) : Prop := {
  xs_b : vshape budget_on pad (hide budget_on (xc_b v));
  xs_counts : length (a_counts (xc_b v)) = length (a_rows (xc_b v));
  xs_active : length (xc_active v) = length (a_rows (xc_b v));
  xs_ppc : length (xc_ppc v) = xc_np v;
  xs_int : Z.of_nat (xc_np v * a_nlit (xc_b v)) <= int_max
}.

(** The block in memory. *)
Definition xinmem (budget_on pad : bool) (rest : list Z) (v : xcblock) : ximp :=
  mkXi (inmem pad rest (hide budget_on (xc_b v))) (xc_np v) (xc_active v) (xc_ppc v) (xc_rng v).

(** Undefined in the one model exactly where in the other. *)
Definition mem_of (budget_on pad : bool) (rest : list Z) (v : option xcblock) : R ximp :=
  match v with Some v => Ret (xinmem budget_on pad rest v) | None => Wild end.

(** The example buffer of an input block for [np] patches of [nlit] literals
    (input_block.hpp:62-66). *)
Definition whole_buffer (nlit np : nat) (l : list Z) : Prop := (length l = (np * nlit / 32 + 1) * 32)%nat.

Definition xcall_ok (nlit np ncl ncls : nat) (c : xcall) : Prop :=
  match c with
  | XTrain l pc _ nc _ => whole_buffer nlit np l /\ (pc < ncls)%nat /\ (nc < ncls)%nat
  | XEval l => whole_buffer nlit np l
  | XState c off => window c (2 * nlit) off ncl
  | XWeights w off => window w ncls off ncl
  end.

(** The calls on the list model. *)
Definition xc_with (v : xcblock) (b : ablock) : xcblock := mkXc b (xc_np v) (xc_active v) (xc_ppc v) (xc_rng v).
Definition x_call (budget_on boost : bool) (s : option xcblock) (c : xcall) : option xcblock :=
  match c with
  | XTrain l pc pp nc np => xc_upd budget_on boost l pc pp nc np (fst (xc_train_ex budget_on l s))
  | XEval l => fst (xc_eval_ex l s)
  | XState c off => match s with
      | Some v => Some (xc_with v (with_rows (map2 (put_row (a_nlit (xc_b v)) (a_lmem (xc_b v))) (skipn off c) (a_rows (xc_b v))) (xc_b v)))
      | None => None
      end
  | XWeights w off => match s with
      | Some v => Some (xc_with v (with_weights (firstn (length (a_rows (xc_b v))) (skipn off w)) (xc_b v)))
      | None => None
      end
  end.

(** Blocks that differ only in active_patches, literal_counts and
    literal_counts_per_patch. *)
Record alike (v w : xcblock) : Prop := {
  al_nlit : a_nlit (xc_b w) = a_nlit (xc_b v); al_lmem : a_lmem (xc_b w) = a_lmem (xc_b v); al_mask : a_mask (xc_b w) = a_mask (xc_b v);
  al_ncls : a_ncls (xc_b w) = a_ncls (xc_b v); al_rows : a_rows (xc_b w) = a_rows (xc_b v); al_weights : a_weights (xc_b w) = a_weights (xc_b v);
  al_outputs : a_outputs (xc_b w) = a_outputs (xc_b v); al_votes : a_votes (xc_b w) = a_votes (xc_b v); al_budget : a_budget (xc_b w) = a_budget (xc_b v);
  al_cmp : a_cmp (xc_b w) = a_cmp (xc_b v); al_vrng : a_vrng (xc_b w) = a_vrng (xc_b v); al_fast : a_fast (xc_b w) = a_fast (xc_b v);
  al_np : xc_np w = xc_np v; al_rng : xc_rng w = xc_rng v
}.
Definition alike_o (v w : option xcblock) : Prop :=
  match v, w with None, None => True | Some v, Some w => alike v w | _, _ => False end.

