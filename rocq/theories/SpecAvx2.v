(** Vocabulary for the AVX2 properties. *)
From Coq Require Import ZArith List Bool QArith Lia.
From Verif Require Import Base Spec ModelDense ModelLayout ModelAvx2.
Import ListNotations.
Open Scope Z_scope.

(** The automata of a padded row that belong to real literals. *)
Definition row_clause (n lmem : nat) (row : list Z) : clause := mkClause (firstn n row) (slice row lmem n).

(** The scalar block holding the same clauses, weights and counters as an AVX2
    block; the parameters the AVX2 block does not have are free. *)
Definition scalar_view (si sm : Q) (r : rng) (b : ablock) : block :=
  mkBlock (a_nlit b) (a_ncls b) (map (row_clause (a_nlit b) (a_lmem b)) (a_rows b)) (a_weights b)
          (a_outputs b) (a_counts b) (a_votes b) (a_budget b) si sm r (a_fast b).

(** Sizes and mask as InitializeAVX2 makes them; the contents of the rows
    (padding included) are arbitrary. *)
Record avx_ok (n : nat) (b : ablock) : Prop := {
  ao_pos : (0 < n)%nat;
  ao_nlit : a_nlit b = n;
  ao_lmem : a_lmem b = lmem_of n;
  ao_mask : a_mask b = mask_of n;
  ao_rows : Forall (fun row => length row = (2 * lmem_of n)%nat) (a_rows b)
}.

(** [lits] is a padded buffer holding example [x] (input_block.hpp:48-68):
    whole vectors, anything behind the example. *)
Definition buffer_of (n : nat) (x lits : list Z) : Prop :=
  length x = n /\ (lmem_of n <= length lits)%nat /\ firstn n lits = x.

(** The byte that lane [i] of the k-th vector drawn from [r] holds. *)
Definition vdraw (r : vrng) (k i : nat) : Z := nth i (vr_src r (vr_pos r + k)) 0.
Definition vrng_ok (r : vrng) : Prop := forall k, length (vr_src r k) = 32%nat.
Definition vadvance (k : nat) (r : vrng) : vrng := mkVrng (vr_src r) (vr_pos r + k).

(** One step of a saturating int8 counter. *)
Definition up8 (v : Z) : Z := Z.min 127 (v + 1).
Definition down8 (v : Z) : Z := Z.max (-128) (v - 1).

(** The 256 values of a random byte read as int8. *)
Definition all_bytes : list Z := map (fun i => Z.of_nat i - 128) (seq 0 256).
