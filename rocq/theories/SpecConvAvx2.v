(** Vocabulary for the AVX2 convolutional block. *)
From Coq Require Import ZArith List Bool QArith Lia.
From Verif Require Import Base Spec SpecLearning SpecConv ModelDense ModelLayout ModelAvx2 ModelConv ModelConvAvx2 SpecAvx2.
Import ListNotations.
Open Scope Z_scope.

(** The example buffer (input_block.hpp:48-68) holds the [np] patches of [x], and
    the vectors of the last patch lie inside it. *)
Definition conv_buffer (n np : nat) (x lits : list Z) : Prop :=
  conv_example n np x /\ firstn (np * n) lits = x /\ ((np - 1) * n + lmem_of n <= length lits)%nat.

(** Patches whose vectors start at multiples of 32 bytes: patches of whole
    vectors, or a single patch. *)
Definition whole_patches (n np : nat) : Prop := (n mod 32 = 0)%nat \/ np = 1%nat.

(** The scalar convolutional block holding the same clauses, weights, counters,
    patches and generators; the parameters the AVX2 block does not have are free. *)
Definition conv_view (si sm : Q) (v : xcblock) : cvblock :=
  mkCv (scalar_view si sm (xc_rng v) (xc_b v)) (xc_np v) (xc_active v) (xc_ppc v).

(** Automata of the real literals of clause [k], and its weights. *)
Definition xrow (n : nat) (v : xcblock) (k : nat) : list Z :=
  let row := nth k (a_rows (xc_b v)) [] in firstn n row ++ slice row (lmem_of n) n.
Definition xweights (v : xcblock) (k : nat) : list Z := nth k (a_weights (xc_b v)) [].
Definition xclauses (v : xcblock) : nat := length (a_rows (xc_b v)).

(** Per-clause and per-patch arrays of the allocated sizes, one patch. *)
Definition one_patch (v : xcblock) : Prop :=
  xc_np v = 1%nat /\ length (xc_active v) = xclauses v /\ length (a_counts (xc_b v)) = xclauses v /\ length (xc_ppc v) = 1%nat.

(** Everything but the literal counters is the same. *)
Definition same_but_counts (b1 b2 : ablock) : Prop :=
  a_nlit b1 = a_nlit b2 /\ a_lmem b1 = a_lmem b2 /\ a_mask b1 = a_mask b2 /\ a_ncls b1 = a_ncls b2 /\ a_rows b1 = a_rows b2 /\
  a_weights b1 = a_weights b2 /\ a_outputs b1 = a_outputs b2 /\ a_votes b1 = a_votes b2 /\ a_budget b1 = a_budget b2 /\
  a_cmp b1 = a_cmp b2 /\ a_vrng b1 = a_vrng b2 /\ a_fast b1 = a_fast b2.

(** What an executor holds: the rows and weights of a block that has not run into
    undefined behaviour, and the total votes of all blocks. *)
Definition xrows (n : nat) (s : option xcblock) : list (list Z) :=
  match s with Some v => map (xrow n v) (seq 0 (xclauses v)) | None => [] end.
Definition xwts (s : option xcblock) : list (list Z) := match s with Some v => a_weights (xc_b v) | None => [] end.
Definition xc_total (n np : nat) (x : list Z) (bs : list (bool * option xcblock)) (c : nat) : Z :=
  zsum (map (fun tb => conv_vote_total n np x (xrows n (snd tb)) (xwts (snd tb)) c) bs).
