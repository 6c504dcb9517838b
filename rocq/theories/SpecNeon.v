(** Vocabulary for the NEON properties. *)
From Coq Require Import ZArith List Bool QArith Lia.
From Verif Require Import Base Spec ModelDense ModelLayout ModelAvx2 ModelNeon SpecAvx2.
Import ListNotations.
Open Scope Z_scope.

(** Sizes and mask as InitializeAlignedNeon makes them; the contents of the rows
    (padding included) are arbitrary. *)
Record neon_ok (n : nat) (b : ablock) : Prop := {
  no_pos : (0 < n)%nat;
  no_nlit : a_nlit b = n;
  no_lmem : a_lmem b = nlmem_of n;
  no_mask : a_mask b = nmask_of n;
  no_rows : Forall (fun row => length row = (2 * nlmem_of n)%nat) (a_rows b)
}.

(** [lits] is a padded buffer holding example [x]. *)
Definition nbuffer_of (n : nat) (x lits : list Z) : Prop :=
  length x = n /\ (nlmem_of n <= length lits)%nat /\ firstn n lits = x.

(** Every random vector has 16 bytes. *)
Definition nvrng_ok (r : vrng) : Prop := forall k, length (vr_src r k) = 16%nat.

(** Two literals eight places apart in the same vector. *)
Definition twins (n j : nat) : Prop := (j mod 16 < 8)%nat /\ (j + 8 < n)%nat.
(** Twin literals have equal automata, in the clause and in its negated half. *)
Definition twin_clause (n : nat) (c : clause) : Prop :=
  forall j, twins n j -> nth j (cl_pos c) 0 = nth (j + 8) (cl_pos c) 0 /\ nth j (cl_neg c) 0 = nth (j + 8) (cl_neg c) 0.
(** Twin literals have equal values in the example. *)
Definition twin_example (n : nat) (x : list Z) : Prop := forall j, twins n j -> nth j x 0 = nth (j + 8) x 0.
(** The two halves of every random vector are equal. *)
Definition twin_rng (r : vrng) : Prop := forall k i, (i < 8)%nat -> nth (i + 8) (vr_src r k) 0 = nth i (vr_src r k) 0.
