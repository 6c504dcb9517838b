(** Concrete data used by the examples beside the property theorems. *)
From Coq Require Import ZArith List Bool QArith.
From Verif Require Import Base Spec ModelRuleSet ModelInference ModelDense ModelFeedback ModelExecutor ModelLayout.
Import ListNotations.
Open Scope Z_scope.

(** Five clauses over three literals, two classes: clauses 0 and 1 include the
    same literals {0, not 2}, clause 2 is empty, clause 4 has zero weights. *)
Definition ex_state : dense_state :=
  mkDense 6 2
    [[3;-5;-1;-2;-3;0]; [0;-1;-1;-1;-1;7]; [-1;-1;-1;-1;-1;-1]; [-1;0;-1;-1;-1;-1]; [-1;-1;5;-1;-1;-1]]
    [[4;-2]; [1;1]; [9;9]; [-3;6]; [0;0]].

(** Blocks of two and three clauses with padded rows and arbitrary old memory. *)
Definition ex_flats : list flat :=
  [mkFlat 2 3 4 2 3 (repeat 7 16) (repeat 5 6); mkFlat 3 3 4 2 3 (repeat 7 24) (repeat 5 9)].
(** One unpadded block. *)
Definition ex_flats1 : list flat := [mkFlat 5 3 3 2 2 (repeat 1 30) (repeat 1 10)].

(** A generator: draws 1/7, 3/7, 5/7, 0, 2/7, ... *)
Definition ex_rng : rng := mkRng (fun i => Z.of_nat ((2 * i + 1) mod 7)%nat # 7) 0.
Definition ex_irng : irng := mkIrng (fun i => (5 * i + 3)%nat) 0.

Definition ex_block_of (f : flat) : bool * block :=
  (true, mkBlock (f_nlit f) (f_ncls f) (view_clauses f) (view_all_weights f) [] [] [] 65535
           (1#4) (3#4) ex_rng ex_rng).

Definition ex_exec (fs : list flat) : exec block :=
  mkExec (map ex_block_of (save_state_in_backend ex_state fs)) (new_fblock 2 (20#1) ex_rng) [] ex_irng.

Definition ex_data : list (list Z * nat) := [([1;0;0], 0%nat); ([1;1;1], 1%nat); ([0;0;1], 0%nat); ([1;1;0], 1%nat)].
