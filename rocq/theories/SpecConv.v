(** Independent vocabulary for the convolutional block: an example is a row of
    [np] patches of [n] inputs, patch after patch. *)
From Coq Require Import ZArith List Bool QArith Lia.
From Verif Require Import Base Spec SpecLearning.
Import ListNotations.
Open Scope Z_scope.

(** The inputs of patch [p]. *)
Definition nth_patch (n : nat) (lits : list Z) (p : nat) : list Z := map (fun i => nth (p * n + i) lits 0) (seq 0 n).

Definition conv_example (n np : nat) (lits : list Z) : Prop := length lits = (np * n)%nat /\ binary lits.

(** During training a patch counts when all included literals hold in it (also
    when nothing is included). *)
Definition patch_matches (n : nat) (lits row : list Z) (p : nat) : Prop := clause_matches n (nth_patch n lits p) row = true.
Definition some_match (n np : nat) (lits row : list Z) : Prop := exists p, (p < np)%nat /\ patch_matches n lits row p.

(** At evaluation something has to be included as well. *)
Definition patch_fires (n : nat) (lits row : list Z) (p : nat) : bool := clause_fires n (nth_patch n lits p) row.

(** Total vote for class [c]: the weights of the clauses that fire on some patch. *)
Fixpoint conv_vote_total (n np : nat) (lits : list Z) (rows ws : list (list Z)) (c : nat) : Z :=
  match rows, ws with
  | row :: rows', w :: ws' =>
      (if existsb (patch_fires n lits row) (seq 0 np) then nth c w 0 else 0) + conv_vote_total n np lits rows' ws' c
  | _, _ => 0
  end.

(** The matching patches come first: no patch that does not match is followed
    by one that does. *)
Definition matches_first (n np : nat) (lits row : list Z) : Prop :=
  forall p q, (p < q)%nat -> (q < np)%nat -> patch_matches n lits row q -> patch_matches n lits row p.
