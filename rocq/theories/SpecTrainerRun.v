(** Specification vocabulary: what a training run is given. *)
From Coq Require Import ZArith List Bool QArith Lia.
From Verif Require Import Base ModelRuleSet ModelDense ModelMachine ModelTrainer.
Import ListNotations.
Open Scope Z_scope.

(** Entry [i] of a list that is started over when it ends. *)
Definition cyclic {A} (l : list A) (i : nat) : option A := nth_error l (i mod length l).

(** A csr row lists the columns that are 1, in any order, possibly repeated;
    [row] is the same row written out. *)
Definition same_row (n : nat) (cols row : list Z) : Prop :=
  Forall (fun c => 0 <= c < Z.of_nat n) cols /\ length row = n /\
  forall i, (i < n)%nat -> (In (Z.of_nat i) cols -> nth i row 0 = 1) /\ (~ In (Z.of_nat i) cols -> nth i row 0 = 0).

(** [d] holds a csr matrix, [d'] the same matrix as an array, with the same labels. *)
Definition same_matrix (n : nat) (d d' : data) : Prop :=
  x_kind (d_x d) = KCsr /\ x_kind (d_x d') = KArray /\ d_y d' = d_y d /\
  Forall2 (same_row n) (x_rows (d_x d)) (x_rows (d_x d')).

(** The trainer with other data in it. *)
Definition given {M S} (dt de : data) (t : trainer M S) : trainer M S := with_train (Some dt) (with_eval (Some de) t).
