(** What it means to read an array: the definitions the theorems about memory
    layout use. *)
From Coq Require Import ZArith List Bool Lia.
From Verif Require Import Base ModelNumpy.
Import ListNotations.
Open Scope Z_scope.

(** Every entry of the array lies in its buffer. *)
Definition in_buffer (x : view) : Prop :=
  forall i j, (i < v_n x)%nat -> (j < v_m x)%nat ->
    0 <= v_off x + Z.of_nat i * v_rs x + Z.of_nat j * v_cs x < Z.of_nat (length (v_buf x)).

(** [l] is row [i] of the array. *)
Definition is_row (x : view) (i : nat) (l : list Z) : Prop :=
  length l = v_m x /\
  forall j, (j < v_m x)%nat ->
    nth_error l j = nth_error (v_buf x) (Z.to_nat (v_off x + Z.of_nat i * v_rs x + Z.of_nat j * v_cs x)).

(** x[::-1] *)
Definition reversed (x : view) : view :=
  mkView (v_buf x) (v_off x + (Z.of_nat (v_n x) - 1) * v_rs x) (v_n x) (v_m x) (- v_rs x) (v_cs x).

(** The same layout on another buffer. *)
Definition on_buffer (x : view) (b : list Z) : view := mkView b (v_off x) (v_n x) (v_m x) (v_rs x) (v_cs x).

(** Row [i] of [x] is what the clause blocks get to see. *)
Definition sees (presented x : view) (i i' : nat) : Prop :=
  exists l, is_row x i' l /\ present presented (Z.of_nat (v_m x)) (Z.of_nat i) = Some l.
