(** Independent vocabulary for the learning properties. *)
From Coq Require Import ZArith List Bool QArith Lia.
From Verif Require Import Base Spec.
Import ListNotations.
Open Scope Z_scope.

(** The k-th draw that a generator is going to deliver. *)
Definition draw (r : rng) (k : nat) : Q := rng_src r (rng_pos r + k).
(** The generator after n draws. *)
Definition advance (n : nat) (r : rng) : rng := mkRng (rng_src r) (rng_pos r + n).

(** One step towards inclusion / exclusion, stopping at +127 / -127. *)
Definition step_up (v : Z) : Z := if v <? 127 then v + 1 else v.
Definition step_down (v : Z) : Z := if -127 <? v then v - 1 else v.

Definition in_range (lo hi : Z) (v : Z) : Prop := lo <= v <= hi.

(** Number of included literals of an automata row. *)
Definition n_included (row : list Z) : Z := Z.of_nat (length (included row)).

(** Number of ones among the first i inputs. *)
Definition ones_before (x : list Z) (i : nat) : nat :=
  length (filter (fun v => v =? 1) (firstn i x)).

(** Type Ia, per input i of the example x, spelled out with the draws it uses:
    the first draw index, and the new automata of the literal and of its
    negation. *)
Definition t1a_first_draw (boost : bool) (x : list Z) (i : nat) : nat :=
  if boost then (2 * i - ones_before x i)%nat else (2 * i)%nat.

Definition t1a_new_pos (boost : bool) (s_inv s_min1_inv : Q) (x : list Z) (r : rng) (i : nat) (p : Z) : Z :=
  let k := t1a_first_draw boost x i in
  if nth i x 0 =? 1 then
    (if boost || Qle_bool (draw r k) s_min1_inv then step_up p else p)
  else (if Qle_bool (draw r k) s_inv then step_down p else p).

Definition t1a_new_neg (boost : bool) (s_inv s_min1_inv : Q) (x : list Z) (r : rng) (i : nat) (q : Z) : Z :=
  let k := t1a_first_draw boost x i in
  if nth i x 0 =? 1 then
    (if Qle_bool (draw r (if boost then k else S k)) s_inv then step_down q else q)
  else (if Qle_bool (draw r (S k)) s_min1_inv then step_up q else q).
