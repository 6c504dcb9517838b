(** Shared basis of the model: machine integers, result values, random
    generators and small list functions.  No proofs here. *)
From Coq Require Import ZArith List Bool QArith Lia.
Import ListNotations.
Open Scope Z_scope.

(** ** Machine integers *)

(** Value stored when [z] is assigned to an n-bit two's complement variable
    (gcc/clang and numpy both wrap). *)
Definition wrap (bits : Z) (z : Z) : Z :=
  (z + 2 ^ (bits - 1)) mod (2 ^ bits) - 2 ^ (bits - 1).

(** int8_t: automaton states (src/aligned_tsetlin_state.hpp:33). *)
Definition wrap8 (z : Z) : Z := wrap 8 z.
(** WeightInt = int16_t (src/gt_common.hpp:10). *)
Definition wrap16 (z : Z) : Z := wrap 16 z.
(** int32_t: votes of Inference (src/inference.hpp:225). *)
Definition wrap32 (z : Z) : Z := wrap 32 z.

Definition is_int8 (z : Z) : Prop := -128 <= z <= 127.
Definition is_int16 (z : Z) : Prop := -32768 <= z <= 32767.
Definition is_int32 (z : Z) : Prop := -2147483648 <= z <= 2147483647.

(** ** Results: python exceptions / C++ exceptions as values *)

Inductive exn :=
| ValueError | TypeError | KeyError | AttributeError | NotImplementedError
| ZeroDivisionError | IndexError | RuntimeError | FileNotFound.

Inductive res (A : Type) :=
| Ok (a : A)
| Raise (e : exn).
Arguments Ok {A} a.
Arguments Raise {A} e.

(** ** Random generators

    A generator is a fixed but arbitrary stream of draws with a read
    position.  A theorem quantified over all [rng] covers every seed and
    every draw sequence of the real generators (std::default_random_engine
    behind a uniform real distribution, Wyhash64::next_u). *)
Record rng := mkRng { rng_src : nat -> Q; rng_pos : nat }.

Definition next_u (r : rng) : Q * rng :=
  (rng_src r (rng_pos r), mkRng (rng_src r) (S (rng_pos r))).

(** Strict comparison on rationals as a boolean. *)
Definition Qlt_bool (a b : Q) : bool := negb (Qle_bool b a).

(** ** Lists *)

(** a[i] = v *)
Fixpoint set_nth {A} (i : nat) (v : A) (l : list A) : list A :=
  match l, i with
  | [], _ => []
  | _ :: t, O => v :: t
  | h :: t, S j => h :: set_nth j v t
  end.

(** Elementwise combination of two arrays (stops at the shorter). *)
Fixpoint map2 {A B C} (f : A -> B -> C) (l1 : list A) (l2 : list B) : list C :=
  match l1, l2 with
  | a :: t1, b :: t2 => f a b :: map2 f t1 t2
  | _, _ => []
  end.

Fixpoint zsum (l : list Z) : Z :=
  match l with
  | [] => 0
  | h :: t => h + zsum t
  end.

Definition b2z (b : bool) : Z := if b then 1 else 0.
