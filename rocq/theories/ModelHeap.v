(** Memory: a heap of allocations, as the C++ core sees it.  Programs are
    partial: None stands for undefined behaviour (access through a null or
    dangling pointer, outside an allocation, to memory not yet written, a wrong
    release, signed overflow). *)
From Coq Require Import ZArith List Bool Lia.
From Verif Require Import Base.
Import ListNotations.
Open Scope Z_scope.

(** How a piece of memory was obtained: new[] or malloc / aligned_alloc
    (src/gt_common.hpp:14-45); numpy's own arrays count as the latter. *)
Inductive kind := KNew | KMalloc.

(** One allocation: its elements, None = not written yet. *)
Record chunk := mkChunk { ch_kind : kind; ch_cells : list (option Z) }.

(** Allocation number i; None = released.  Numbers are never reused, so a
    dangling pointer stays dangling. *)
Definition heap := list (option chunk).

(** A pointer that is not null: allocation and element offset. *)
Record addr := mkAddr { ad_id : nat; ad_off : Z }.
Definition ptr := option addr.
Definition null : ptr := None.

Definition M (A : Type) := heap -> option (A * heap).
Definition ret {A} (a : A) : M A := fun h => Some (a, h).
Definition bind {A B} (m : M A) (f : A -> M B) : M B :=
  fun h => match m h with Some (a, h) => f a h | None => None end.
Definition undef {A} : M A := fun _ => None.
Notation "x <- m ;; k" := (bind m (fun x => k)) (at level 61, m at next level, right associativity).
Notation "m ;;; k" := (bind m (fun _ => k)) (at level 61, right associativity).

(** new T[n] / aligned_alloc: a fresh allocation of n elements without contents. *)
Definition halloc (k : kind) (n : nat) : M ptr :=
  fun h => Some (Some (mkAddr (length h) 0), h ++ [Some (mkChunk k (repeat None n))]).

(** delete[] p / free(p): nothing for a null pointer; otherwise p must be the start of
    a live allocation of the same kind. *)
Definition hfree (k : kind) (p : ptr) : M unit :=
  fun h => match p with
  | None => Some (tt, h)
  | Some a =>
      match nth_error h (ad_id a), k with
      | Some (Some (mkChunk KNew _)), KNew | Some (Some (mkChunk KMalloc _)), KMalloc =>
          if ad_off a =? 0 then Some (tt, set_nth (ad_id a) None h) else None
      | _, _ => None
      end
  end.

(** p + d, also &p[d]: stays inside the allocation or one past its end. *)
Definition padd (p : ptr) (d : Z) : M ptr :=
  fun h => match p with
  | None => None
  | Some a =>
      match nth_error h (ad_id a) with
      | Some (Some c) =>
          if (0 <=? ad_off a + d) && (ad_off a + d <=? Z.of_nat (length (ch_cells c)))
          then Some (Some (mkAddr (ad_id a) (ad_off a + d)), h) else None
      | _ => None
      end
  end.

(** *p *)
Definition load (p : ptr) : M Z :=
  fun h => match p with
  | None => None
  | Some a =>
      match nth_error h (ad_id a) with
      | Some (Some c) =>
          if ad_off a <? 0 then None
          else match nth_error (ch_cells c) (Z.to_nat (ad_off a)) with
               | Some (Some v) => Some (v, h)
               | _ => None
               end
      | _ => None
      end
  end.

(** *p = v *)
Definition store (p : ptr) (v : Z) : M unit :=
  fun h => match p with
  | None => None
  | Some a =>
      match nth_error h (ad_id a) with
      | Some (Some c) =>
          if (0 <=? ad_off a) && (ad_off a <? Z.of_nat (length (ch_cells c)))
          then Some (tt, set_nth (ad_id a)
                     (Some (mkChunk (ch_kind c) (set_nth (Z.to_nat (ad_off a)) (Some v) (ch_cells c)))) h)
          else None
      | _ => None
      end
  end.

(** p[i] and p[i] = v *)
Definition load_at (p : ptr) (i : Z) : M Z := q <- padd p i ;; load q.
Definition store_at (p : ptr) (i v : Z) : M unit := q <- padd p i ;; store q v.

(** Arithmetic on int: signed overflow is undefined. *)
Definition int_max : Z := 2147483647.
Definition chk (z : Z) : M Z := if (-2147483648 <=? z) && (z <=? int_max) then ret z else undef.
Definition imul (a b : Z) : M Z := chk (a * b).
Definition iadd (a b : Z) : M Z := chk (a + b).

(** new T[n] with an int n: a negative n throws std::bad_array_new_length, which
    is not modelled (undef). *)
Definition new_arr (n : Z) : M ptr := if 0 <=? n then halloc KNew (Z.to_nat n) else undef.

(** for(int k = i; k < i + n; ++k) a = body(k, a), leaving when the body says so
    (break).  The counter runs below an int bound and does not overflow. *)
Fixpoint mfor {A} (n : nat) (k : Z) (body : Z -> A -> M (bool * A)) (a : A) : M A :=
  match n with
  | O => ret a
  | S n' => r <- body k a ;;
            if fst r then ret (snd r) else mfor n' (k + 1) body (snd r)
  end.
(** The same without break. *)
Fixpoint mloop {A} (n : nat) (k : Z) (body : Z -> A -> M A) (a : A) : M A :=
  match n with
  | O => ret a
  | S n' => r <- body k a ;; mloop n' (k + 1) body r
  end.

(** memset(p, v, n elements) *)
Definition mset (p : ptr) (v : Z) (n : Z) : M unit :=
  mloop (Z.to_nat n) 0 (fun k _ => store_at p k v) tt.

(** memcpy(&dst[d], &src[s], n elements), element by element (the areas never
    overlap here: different allocations). *)
Definition mcopy (dst : ptr) (d : Z) (src : ptr) (s n : Z) : M unit :=
  dp <- padd dst d ;; sp <- padd src s ;;
  mloop (Z.to_nat n) 0 (fun k _ => v <- load_at sp k ;; store_at dp k v) tt.

(** ** What is left *)
Definition live (h : heap) : nat :=
  length (filter (fun c => match c with Some _ => true | None => false end) h).
