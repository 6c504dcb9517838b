(** Counting calls of initialize and cleanup. *)
From Coq Require Import List.
From Verif Require Import ModelLifecycle.
Import ListNotations.

(** initialize calls that allocate (seed other than 0). *)
Fixpoint inits (cs : list call) : nat :=
  match cs with
  | [] => 0
  | CInit false :: cs' => S (inits cs')
  | _ :: cs' => inits cs'
  end.
(** cleanup calls that find something: an allocating initialize came after the
    last cleanup. *)
Fixpoint cleanups (up : bool) (cs : list call) : nat :=
  match cs with
  | [] => 0
  | CInit false :: cs' => cleanups true cs'
  | CInit true :: cs' => cleanups up cs'
  | CCleanup :: cs' => (if up then 1 else 0) + cleanups false cs'
  end.

(** k times initialize and cleanup. *)
Fixpoint cycles (k : nat) : list call := match k with O => [] | S k' => CInit false :: CCleanup :: cycles k' end.

(** A heap: numbered allocations below [next], none twice. *)
Definition heap_ok (live : list (nat * mkind)) (next : nat) : Prop :=
  NoDup (map fst live) /\ (forall i k, In (i, k) live -> i < next).
