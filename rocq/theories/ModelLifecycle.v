(** Model of initialize() and cleanup() of every C++ clause block, reduced to the
    arrays they allocate and release: which pointer member receives which kind of
    memory, in the order of the source.  Contents and sizes are in the other
    models; std::vector members release themselves and are left out.  Allocation
    does not fail. *)
From Coq Require Import ZArith List Bool Lia.
Import ListNotations.

(** The pointer members of aligned_tsetlin_state.hpp:32-48 and
    sparse_tsetlin_state.hpp:36-53. *)
Inductive slot := SClauses | SOutputs | SVotes | SWeights | SCounts | SPatches | SPatchCounts | SMask.

(** new[] (released by delete[]) or aligned_alloc / safe_aligned_alloc (released
    by safe_aligned_free), gt_common.hpp:14-45. *)
Inductive mkind := MNew | MAligned.

Definition slot_eqb (a b : slot) : bool :=
  match a, b with
  | SClauses, SClauses | SOutputs, SOutputs | SVotes, SVotes | SWeights, SWeights | SCounts, SCounts
  | SPatches, SPatches | SPatchCounts, SPatchCounts | SMask, SMask => true
  | _, _ => false
  end.
Definition mkind_eqb (a b : mkind) : bool :=
  match a, b with MNew, MNew | MAligned, MAligned => true | _, _ => false end.

(** The clause blocks of main.cpp:82-240. *)
Inductive backend := BScalar | BAvx2 | BNeon | BSparse | BConv | BConvAvx2.

(** What initialize depends on: the template flag do_literal_budget, whether
    num_patches_per_example > 0, whether literal_budget >= 1. *)
Record lparams := mkLp { lp_budget : bool; lp_patches : bool; lp_budget_pos : bool }.

Definition when (c : bool) (l : list (slot * mkind)) : list (slot * mkind) := if c then l else [].

(** Allocations of initialize in source order, and its result, for a seed other
    than 0: InitializeTM (func_tm.hpp:17-47), InitializeAVX2 (func_avx2.hpp:20-91),
    InitializeAlignedNeon (func_neon.hpp:61-116), InitializeSparseTM
    (func_sparse.hpp:24-78), InitializeConvTM (func_conv_tm.hpp:15-34),
    InitializeConvAVX2 (func_conv_avx2.hpp:12-31). *)
Definition scalar_allocs (p : lparams) : list (slot * mkind) :=
  [(SClauses, MNew); (SOutputs, MNew); (SWeights, MNew); (SVotes, MNew)] ++ when (lp_budget p) [(SCounts, MNew)].
Definition avx2_allocs (p : lparams) : list (slot * mkind) :=
  [(SMask, MAligned); (SClauses, MAligned)] ++ when (lp_budget p) [(SCounts, MNew)] ++
  [(SOutputs, MAligned); (SWeights, MAligned); (SVotes, MAligned)].
Definition conv_allocs (p : lparams) : list (slot * mkind) :=
  [(SPatches, MNew)] ++ when (lp_patches p) [(SPatchCounts, MNew)].

Definition init_allocs (b : backend) (p : lparams) : list (slot * mkind) :=
  match b with
  | BScalar => scalar_allocs p
  | BAvx2 | BNeon => avx2_allocs p
  | BSparse =>
      if lp_budget p && negb (lp_budget_pos p) then []
      else when (lp_budget p) [(SCounts, MNew)] ++ [(SOutputs, MNew); (SVotes, MNew); (SWeights, MNew)]
  | BConv => scalar_allocs p ++ conv_allocs p
  | BConvAvx2 => avx2_allocs p ++ conv_allocs p
  end.

Definition init_result (b : backend) (p : lparams) : bool :=
  match b with
  | BScalar | BAvx2 | BNeon => true
  | BSparse => negb (lp_budget p && negb (lp_budget_pos p))
  | BConv | BConvAvx2 => lp_patches p
  end.

(** Releases of cleanup in source order: CleanupTM (func_tm.hpp:77-102),
    CleanupAVX2 (func_avx2.hpp:144-167), CleanupAlignedNeon (func_neon.hpp:160-181),
    CleanupSparseTM (func_sparse.hpp:97-123), CleanupConvTM (func_conv_tm.hpp:37-58),
    CleanupConvAVX2 (func_conv_avx2.hpp:35-56). *)
Definition scalar_frees (p : lparams) : list (slot * mkind) :=
  [(SClauses, MNew); (SVotes, MNew); (SWeights, MNew)] ++ when (lp_budget p) [(SCounts, MNew)].
Definition avx2_frees (p : lparams) : list (slot * mkind) :=
  [(SClauses, MAligned); (SVotes, MAligned); (SWeights, MAligned); (SMask, MAligned)] ++
  when (lp_budget p) [(SCounts, MNew)].
Definition conv_frees : list (slot * mkind) := [(SPatches, MNew); (SPatchCounts, MNew)].

Definition cleanup_frees (b : backend) (p : lparams) : list (slot * mkind) :=
  match b with
  | BScalar => scalar_frees p
  | BAvx2 | BNeon => avx2_frees p
  | BSparse => [(SVotes, MNew); (SWeights, MNew)] ++ when (lp_budget p) [(SCounts, MNew)]
  | BConv => conv_frees ++ scalar_frees p
  | BConvAvx2 => conv_frees ++ avx2_frees p
  end.

(** One clause block object and the heap: members, live allocations (number and
    kind), next number, m_is_init (clause_block.hpp:163-175). *)
Record lstate := mkLs {
  ls_ptr : slot -> option nat;
  ls_live : list (nat * mkind);
  ls_next : nat;
  ls_init : bool
}.

Definition set_ptr (s : slot) (v : option nat) (f : slot -> option nat) : slot -> option nat :=
  fun x => if slot_eqb x s then v else f x.

(** member = new T[n] (or aligned_alloc): the previous value of the member is
    forgotten. *)
Definition alloc (sk : slot * mkind) (st : lstate) : lstate :=
  mkLs (set_ptr (fst sk) (Some (ls_next st)) (ls_ptr st)) ((ls_next st, snd sk) :: ls_live st) (S (ls_next st)) (ls_init st).

Fixpoint remove_live (i : nat) (k : mkind) (l : list (nat * mkind)) : option (list (nat * mkind)) :=
  match l with
  | [] => None
  | (j, k') :: l' => if Nat.eqb i j then (if mkind_eqb k k' then Some l' else None)
                     else match remove_live i k l' with Some r => Some ((j, k') :: r) | None => None end
  end.

(** delete[] member; member = nullptr: nothing for a null pointer, undefined for
    memory that is not live or of the other kind. *)
Definition release (sk : slot * mkind) (st : lstate) : option lstate :=
  match ls_ptr st (fst sk) with
  | None => Some st
  | Some i => match remove_live i (snd sk) (ls_live st) with
              | None => None
              | Some l => Some (mkLs (set_ptr (fst sk) None (ls_ptr st)) l (ls_next st) (ls_init st))
              end
  end.

Fixpoint releases (l : list (slot * mkind)) (st : lstate) : option lstate :=
  match l with
  | [] => Some st
  | sk :: l' => match release sk st with None => None | Some st => releases l' st end
  end.

Definition with_init (v : bool) (st : lstate) : lstate := mkLs (ls_ptr st) (ls_live st) (ls_next st) v.

(** The calls from Python: initialize(seed), cleanup() (clause_block.hpp:163-175). *)
Inductive call := CInit (seed_is_zero : bool) | CCleanup.

Definition do_call (b : backend) (p : lparams) (c : call) (st : lstate) : option lstate :=
  match c with
  | CInit true => Some (with_init false st)
  | CInit false => Some (with_init (init_result b p) (fold_left (fun st sk => alloc sk st) (init_allocs b p) st))
  | CCleanup => match releases (cleanup_frees b p) st with None => None | Some st => Some (with_init false st) end
  end.

Fixpoint do_calls (b : backend) (p : lparams) (cs : list call) (st : lstate) : option lstate :=
  match cs with
  | [] => Some st
  | c :: cs' => match do_call b p c st with None => None | Some st => do_calls b p cs' st end
  end.

(** A fresh object on a heap with [live] allocations (all pointers null). *)
Definition new_object (live : list (nat * mkind)) (next : nat) : lstate := mkLs (fun _ => None) live next false.

(** ** Sizes asked for *)

(** safe_aligned_alloc (gt_common.hpp:14-31), for mem >= 0. *)
Definition safe_size (align mem : Z) : Z :=
  if (mem <? align)%Z then align
  else if (0 <? mem mod align)%Z then (mem + (align - mem mod align))%Z else mem.

(** The sizes InitializeAVX2 passes to aligned_alloc itself (func_avx2.hpp:33,
    65-66, 70-86): reminder_mask, clause_outputs, clause_weights, class_votes;
    literals_per_vector = 32 and outputs_per_vector = [opv] (main.cpp:162). *)
Definition avx2_wmem (pad : bool) (ncls opv : Z) : Z :=
  if pad then ((ncls / opv + 1) * opv)%Z else ncls.
Definition avx2_direct_sizes (pad : bool) (ncl ncls opv : Z) : list Z :=
  [32; (ncl / opv + 1) * opv; ncl * avx2_wmem pad ncls opv * 2; avx2_wmem pad ncls opv * 2]%Z.
