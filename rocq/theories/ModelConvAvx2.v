(** Model of the AVX2 convolutional clause block: src/func_conv_avx2.hpp on the
    state of src/aligned_tsetlin_state.hpp.  The clause rows are padded as in the
    dense AVX2 block (ModelAvx2), the example is a flat row of patches as in the
    scalar convolutional block (ModelConv).  Patch k starts at byte
    k * num_literals of the 32-byte aligned example buffer (input_block.hpp:62);
    the kernels read it with _mm256_load_si256, which is undefined at an address
    that is not a multiple of 32.  None stands for that. *)
From Coq Require Import ZArith List Bool QArith Lia.
From Verif Require Import Base ModelDense ModelLayout ModelFeedback ModelExecutor ModelAvx2 ModelConv.
Import ListNotations.
Open Scope Z_scope.

(** The dense AVX2 state plus the conv members and the std generator
    (aligned_tsetlin_state.hpp:42-52); active_patches_storage is local below. *)
Record xcblock := mkXc {
  xc_b : ablock;
  xc_np : nat;              (* num_patches_per_example *)
  xc_active : list nat;     (* active_patches *)
  xc_ppc : list Z;          (* literal_counts_per_patch *)
  xc_rng : rng              (* rng, only used for the patch choice *)
}.

(** May the vectors of patch [k] be loaded with an aligned load? All of them lie
    whole vectors behind the first (func_conv_avx2.hpp:84-89, 125, 210-216, 248). *)
Definition patch_aligned (nlit k : nat) : bool := Nat.eqb ((k * nlit) mod 32) 0.

(** curr_literal / patch_literals (84-85, 210-211, 310): memory from the patch on. *)
Definition patch_mem (nlit : nat) (lits : list Z) (k : nat) : list Z := skipn (k * nlit) lits.

(** One patch in SetClauseOutputConvAVX2 (81-172): the literal count if it
    matches.  The chunk loop (87-120) and the remainder (123-161) are the text of
    SetClauseOutputAVX2 (set_chunks, set_reminder); both "continue" of the
    remainder leave the patch without a trace, like goto endpatch. *)
Definition xc_patch_output (lits : list Z) (lmem : nat) (mask : vec) (row : list Z) : option Z :=
  let n_chunks := (lmem / 32 - 1)%nat in
  let '(count, falsified) := set_chunks lits row lmem 0 n_chunks 0 in
  if falsified then None
  else let '(out, stored) := set_reminder lits row lmem mask n_chunks count in
       if out =? 1 then stored else None.

(** Patch loop (79-173): active_patches_storage and literal_counts_per_patch. *)
Definition xc_patch_step (budget_on : bool) (nlit lmem : nat) (mask : vec) (lits row : list Z)
  (acc : option (list nat * list Z)) (k : nat) : option (list nat * list Z) :=
  match acc with
  | None => None
  | Some (storage, ppc) =>
      if patch_aligned nlit k then
        match xc_patch_output (patch_mem nlit lits k) lmem mask row with
        | Some count => Some (storage ++ [k], if budget_on then set_nth k count ppc else ppc)
        | None => Some (storage, ppc)
        end
      else None
  end.
Definition xc_patches (budget_on : bool) (nlit lmem np : nat) (mask : vec) (lits row ppc : list Z) : option (list nat * list Z) :=
  fold_left (xc_patch_step budget_on nlit lmem mask lits row) (seq 0 np) (Some ([], ppc)).

(** One clause (72-184); the patch is picked with state.rng (177-178), its count
    is looked up under the position in the storage (182). *)
Definition xc_clause_output (budget_on : bool) (nlit lmem np : nat) (mask : vec) (lits row : list Z) (ap : nat) (count : Z)
  (ppc : list Z) (r : rng) : option (Z * nat * Z * list Z * rng) :=
  match xc_patches budget_on nlit lmem np mask lits row ppc with
  | None => None
  | Some (storage, ppc) =>
      match storage with
      | [] => Some (0, ap, count, ppc, r)
      | _ => let '(i, r) := pick_index (length storage) r in
             Some (1, nth i storage O, (if budget_on then nth i ppc 0 else count), ppc, r)
      end
  end.

Fixpoint xc_output_loop (budget_on : bool) (nlit lmem np : nat) (mask : vec) (lits : list Z) (rows : list (list Z)) (aps : list nat)
  (counts ppc : list Z) (r : rng) : option (list Z * list nat * list Z * list Z * rng) :=
  match rows, aps, counts with
  | row :: rows', ap :: aps', cnt :: counts' =>
      match xc_clause_output budget_on nlit lmem np mask lits row ap cnt ppc r with
      | None => None
      | Some (o, ap, cnt, ppc, r) =>
          match xc_output_loop budget_on nlit lmem np mask lits rows' aps' counts' ppc r with
          | None => None
          | Some (os, aps, cnts, ppc, r) => Some (o :: os, ap :: aps, cnt :: cnts, ppc, r)
          end
      end
  | _, _, _ => Some ([], aps, counts, ppc, r)
  end.

(** SetClauseOutputConvAVX2 (60-186). *)
Definition xc_set_output (budget_on : bool) (lits : list Z) (v : xcblock) : option xcblock :=
  let b := xc_b v in
  match xc_output_loop budget_on (a_nlit b) (a_lmem b) (xc_np v) (a_mask b) lits (a_rows b) (xc_active v) (a_counts b) (xc_ppc v) (xc_rng v) with
  | None => None
  | Some (os, aps, cnts, ppc, r) =>
      Some (mkXc (mkABlock (a_nlit b) (a_lmem b) (a_mask b) (a_ncls b) (a_rows b) (a_weights b) os cnts (a_votes b)
                           (a_budget b) (a_cmp b) (a_vrng b) (a_fast b))
                 (xc_np v) aps ppc r)
  end.

(** Patch loop of EvalClauseOutputConvAVX2 (206-289): leaves at the first patch
    that fires.  One patch is the text of EvalClauseOutputAVX2 (avx_eval_output);
    active_literals starts at 0 for every patch (213). *)
Fixpoint xc_eval_patches (nlit lmem : nat) (mask : vec) (lits row : list Z) (ks : list nat) : option Z :=
  match ks with
  | [] => Some 0
  | k :: t =>
      if patch_aligned nlit k then
        if avx_eval_output (patch_mem nlit lits k) lmem mask row =? 1 then Some 1 else xc_eval_patches nlit lmem mask lits row t
      else None
  end.

Fixpoint xc_eval_loop (nlit lmem np : nat) (mask : vec) (lits : list Z) (rows : list (list Z)) : option (list Z) :=
  match rows with
  | [] => Some []
  | row :: rows' =>
      match xc_eval_patches nlit lmem mask lits row (seq 0 np) with
      | None => None
      | Some o => match xc_eval_loop nlit lmem np mask lits rows' with
                  | None => None
                  | Some os => Some (o :: os)
                  end
      end
  end.

(** EvalClauseOutputConvAVX2 (189-293). *)
Definition xc_eval_set (lits : list Z) (v : xcblock) : option xcblock :=
  let b := xc_b v in
  match xc_eval_loop (a_nlit b) (a_lmem b) (xc_np v) (a_mask b) lits (a_rows b) with
  | None => None
  | Some os =>
      Some (mkXc (mkABlock (a_nlit b) (a_lmem b) (a_mask b) (a_ncls b) (a_rows b) (a_weights b) os (a_counts b) (a_votes b)
                           (a_budget b) (a_cmp b) (a_vrng b) (a_fast b))
                 (xc_np v) (xc_active v) (xc_ppc v) (xc_rng v))
  end.

(** CountVotesAVX2 is shared with the dense block (main.cpp:194-204). *)
Definition xc_count_votes (v : xcblock) : xcblock :=
  mkXc (avx_count_votes (xc_b v)) (xc_np v) (xc_active v) (xc_ppc v) (xc_rng v).

(** One clause of TrainUpdateConvAVX2 (305-329): the body is that of
    TrainUpdateAVX2 with the literals of the clause's active patch.  They are
    loaded by Type Ia and Type II feedback, that is when one of the two draws
    passes and the clause output is 1. *)
Definition xc_update_clause (budget_on boost : bool) (budget cmp : Z) (nlit lmem : nat)
  (lits : list Z) (pc : nat) (pp : Q) (nc : nat) (np : Q)
  (row ws : list Z) (out count : Z) (ap : nat) (r : vrng) (fast : rng)
  : option (list Z * list Z * Z * vrng * rng) :=
  let '(d1, fast1) := draw_lt fast pp in
  let '(d2, _) := draw_lt fast1 np in
  let out1 := if budget_on && (count >? budget) then 0 else out in
  if (d1 || d2) && (out1 =? 1) && negb (patch_aligned nlit ap) then None
  else Some (avx_update_clause budget_on boost budget cmp lmem (patch_mem nlit lits ap) pc pp nc np row ws out count r fast).

Fixpoint xc_update_loop (budget_on boost : bool) (budget cmp : Z) (nlit lmem : nat)
  (lits : list Z) (pc : nat) (pp : Q) (nc : nat) (np : Q)
  (rows wss : list (list Z)) (outs counts : list Z) (aps : list nat) (r : vrng) (fast : rng)
  : option (list (list Z) * list (list Z) * list Z * vrng * rng) :=
  match rows, wss, outs with
  | row :: rows', ws :: wss', o :: outs' =>
      match xc_update_clause budget_on boost budget cmp nlit lmem lits pc pp nc np row ws o (hd 0 counts) (hd O aps) r fast with
      | None => None
      | Some (row1, ws1, o1, r, fast) =>
          match xc_update_loop budget_on boost budget cmp nlit lmem lits pc pp nc np rows' wss' outs' (tl counts) (tl aps) r fast with
          | None => None
          | Some (rows2, wss2, outs2, r, fast) => Some (row1 :: rows2, ws1 :: wss2, o1 :: outs2, r, fast)
          end
      end
  | _, _, _ => Some (rows, wss, outs, r, fast)
  end.

(** TrainUpdateConvAVX2 (296-331). *)
Definition xc_update (budget_on boost : bool) (lits : list Z) (pc : nat) (pp : Q) (nc : nat) (np : Q) (v : xcblock) : option xcblock :=
  let b := xc_b v in
  match xc_update_loop budget_on boost (a_budget b) (a_cmp b) (a_nlit b) (a_lmem b) lits pc pp nc np
          (a_rows b) (a_weights b) (a_outputs b) (a_counts b) (xc_active v) (a_vrng b) (a_fast b) with
  | None => None
  | Some (rows, wss, outs, r, fast) =>
      Some (mkXc (mkABlock (a_nlit b) (a_lmem b) (a_mask b) (a_ncls b) rows wss outs (a_counts b) (a_votes b)
                           (a_budget b) (a_cmp b) r fast)
                 (xc_np v) (xc_active v) (xc_ppc v) (xc_rng v))
  end.

(** InitializeConvAVX2 (11-31): [np] is num_patches_per_example, -1 if never set;
    [junk_ap], [junk_ppc] the uninitialised new arrays. *)
Definition xc_initialize (std_of : Z -> rng) (vec_of : Z -> vrng) (fast_of : Z -> rng) (junk : list Z) (junk_ap : list nat) (junk_ppc : list Z)
  (np : Z) (nlit ncl ncls : nat) (budget : Z) (s : Q) (seed : Z) : option xcblock :=
  match avx_initialize vec_of fast_of junk nlit ncl ncls budget s seed with
  | None => None
  | Some b => if np >? 0 then Some (mkXc b (Z.to_nat np) junk_ap junk_ppc (std_of seed)) else None
  end.

(** The block as seen by the executor (clause_block.hpp:65-77, 187-212); a block
    that ran into undefined behaviour stays None and votes nothing.  The exported
    class has do_literal_budget = true and boost = false (main.cpp:183-204); both
    stay parameters. *)
Definition xc_train_ex (budget_on : bool) (lits : list Z) (s : option xcblock) : option xcblock * list Z :=
  match s with
  | None => (None, [])
  | Some v => match xc_set_output budget_on lits v with
              | None => (None, [])
              | Some v => let v := xc_count_votes v in (Some v, a_votes (xc_b v))
              end
  end.
Definition xc_eval_ex (lits : list Z) (s : option xcblock) : option xcblock * list Z :=
  match s with
  | None => (None, [])
  | Some v => match xc_eval_set lits v with
              | None => (None, [])
              | Some v => let v := xc_count_votes v in (Some v, a_votes (xc_b v))
              end
  end.
Definition xc_upd (budget_on boost : bool) (lits : list Z) (pc : nat) (pp : Q) (nc : nat) (np : Q) (s : option xcblock) : option xcblock :=
  match s with
  | None => None
  | Some v => xc_update budget_on boost lits pc pp nc np v
  end.
