(** Model of the scalar convolutional clause block: src/func_conv_tm.hpp on the
    state of src/aligned_tsetlin_state.hpp.  Every example is a flat row of
    num_patches_per_example * num_literals input values, patch after patch. *)
From Coq Require Import ZArith List Bool QArith Qround Lia.
From Verif Require Import Base ModelDense ModelFeedback ModelExecutor.
Import ListNotations.
Open Scope Z_scope.

(** The dense state plus the conv members (aligned_tsetlin_state.hpp:42-46);
    active_patches_storage is local to the loop below. *)
Record cvblock := mkCv {
  cv_b : block;
  cv_np : nat;              (* num_patches_per_example *)
  cv_active : list nat;     (* active_patches, one per clause *)
  cv_ppc : list Z           (* literal_counts_per_patch *)
}.

(** &literals[patch_k * num_literals] (func_conv_tm.hpp:79-80, 147-148, 208),
    as far as the loops read it. *)
Definition patch (nlit : nat) (lits : list Z) (k : nat) : list Z := firstn nlit (skipn (k * nlit) lits).

(** Literal loop of SetClauseOutputConvTM (82-110): the literal count if the
    patch matches. *)
Fixpoint conv_patch_loop (budget_on : bool) (pos neg lits : list Z) (count : Z) : option Z :=
  match pos, neg, lits with
  | p :: pos', q :: neg', l :: lits' =>
      if (p >=? 0) && (l =? 0) then None
      else
        let count := if (p >=? 0) && budget_on then count + 1 else count in
        if (q >=? 0) && (l =? 1) then None
        else
          let count := if (q >=? 0) && budget_on then count + 1 else count in
          conv_patch_loop budget_on pos' neg' lits' count
  | _, _, _ => Some count
  end.

(** Patch loop (71-118): active_patches_storage and literal_counts_per_patch. *)
Definition conv_patch_step (budget_on : bool) (nlit : nat) (lits : list Z) (c : clause) (acc : list nat * list Z) (k : nat)
  : list nat * list Z :=
  let '(storage, ppc) := acc in
  match conv_patch_loop budget_on (cl_pos c) (cl_neg c) (patch nlit lits k) 0 with
  | Some count => (storage ++ [k], set_nth k count ppc)
  | None => (storage, ppc)
  end.
Definition conv_patches (budget_on : bool) (nlit np : nat) (lits : list Z) (c : clause) (ppc : list Z) : list nat * list Z :=
  fold_left (conv_patch_step budget_on nlit lits c) (seq 0 np) ([], ppc).

(** std::uniform_int_distribution(0, n-1) over state.rng (122-123): an oracle;
    the drawn fraction is scaled to an index. *)
Definition pick_index (n : nat) (r : rng) : nat * rng :=
  let '(u, r) := next_u r in
  (Nat.min (pred n) (Z.to_nat (Qfloor (u * inject_Z (Z.of_nat n)))), r).

(** One clause of SetClauseOutputConvTM (66-129). [ap], [count] are the old
    entries of active_patches and literal_counts. *)
Definition conv_clause_output (budget_on : bool) (nlit np : nat) (lits : list Z) (c : clause) (ap : nat) (count : Z)
  (ppc : list Z) (r : rng) : Z * nat * Z * list Z * rng :=
  let '(storage, ppc) := conv_patches budget_on nlit np lits c ppc in
  match storage with
  | [] => (0, ap, count, ppc, r)
  | _ => let '(i, r) := pick_index (length storage) r in
         (1, nth i storage O, (if budget_on then nth i ppc 0 else count), ppc, r)
  end.

Fixpoint conv_output_loop (budget_on : bool) (nlit np : nat) (lits : list Z) (cs : list clause) (aps : list nat) (counts : list Z)
  (ppc : list Z) (r : rng) : list Z * list nat * list Z * list Z * rng :=
  match cs, aps, counts with
  | c :: cs', ap :: aps', cnt :: counts' =>
      let '(o, ap, cnt, ppc, r) := conv_clause_output budget_on nlit np lits c ap cnt ppc r in
      let '(os, aps, cnts, ppc, r) := conv_output_loop budget_on nlit np lits cs' aps' counts' ppc r in
      (o :: os, ap :: aps, cnt :: cnts, ppc, r)
  | _, _, _ => ([], aps, counts, ppc, r)
  end.

(** SetClauseOutputConvTM (60-131). *)
Definition conv_set_output (budget_on : bool) (lits : list Z) (v : cvblock) : cvblock :=
  let b := cv_b v in
  let '(os, aps, cnts, ppc, r) :=
    conv_output_loop budget_on (b_nlit b) (cv_np v) lits (b_clauses b) (cv_active v) (b_counts b) (cv_ppc v) (b_rng b) in
  mkCv (mkBlock (b_nlit b) (b_ncls b) (b_clauses b) (b_weights b) os cnts (b_votes b) (b_budget b) (b_s_inv b) (b_s_min1_inv b) r (b_fast b))
       (cv_np v) aps ppc.

(** Literal loop of EvalClauseOutputConvTM (150-180). *)
Fixpoint conv_eval_loop (pos neg lits : list Z) (is_empty : bool) : bool :=
  match pos, neg, lits with
  | p :: pos', q :: neg', l :: lits' =>
      let is_empty := if p >=? 0 then false else is_empty in
      if (p >=? 0) && (l =? 0) then false
      else
        let is_empty := if q >=? 0 then false else is_empty in
        if (q >=? 0) && (l =? 1) then false
        else conv_eval_loop pos' neg' lits' is_empty
  | _, _, _ => if is_empty then false else true
  end.

(** Patch loop (142-187): leaves at the first matching patch. *)
Fixpoint conv_eval_patches (nlit : nat) (lits : list Z) (c : clause) (ks : list nat) : Z :=
  match ks with
  | [] => 0
  | k :: t => if conv_eval_loop (cl_pos c) (cl_neg c) (patch nlit lits k) true then 1 else conv_eval_patches nlit lits c t
  end.

(** EvalClauseOutputConvTM (134-192). *)
Definition conv_eval_set (lits : list Z) (v : cvblock) : cvblock :=
  let b := cv_b v in
  mkCv (mkBlock (b_nlit b) (b_ncls b) (b_clauses b) (b_weights b)
         (map (fun c => conv_eval_patches (b_nlit b) lits c (seq 0 (cv_np v))) (b_clauses b)) (b_counts b)
         (b_votes b) (b_budget b) (b_s_inv b) (b_s_min1_inv b) (b_rng b) (b_fast b))
       (cv_np v) (cv_active v) (cv_ppc v).

(** CountVotesTM is shared with the dense block (main.cpp:117-126). *)
Definition cv_count_votes (v : cvblock) : cvblock := mkCv (count_votes (cv_b v)) (cv_np v) (cv_active v) (cv_ppc v).

(** Clause loop of TrainUpdateConvTM (203-230): the body is that of TrainUpdateTM
    with the literals of the clause's active patch. *)
Fixpoint conv_update_loop (budget_on boost : bool) (budget : Z) (s_inv s_min1_inv : Q) (nlit : nat)
  (lits : list Z) (pc : nat) (pp : Q) (nc : nat) (np : Q)
  (cs : list clause) (wss : list (list Z)) (outs counts : list Z) (aps : list nat) (r fast : rng)
  : list clause * list (list Z) * list Z * rng * rng :=
  match cs, wss, outs with
  | c :: cs', ws :: wss', o :: outs' =>
      let '(c1, ws1, o1, r, fast) :=
        train_update_clause budget_on boost budget s_inv s_min1_inv (patch nlit lits (hd O aps)) pc pp nc np
          c ws o (hd 0 counts) r fast in
      let '(cs2, wss2, outs2, r, fast) :=
        conv_update_loop budget_on boost budget s_inv s_min1_inv nlit lits pc pp nc np
          cs' wss' outs' (tl counts) (tl aps) r fast in
      (c1 :: cs2, ws1 :: wss2, o1 :: outs2, r, fast)
  | _, _, _ => (cs, wss, outs, r, fast)
  end.

(** TrainUpdateConvTM (196-232). *)
Definition conv_update (budget_on boost : bool) (lits : list Z) (pc : nat) (pp : Q) (nc : nat) (np : Q) (v : cvblock) : cvblock :=
  let b := cv_b v in
  let '(cs, wss, outs, r, fast) :=
    conv_update_loop budget_on boost (b_budget b) (b_s_inv b) (b_s_min1_inv b) (b_nlit b) lits pc pp nc np
      (b_clauses b) (b_weights b) (b_outputs b) (b_counts b) (cv_active v) (b_rng b) (b_fast b) in
  mkCv (mkBlock (b_nlit b) (b_ncls b) cs wss outs (b_counts b) (b_votes b) (b_budget b) (b_s_inv b) (b_s_min1_inv b) r fast)
       (cv_np v) (cv_active v) (cv_ppc v).

(** The block as seen by the executor (clause_block.hpp:65-77, 187-212). The
    exported class has do_literal_budget = true and boost = false
    (main.cpp:101-126); both stay parameters here. *)
Definition conv_train_ex (budget_on : bool) (lits : list Z) (v : cvblock) : cvblock * list Z :=
  let v := cv_count_votes (conv_set_output budget_on lits v) in (v, b_votes (cv_b v)).
Definition conv_eval_ex (lits : list Z) (v : cvblock) : cvblock * list Z :=
  let v := cv_count_votes (conv_eval_set lits v) in (v, b_votes (cv_b v)).

(** InitializeConvTM (15-34): [np] is num_patches_per_example, -1 if never set;
    [junk_ap], [junk_ppc] the uninitialised new arrays. *)
Definition conv_initialize (std_of fast_of : Z -> rng) (junk : list Z) (junk_ap : list nat) (junk_ppc : list Z)
  (np : Z) (nlit ncl ncls : nat) (budget : Z) (s_inv s_min1_inv : Q) (seed : Z) : option cvblock :=
  match initialize std_of fast_of junk nlit ncl ncls budget s_inv s_min1_inv seed with
  | None => None
  | Some b => if np >? 0 then Some (mkCv b (Z.to_nat np) junk_ap junk_ppc) else None
  end.
