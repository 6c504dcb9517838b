(** Model of the NEON dense clause block: src/func_neon.hpp on the state of
    src/aligned_tsetlin_state.hpp (main.cpp:213: 16 literals per vector).  A
    vector register is a list of 16 signed bytes; the lane operations are those
    of ModelAvx2.v.  The block state is the same class as for AVX2, so the
    record [ablock] is reused ([a_vrng] is rng_neon). *)
From Coq Require Import ZArith List Bool QArith Lia.
From Verif Require Import Base ModelDense ModelLayout ModelFeedback ModelExecutor ModelAvx2.
Import ListNotations.
Open Scope Z_scope.

(** ** Width-dependent intrinsics *)

Definition nv_set1 (v : Z) : vec := repeat v 16.                                    (* vdupq_n_s8, vmovq_n_s8 *)
(** vld1q_s8; [nv_load_u] reads uint8 memory. *)
Definition nv_load (mem : list Z) (off : nat) : vec := slice mem off 16.
Definition nv_load_u (mem : list Z) (off : nat) : vec := map wrap8 (slice mem off 16).
Definition nv_store (mem : list Z) (off : nat) (v : vec) : list Z := memcpy mem off v 0 16.  (* vst1q_s8 *)
(** vcgtq_s8 = [v_cmpgt], vceqq_s8 = [v_cmpeq], vandq_s8 = [v_and], vorrq_s8 =
    [v_or], ~ = [v_not], vqaddq_s8 = [v_adds].  count_on_masks_neon (34-38) adds
    the top bits of at most 16 lanes: [popcount] of [v_movemask].
    vmaxvq_u8(v) > 0 and neon_movemask(v) != 0 (40-46, four bits of each 0/255
    lane) hold when some lane is not 0: [v_any]. *)

(** num_literals_mem and reminder_mask (73-89). *)
Definition nlmem_of (nlit : nat) : nat :=
  if Nat.eqb (nlit mod 16) 0 then nlit else ((nlit / 16) + 1) * 16.
Definition nmask_of (nlit : nat) : vec :=
  if Nat.eqb (nlit mod 16) 0 then repeat (-1) 16
  else repeat (-1) (nlit mod 16) ++ repeat 0 (16 - nlit mod 16).

(** ** Clause outputs *)

(** SetClauseOutputNeon, chunk loop body (213-254): the count so far and whether
    a literal is falsified (goto endclause). *)
Definition nset_chunk (lits row : list Z) (lmem chunk : nat) (count : Z) : Z * bool :=
  let zeros := nv_set1 0 in
  let literals := nv_load_u lits (chunk * 16) in
  let clauses := nv_load row (chunk * 16) in
  let not_active := v_cmpgt zeros clauses in
  let count := count + popcount (v_movemask (v_not not_active)) in
  let imply := v_or not_active literals in
  let is_false := v_cmpeq imply zeros in
  if v_any is_false then (count, true)
  else
    let neg_literals := v_cmpeq zeros literals in
    let clauses := nv_load row (lmem + chunk * 16) in
    let not_active := v_cmpgt zeros clauses in
    let count := count + popcount (v_movemask (v_not not_active)) in
    let imply := v_or not_active neg_literals in
    let is_false := v_cmpeq imply zeros in
    (count, v_any is_false).

(** The chunk loop from [chunk] on, [k] chunks to go. *)
Fixpoint nset_chunks (lits row : list Z) (lmem chunk k : nat) (count : Z) : Z * bool :=
  match k with
  | O => (count, false)
  | S k' => let '(count, falsified) := nset_chunk lits row lmem chunk count in
            if falsified then (count, true) else nset_chunks lits row lmem (S chunk) k' count
  end.

(** The remainder vector (256-314); reminder_mask is always allocated.  The count
    is accumulated in literal_counts itself, so it is stored on every path. *)
Definition nset_reminder (lits row : list Z) (lmem : nat) (mask : vec) (chunk : nat) (count : Z) : Z * Z :=
  let zeros := nv_set1 0 in
  let literals := nv_load_u lits (chunk * 16) in
  let clauses := nv_load row (chunk * 16) in
  let not_active := v_cmpgt zeros clauses in
  let active_masked := v_and (v_not not_active) mask in
  let count := count + popcount (v_movemask active_masked) in
  let imply := v_or (v_not active_masked) literals in
  let is_false := v_cmpeq imply zeros in
  if v_any is_false then (0, count)
  else
    let neg_literals := v_cmpeq zeros literals in
    let clauses := nv_load row (lmem + chunk * 16) in
    let not_active := v_cmpgt zeros clauses in
    let active_masked := v_and (v_not not_active) mask in
    let count := count + popcount (v_movemask active_masked) in
    let imply := v_or (v_not active_masked) neg_literals in
    let is_false := v_cmpeq imply zeros in
    (if v_any is_false then 0 else 1, count).

Definition neon_set_output (lits : list Z) (lmem : nat) (mask : vec) (row : list Z) : Z * Z :=
  let n_chunks := (lmem / 16 - 1)%nat in
  let '(count, falsified) := nset_chunks lits row lmem 0 n_chunks 0 in
  if falsified then (0, count) else nset_reminder lits row lmem mask n_chunks count.

(** SetClauseOutputNeon (193-320).  literal_counts is written for every clause
    whether or not the literal budget is on, but allocated only with the budget
    (94-95, literal_counts[clause_k] = 0 at 209): without it the write goes to a null pointer, None. *)
Definition neon_train_on (lits : list Z) (b : ablock) : ablock :=
  let rs := map (neon_set_output lits (a_lmem b) (a_mask b)) (a_rows b) in
  mkABlock (a_nlit b) (a_lmem b) (a_mask b) (a_ncls b) (a_rows b) (a_weights b)
           (map fst rs) (map snd rs) (a_votes b) (a_budget b) (a_cmp b) (a_vrng b) (a_fast b).
Definition neon_train_output (budget_on : bool) (lits : list Z) (b : ablock) : option ablock :=
  if budget_on then Some (neon_train_on lits b)
  else match a_rows b with
       | [] => Some b
       | _ :: _ => None
       end.

(** EvalClauseOutputNeon, chunk loop body (342-380): whether an included literal
    has been seen (active_mask != 0), and whether one is falsified. *)
Definition neval_chunk (lits row : list Z) (lmem chunk : nat) (act : bool) : bool * bool :=
  let zeros := nv_set1 0 in
  let literals := nv_load_u lits (chunk * 16) in
  let clauses := nv_load row (chunk * 16) in
  let not_active := v_cmpgt zeros clauses in
  let act := act || v_any (v_not not_active) in
  let is_false := v_cmpeq (v_or not_active literals) zeros in
  if v_any is_false then (act, true)
  else
    let neg_literals := v_cmpeq zeros literals in
    let clauses := nv_load row (lmem + chunk * 16) in
    let not_active := v_cmpgt zeros clauses in
    let act := act || v_any (v_not not_active) in
    let is_false := v_cmpeq (v_or not_active neg_literals) zeros in
    (act, v_any is_false).

Fixpoint neval_chunks (lits row : list Z) (lmem chunk k : nat) (act : bool) : bool * bool :=
  match k with
  | O => (act, false)
  | S k' => let '(act, falsified) := neval_chunk lits row lmem chunk act in
            if falsified then (act, true) else neval_chunks lits row lmem (S chunk) k' act
  end.

(** Remainder (382-436) and the test for empty clauses (438-439).  The flag is
    returned: it is declared outside the clause loop (335) and never reset. *)
Definition neval_reminder (lits row : list Z) (lmem : nat) (mask : vec) (chunk : nat) (act : bool) : Z * bool :=
  let zeros := nv_set1 0 in
  let literals := nv_load_u lits (chunk * 16) in
  let clauses := nv_load row (chunk * 16) in
  let not_active := v_cmpgt zeros clauses in
  let act := act || v_any (v_and (v_not not_active) mask) in
  let is_false := v_and (v_cmpeq (v_or not_active literals) zeros) mask in
  if v_any is_false then (0, act)
  else
    let neg_literals := v_cmpeq zeros literals in
    let clauses := nv_load row (lmem + chunk * 16) in
    let not_active := v_cmpgt zeros clauses in
    let act := act || v_any (v_and (v_not not_active) mask) in
    let is_false := v_and (v_cmpeq (v_or not_active neg_literals) zeros) mask in
    ((if v_any is_false then 0 else if act then 1 else 0), act).

(** One clause, [act] from the clauses before it. *)
Definition neon_eval_clause (lits : list Z) (lmem : nat) (mask : vec) (row : list Z) (act : bool) : Z * bool :=
  let n_chunks := (lmem / 16 - 1)%nat in
  let '(act, falsified) := neval_chunks lits row lmem 0 n_chunks act in
  if falsified then (0, act) else neval_reminder lits row lmem mask n_chunks act.

Fixpoint neon_eval_loop (lits : list Z) (lmem : nat) (mask : vec) (rows : list (list Z)) (act : bool) : list Z :=
  match rows with
  | [] => []
  | row :: rest => let '(o, act) := neon_eval_clause lits lmem mask row act in
                   o :: neon_eval_loop lits lmem mask rest act
  end.

(** EvalClauseOutputNeon (328-446). *)
Definition neon_eval_set (lits : list Z) (b : ablock) : ablock :=
  mkABlock (a_nlit b) (a_lmem b) (a_mask b) (a_ncls b) (a_rows b) (a_weights b)
           (neon_eval_loop lits (a_lmem b) (a_mask b) (a_rows b) false) (a_counts b)
           (a_votes b) (a_budget b) (a_cmp b) (a_vrng b) (a_fast b).

(** CountVotesNeon (455-469) is the same loop as CountVotesAVX2:
    [avx_count_votes]. *)

(** ** Feedback *)

(** Type1aFeedbackNeon, one chunk (562-624); boosting only concerns the positive
    automata. *)
Definition neon_t1a_chunk (boost : bool) (cmp : Z) (lits : list Z) (lmem chunk : nat) (st : list Z * vrng) : list Z * vrng :=
  let '(row, r) := st in
  let cmp_s := nv_set1 cmp in
  let ones := nv_set1 1 in
  let literals := nv_load_u lits (chunk * 16) in
  let clause := nv_load row (chunk * 16) in
  let literal_on := v_cmpeq literals ones in
  let '(rand, r) := next_v r in
  let update := v_cmpgt cmp_s rand in
  let subtract := v_and (v_not literal_on) update in
  let add := if boost then v_and literal_on ones else v_and ones (v_and literal_on (v_not update)) in
  let row := nv_store row (chunk * 16) (v_adds clause (v_or subtract add)) in
  let clause := nv_load row (lmem + chunk * 16) in
  let '(rand, r) := next_v r in
  let update := v_cmpgt cmp_s rand in
  let subtract := v_and literal_on update in
  let add := v_and ones (v_and (v_not literal_on) (v_not update)) in
  (nv_store row (lmem + chunk * 16) (v_adds clause (v_or subtract add)), r).

Definition neon_t1a (boost : bool) (cmp : Z) (lits : list Z) (lmem : nat) (row : list Z) (r : vrng) : list Z * vrng :=
  for_loop (lmem / 16) (neon_t1a_chunk boost cmp lits lmem) (row, r).

(** Type1bFeedbackNeon (632-662). *)
Definition neon_t1b_chunk (cmp : Z) (lmem chunk : nat) (st : list Z * vrng) : list Z * vrng :=
  let '(row, r) := st in
  let minus_one := nv_set1 (-1) in
  let cmp_s := nv_set1 cmp in
  let clause := nv_load row (chunk * 16) in
  let '(rand, r) := next_v r in
  let update := v_and minus_one (v_cmpgt cmp_s rand) in
  let row := nv_store row (chunk * 16) (v_adds clause update) in
  let clause := nv_load row (lmem + chunk * 16) in
  let '(rand, r) := next_v r in
  let update := v_and minus_one (v_cmpgt cmp_s rand) in
  (nv_store row (lmem + chunk * 16) (v_adds clause update), r).

Definition neon_t1b (cmp : Z) (lmem : nat) (row : list Z) (r : vrng) : list Z * vrng :=
  for_loop (lmem / 16) (neon_t1b_chunk cmp lmem) (row, r).

(** Type2FeedbackNeon (671-709). *)
Definition neon_t2_chunk (lits : list Z) (lmem chunk : nat) (row : list Z) : list Z :=
  let zeros := nv_set1 0 in
  let ones := nv_set1 1 in
  let literals := nv_load_u lits (chunk * 16) in
  let clause := nv_load row (chunk * 16) in
  let lit_mask := v_cmpeq literals zeros in
  let not_active := v_cmpgt zeros clause in
  let inc := v_and (v_and lit_mask not_active) ones in
  let row := nv_store row (chunk * 16) (v_adds clause inc) in
  let clause := nv_load row (lmem + chunk * 16) in
  let not_active := v_cmpgt zeros clause in
  let inc := v_and (v_and (v_not lit_mask) not_active) ones in
  nv_store row (lmem + chunk * 16) (v_adds clause inc).

Definition neon_t2 (lits : list Z) (lmem : nat) (row : list Z) : list Z :=
  for_loop (lmem / 16) (neon_t2_chunk lits lmem) row.

(** ClauseUpdateNeon (511-538). *)
Definition neon_clause_update (boost : bool) (cmp : Z) (lmem : nat) (row : list Z) (w : Z)
  (target : Z) (lits : list Z) (output : Z) (r : vrng) : list Z * Z * vrng :=
  let sign := if w >=? 0 then 1 else -1 in
  if target * sign >? 0 then
    if output =? 1 then
      let w := wrap16 (w + sign) in
      let '(row, r) := neon_t1a boost cmp lits lmem row r in (row, w, r)
    else
      let '(row, r) := neon_t1b cmp lmem row r in (row, w, r)
  else if (target * sign <? 0) && (output =? 1) then
    let w := wrap16 (w - sign) in
    (neon_t2 lits lmem row, w, r)
  else (row, w, r).

(** TrainUpdateNeon (476-503), one clause. *)
Definition neon_update_clause (budget_on boost : bool) (budget cmp : Z) (lmem : nat)
  (lits : list Z) (pc : nat) (pp : Q) (nc : nat) (np : Q)
  (row ws : list Z) (out count : Z) (r : vrng) (fast : rng)
  : list Z * list Z * Z * vrng * rng :=
  let out := if budget_on && (count >? budget) then 0 else out in
  let '(d, fast) := draw_lt fast pp in
  let '(row, ws, r) :=
    if d then
      let '(row', w', r') := neon_clause_update boost cmp lmem row (nth pc ws 0) 1 lits out r in
      (row', set_nth pc w' ws, r')
    else (row, ws, r) in
  let '(d, fast) := draw_lt fast np in
  let '(row, ws, r) :=
    if d then
      let '(row', w', r') := neon_clause_update boost cmp lmem row (nth nc ws 0) (-1) lits out r in
      (row', set_nth nc w' ws, r')
    else (row, ws, r) in
  (row, ws, out, r, fast).

Fixpoint neon_update_loop (budget_on boost : bool) (budget cmp : Z) (lmem : nat)
  (lits : list Z) (pc : nat) (pp : Q) (nc : nat) (np : Q)
  (rows wss : list (list Z)) (outs counts : list Z) (r : vrng) (fast : rng)
  : list (list Z) * list (list Z) * list Z * vrng * rng :=
  match rows, wss, outs with
  | row :: rows', ws :: wss', o :: outs' =>
      let '(row1, ws1, o1, r, fast) :=
        neon_update_clause budget_on boost budget cmp lmem lits pc pp nc np row ws o (hd 0 counts) r fast in
      let '(rows2, wss2, outs2, r, fast) :=
        neon_update_loop budget_on boost budget cmp lmem lits pc pp nc np rows' wss' outs' (tl counts) r fast in
      (row1 :: rows2, ws1 :: wss2, o1 :: outs2, r, fast)
  | _, _, _ => (rows, wss, outs, r, fast)
  end.

Definition neon_train_update (budget_on boost : bool) (lits : list Z) (pc : nat) (pp : Q) (nc : nat) (np : Q)
  (b : ablock) : ablock :=
  let '(rows, wss, outs, r, fast) :=
    neon_update_loop budget_on boost (a_budget b) (a_cmp b) (a_lmem b) lits pc pp nc np
      (a_rows b) (a_weights b) (a_outputs b) (a_counts b) (a_vrng b) (a_fast b) in
  mkABlock (a_nlit b) (a_lmem b) (a_mask b) (a_ncls b) rows wss outs (a_counts b) (a_votes b) (a_budget b)
           (a_cmp b) r fast.

(** ** Initialisation (InitializeAlignedNeon, 60-157) *)

(** One literal of init_clauses (129-133): positive automaton, then negated, both
    from state.rng (uniform on {-1, 0}, as in ModelDense.init_row). *)
Fixpoint neon_init_lits (n : nat) (r : rng) : list Z * list Z * rng :=
  match n with
  | O => ([], [], r)
  | S k => let '(u, r) := next_u r in
           let '(v, r) := next_u r in
           let '(p, q, r) := neon_init_lits k r in
           ((if Qle_bool u (1#2) then -1 else 0) :: p, (if Qle_bool v (1#2) then -1 else 0) :: q, r)
  end.

(** One row with the filler states (135-140). *)
Definition neon_init_row (nlit : nat) (r : rng) : list Z * rng :=
  let '(p, q, r) := neon_init_lits nlit r in
  let pad := (nlmem_of nlit - nlit)%nat in
  ((p ++ repeat (-109) pad) ++ (q ++ repeat (-111) pad), r).

Fixpoint neon_init_rows (nlit ncl : nat) (r : rng) : list (list Z) * rng :=
  match ncl with
  | O => ([], r)
  | S k => let '(row, r) := neon_init_row nlit r in
           let '(t, r) := neon_init_rows nlit k r in (row :: t, r)
  end.

(** operator() (64-117): clauses and weights share state.rng (the bernoulli
    distribution of init_clause_weights is a draw above 1/2); seed 0 fails.
    state.rng is not used afterwards. *)
Definition neon_initialize (vec_of : Z -> vrng) (std_of fast_of : Z -> rng) (junk : list Z)
  (nlit ncl ncls : nat) (budget : Z) (s : Q) (seed : Z) : option ablock :=
  if seed =? 0 then None
  else
    let '(rows, r) := neon_init_rows nlit ncl (std_of seed) in
    let '(ws, _) := init_weights ncls ncl r in
    Some (mkABlock nlit (nlmem_of nlit) (nmask_of nlit) ncls rows ws (repeat 0 ncl) junk (repeat 0 ncls) budget
                   (gtcmp_for_s s) (vec_of seed) (fast_of seed)).

(** ** The block as seen by the executor, literal budget on *)

Definition neon_train_ex (lits : list Z) (b : ablock) : ablock * list Z :=
  let b := avx_count_votes (neon_train_on lits b) in (b, a_votes b).
Definition neon_eval_ex (lits : list Z) (b : ablock) : ablock * list Z :=
  let b := avx_count_votes (neon_eval_set lits b) in (b, a_votes b).
Definition neon_upd (boost : bool) (lits : list Z) (pc : nat) (pp : Q) (nc : nat) (np : Q)
  (b : ablock) : ablock := neon_train_update true boost lits pc pp nc np b.
