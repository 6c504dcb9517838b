(** Model of the AVX2 dense clause block: src/func_avx2.hpp on the state of
    src/aligned_tsetlin_state.hpp.  A vector register is a list of 32 signed
    bytes; the intrinsics act lane by lane.  Z.land, Z.lor and Z.lnot on signed
    integers are the bit operations on two's complement bytes. *)
From Coq Require Import ZArith List Bool QArith Lia.
From Verif Require Import Base ModelDense ModelLayout ModelFeedback ModelExecutor.
Import ListNotations.
Open Scope Z_scope.

(** ** Intrinsics *)

Definition vec := list Z.
Definition v_set1 (v : Z) : vec := repeat v 32.                                        (* _mm256_set1_epi8 *)
Definition v_cmpgt (a b : vec) : vec := map2 (fun x y => if y <? x then -1 else 0) a b. (* _mm256_cmpgt_epi8 *)
Definition v_cmpeq (a b : vec) : vec := map2 (fun x y => if x =? y then -1 else 0) a b. (* _mm256_cmpeq_epi8 *)
Definition v_and (a b : vec) : vec := map2 Z.land a b.                                 (* _mm256_and_si256 *)
Definition v_or (a b : vec) : vec := map2 Z.lor a b.                                   (* _mm256_or_si256 *)
Definition v_not (a : vec) : vec := map Z.lnot a.                                      (* ~ on __m256i *)
Definition sat8 (z : Z) : Z := Z.max (-128) (Z.min 127 z).
Definition v_adds (a b : vec) : vec := map2 (fun x y => sat8 (x + y)) a b.             (* _mm256_adds_epi8 *)
(** _mm256_movemask_epi8: the top bits of the lanes. *)
Definition v_movemask (a : vec) : list bool := map (fun x => x <? 0) a.
Definition popcount (m : list bool) : Z := zsum (map b2z m).
(** _mm256_testz_si256(a, a) == 0: some bit is set. *)
Definition v_any (a : vec) : bool := negb (forallb (fun x => Z.land x x =? 0) a).
(** _mm256_load_si256 at byte [off]; [v_load_u] loads uint8 memory. *)
Definition v_load (mem : list Z) (off : nat) : vec := slice mem off 32.
Definition v_load_u (mem : list Z) (off : nat) : vec := map wrap8 (slice mem off 32).
(** _mm256_store_si256. *)
Definition v_store (mem : list Z) (off : nat) (v : vec) : list Z := memcpy mem off v 0 32.

(** XorShift128plus4G::next: an arbitrary stream of vectors. *)
Record vrng := mkVrng { vr_src : nat -> vec; vr_pos : nat }.
Definition next_v (r : vrng) : vec * vrng := (vr_src r (vr_pos r), mkVrng (vr_src r) (S (vr_pos r))).

(** ** State *)

(** Mutable state of one block (aligned_tsetlin_state.hpp:22-56).  [a_rows]: one
    row of 2*num_literals_mem automata per clause (positive half, negated half,
    both padded).  [a_weights]: the num_classes used weights of each clause; the
    padding of the weight rows is neither read nor written by the kernels. *)
Record ablock := mkABlock {
  a_nlit : nat;
  a_lmem : nat;               (* num_literals_mem *)
  a_mask : vec;               (* reminder_mask *)
  a_ncls : nat;
  a_rows : list (list Z);
  a_weights : list (list Z);
  a_outputs : list Z;
  a_counts : list Z;
  a_votes : list Z;
  a_budget : Z;
  a_cmp : Z;                  (* gtcmp_for_s *)
  a_vrng : vrng;              (* avx2_rng *)
  a_fast : rng                (* fast_rng *)
}.

(** set_s (aligned_tsetlin_state.hpp:62-73): the byte threshold for 1/s; the
    conversion of p*255 to int32 truncates towards zero. *)
Definition gtcmp_for_s (s : Q) : Z :=
  let p := (1 / s)%Q in
  let x := (p * 255)%Q in
  let tmp := Z.quot (Qnum x) (Zpos (Qden x)) - 127 + 1 in
  Z.max (-127) (Z.min 126 tmp).

(** num_literals_mem and reminder_mask (func_avx2.hpp:32-48). *)
Definition lmem_of (nlit : nat) : nat :=
  if Nat.eqb (nlit mod 32) 0 then nlit else ((nlit / 32) + 1) * 32.
Definition mask_of (nlit : nat) : vec :=
  if Nat.eqb (nlit mod 32) 0 then repeat (-1) 32
  else repeat (-1) (nlit mod 32) ++ repeat 0 (32 - nlit mod 32).

(** ** Clause outputs *)

(** Result of SetClauseOutputAVX2 for one clause: the output and the literal
    count written to literal_counts, None if it is not written. *)
(** Body of the chunk loop (193-223): None = no literal falsified, Some count =
    goto endclause. The count is only kept when the budget is on; it is
    accumulated either way here and stored only with the budget. *)
Definition set_chunk (lits row : list Z) (lmem chunk : nat) (count : Z) : Z * bool :=
  let zeros := v_set1 0 in
  let literals := v_load_u lits (chunk * 32) in
  let clauses := v_load row (chunk * 32) in
  let not_active := v_cmpgt zeros clauses in
  let count := count + popcount (v_movemask (v_not not_active)) in
  let imply := v_or not_active literals in
  let is_false := v_cmpeq imply zeros in
  if v_any is_false then (count, true)
  else
    let neg_literals := v_cmpeq zeros literals in
    let clauses := v_load row (lmem + chunk * 32) in
    let not_active := v_cmpgt zeros clauses in
    let count := count + popcount (v_movemask (v_not not_active)) in
    let imply := v_or not_active neg_literals in
    let is_false := v_cmpeq imply zeros in
    (count, v_any is_false).

(** The chunk loop from [chunk] on, [k] chunks to go. *)
Fixpoint set_chunks (lits row : list Z) (lmem chunk k : nat) (count : Z) : Z * bool :=
  match k with
  | O => (count, false)
  | S k' => let '(count, falsified) := set_chunk lits row lmem chunk count in
            if falsified then (count, true) else set_chunks lits row lmem (S chunk) k' count
  end.

(** The remainder vector (227-264): output and the count if it is written; the
    first test leaves with "continue", past the store of the count. *)
Definition set_reminder (lits row : list Z) (lmem : nat) (mask : vec) (chunk : nat) (count : Z) : Z * option Z :=
  let zeros := v_set1 0 in
  let literals := v_load_u lits (chunk * 32) in
  let clauses := v_load row (chunk * 32) in
  let not_active := v_cmpgt zeros clauses in
  let active_masked := v_and (v_not not_active) mask in
  let count := count + popcount (v_movemask active_masked) in
  let imply := v_or (v_not active_masked) literals in
  let is_false := v_cmpeq imply zeros in
  if v_any is_false then (0, None)
  else
    let neg_literals := v_cmpeq zeros literals in
    let clauses := v_load row (lmem + chunk * 32) in
    let not_active := v_cmpgt zeros clauses in
    let active_masked := v_and (v_not not_active) mask in
    let count := count + popcount (v_movemask active_masked) in
    let imply := v_or (v_not active_masked) neg_literals in
    let is_false := v_cmpeq imply zeros in
    (if v_any is_false then 0 else 1, Some count).

Definition avx_set_output (lits : list Z) (lmem : nat) (mask : vec) (row : list Z) : Z * option Z :=
  let n_chunks := (lmem / 32 - 1)%nat in
  let '(count, falsified) := set_chunks lits row lmem 0 n_chunks 0 in
  if falsified then (0, Some count) else set_reminder lits row lmem mask n_chunks count.

(** SetClauseOutputAVX2 (171-271). *)
Definition avx_train_output (budget_on : bool) (lits : list Z) (b : ablock) : ablock :=
  let rs := map (avx_set_output lits (a_lmem b) (a_mask b)) (a_rows b) in
  mkABlock (a_nlit b) (a_lmem b) (a_mask b) (a_ncls b) (a_rows b) (a_weights b)
           (map fst rs)
           (if budget_on then map2 (fun r old => match snd r with Some c => c | None => old end) rs (a_counts b)
            else a_counts b)
           (a_votes b) (a_budget b) (a_cmp b) (a_vrng b) (a_fast b).

(** EvalClauseOutputAVX2, chunk loop body (296-322): the collected activity bits
    (only whether one is set matters) and whether a literal is falsified. *)
Definition eval_chunk (lits row : list Z) (lmem chunk : nat) (act : bool) : bool * bool :=
  let zeros := v_set1 0 in
  let literals := v_load_u lits (chunk * 32) in
  let clauses := v_load row (chunk * 32) in
  let not_active := v_cmpgt zeros clauses in
  let act := act || existsb (fun x => x) (v_movemask (v_not not_active)) in
  let is_false := v_cmpeq (v_or not_active literals) zeros in
  if v_any is_false then (act, true)
  else
    let neg_literals := v_cmpeq zeros literals in
    let clauses := v_load row (lmem + chunk * 32) in
    let not_active := v_cmpgt zeros clauses in
    let act := act || existsb (fun x => x) (v_movemask (v_not not_active)) in
    let is_false := v_cmpeq (v_or not_active neg_literals) zeros in
    (act, v_any is_false).

Fixpoint eval_chunks (lits row : list Z) (lmem chunk k : nat) (act : bool) : bool * bool :=
  match k with
  | O => (act, false)
  | S k' => let '(act, falsified) := eval_chunk lits row lmem chunk act in
            if falsified then (act, true) else eval_chunks lits row lmem (S chunk) k' act
  end.

(** Remainder (325-357) and the test for empty clauses (359-360). *)
Definition eval_reminder (lits row : list Z) (lmem : nat) (mask : vec) (chunk : nat) (act : bool) : Z :=
  let zeros := v_set1 0 in
  let literals := v_load_u lits (chunk * 32) in
  let clauses := v_load row (chunk * 32) in
  let not_active := v_cmpgt zeros clauses in
  let act := act || existsb (fun x => x) (v_movemask (v_and (v_not not_active) mask)) in
  let is_false := v_and (v_cmpeq (v_or not_active literals) zeros) mask in
  if v_any is_false then 0
  else
    let neg_literals := v_cmpeq zeros literals in
    let clauses := v_load row (lmem + chunk * 32) in
    let not_active := v_cmpgt zeros clauses in
    let act := act || existsb (fun x => x) (v_movemask (v_and (v_not not_active) mask)) in
    let is_false := v_and (v_cmpeq (v_or not_active neg_literals) zeros) mask in
    if v_any is_false then 0
    else if act then 1 else 0.

Definition avx_eval_output (lits : list Z) (lmem : nat) (mask : vec) (row : list Z) : Z :=
  let n_chunks := (lmem / 32 - 1)%nat in
  let '(act, falsified) := eval_chunks lits row lmem 0 n_chunks false in
  if falsified then 0 else eval_reminder lits row lmem mask n_chunks act.

(** EvalClauseOutputAVX2 (275-366). *)
Definition avx_eval_set (lits : list Z) (b : ablock) : ablock :=
  mkABlock (a_nlit b) (a_lmem b) (a_mask b) (a_ncls b) (a_rows b) (a_weights b)
           (map (avx_eval_output lits (a_lmem b) (a_mask b)) (a_rows b)) (a_counts b)
           (a_votes b) (a_budget b) (a_cmp b) (a_vrng b) (a_fast b).

(** CountVotesAVX2 (369-391): the scalar loop. *)
Definition avx_count_votes (b : ablock) : ablock :=
  mkABlock (a_nlit b) (a_lmem b) (a_mask b) (a_ncls b) (a_rows b) (a_weights b) (a_outputs b) (a_counts b)
           (count_votes_loop (a_outputs b) (a_weights b) (repeat 0 (a_ncls b)))
           (a_budget b) (a_cmp b) (a_vrng b) (a_fast b).

(** ** Feedback *)

(** Type1aFeedbackAVX2, one chunk (480-529). *)
Definition avx_t1a_chunk (boost : bool) (cmp : Z) (lits : list Z) (lmem chunk : nat) (st : list Z * vrng) : list Z * vrng :=
  let '(row, r) := st in
  let minus_one := v_set1 (-1) in
  let cmp_s := v_set1 cmp in
  let ones := v_set1 1 in
  let literals := v_load_u lits (chunk * 32) in
  let clause := v_load row (chunk * 32) in
  let literal_on := v_cmpeq literals ones in
  let '(rand, r) := next_v r in
  let update := v_cmpgt cmp_s rand in
  let subtract := v_and minus_one (v_and (v_not literal_on) update) in
  let add := if boost then v_and literal_on ones else v_and ones (v_and literal_on (v_not update)) in
  let row := v_store row (chunk * 32) (v_adds clause (v_or subtract add)) in
  let clause := v_load row (lmem + chunk * 32) in
  let '(rand, r) := next_v r in
  let update := v_cmpgt cmp_s rand in
  let subtract := v_and minus_one (v_and literal_on update) in
  let add := if boost then v_and (v_not literal_on) ones
             else v_and ones (v_and (v_not literal_on) (v_not update)) in
  (v_store row (lmem + chunk * 32) (v_adds clause (v_or subtract add)), r).

Definition avx_t1a (boost : bool) (cmp : Z) (lits : list Z) (lmem : nat) (row : list Z) (r : vrng) : list Z * vrng :=
  for_loop (lmem / 32) (avx_t1a_chunk boost cmp lits lmem) (row, r).

(** Type1bFeedbackAVX2 (534-573). *)
Definition avx_t1b_chunk (cmp : Z) (lmem chunk : nat) (st : list Z * vrng) : list Z * vrng :=
  let '(row, r) := st in
  let minus_one := v_set1 (-1) in
  let cmp_s := v_set1 cmp in
  let clause := v_load row (chunk * 32) in
  let '(rand, r) := next_v r in
  let update := v_and minus_one (v_cmpgt cmp_s rand) in
  let row := v_store row (chunk * 32) (v_adds clause update) in
  let clause := v_load row (lmem + chunk * 32) in
  let '(rand, r) := next_v r in
  let update := v_and minus_one (v_cmpgt cmp_s rand) in
  (v_store row (lmem + chunk * 32) (v_adds clause update), r).

Definition avx_t1b (cmp : Z) (lmem : nat) (row : list Z) (r : vrng) : list Z * vrng :=
  for_loop (lmem / 32) (avx_t1b_chunk cmp lmem) (row, r).

(** Type2FeedbackAVX2 (577-614). *)
Definition avx_t2_chunk (lits : list Z) (lmem chunk : nat) (row : list Z) : list Z :=
  let zeros := v_set1 0 in
  let ones := v_set1 1 in
  let literals := v_load_u lits (chunk * 32) in
  let clause := v_load row (chunk * 32) in
  let lit_mask := v_cmpeq literals zeros in
  let not_active := v_cmpgt zeros clause in
  let inc := v_and (v_and lit_mask not_active) ones in
  let row := v_store row (chunk * 32) (v_adds clause inc) in
  let clause := v_load row (lmem + chunk * 32) in
  let not_active := v_cmpgt zeros clause in
  let inc := v_and (v_and (v_not lit_mask) not_active) ones in
  v_store row (lmem + chunk * 32) (v_adds clause inc).

Definition avx_t2 (lits : list Z) (lmem : nat) (row : list Z) : list Z :=
  for_loop (lmem / 32) (avx_t2_chunk lits lmem) row.

(** ClauseUpdateAVX2 (429-461). *)
Definition avx_clause_update (boost : bool) (cmp : Z) (lmem : nat) (row : list Z) (w : Z)
  (target : Z) (lits : list Z) (output : Z) (r : vrng) : list Z * Z * vrng :=
  let sign := if w >=? 0 then 1 else -1 in
  if target * sign >? 0 then
    if output =? 1 then
      let w := wrap16 (w + sign) in
      let '(row, r) := avx_t1a boost cmp lits lmem row r in (row, w, r)
    else
      let '(row, r) := avx_t1b cmp lmem row r in (row, w, r)
  else if (target * sign <? 0) && (output =? 1) then
    let w := wrap16 (w - sign) in
    (avx_t2 lits lmem row, w, r)
  else (row, w, r).

(** TrainUpdateAVX2 (394-426), one clause. *)
Definition avx_update_clause (budget_on boost : bool) (budget cmp : Z) (lmem : nat)
  (lits : list Z) (pc : nat) (pp : Q) (nc : nat) (np : Q)
  (row ws : list Z) (out count : Z) (r : vrng) (fast : rng)
  : list Z * list Z * Z * vrng * rng :=
  let out := if budget_on && (count >? budget) then 0 else out in
  let '(d, fast) := draw_lt fast pp in
  let '(row, ws, r) :=
    if d then
      let '(row', w', r') := avx_clause_update boost cmp lmem row (nth pc ws 0) 1 lits out r in
      (row', set_nth pc w' ws, r')
    else (row, ws, r) in
  let '(d, fast) := draw_lt fast np in
  let '(row, ws, r) :=
    if d then
      let '(row', w', r') := avx_clause_update boost cmp lmem row (nth nc ws 0) (-1) lits out r in
      (row', set_nth nc w' ws, r')
    else (row, ws, r) in
  (row, ws, out, r, fast).

Fixpoint avx_update_loop (budget_on boost : bool) (budget cmp : Z) (lmem : nat)
  (lits : list Z) (pc : nat) (pp : Q) (nc : nat) (np : Q)
  (rows wss : list (list Z)) (outs counts : list Z) (r : vrng) (fast : rng)
  : list (list Z) * list (list Z) * list Z * vrng * rng :=
  match rows, wss, outs with
  | row :: rows', ws :: wss', o :: outs' =>
      let '(row1, ws1, o1, r, fast) :=
        avx_update_clause budget_on boost budget cmp lmem lits pc pp nc np row ws o (hd 0 counts) r fast in
      let '(rows2, wss2, outs2, r, fast) :=
        avx_update_loop budget_on boost budget cmp lmem lits pc pp nc np rows' wss' outs' (tl counts) r fast in
      (row1 :: rows2, ws1 :: wss2, o1 :: outs2, r, fast)
  | _, _, _ => (rows, wss, outs, r, fast)
  end.

Definition avx_train_update (budget_on boost : bool) (lits : list Z) (pc : nat) (pp : Q) (nc : nat) (np : Q)
  (b : ablock) : ablock :=
  let '(rows, wss, outs, r, fast) :=
    avx_update_loop budget_on boost (a_budget b) (a_cmp b) (a_lmem b) lits pc pp nc np
      (a_rows b) (a_weights b) (a_outputs b) (a_counts b) (a_vrng b) (a_fast b) in
  mkABlock (a_nlit b) (a_lmem b) (a_mask b) (a_ncls b) rows wss outs (a_counts b) (a_votes b) (a_budget b)
           (a_cmp b) r fast.

(** ** Initialisation (InitializeAVX2, 20-140) *)

(** One literal of init_clauses (104-115): positive automaton, then negated. *)
Fixpoint avx_init_lits (n : nat) (r : rng) : list Z * list Z * rng :=
  match n with
  | O => ([], [], r)
  | S k => let '(u, r) := next_u r in
           let '(v, r) := next_u r in
           let '(p, q, r) := avx_init_lits k r in
           ((if Qlt_bool (1#2) u then 0 else -1) :: p, (if Qlt_bool (1#2) v then 0 else -1) :: q, r)
  end.

(** One row with the filler states (117-122). *)
Definition avx_init_row (nlit : nat) (r : rng) : list Z * rng :=
  let '(p, q, r) := avx_init_lits nlit r in
  let pad := (lmem_of nlit - nlit)%nat in
  ((p ++ repeat (-109) pad) ++ (q ++ repeat (-111) pad), r).

Fixpoint avx_init_rows (nlit ncl : nat) (r : rng) : list (list Z) * rng :=
  match ncl with
  | O => ([], r)
  | S k => let '(row, r) := avx_init_row nlit r in
           let '(t, r) := avx_init_rows nlit k r in (row :: t, r)
  end.

(** operator() (23-92): clauses and weights share fast_rng; seed 0 fails. *)
Definition avx_initialize (vec_of : Z -> vrng) (fast_of : Z -> rng) (junk : list Z)
  (nlit ncl ncls : nat) (budget : Z) (s : Q) (seed : Z) : option ablock :=
  if seed =? 0 then None
  else
    let '(rows, f) := avx_init_rows nlit ncl (fast_of seed) in
    let '(ws, f) := init_weights ncls ncl f in
    Some (mkABlock nlit (lmem_of nlit) (mask_of nlit) ncls rows ws (repeat 0 ncl) junk (repeat 0 ncls) budget
                   (gtcmp_for_s s) (vec_of seed) f).

(** ** The block as seen by the executor (clause_block.hpp:65-77, 187-212) *)

Definition avx_train_ex (budget_on : bool) (lits : list Z) (b : ablock) : ablock * list Z :=
  let b := avx_count_votes (avx_train_output budget_on lits b) in (b, a_votes b).
Definition avx_eval_ex (lits : list Z) (b : ablock) : ablock * list Z :=
  let b := avx_count_votes (avx_eval_set lits b) in (b, a_votes b).
Definition avx_upd (budget_on boost : bool) (lits : list Z) (pc : nat) (pp : Q) (nc : nat) (np : Q)
  (b : ablock) : ablock := avx_train_update budget_on boost lits pc pp nc np b.
