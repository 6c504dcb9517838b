(** The NEON dense clause block access by access: src/func_neon.hpp on the arrays
    of src/aligned_tsetlin_state.hpp.

    Conventions of ModelAvx2Imp.v: arrays are lists of the size that was allocated,
    [Wild] is undefined behaviour, new memory is arbitrary.  vld1q_s8 and vst1q_s8
    have no alignment condition; __builtin_assume_aligned(p, 32) of a pointer that
    is not is [Wild].  The record [vimp] and state transfer (same class) are those
    of ModelAvx2Imp.v. *)
From Coq Require Import ZArith List Bool QArith Lia.
From Verif Require Import Base ModelDense ModelLayout ModelAvx2 ModelNeon ModelSparse ModelSparseImp ModelAvx2Imp.
Import ListNotations.
Open Scope Z_scope.

(** vld1q_s8(&p[off]), [p] pointing to element [ptr] of the array; from uint8
    memory; vst1q_s8. *)
Definition nvld (mem : list Z) (ptr off : nat) : R vec :=
  o <- int_ off; if (ptr + o + 16 <=? length mem)%nat then Ret (nv_load mem (ptr + o)) else Wild.
Definition nvld_u (mem : list Z) (ptr off : nat) : R vec :=
  o <- int_ off; if (ptr + o + 16 <=? length mem)%nat then Ret (nv_load_u mem (ptr + o)) else Wild.
Definition nvst (mem : list Z) (ptr off : nat) (v : vec) : R (list Z) :=
  o <- int_ off; if (ptr + o + 16 <=? length mem)%nat then Ret (nv_store mem (ptr + o) v) else Wild.
(** __builtin_assume_aligned(&a[ptr], 32), the array itself aligned to 32. *)
Definition aligned32 (ptr : nat) : R nat := if (ptr mod 32 =? 0)%nat then Ret ptr else Wild.

(** ** Initialisation (InitializeAlignedNeon, 60-157) *)

(** safe_aligned_alloc(32, mem) (gt_common.hpp:14-25): bytes allocated.  [mem] is
    an [int] that can be negative; then 32 bytes are allocated. *)
Definition nsafe_mem (mem : Z) : R nat :=
  if mem <? 32 then Ret 32%nat
  else if 0 <? mem mod 32 then int_ (Z.to_nat (mem + (32 - mem mod 32))) else Ret (Z.to_nat mem).

(** reminder_mask and num_literals_mem (73-89); the mask gets 32 bytes, 16 are
    written. *)
Definition nimp_mask (jm : nat -> Z) (nlit : nat) : R (nat * list Z) :=
  bytes <- nsafe_mem 16;
  mask <- fold_ix 16 0 (fun i m => set_ix i (-1) m) (fresh bytes jm);
  if (nlit mod 16 =? 0)%nat then Ret (nlit, mask)
  else lmem <- int_ ((nlit / 16 + 1) * 16);
       mask <- fold_ix (16 - nlit mod 16) (nlit mod 16) (fun i m => set_ix i 0 m) mask;
       Ret (lmem, mask).

(** init_clauses (121-142), one clause; the draws are those of [neon_init_lits]. *)
Definition nimp_init_clause (nlit lmem clause_k : nat) (s : list Z * rng) : R (list Z * rng) :=
  two <- int_ (lmem * 2); row <- int_ (clause_k * two);
  s <- fold_ix nlit 0 (fun literal_k s =>
         let '(u, r) := next_u (snd s) in
         cl <- set_ix (row + literal_k) (if Qle_bool u (1#2) then -1 else 0) (fst s);
         let '(v, r) := next_u r in
         neg <- int_ (literal_k + lmem);
         cl <- set_ix (row + neg) (if Qle_bool v (1#2) then -1 else 0) cl;
         Ret (cl, r)) s;
  cl <- fold_ix (lmem - nlit) nlit (fun filler cl =>
          cl <- set_ix (row + filler) (-109) cl;
          neg <- int_ (filler + lmem);
          set_ix (row + neg) (-111) cl) (fst s);
  Ret (cl, snd s).
(** init_clause_weights (144-156): one loop over all weights. *)
Definition nimp_init_weights (ncl ncls : nat) (ws : list Z) (r : rng) : R (list Z * rng) :=
  total <- int_ (ncl * ncls);
  fold_ix total 0 (fun k s =>
    let '(u, r) := next_u (snd s) in
    ws <- set_ix k (if Qlt_bool (1#2) u then 1 else -1) (fst s);
    Ret (ws, r)) (ws, r).

(** operator() (64-117); outputs_per_vector = 64 (main.cpp:213).  weights_mem
    (102) and the size of the votes (108) are computed in size_t and stored in an
    [int]: [wrap32].  The weights are not cleared; the votes are, as far as there
    are classes. *)
Definition nimp_initialize (budget_on : bool) (vec_of : Z -> vrng) (std_of fast_of : Z -> rng) (jm jc jk jw jv : nat -> Z)
  (nlit ncl ncls : nat) (budget : Z) (sv : Q) (seed : Z) : R (option vimp) :=
  if seed =? 0 then Ret None
  else
    lm <- nimp_mask jm nlit;
    let lmem := fst lm in
    half <- int_ (ncl * lmem); clause_mem <- int_ (half * 2);
    bytes <- nsafe_mem (Z.of_nat clause_mem);
    nout <- int_ ((ncl / 64 + 1) * 64);
    wtot <- int_ (ncl * ncls);
    wbytes <- nsafe_mem (wrap32 (2 * Z.of_nat wtot));
    vbytes <- nsafe_mem (wrap32 (2 * Z.of_nat ncls));
    if negb (ncls <=? vbytes / 2)%nat then Wild
    else
      let votes := repeat 0 ncls ++ skipn ncls (fresh (vbytes / 2) jv) in
      c <- fold_ix ncl 0 (nimp_init_clause nlit lmem) (fresh bytes jc, std_of seed);
      w <- nimp_init_weights ncl ncls (fresh (wbytes / 2) jw) (snd c);
      Ret (Some (mkV nlit lmem ncl ncls ncls (snd lm) (fst c) (fst w) (repeat 0 nout)
                     (if budget_on then fresh ncl jk else []) votes budget (gtcmp_for_s sv) (vec_of seed) (fast_of seed))).

(** ** Clause outputs *)

(** n_chunks = num_literals_mem / 16 - 1; without literals it is -1 and the
    remainder is loaded from before the arrays. *)
Definition nlast_chunk (lmem : nat) : R nat := if (lmem / 16 =? 0)%nat then Wild else Ret (lmem / 16 - 1)%nat.

(** SetClauseOutputNeon: the chunk loop (213-254). *)
Definition nimp_set_chunk (lits cl : list Z) (row lmem chunk : nat) (count : Z) : R (Z * bool) :=
  let zeros := nv_set1 0 in
  literals <- nvld_u lits 0 (chunk * 16);
  clauses <- nvld cl row (chunk * 16);
  let not_active := v_cmpgt zeros clauses in
  let count := count + popcount (v_movemask (v_not not_active)) in
  let is_false := v_cmpeq (v_or not_active literals) zeros in
  if v_any is_false then Ret (count, true)
  else
    let neg_literals := v_cmpeq zeros literals in
    clauses <- nvld cl row (lmem + chunk * 16);
    let not_active := v_cmpgt zeros clauses in
    let count := count + popcount (v_movemask (v_not not_active)) in
    let is_false := v_cmpeq (v_or not_active neg_literals) zeros in
    Ret (count, v_any is_false).
Fixpoint nimp_set_chunks (lits cl : list Z) (row lmem chunk k : nat) (count : Z) : R (Z * bool) :=
  match k with
  | O => Ret (count, false)
  | S k' => c <- nimp_set_chunk lits cl row lmem chunk count;
            if snd c then Ret c else nimp_set_chunks lits cl row lmem (S chunk) k' (fst c)
  end.
(** The remainder (256-314). *)
Definition nimp_set_reminder (lits cl : list Z) (row lmem : nat) (mmem : list Z) (chunk : nat) (count : Z) : R (Z * Z) :=
  let zeros := nv_set1 0 in
  mask <- nvld mmem 0 0;
  literals <- nvld_u lits 0 (chunk * 16);
  clauses <- nvld cl row (chunk * 16);
  let not_active := v_cmpgt zeros clauses in
  let active_masked := v_and (v_not not_active) mask in
  let count := count + popcount (v_movemask active_masked) in
  let is_false := v_cmpeq (v_or (v_not active_masked) literals) zeros in
  if v_any is_false then Ret (0, count)
  else
    let neg_literals := v_cmpeq zeros literals in
    clauses <- nvld cl row (lmem + chunk * 16);
    let not_active := v_cmpgt zeros clauses in
    let active_masked := v_and (v_not not_active) mask in
    let count := count + popcount (v_movemask active_masked) in
    let is_false := v_cmpeq (v_or (v_not active_masked) neg_literals) zeros in
    Ret (if v_any is_false then 0 else 1, count).
(** One clause (205-318).  literal_counts[clause_k] = 0 (209) is not guarded by the
    budget; the additions to the same element (with the budget) are stored once at
    the end. *)
Definition nimp_set_clause (budget_on : bool) (lits : list Z) (n_chunks clause_k : nat) (s : vimp) : R vimp :=
  outs <- set_ix clause_k 1 (m_outputs s);
  counts <- set_ix clause_k 0 (m_counts s);
  two <- int_ (m_lmem s * 2); row <- int_ (clause_k * two);
  c <- nimp_set_chunks lits (m_clauses s) row (m_lmem s) 0 n_chunks 0;
  oc <- (if snd c then Ret (0, fst c) else nimp_set_reminder lits (m_clauses s) row (m_lmem s) (m_mask s) n_chunks (fst c));
  outs <- (if fst oc =? 0 then set_ix clause_k 0 outs else Ret outs);
  counts <- (if budget_on then set_ix clause_k (snd oc) counts else Ret counts);
  Ret (m_set_outputs s outs counts).
Definition nimp_set (budget_on : bool) (lits : list Z) (s : vimp) : R vimp :=
  if (m_ncl s =? 0)%nat then Ret s
  else n_chunks <- nlast_chunk (m_lmem s); fold_ix (m_ncl s) 0 (nimp_set_clause budget_on lits n_chunks) s.

(** EvalClauseOutputNeon (328-446). *)
Definition nimp_eval_chunk (lits cl : list Z) (row lmem chunk : nat) (act : bool) : R (bool * bool) :=
  let zeros := nv_set1 0 in
  literals <- nvld_u lits 0 (chunk * 16);
  clauses <- nvld cl row (chunk * 16);
  let not_active := v_cmpgt zeros clauses in
  let act := act || v_any (v_not not_active) in
  let is_false := v_cmpeq (v_or not_active literals) zeros in
  if v_any is_false then Ret (act, true)
  else
    let neg_literals := v_cmpeq zeros literals in
    clauses <- nvld cl row (lmem + chunk * 16);
    let not_active := v_cmpgt zeros clauses in
    let act := act || v_any (v_not not_active) in
    let is_false := v_cmpeq (v_or not_active neg_literals) zeros in
    Ret (act, v_any is_false).
Fixpoint nimp_eval_chunks (lits cl : list Z) (row lmem chunk k : nat) (act : bool) : R (bool * bool) :=
  match k with
  | O => Ret (act, false)
  | S k' => c <- nimp_eval_chunk lits cl row lmem chunk act;
            if snd c then Ret c else nimp_eval_chunks lits cl row lmem (S chunk) k' (fst c)
  end.
Definition nimp_eval_reminder (lits cl : list Z) (row lmem : nat) (mmem : list Z) (chunk : nat) (act : bool) : R (Z * bool) :=
  let zeros := nv_set1 0 in
  mask <- nvld mmem 0 0;
  literals <- nvld_u lits 0 (chunk * 16);
  clauses <- nvld cl row (chunk * 16);
  let not_active := v_cmpgt zeros clauses in
  let act := act || v_any (v_and (v_not not_active) mask) in
  let is_false := v_and (v_cmpeq (v_or not_active literals) zeros) mask in
  if v_any is_false then Ret (0, act)
  else
    let neg_literals := v_cmpeq zeros literals in
    clauses <- nvld cl row (lmem + chunk * 16);
    let not_active := v_cmpgt zeros clauses in
    let act := act || v_any (v_and (v_not not_active) mask) in
    let is_false := v_and (v_cmpeq (v_or not_active neg_literals) zeros) mask in
    Ret ((if v_any is_false then 0 else if act then 1 else 0), act).
(** One clause; active_mask is carried along. *)
Definition nimp_eval_clause (lits : list Z) (n_chunks clause_k : nat) (sa : vimp * bool) : R (vimp * bool) :=
  let '(s, act) := sa in
  outs <- set_ix clause_k 1 (m_outputs s);
  two <- int_ (m_lmem s * 2); row <- int_ (clause_k * two);
  c <- nimp_eval_chunks lits (m_clauses s) row (m_lmem s) 0 n_chunks act;
  oc <- (if snd c then Ret (0, fst c) else nimp_eval_reminder lits (m_clauses s) row (m_lmem s) (m_mask s) n_chunks (fst c));
  outs <- (if fst oc =? 0 then set_ix clause_k 0 outs else Ret outs);
  Ret (m_set_outputs s outs (m_counts s), snd oc).
Definition nimp_eval (lits : list Z) (s : vimp) : R vimp :=
  if (m_ncl s =? 0)%nat then Ret s
  else n_chunks <- nlast_chunk (m_lmem s); sa <- fold_ix (m_ncl s) 0 (nimp_eval_clause lits n_chunks) (s, false); Ret (fst sa).

(** CountVotesNeon (452-470). *)
Definition nimp_votes (s : vimp) : R vimp :=
  if negb (m_ncls s <=? length (m_votes s))%nat then Wild
  else
    votes <- fold_ix (m_ncl s) 0 (fun clause_k votes =>
               o <- ix (m_outputs s) clause_k;
               if o =? 1 then
                 fold_ix (m_ncls s) 0 (fun class_k votes =>
                   i <- int_ (clause_k * m_ncls s + class_k);
                   to_add <- ix (m_weights s) i;
                   v <- ix votes class_k;
                   set_ix class_k (wrap16 (v + to_add)) votes) votes
               else Ret votes) (repeat 0 (m_ncls s) ++ skipn (m_ncls s) (m_votes s));
    Ret (m_set_votes s votes).

(** ** Feedback: the clause array and the generator *)

(** Type1aFeedbackNeon, one chunk (562-624). *)
Definition nimp_t1a_chunk (boost : bool) (cmp : Z) (lits : list Z) (row lmem chunk : nat) (st : list Z * vrng) : R (list Z * vrng) :=
  let '(cl, r) := st in
  let cmp_s := nv_set1 cmp in
  let ones := nv_set1 1 in
  literals <- nvld_u lits 0 (chunk * 16);
  clause <- nvld cl row (chunk * 16);
  let literal_on := v_cmpeq literals ones in
  let '(rand, r) := next_v r in
  let update := v_cmpgt cmp_s rand in
  let subtract := v_and (v_not literal_on) update in
  let add := if boost then v_and literal_on ones else v_and ones (v_and literal_on (v_not update)) in
  cl <- nvst cl row (chunk * 16) (v_adds clause (v_or subtract add));
  clause <- nvld cl row (lmem + chunk * 16);
  let '(rand, r) := next_v r in
  let update := v_cmpgt cmp_s rand in
  let subtract := v_and literal_on update in
  let add := v_and ones (v_and (v_not literal_on) (v_not update)) in
  cl <- nvst cl row (lmem + chunk * 16) (v_adds clause (v_or subtract add));
  Ret (cl, r).
(** Type1bFeedbackNeon (632-662). *)
Definition nimp_t1b_chunk (cmp : Z) (row lmem chunk : nat) (st : list Z * vrng) : R (list Z * vrng) :=
  let '(cl, r) := st in
  let minus_one := nv_set1 (-1) in
  let cmp_s := nv_set1 cmp in
  clause <- nvld cl row (chunk * 16);
  let '(rand, r) := next_v r in
  let update := v_and minus_one (v_cmpgt cmp_s rand) in
  cl <- nvst cl row (chunk * 16) (v_adds clause update);
  clause <- nvld cl row (lmem + chunk * 16);
  let '(rand, r) := next_v r in
  let update := v_and minus_one (v_cmpgt cmp_s rand) in
  cl <- nvst cl row (lmem + chunk * 16) (v_adds clause update);
  Ret (cl, r).
(** Type2FeedbackNeon (671-709). *)
Definition nimp_t2_chunk (lits : list Z) (row lmem chunk : nat) (cl : list Z) : R (list Z) :=
  let zeros := nv_set1 0 in
  let ones := nv_set1 1 in
  literals <- nvld_u lits 0 (chunk * 16);
  clause <- nvld cl row (chunk * 16);
  let lit_mask := v_cmpeq literals zeros in
  let not_active := v_cmpgt zeros clause in
  let inc := v_and (v_and lit_mask not_active) ones in
  cl <- nvst cl row (chunk * 16) (v_adds clause inc);
  clause <- nvld cl row (lmem + chunk * 16);
  let not_active := v_cmpgt zeros clause in
  let inc := v_and (v_and (v_not lit_mask) not_active) ones in
  nvst cl row (lmem + chunk * 16) (v_adds clause inc).

(** ClauseUpdateNeon (511-538): [row] points to the clause, [wp] to the weight. *)
Definition nimp_clause_update (boost : bool) (lits : list Z) (row wp : nat) (target output : Z) (s : vimp) : R vimp :=
  w <- ix (m_weights s) wp;
  let sign := if w >=? 0 then 1 else -1 in
  if target * sign >? 0 then
    if output =? 1 then
      ws <- set_ix wp (wrap16 (w + sign)) (m_weights s);
      row <- aligned32 row;
      c <- fold_ix (m_lmem s / 16) 0 (nimp_t1a_chunk boost (m_cmp s) lits row (m_lmem s)) (m_clauses s, m_vrng s);
      Ret (m_store s (fst c) ws (snd c))
    else
      row <- aligned32 row;
      c <- fold_ix (m_lmem s / 16) 0 (nimp_t1b_chunk (m_cmp s) row (m_lmem s)) (m_clauses s, m_vrng s);
      Ret (m_store s (fst c) (m_weights s) (snd c))
  else if (target * sign <? 0) && (output =? 1) then
    ws <- set_ix wp (wrap16 (w - sign)) (m_weights s);
    row <- aligned32 row;
    c <- fold_ix (m_lmem s / 16) 0 (nimp_t2_chunk lits row (m_lmem s)) (m_clauses s);
    Ret (m_store s c ws (m_vrng s))
  else Ret s.

(** TrainUpdateNeon (476-503), one clause. *)
Definition nimp_update_clause (budget_on boost : bool) (lits : list Z) (pc : nat) (pp : Q) (nc : nat) (np : Q) (clause_k : nat) (s : vimp) : R vimp :=
  two <- int_ (m_lmem s * 2); row <- int_ (clause_k * two); wrow <- int_ (clause_k * m_ncls s);
  outs <- (if budget_on then
             n <- ix (m_counts s) clause_k; if n >? m_budget s then set_ix clause_k 0 (m_outputs s) else Ret (m_outputs s)
           else Ret (m_outputs s));
  let s := m_set_outputs s outs (m_counts s) in
  let '(d, r) := draw_lt (m_fast s) pp in
  s <- (if d then o <- ix (m_outputs s) clause_k; nimp_clause_update boost lits row (wrow + pc) 1 o (m_set_fast s r) else Ret (m_set_fast s r));
  let '(d, r) := draw_lt (m_fast s) np in
  if d then o <- ix (m_outputs s) clause_k; nimp_clause_update boost lits row (wrow + nc) (-1) o (m_set_fast s r) else Ret (m_set_fast s r).
Definition nimp_update (budget_on boost : bool) (lits : list Z) (pc : nat) (pp : Q) (nc : nat) (np : Q) (s : vimp) : R vimp :=
  fold_ix (m_ncl s) 0 (nimp_update_clause budget_on boost lits pc pp nc np) s.

(** What the executor calls (clause_block.hpp:65-77, 187-212). *)
Definition nimp_train (budget_on : bool) (lits : list Z) (s : vimp) : R vimp := s <- nimp_set budget_on lits s; nimp_votes s.
Definition nimp_test (lits : list Z) (s : vimp) : R vimp := s <- nimp_eval lits s; nimp_votes s.
