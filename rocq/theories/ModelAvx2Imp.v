(** The AVX2 dense clause block access by access: src/func_avx2.hpp on the arrays
    of src/aligned_tsetlin_state.hpp, with the example buffer of
    src/input_block.hpp:48-91.

    Arrays are lists of the size that was allocated.  [Wild] (ModelSparseImp.v) is
    undefined behaviour: an access outside its array, a vector access whose address
    is not a multiple of 32, an [int] expression above 2147483647.  The arrays
    themselves start at multiples of 32 (aligned_alloc(32, ...)).  Allocation
    succeeds; what is in new memory is arbitrary. *)
From Coq Require Import ZArith List Bool QArith Lia.
From Verif Require Import Base ModelDense ModelLayout ModelAvx2 ModelSparse ModelSparseImp.
Import ListNotations.
Open Scope Z_scope.

(** The value of an [int] expression that is not negative. *)
Definition int_ (n : nat) : R nat := if Z.of_nat n <=? 2147483647 then Ret n else Wild.

(** _mm256_load_si256(&p[off]), [p] pointing to element [ptr] of the array, and
    the same from uint8 memory. *)
Definition vld (mem : list Z) (ptr off : nat) : R vec :=
  o <- int_ off;
  if ((ptr + o) mod 32 =? 0)%nat && (ptr + o + 32 <=? length mem)%nat then Ret (v_load mem (ptr + o)) else Wild.
Definition vld_u (mem : list Z) (ptr off : nat) : R vec :=
  o <- int_ off;
  if ((ptr + o) mod 32 =? 0)%nat && (ptr + o + 32 <=? length mem)%nat then Ret (v_load_u mem (ptr + o)) else Wild.
(** _mm256_store_si256. *)
Definition vst (mem : list Z) (ptr off : nat) (v : vec) : R (list Z) :=
  o <- int_ off;
  if ((ptr + o) mod 32 =? 0)%nat && (ptr + o + 32 <=? length mem)%nat then Ret (v_store mem (ptr + o) v) else Wild.

(** memcpy(&dst[doff], &src[soff], n elements) inside both arrays. *)
Definition cpy (dst : list Z) (doff : nat) (src : list Z) (soff n : nat) : R (list Z) :=
  if (doff + n <=? length dst)%nat && (soff + n <=? length src)%nat then Ret (memcpy dst doff src soff n) else Wild.

(** New memory of [n] elements. *)
Definition fresh (n : nat) (junk : nat -> Z) : list Z := map junk (seq 0 n).

(** ** State (aligned_tsetlin_state.hpp:22-56) *)

Record vimp := mkV {
  m_nlit : nat;
  m_lmem : nat;               (* num_literals_mem *)
  m_ncl : nat;
  m_ncls : nat;
  m_wmem : nat;               (* num_class_weights_mem *)
  m_mask : list Z;            (* reminder_mask *)
  m_clauses : list Z;
  m_weights : list Z;
  m_outputs : list Z;
  m_counts : list Z;          (* literal_counts; the null pointer is [] *)
  m_votes : list Z;
  m_budget : Z;
  m_cmp : Z;                  (* gtcmp_for_s *)
  m_vrng : vrng;
  m_fast : rng
}.
Definition m_set_outputs (s : vimp) (o c : list Z) : vimp :=
  mkV (m_nlit s) (m_lmem s) (m_ncl s) (m_ncls s) (m_wmem s) (m_mask s) (m_clauses s) (m_weights s) o c (m_votes s) (m_budget s) (m_cmp s) (m_vrng s) (m_fast s).
Definition m_set_votes (s : vimp) (v : list Z) : vimp :=
  mkV (m_nlit s) (m_lmem s) (m_ncl s) (m_ncls s) (m_wmem s) (m_mask s) (m_clauses s) (m_weights s) (m_outputs s) (m_counts s) v (m_budget s) (m_cmp s) (m_vrng s) (m_fast s).
Definition m_set_fast (s : vimp) (r : rng) : vimp :=
  mkV (m_nlit s) (m_lmem s) (m_ncl s) (m_ncls s) (m_wmem s) (m_mask s) (m_clauses s) (m_weights s) (m_outputs s) (m_counts s) (m_votes s) (m_budget s) (m_cmp s) (m_vrng s) r.
Definition m_store (s : vimp) (cl ws : list Z) (r : vrng) : vimp :=
  mkV (m_nlit s) (m_lmem s) (m_ncl s) (m_ncls s) (m_wmem s) (m_mask s) cl ws (m_outputs s) (m_counts s) (m_votes s) (m_budget s) (m_cmp s) r (m_fast s).

(** ** Initialisation (InitializeAVX2, 20-140) *)

(** safe_aligned_alloc(32, mem) (gt_common.hpp:14-25): elements allocated. *)
Definition safe_mem (mem : nat) : R nat :=
  if (mem <? 32)%nat then Ret 32%nat
  else if (0 <? mem mod 32)%nat then int_ (mem + (32 - mem mod 32)) else Ret mem.

(** reminder_mask and num_literals_mem (32-48). *)
Definition imp_mask (jm : nat -> Z) (nlit : nat) : R (nat * list Z) :=
  mask <- fold_ix 32 0 (fun i m => set_ix i (-1) m) (fresh 32 jm);
  if (nlit mod 32 =? 0)%nat then Ret (nlit, mask)
  else lmem <- int_ ((nlit / 32 + 1) * 32);
       mask <- fold_ix (32 - nlit mod 32) (nlit mod 32) (fun i m => set_ix i 0 m) mask;
       Ret (lmem, mask).

(** init_clauses (97-124), one clause. *)
Definition imp_init_clause (nlit lmem clause_k : nat) (s : list Z * rng) : R (list Z * rng) :=
  two <- int_ (lmem * 2); row <- int_ (clause_k * two);
  s <- fold_ix nlit 0 (fun literal_k s =>
         let '(u, r) := next_u (snd s) in
         cl <- set_ix (row + literal_k) (if Qlt_bool (1#2) u then 0 else -1) (fst s);
         let '(v, r) := next_u r in
         neg <- int_ (literal_k + lmem);
         cl <- set_ix (row + neg) (if Qlt_bool (1#2) v then 0 else -1) cl;
         Ret (cl, r)) s;
  cl <- fold_ix (lmem - nlit) nlit (fun filler cl =>
          cl <- set_ix (row + filler) (-109) cl;
          neg <- int_ (filler + lmem);
          set_ix (row + neg) (-111) cl) (fst s);
  Ret (cl, snd s).
(** init_clause_weights (126-139). *)
Definition imp_init_weights (ncl ncls wmem : nat) (ws : list Z) (r : rng) : R (list Z * rng) :=
  fold_ix ncl 0 (fun clause_k s =>
    fold_ix ncls 0 (fun class_i s =>
      let '(u, r) := next_u (snd s) in
      o <- int_ (clause_k * wmem + class_i);
      ws <- set_ix o (if Qlt_bool (1#2) u then 1 else -1) (fst s);
      Ret (ws, r)) s) (ws, r).

(** operator() (23-91).  [pad]: pad_class_weights; outputs_per_vector = 128
    (main.cpp:161).  The junk functions are the contents of new memory; outputs,
    weights and votes are cleared by memset. *)
Definition imp_initialize (budget_on pad : bool) (vec_of : Z -> vrng) (fast_of : Z -> rng) (jm jc jk : nat -> Z)
  (nlit ncl ncls : nat) (budget : Z) (sv : Q) (seed : Z) : R (option vimp) :=
  if seed =? 0 then Ret None
  else
    lm <- imp_mask jm nlit;
    let lmem := fst lm in
    half <- int_ (ncl * lmem); clause_mem <- int_ (half * 2);
    bytes <- safe_mem clause_mem;
    nout <- int_ ((ncl / 128 + 1) * 128);
    wmem <- (if pad then int_ ((ncls / 128 + 1) * 128) else Ret ncls);
    wtot <- int_ (ncl * wmem);
    c <- fold_ix ncl 0 (imp_init_clause nlit lmem) (fresh bytes jc, fast_of seed);
    w <- imp_init_weights ncl ncls wmem (repeat 0 wtot) (snd c);
    Ret (Some (mkV nlit lmem ncl ncls wmem (snd lm) (fst c) (fst w) (repeat 0 nout)
                   (if budget_on then fresh ncl jk else []) (repeat 0 wmem) budget (gtcmp_for_s sv) (vec_of seed) (snd w))).

(** ** Clause outputs *)

(** n_chunks = num_literals_mem / 32 - 1; without literals it is -1 and the
    remainder is loaded from before the arrays. *)
Definition last_chunk (lmem : nat) : R nat := if (lmem / 32 =? 0)%nat then Wild else Ret (lmem / 32 - 1)%nat.

(** SetClauseOutputAVX2: the chunk loop (191-223); the loop is left when a literal
    is falsified. *)
Definition imp_set_chunk (lits cl : list Z) (row lmem chunk : nat) (count : Z) : R (Z * bool) :=
  let zeros := v_set1 0 in
  literals <- vld_u lits 0 (chunk * 32);
  clauses <- vld cl row (chunk * 32);
  let not_active := v_cmpgt zeros clauses in
  let count := count + popcount (v_movemask (v_not not_active)) in
  let is_false := v_cmpeq (v_or not_active literals) zeros in
  if v_any is_false then Ret (count, true)
  else
    let neg_literals := v_cmpeq zeros literals in
    clauses <- vld cl row (lmem + chunk * 32);
    let not_active := v_cmpgt zeros clauses in
    let count := count + popcount (v_movemask (v_not not_active)) in
    let is_false := v_cmpeq (v_or not_active neg_literals) zeros in
    Ret (count, v_any is_false).
Fixpoint imp_set_chunks (lits cl : list Z) (row lmem chunk k : nat) (count : Z) : R (Z * bool) :=
  match k with
  | O => Ret (count, false)
  | S k' => c <- imp_set_chunk lits cl row lmem chunk count;
            if snd c then Ret c else imp_set_chunks lits cl row lmem (S chunk) k' (fst c)
  end.
(** The remainder (227-264). *)
Definition imp_set_reminder (lits cl : list Z) (row lmem : nat) (mask : vec) (chunk : nat) (count : Z) : R (Z * option Z) :=
  let zeros := v_set1 0 in
  literals <- vld_u lits 0 (chunk * 32);
  clauses <- vld cl row (chunk * 32);
  let not_active := v_cmpgt zeros clauses in
  let active_masked := v_and (v_not not_active) mask in
  let count := count + popcount (v_movemask active_masked) in
  let is_false := v_cmpeq (v_or (v_not active_masked) literals) zeros in
  if v_any is_false then Ret (0, None)
  else
    let neg_literals := v_cmpeq zeros literals in
    clauses <- vld cl row (lmem + chunk * 32);
    let not_active := v_cmpgt zeros clauses in
    let active_masked := v_and (v_not not_active) mask in
    let count := count + popcount (v_movemask active_masked) in
    let is_false := v_cmpeq (v_or (v_not active_masked) neg_literals) zeros in
    Ret (if v_any is_false then 0 else 1, Some count).
(** One clause (184-268). *)
Definition imp_vset_clause (budget_on : bool) (lits : list Z) (mask : vec) (n_chunks clause_k : nat) (s : vimp) : R vimp :=
  outs <- set_ix clause_k 1 (m_outputs s);
  two <- int_ (m_lmem s * 2); row <- int_ (clause_k * two);
  c <- imp_set_chunks lits (m_clauses s) row (m_lmem s) 0 n_chunks 0;
  oc <- (if snd c then Ret (0, Some (fst c)) else imp_set_reminder lits (m_clauses s) row (m_lmem s) mask n_chunks (fst c));
  outs <- (if fst oc =? 0 then set_ix clause_k 0 outs else Ret outs);
  counts <- match snd oc with
            | Some n => if budget_on then set_ix clause_k n (m_counts s) else Ret (m_counts s)
            | None => Ret (m_counts s)
            end;
  Ret (m_set_outputs s outs counts).
Definition imp_vset (budget_on : bool) (lits : list Z) (s : vimp) : R vimp :=
  mask <- vld (m_mask s) 0 0;
  if (m_ncl s =? 0)%nat then Ret s
  else n_chunks <- last_chunk (m_lmem s); fold_ix (m_ncl s) 0 (imp_vset_clause budget_on lits mask n_chunks) s.

(** EvalClauseOutputAVX2 (275-366). *)
Definition imp_eval_chunk (lits cl : list Z) (row lmem chunk : nat) (act : bool) : R (bool * bool) :=
  let zeros := v_set1 0 in
  literals <- vld_u lits 0 (chunk * 32);
  clauses <- vld cl row (chunk * 32);
  let not_active := v_cmpgt zeros clauses in
  let act := act || existsb (fun x => x) (v_movemask (v_not not_active)) in
  let is_false := v_cmpeq (v_or not_active literals) zeros in
  if v_any is_false then Ret (act, true)
  else
    let neg_literals := v_cmpeq zeros literals in
    clauses <- vld cl row (lmem + chunk * 32);
    let not_active := v_cmpgt zeros clauses in
    let act := act || existsb (fun x => x) (v_movemask (v_not not_active)) in
    let is_false := v_cmpeq (v_or not_active neg_literals) zeros in
    Ret (act, v_any is_false).
Fixpoint imp_eval_chunks (lits cl : list Z) (row lmem chunk k : nat) (act : bool) : R (bool * bool) :=
  match k with
  | O => Ret (act, false)
  | S k' => c <- imp_eval_chunk lits cl row lmem chunk act;
            if snd c then Ret c else imp_eval_chunks lits cl row lmem (S chunk) k' (fst c)
  end.
Definition imp_eval_reminder (lits cl : list Z) (row lmem : nat) (mask : vec) (chunk : nat) (act : bool) : R Z :=
  let zeros := v_set1 0 in
  literals <- vld_u lits 0 (chunk * 32);
  clauses <- vld cl row (chunk * 32);
  let not_active := v_cmpgt zeros clauses in
  let act := act || existsb (fun x => x) (v_movemask (v_and (v_not not_active) mask)) in
  let is_false := v_and (v_cmpeq (v_or not_active literals) zeros) mask in
  if v_any is_false then Ret 0
  else
    let neg_literals := v_cmpeq zeros literals in
    clauses <- vld cl row (lmem + chunk * 32);
    let not_active := v_cmpgt zeros clauses in
    let act := act || existsb (fun x => x) (v_movemask (v_and (v_not not_active) mask)) in
    let is_false := v_and (v_cmpeq (v_or not_active neg_literals) zeros) mask in
    if v_any is_false then Ret 0 else Ret (if act then 1 else 0).
Definition imp_veval_clause (lits : list Z) (mask : vec) (n_chunks clause_k : nat) (s : vimp) : R vimp :=
  outs <- set_ix clause_k 1 (m_outputs s);
  two <- int_ (m_lmem s * 2); row <- int_ (clause_k * two);
  c <- imp_eval_chunks lits (m_clauses s) row (m_lmem s) 0 n_chunks false;
  o <- (if snd c then Ret 0 else imp_eval_reminder lits (m_clauses s) row (m_lmem s) mask n_chunks (fst c));
  outs <- (if o =? 0 then set_ix clause_k 0 outs else Ret outs);
  Ret (m_set_outputs s outs (m_counts s)).
Definition imp_veval (lits : list Z) (s : vimp) : R vimp :=
  mask <- vld (m_mask s) 0 0;
  if (m_ncl s =? 0)%nat then Ret s
  else n_chunks <- last_chunk (m_lmem s); fold_ix (m_ncl s) 0 (imp_veval_clause lits mask n_chunks) s.

(** CountVotesAVX2 (369-391). *)
Definition imp_vvotes (s : vimp) : R vimp :=
  if negb (m_ncls s <=? length (m_votes s))%nat then Wild
  else
    votes <- fold_ix (m_ncl s) 0 (fun clause_k votes =>
               o <- ix (m_outputs s) clause_k;
               if o =? 1 then
                 fold_ix (m_ncls s) 0 (fun class_k votes =>
                   i <- int_ (clause_k * m_wmem s + class_k);
                   to_add <- ix (m_weights s) i;
                   v <- ix votes class_k;
                   set_ix class_k (wrap16 (v + to_add)) votes) votes
               else Ret votes) (repeat 0 (m_ncls s) ++ skipn (m_ncls s) (m_votes s));
    Ret (m_set_votes s votes).

(** ** Feedback: the clause array and the generator *)

(** Type1aFeedbackAVX2, one chunk (480-529). *)
Definition imp_t1a_chunk (boost : bool) (cmp : Z) (lits : list Z) (row lmem chunk : nat) (st : list Z * vrng) : R (list Z * vrng) :=
  let '(cl, r) := st in
  let minus_one := v_set1 (-1) in
  let cmp_s := v_set1 cmp in
  let ones := v_set1 1 in
  literals <- vld_u lits 0 (chunk * 32);
  clause <- vld cl row (chunk * 32);
  let literal_on := v_cmpeq literals ones in
  let '(rand, r) := next_v r in
  let update := v_cmpgt cmp_s rand in
  let subtract := v_and minus_one (v_and (v_not literal_on) update) in
  let add := if boost then v_and literal_on ones else v_and ones (v_and literal_on (v_not update)) in
  cl <- vst cl row (chunk * 32) (v_adds clause (v_or subtract add));
  clause <- vld cl row (lmem + chunk * 32);
  let '(rand, r) := next_v r in
  let update := v_cmpgt cmp_s rand in
  let subtract := v_and minus_one (v_and literal_on update) in
  let add := if boost then v_and (v_not literal_on) ones
             else v_and ones (v_and (v_not literal_on) (v_not update)) in
  cl <- vst cl row (lmem + chunk * 32) (v_adds clause (v_or subtract add));
  Ret (cl, r).
(** Type1bFeedbackAVX2 (534-573). *)
Definition imp_t1b_chunk (cmp : Z) (row lmem chunk : nat) (st : list Z * vrng) : R (list Z * vrng) :=
  let '(cl, r) := st in
  let minus_one := v_set1 (-1) in
  let cmp_s := v_set1 cmp in
  clause <- vld cl row (chunk * 32);
  let '(rand, r) := next_v r in
  let update := v_and minus_one (v_cmpgt cmp_s rand) in
  cl <- vst cl row (chunk * 32) (v_adds clause update);
  clause <- vld cl row (lmem + chunk * 32);
  let '(rand, r) := next_v r in
  let update := v_and minus_one (v_cmpgt cmp_s rand) in
  cl <- vst cl row (lmem + chunk * 32) (v_adds clause update);
  Ret (cl, r).
(** Type2FeedbackAVX2 (577-614). *)
Definition imp_t2_chunk (lits : list Z) (row lmem chunk : nat) (cl : list Z) : R (list Z) :=
  let zeros := v_set1 0 in
  let ones := v_set1 1 in
  literals <- vld_u lits 0 (chunk * 32);
  clause <- vld cl row (chunk * 32);
  let lit_mask := v_cmpeq literals zeros in
  let not_active := v_cmpgt zeros clause in
  let inc := v_and (v_and lit_mask not_active) ones in
  cl <- vst cl row (chunk * 32) (v_adds clause inc);
  clause <- vld cl row (lmem + chunk * 32);
  let not_active := v_cmpgt zeros clause in
  let inc := v_and (v_and (v_not lit_mask) not_active) ones in
  vst cl row (lmem + chunk * 32) (v_adds clause inc).

(** ClauseUpdateAVX2 (429-461): [row] points to the clause, [wp] to the weight. *)
Definition imp_vclause_update (boost : bool) (lits : list Z) (row wp : nat) (target output : Z) (s : vimp) : R vimp :=
  w <- ix (m_weights s) wp;
  let sign := if w >=? 0 then 1 else -1 in
  if target * sign >? 0 then
    if output =? 1 then
      ws <- set_ix wp (wrap16 (w + sign)) (m_weights s);
      c <- fold_ix (m_lmem s / 32) 0 (imp_t1a_chunk boost (m_cmp s) lits row (m_lmem s)) (m_clauses s, m_vrng s);
      Ret (m_store s (fst c) ws (snd c))
    else
      c <- fold_ix (m_lmem s / 32) 0 (imp_t1b_chunk (m_cmp s) row (m_lmem s)) (m_clauses s, m_vrng s);
      Ret (m_store s (fst c) (m_weights s) (snd c))
  else if (target * sign <? 0) && (output =? 1) then
    ws <- set_ix wp (wrap16 (w - sign)) (m_weights s);
    c <- fold_ix (m_lmem s / 32) 0 (imp_t2_chunk lits row (m_lmem s)) (m_clauses s);
    Ret (m_store s c ws (m_vrng s))
  else Ret s.

(** TrainUpdateAVX2 (394-426), one clause. *)
Definition imp_vupdate_clause (budget_on boost : bool) (lits : list Z) (pc : nat) (pp : Q) (nc : nat) (np : Q) (clause_k : nat) (s : vimp) : R vimp :=
  two <- int_ (m_lmem s * 2); row <- int_ (clause_k * two); wrow <- int_ (clause_k * m_wmem s);
  outs <- (if budget_on then
             n <- ix (m_counts s) clause_k; if n >? m_budget s then set_ix clause_k 0 (m_outputs s) else Ret (m_outputs s)
           else Ret (m_outputs s));
  let s := m_set_outputs s outs (m_counts s) in
  let '(d, r) := draw_lt (m_fast s) pp in
  s <- (if d then o <- ix (m_outputs s) clause_k; imp_vclause_update boost lits row (wrow + pc) 1 o (m_set_fast s r) else Ret (m_set_fast s r));
  let '(d, r) := draw_lt (m_fast s) np in
  if d then o <- ix (m_outputs s) clause_k; imp_vclause_update boost lits row (wrow + nc) (-1) o (m_set_fast s r) else Ret (m_set_fast s r).
Definition imp_vupdate (budget_on boost : bool) (lits : list Z) (pc : nat) (pp : Q) (nc : nat) (np : Q) (s : vimp) : R vimp :=
  fold_ix (m_ncl s) 0 (imp_vupdate_clause budget_on boost lits pc pp nc np) s.

(** What the executor calls (clause_block.hpp:65-77, 187-212). *)
Definition imp_vtrain (budget_on : bool) (lits : list Z) (s : vimp) : R vimp := s <- imp_vset budget_on lits s; imp_vvotes s.
Definition imp_vtest (lits : list Z) (s : vimp) : R vimp := s <- imp_veval lits s; imp_vvotes s.

(** ** State transfer (aligned_tsetlin_state.hpp:84-140) *)

Definition imp_get_state (dst : list Z) (off : nat) (s : vimp) : R (list Z) :=
  fold_ix (m_ncl s) 0 (fun i dst =>
    src_o <- int_ (i * m_lmem s * 2); dst_o <- int_ ((i + off) * m_nlit s * 2);
    dst <- cpy dst dst_o (m_clauses s) src_o (m_nlit s);
    cpy dst (dst_o + m_nlit s) (m_clauses s) (src_o + m_lmem s) (m_nlit s)) dst.
Definition imp_set_state (src : list Z) (off : nat) (s : vimp) : R vimp :=
  cl <- fold_ix (m_ncl s) 0 (fun i cl =>
          src_o <- int_ ((i + off) * (m_nlit s * 2)); dst_o <- int_ (i * (m_lmem s * 2));
          cl <- cpy cl dst_o src src_o (m_nlit s);
          cpy cl (dst_o + m_lmem s) src (src_o + m_nlit s) (m_nlit s)) (m_clauses s);
  Ret (m_store s cl (m_weights s) (m_vrng s)).
Definition imp_set_wts (src : list Z) (off : nat) (s : vimp) : R vimp :=
  ws <- fold_ix (m_ncl s) 0 (fun i ws =>
          src_o <- int_ ((i + off) * m_ncls s); dst_o <- int_ (i * m_wmem s);
          cpy ws dst_o src src_o (m_ncls s)) (m_weights s);
  Ret (m_store s (m_clauses s) ws (m_vrng s)).
Definition imp_get_wts (dst : list Z) (off : nat) (s : vimp) : R (list Z) :=
  fold_ix (m_ncl s) 0 (fun i dst =>
    src_o <- int_ (i * m_wmem s); dst_o <- int_ ((i + off) * m_ncls s);
    cpy dst dst_o (m_weights s) src_o (m_ncls s)) dst.

(** ** The example buffer (input_block.hpp:48-66, 83-89) *)

Definition imp_new_buffer (jb : nat -> Z) (nlit : nat) : R (list Z) :=
  mem <- int_ ((nlit / 32 + 1) * 32);
  fold_ix mem 0 (fun i b => set_ix i 0 b) (fresh mem jb).
Definition imp_prepare (data : list Z) (nlit index : nat) (buf : list Z) : R (list Z) :=
  o <- int_ (index * nlit); cpy buf 0 data o nlit.
