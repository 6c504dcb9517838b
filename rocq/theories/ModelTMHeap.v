(** The scalar dense machine on the heap: the same functions as ModelDense.v,
    ModelLayout.v, ModelExecutor.v and ModelFeedback.v, but with the pointers,
    the index arithmetic on int and the separate arrays of the source.  Any access
    outside the arrays makes the program undefined (None). *)
From Coq Require Import ZArith List Bool QArith Lia.
From Verif Require Import Base ModelHeap ModelInference ModelDense ModelFeedback ModelExecutor.
Import ListNotations.
Open Scope Z_scope.

(** AlignedTsetlinState (src/aligned_tsetlin_state.hpp:16-58), the members the scalar
    backend uses. *)
Record hstate := mkHs {
  hs_ncl : Z;            (* num_clauses *)
  hs_ncls : Z;           (* num_classes *)
  hs_wmem : Z;           (* num_class_weights_mem *)
  hs_nlit : Z;           (* num_literals *)
  hs_lmem : Z;           (* num_literals_mem *)
  hs_clauses : ptr; hs_outputs : ptr; hs_votes : ptr; hs_weights : ptr; hs_counts : ptr;
  hs_budget : Z;         (* literal_budget *)
  hs_s_inv : Q; hs_s_min1_inv : Q;
  hs_rng : rng; hs_fast : rng;
  hs_init : bool         (* m_is_init of the ClauseBlock *)
}.

(** The ClauseBlockT constructor (src/clause_block.hpp:107-112): null pointers
    (aligned_tsetlin_state.hpp:33-39).  The generators have unspecified
    contents until seeded. *)
Definition h_construct (nlit ncl ncls budget : Z) (s_inv s_min1_inv : Q) (r f : rng) : hstate :=
  mkHs ncl ncls 0 nlit 0 null null null null null budget s_inv s_min1_inv r f false.

(** init_clauses (src/func_tm.hpp:50-59). *)
Definition h_init_clauses (s : hstate) (r : rng) : M rng :=
  two <- imul (hs_nlit s) 2 ;;
  total <- imul (hs_ncl s) two ;;
  mloop (Z.to_nat total) 0
    (fun k r => let '(u, r) := next_u r in
                store_at (hs_clauses s) k (if Qle_bool u (1#2) then -1 else 0) ;;; ret r) r.

(** init_clause_weights (func_tm.hpp:61-73). *)
Definition h_init_weights (s : hstate) (f : rng) : M rng :=
  total <- imul (hs_ncl s) (hs_ncls s) ;;
  mloop (Z.to_nat total) 0
    (fun k f => let '(u, f) := next_u f in
                store_at (hs_weights s) k (if Qlt_bool (1#2) u then 1 else -1) ;;; ret f) f.

(** InitializeTM (func_tm.hpp:17-46) inside ClauseBlockT::initialize
    (clause_block.hpp:158-163).  [std_of], [fast_of]: the generators seeded. *)
Definition h_initialize (budget_on : bool) (std_of fast_of : Z -> rng) (seed : Z) (s : hstate)
  : M (bool * hstate) :=
  if seed =? 0 then
    ret (false, mkHs (hs_ncl s) (hs_ncls s) (hs_wmem s) (hs_nlit s) (hs_lmem s) (hs_clauses s)
                     (hs_outputs s) (hs_votes s) (hs_weights s) (hs_counts s) (hs_budget s)
                     (hs_s_inv s) (hs_s_min1_inv s) (hs_rng s) (hs_fast s) false)
  else
    n1 <- imul (hs_ncl s) (hs_nlit s) ;;
    clause_mem <- imul n1 2 ;;
    pc <- new_arr clause_mem ;;
    po <- new_arr (hs_ncl s) ;;
    mset po 0 (hs_ncl s) ;;;
    nw <- imul (hs_ncl s) (hs_ncls s) ;;
    pw <- new_arr nw ;;
    pv <- new_arr (hs_ncls s) ;;
    mset pv 0 (hs_ncls s) ;;;
    pl <- (if budget_on then new_arr (hs_ncl s) else ret (hs_counts s)) ;;
    (let s1 := mkHs (hs_ncl s) (hs_ncls s) (hs_ncls s) (hs_nlit s) (hs_nlit s) pc po pv pw pl
                    (hs_budget s) (hs_s_inv s) (hs_s_min1_inv s) (std_of seed) (fast_of seed) true in
     r <- h_init_clauses s1 (hs_rng s1) ;;
     f <- h_init_weights s1 (hs_fast s1) ;;
     ret (true, mkHs (hs_ncl s) (hs_ncls s) (hs_ncls s) (hs_nlit s) (hs_nlit s) pc po pv pw pl
                     (hs_budget s) (hs_s_inv s) (hs_s_min1_inv s) r f true)).

(** CleanupTM (func_tm.hpp:76-97) inside ClauseBlockT::cleanup
    (clause_block.hpp:165-170). *)
Definition h_cleanup (budget_on : bool) (s : hstate) : M hstate :=
  hfree KNew (hs_clauses s) ;;;
  hfree KNew (hs_votes s) ;;;
  hfree KNew (hs_weights s) ;;;
  (if budget_on then hfree KNew (hs_counts s) else ret tt) ;;;
  ret (mkHs (hs_ncl s) (hs_ncls s) (hs_wmem s) (hs_nlit s) (hs_lmem s) null (hs_outputs s) null null
            (if budget_on then null else hs_counts s) (hs_budget s)
            (hs_s_inv s) (hs_s_min1_inv s) (hs_rng s) (hs_fast s) false).

(** The inner loop of SetClauseOutputTM (func_tm.hpp:116-144): two running pointers, two
    counters; true = left by break. *)
Definition h_set_body (budget_on : bool) (outs lits : ptr) (clause_k : Z) (literal_k : Z)
  (a : ptr * ptr * Z * Z) : M (bool * (ptr * ptr * Z * Z)) :=
  let '(pl_pos, pl_neg, pc, nc) := a in
  v <- load pl_pos ;;
  stop <- (if v >=? 0 then
             l <- load_at lits literal_k ;;
             if l =? 0 then store_at outs clause_k 0 ;;; ret true else ret false
           else ret false) ;;
  if stop : bool then ret (true, (pl_pos, pl_neg, pc, nc)) else
  let pc := if (v >=? 0) && budget_on then pc + 1 else pc in
  pl_pos <- padd pl_pos 1 ;;
  v <- load pl_neg ;;
  stop <- (if v >=? 0 then
             l <- load_at lits literal_k ;;
             if l =? 1 then store_at outs clause_k 0 ;;; ret true else ret false
           else ret false) ;;
  if stop : bool then ret (true, (pl_pos, pl_neg, pc, nc)) else
  let nc := if (v >=? 0) && budget_on then nc + 1 else nc in
  pl_neg <- padd pl_neg 1 ;;
  ret (false, (pl_pos, pl_neg, pc, nc)).

(** Pointers to the two halves of a clause (func_tm.hpp:113-114, 167-168). *)
Definition h_halves (s : hstate) (clause_k : Z) : M (ptr * ptr) :=
  two <- imul (hs_nlit s) 2 ;;
  o <- imul clause_k two ;;
  pl_pos <- padd (hs_clauses s) o ;;
  o2 <- iadd o (hs_nlit s) ;;
  pl_neg <- padd (hs_clauses s) o2 ;;
  ret (pl_pos, pl_neg).

(** SetClauseOutputTM (func_tm.hpp:100-151): one clause, all clauses. *)
Definition h_train_clause (budget_on : bool) (lits : ptr) (s : hstate) (clause_k : Z) (_ : unit) : M unit :=
  store_at (hs_outputs s) clause_k 1 ;;;
  pq <- h_halves s clause_k ;;
  a <- mfor (Z.to_nat (hs_nlit s)) 0 (h_set_body budget_on (hs_outputs s) lits clause_k)
            (fst pq, snd pq, 0, 0) ;;
  (if budget_on then let '(_, _, pc, nc) := a in store_at (hs_counts s) clause_k (pc + nc)
   else ret tt).
Definition h_train_set_output (budget_on : bool) (lits : ptr) (s : hstate) : M unit :=
  mloop (Z.to_nat (hs_ncl s)) 0 (h_train_clause budget_on lits s) tt.

(** The inner loop of EvalClauseOutputTM (func_tm.hpp:170-190). *)
Definition h_eval_body (outs lits : ptr) (clause_k : Z) (literal_k : Z) (a : ptr * ptr * bool)
  : M (bool * (ptr * ptr * bool)) :=
  let '(pl_pos, pl_neg, is_empty) := a in
  v <- load pl_pos ;;
  let is_empty := if v >=? 0 then false else is_empty in
  stop <- (if v >=? 0 then
             l <- load_at lits literal_k ;;
             if l =? 0 then store_at outs clause_k 0 ;;; ret true else ret false
           else ret false) ;;
  if stop : bool then ret (true, (pl_pos, pl_neg, is_empty)) else
  pl_pos <- padd pl_pos 1 ;;
  v <- load pl_neg ;;
  let is_empty := if v >=? 0 then false else is_empty in
  stop <- (if v >=? 0 then
             l <- load_at lits literal_k ;;
             if l =? 1 then store_at outs clause_k 0 ;;; ret true else ret false
           else ret false) ;;
  if stop : bool then ret (true, (pl_pos, pl_neg, is_empty)) else
  pl_neg <- padd pl_neg 1 ;;
  ret (false, (pl_pos, pl_neg, is_empty)).

(** EvalClauseOutputTM (func_tm.hpp:154-197). *)
Definition h_eval_clause (lits : ptr) (s : hstate) (clause_k : Z) (_ : unit) : M unit :=
  store_at (hs_outputs s) clause_k 1 ;;;
  pq <- h_halves s clause_k ;;
  a <- mfor (Z.to_nat (hs_nlit s)) 0 (h_eval_body (hs_outputs s) lits clause_k)
            (fst pq, snd pq, true) ;;
  (if snd a then store_at (hs_outputs s) clause_k 0 else ret tt).
Definition h_eval_set_output (lits : ptr) (s : hstate) : M unit :=
  mloop (Z.to_nat (hs_ncl s)) 0 (h_eval_clause lits s) tt.

(** CountVotesTM (func_tm.hpp:206-225). *)
Definition h_vote_class (s : hstate) (clause_k class_k : Z) (_ : unit) : M unit :=
  b <- imul clause_k (hs_ncls s) ;;
  i <- iadd b class_k ;;
  w <- load_at (hs_weights s) i ;;
  v <- load_at (hs_votes s) class_k ;;
  store_at (hs_votes s) class_k (wrap16 (v + w)).
Definition h_vote_clause (s : hstate) (clause_k : Z) (_ : unit) : M unit :=
  o <- load_at (hs_outputs s) clause_k ;;
  if o =? 1 then mloop (Z.to_nat (hs_ncls s)) 0 (h_vote_class s clause_k) tt else ret tt.
Definition h_count_votes (s : hstate) : M unit :=
  mset (hs_votes s) 0 (hs_ncls s) ;;;
  mloop (Z.to_nat (hs_ncl s)) 0 (h_vote_clause s) tt.

(** "if(p[k] < 127) p[k] += 1", "if(p[k] > -127) p[k] -= 1" on int8
    (func_tm.hpp:317-334) and "if(p[k] < 0) p[k] += 1" (func_tm.hpp:403-411). *)
Definition h_inc (p : ptr) (k : Z) : M unit :=
  v <- load_at p k ;; if v <? 127 then store_at p k (wrap8 (v + 1)) else ret tt.
Definition h_dec (p : ptr) (k : Z) : M unit :=
  v <- load_at p k ;; if v >? -127 then store_at p k (wrap8 (v - 1)) else ret tt.
Definition h_inc0 (p : ptr) (k : Z) : M unit :=
  v <- load_at p k ;; if v <? 0 then store_at p k (wrap8 (v + 1)) else ret tt.

(** Loop body of Type1aFeedbackTM (func_tm.hpp:307-353). *)
Definition h_t1a_body (boost : bool) (s : hstate) (row neg lits : ptr) (k : Z) (r : rng) : M rng :=
  l <- load_at lits k ;;
  if l =? 1 then
    r <- (if boost then h_inc row k ;;; ret r
          else let '(d, r) := draw_le r (hs_s_min1_inv s) in
               (if d : bool then h_inc row k else ret tt) ;;; ret r) ;;
    (let '(d, r) := draw_le r (hs_s_inv s) in
     (if d : bool then h_dec neg k else ret tt) ;;; ret r)
  else
    (let '(d, r) := draw_le r (hs_s_inv s) in
     (if d : bool then h_dec row k else ret tt) ;;;
     let '(d, r) := draw_le r (hs_s_min1_inv s) in
     (if d : bool then h_inc neg k else ret tt) ;;; ret r).

(** Type1aFeedbackTM (func_tm.hpp:293-355). *)
Definition h_type1a (boost : bool) (s : hstate) (row lits : ptr) (r : rng) : M rng :=
  neg <- padd row (hs_nlit s) ;;
  mloop (Z.to_nat (hs_nlit s)) 0 (h_t1a_body boost s row neg lits) r.

(** Type1bFeedbackTM (func_tm.hpp:357-389). *)
Definition h_t1b_body (s : hstate) (row neg : ptr) (k : Z) (r : rng) : M rng :=
  let '(d, r) := draw_le r (hs_s_inv s) in
  (if d : bool then h_dec row k else ret tt) ;;;
  let '(d, r) := draw_le r (hs_s_inv s) in
  (if d : bool then h_dec neg k else ret tt) ;;; ret r.
Definition h_type1b (s : hstate) (row : ptr) (r : rng) : M rng :=
  neg <- padd row (hs_nlit s) ;;
  mloop (Z.to_nat (hs_nlit s)) 0 (h_t1b_body s row neg) r.

(** Type2FeedbackTM (func_tm.hpp:392-415). *)
Definition h_t2_body (row neg lits : ptr) (k : Z) (_ : unit) : M unit :=
  l <- load_at lits k ;;
  if l =? 0 then h_inc0 row k else h_inc0 neg k.
Definition h_type2 (s : hstate) (row lits : ptr) : M unit :=
  neg <- padd row (hs_nlit s) ;;
  mloop (Z.to_nat (hs_nlit s)) 0 (h_t2_body row neg lits) tt.

(** ClauseUpdateTM (func_tm.hpp:260-291). *)
Definition h_clause_update (boost : bool) (s : hstate) (row wp : ptr) (target : Z) (lits : ptr)
  (output : Z) (r : rng) : M rng :=
  w <- load wp ;;
  let sign := if w >=? 0 then 1 else -1 in
  if target * sign >? 0 then
    if output =? 1 then store wp (wrap16 (w + sign)) ;;; h_type1a boost s row lits r
    else h_type1b s row r
  else if (target * sign <? 0) && (output =? 1) then
    store wp (wrap16 (w - sign)) ;;; h_type2 s row lits ;;; ret r
  else ret r.

(** TrainUpdateTM (func_tm.hpp:227-258); the two generators are members of the
    state. *)
Definition h_update_body (budget_on boost : bool) (s : hstate) (lits : ptr) (pc : Z) (pp : Q) (nc : Z)
  (np : Q) (n_features : Z) (clause_k : Z) (a : rng * rng) : M (rng * rng) :=
  let '(r, f) := a in
  o <- imul clause_k n_features ;;
  row <- padd (hs_clauses s) o ;;
  ow <- imul clause_k (hs_ncls s) ;;
  wrow <- padd (hs_weights s) ow ;;
  (if budget_on then
     c <- load_at (hs_counts s) clause_k ;;
     if c >? hs_budget s then store_at (hs_outputs s) clause_k 0 else ret tt
   else ret tt) ;;;
  let '(d, f) := draw_lt f pp in
  r <- (if d : bool then
          wp <- padd wrow pc ;;
          out <- load_at (hs_outputs s) clause_k ;;
          h_clause_update boost s row wp 1 lits out r
        else ret r) ;;
  let '(d, f) := draw_lt f np in
  r <- (if d : bool then
          wp <- padd wrow nc ;;
          out <- load_at (hs_outputs s) clause_k ;;
          h_clause_update boost s row wp (-1) lits out r
        else ret r) ;;
  ret (r, f).

Definition h_train_update (budget_on boost : bool) (lits : ptr) (pc : Z) (pp : Q) (nc : Z) (np : Q)
  (s : hstate) : M hstate :=
  n_features <- imul (hs_nlit s) 2 ;;
  a <- mloop (Z.to_nat (hs_ncl s)) 0 (h_update_body budget_on boost s lits pc pp nc np n_features)
             (hs_rng s, hs_fast s) ;;
  ret (mkHs (hs_ncl s) (hs_ncls s) (hs_wmem s) (hs_nlit s) (hs_lmem s) (hs_clauses s) (hs_outputs s)
            (hs_votes s) (hs_weights s) (hs_counts s) (hs_budget s) (hs_s_inv s) (hs_s_min1_inv s)
            (fst a) (snd a) (hs_init s)).

(** get_clause_state, set_clause_state, get_clause_weights, set_clause_weights
    (aligned_tsetlin_state.hpp:84-140); [arr] is numpy's buffer
    (clause_block.hpp:125-156). *)
Definition h_get_clause_state (s : hstate) (arr : ptr) (off : Z) : M unit :=
  mloop (Z.to_nat (hs_ncl s)) 0 (fun i _ =>
    a <- imul i (hs_lmem s) ;; src_o <- imul a 2 ;;
    io <- iadd i off ;; b <- imul io (hs_nlit s) ;; dst_o <- imul b 2 ;;
    mcopy arr dst_o (hs_clauses s) src_o (hs_nlit s) ;;;
    d2 <- iadd dst_o (hs_nlit s) ;; s2 <- iadd src_o (hs_lmem s) ;;
    mcopy arr d2 (hs_clauses s) s2 (hs_nlit s)) tt.

Definition h_set_clause_state (s : hstate) (arr : ptr) (off : Z) : M unit :=
  mloop (Z.to_nat (hs_ncl s)) 0 (fun i _ =>
    io <- iadd i off ;; w <- imul (hs_nlit s) 2 ;; src_o <- imul io w ;;
    m <- imul (hs_lmem s) 2 ;; dst_o <- imul i m ;;
    mcopy (hs_clauses s) dst_o arr src_o (hs_nlit s) ;;;
    d2 <- iadd dst_o (hs_lmem s) ;; s2 <- iadd src_o (hs_nlit s) ;;
    mcopy (hs_clauses s) d2 arr s2 (hs_nlit s)) tt.

Definition h_set_clause_weights (s : hstate) (arr : ptr) (off : Z) : M unit :=
  mloop (Z.to_nat (hs_ncl s)) 0 (fun i _ =>
    io <- iadd i off ;; src_o <- imul io (hs_ncls s) ;;
    dst_o <- imul i (hs_wmem s) ;;
    mcopy (hs_weights s) dst_o arr src_o (hs_ncls s)) tt.

Definition h_get_clause_weights (s : hstate) (arr : ptr) (off : Z) : M unit :=
  mloop (Z.to_nat (hs_ncl s)) 0 (fun i _ =>
    src_o <- imul i (hs_wmem s) ;;
    io <- iadd i off ;; dst_o <- imul io (hs_ncls s) ;;
    mcopy arr dst_o (hs_weights s) src_o (hs_ncls s)) tt.

(** ** Input block (src/input_block.hpp:41-146, DenseInputBlock<uint8_t>) *)
Record hinput := mkIn {
  in_nlit : Z; in_nex : Z; in_nlab : Z;
  in_data : ptr; in_labels : ptr; in_cur : ptr; in_lab : ptr
}.

(** Constructor (46-65): one aligned buffer, zeroed; sizeof(uint8_t) = 1. *)
Definition h_new_input (nlit : Z) : M hinput :=
  let mem := (nlit / 32 + 1) * 32 in
  p <- (if 0 <=? mem then halloc KMalloc (Z.to_nat mem) else undef) ;;
  mloop (Z.to_nat mem) 0 (fun i _ => store_at p i 0) tt ;;;
  ret (mkIn nlit 0 0 null null p null).

(** set_data (100-133) for arrays that pass its checks: [nlab] labels per
    example (1 for a one-dimensional array). *)
Definition h_set_data (data labels : ptr) (nex nlab : Z) (b : hinput) : hinput :=
  mkIn (in_nlit b) nex nlab data labels (in_cur b) (in_lab b).

(** prepare_example (76-82). *)
Definition h_prepare (index : Z) (b : hinput) : M hinput :=
  lab <- (match in_labels b with
          | None => ret (in_lab b)
          | Some _ => i <- imul index (in_nlab b) ;; padd (in_labels b) i
          end) ;;
  o <- imul index (in_nlit b) ;;
  mcopy (in_cur b) 0 (in_data b) o (in_nlit b) ;;;
  ret (mkIn (in_nlit b) (in_nex b) (in_nlab b) (in_data b) (in_labels b) (in_cur b) lab).

(** ** Feedback block: m_votes and m_update_probability are std::vectors held in
    ModelFeedback.fblock; their operator[] is not checked. *)

(** register_votes (src/feedback_block.hpp:181-191). *)
Definition h_register (votes : ptr) (f : fblock) : M fblock :=
  v <- mloop (fb_ncls f) 0
        (fun i vs => x <- load_at votes i ;;
                     match nth_error vs (Z.to_nat i) with
                     | Some y => ret (set_nth (Z.to_nat i) (wrap16 (y + x)) vs)
                     | None => undef
                     end) (fb_votes f) ;;
  ret (mkFb (fb_ncls f) (fb_thr f) v (fb_probs f) (fb_pos f) (fb_neg f) (fb_pp f) (fb_np f)
            (fb_correct f) (fb_total f) (fb_rng f)).

(** process (72-123): reads labels[0]; m_update_probability[label] = 0 and
    m_votes[label] are outside the vectors unless the label is a class. *)
Definition h_process (labels : ptr) (f : fblock) : M fblock :=
  l <- load_at labels 0 ;;
  if l <? Z.of_nat (fb_ncls f) then ret (fb_process (Z.to_nat l) f) else undef.

(** ** Single-thread executor (src/executor.hpp:99-195) *)
Record hflags := mkFl { fl_budget : bool; fl_boost : bool }.

(** train_example / eval_example (src/clause_block.hpp:65-77, 187-193). *)
Definition h_train_example (fl : hflags) (inp : hinput) (s : hstate) (f : fblock) : M fblock :=
  h_train_set_output (fl_budget fl) (in_cur inp) s ;;;
  h_count_votes s ;;;
  h_register (hs_votes s) f.
Definition h_eval_example (inp : hinput) (s : hstate) (f : fblock) : M fblock :=
  h_eval_set_output (in_cur inp) s ;;;
  h_count_votes s ;;;
  h_register (hs_votes s) f.

Fixpoint h_run_examples (ex : hstate -> fblock -> M fblock) (bs : list (bool * hstate)) (f : fblock)
  : M fblock :=
  match bs with
  | [] => ret f
  | (_, s) :: bs' => f <- ex s f ;; h_run_examples ex bs' f
  end.

Fixpoint h_run_updates (fl : hflags) (inp : hinput) (f : fblock) (bs : list (bool * hstate))
  : M (list (bool * hstate)) :=
  match bs with
  | [] => ret []
  | (t, s) :: bs' =>
      s <- (if t : bool then h_train_update (fl_budget fl) (fl_boost fl) (in_cur inp) (Z.of_nat (fb_pos f))
                          (fb_pp f) (Z.of_nat (fb_neg f)) (fb_np f) s
            else ret s) ;;
      r <- h_run_updates fl inp f bs' ;;
      ret ((t, s) :: r)
  end.

Record hexec := mkHx { hx_in : hinput; hx_blocks : list (bool * hstate); hx_fb : fblock }.

(** The body of the loop of train_slice (executor.hpp:111-153). *)
Definition h_train_one (fl : hflags) (index : nat) (x : hexec) : M hexec :=
  let f := fb_reset (hx_fb x) in
  inp <- h_prepare (Z.of_nat index) (hx_in x) ;;
  f <- h_run_examples (h_train_example fl inp) (hx_blocks x) f ;;
  f <- h_process (in_lab inp) f ;;
  bs <- h_run_updates fl inp f (hx_blocks x) ;;
  ret (mkHx inp bs f).

Fixpoint h_train_list (fl : hflags) (idx : list nat) (x : hexec) : M hexec :=
  match idx with
  | [] => ret x
  | i :: t => x <- h_train_one fl i x ;; h_train_list fl t x
  end.

(** The body of the loop of eval_predict (executor.hpp:171-192), [out] being
    the caller's array. *)
Definition h_eval_one (out : ptr) (i : nat) (x : hexec) : M hexec :=
  let f := fb_reset (hx_fb x) in
  inp <- h_prepare (Z.of_nat i) (hx_in x) ;;
  f <- h_run_examples (h_eval_example inp) (hx_blocks x) f ;;
  store_at out (Z.of_nat i) (Z.of_nat (fb_predict f)) ;;;
  ret (mkHx inp (hx_blocks x) f).

Fixpoint h_eval_list (out : ptr) (idx : list nat) (x : hexec) : M hexec :=
  match idx with
  | [] => ret x
  | i :: t => x <- h_eval_one out i x ;; h_eval_list out t x
  end.
