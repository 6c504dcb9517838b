(** The scalar convolutional block on the heap: src/func_conv_tm.hpp with the
    pointers, the index arithmetic on int and the arrays of the source, the same
    functions as ModelConv.v.  Reads of memory nothing was written to get two
    meanings: undefined ([strict]), or the value [j] that happens to be there. *)
From Coq Require Import ZArith List Bool QArith Lia.
From Verif Require Import Base ModelHeap ModelDense ModelFeedback ModelExecutor ModelConv ModelTMHeap.
Import ListNotations.
Open Scope Z_scope.

(** AlignedTsetlinState with its convolutional members
    (src/aligned_tsetlin_state.hpp:42-46); active_patches_storage is a vector that is
    cleared before each use. *)
Record hconv := mkHc {
  hc_s : hstate;
  hc_np : Z;             (* num_patches_per_example *)
  hc_active : ptr;       (* active_patches *)
  hc_ppc : ptr           (* literal_counts_per_patch *)
}.

(** What is in new memory: active_patches, literal_counts,
    literal_counts_per_patch. *)
Record junk := mkJunk { j_active : nat -> nat; j_counts : nat -> Z; j_ppc : nat -> Z }.

(** The constructor, set_number_of_patches_per_example (clause_block.hpp:107-112, 118,
    aligned_tsetlin_state.hpp:43-45, 77): null pointers, -1 patches if never set. *)
Definition h_conv_construct (s : hstate) (np : Z) : hconv := mkHc s np null null.

(** p[i] where the element need not have been written. *)
Definition load_any (strict : bool) (j : Z) (p : ptr) (i : Z) : M Z :=
  q <- padd p i ;;
  fun h => match q with
  | None => None
  | Some a =>
      match nth_error h (ad_id a) with
      | Some (Some c) =>
          if ad_off a <? 0 then None
          else match nth_error (ch_cells c) (Z.to_nat (ad_off a)) with
               | Some (Some v) => Some (v, h)
               | Some None => if strict then None else Some (j, h)
               | None => None
               end
      | _ => None
      end
  end.

(** InitializeConvTM (func_conv_tm.hpp:15-34) inside ClauseBlockT::initialize. *)
Definition h_conv_initialize (budget_on : bool) (std_of fast_of : Z -> rng) (seed : Z) (c : hconv) : M (bool * hconv) :=
  r <- h_initialize budget_on std_of fast_of seed (hc_s c) ;;
  if negb (fst r) then ret (false, mkHc (snd r) (hc_np c) (hc_active c) (hc_ppc c))
  else
    a <- new_arr (hs_ncl (snd r)) ;;
    if hc_np c >? 0 then
      p <- new_arr (hc_np c) ;;
      ret (true, mkHc (snd r) (hc_np c) a p)
    else
      let s := snd r in
      ret (false, mkHc (mkHs (hs_ncl s) (hs_ncls s) (hs_wmem s) (hs_nlit s) (hs_lmem s) (hs_clauses s) (hs_outputs s)
                             (hs_votes s) (hs_weights s) (hs_counts s) (hs_budget s) (hs_s_inv s) (hs_s_min1_inv s)
                             (hs_rng s) (hs_fast s) false) (hc_np c) a (hc_ppc c)).

(** CleanupConvTM (36-57) inside ClauseBlockT::cleanup. *)
Definition h_conv_cleanup (budget_on : bool) (c : hconv) : M hconv :=
  hfree KNew (hc_active c) ;;;
  hfree KNew (hc_ppc c) ;;;
  s <- h_cleanup budget_on (hc_s c) ;;
  ret (mkHc s (hc_np c) null null).

(** Literal loop of SetClauseOutputConvTM (82-110); true = left by break. *)
Definition h_cset_body (budget_on : bool) (curr : ptr) (literal_k : Z) (a : ptr * ptr * Z * bool)
  : M (bool * (ptr * ptr * Z * bool)) :=
  let '(pl_pos, pl_neg, count, out) := a in
  v <- load pl_pos ;;
  stop <- (if v >=? 0 then l <- load_at curr literal_k ;; ret (l =? 0) else ret false) ;;
  if stop : bool then ret (true, (pl_pos, pl_neg, count, false)) else
  let count := if (v >=? 0) && budget_on then count + 1 else count in
  pl_pos <- padd pl_pos 1 ;;
  v <- load pl_neg ;;
  stop <- (if v >=? 0 then l <- load_at curr literal_k ;; ret (l =? 1) else ret false) ;;
  if stop : bool then ret (true, (pl_pos, pl_neg, count, false)) else
  let count := if (v >=? 0) && budget_on then count + 1 else count in
  pl_neg <- padd pl_neg 1 ;;
  ret (false, (pl_pos, pl_neg, count, out)).

(** One patch (71-118): active_patches_storage. *)
Definition h_cset_patch (budget_on : bool) (lits : ptr) (c : hconv) (clause_k patch_k : Z) (storage : list Z) : M (list Z) :=
  let s := hc_s c in
  pq <- h_halves s clause_k ;;
  o <- imul patch_k (hs_nlit s) ;;
  curr <- padd lits o ;;
  a <- mfor (Z.to_nat (hs_nlit s)) 0 (h_cset_body budget_on curr) (fst pq, snd pq, 0, true) ;;
  let '(_, _, count, out) := a in
  if out : bool then
    store_at (hs_outputs s) clause_k 1 ;;;
    store_at (hc_ppc c) patch_k count ;;;
    ret (storage ++ [patch_k])
  else ret storage.

(** One clause (66-129). *)
Definition h_cset_clause (strict budget_on : bool) (j : junk) (lits : ptr) (c : hconv) (clause_k : Z) (r : rng) : M rng :=
  let s := hc_s c in
  store_at (hs_outputs s) clause_k 0 ;;;
  storage <- mloop (Z.to_nat (hc_np c)) 0 (h_cset_patch budget_on lits c clause_k) [] ;;
  match storage with
  | [] => ret r
  | _ =>
      let '(i, r) := pick_index (length storage) r in
      match nth_error storage i with
      | None => undef
      | Some p =>
          store_at (hc_active c) clause_k p ;;;
          (if budget_on then
             n <- load_any strict (j_ppc j i) (hc_ppc c) (Z.of_nat i) ;;
             store_at (hs_counts s) clause_k n
           else ret tt) ;;;
          ret r
      end
  end.
Definition hs_with_rng (s : hstate) (r f : rng) : hstate :=
  mkHs (hs_ncl s) (hs_ncls s) (hs_wmem s) (hs_nlit s) (hs_lmem s) (hs_clauses s) (hs_outputs s) (hs_votes s) (hs_weights s)
       (hs_counts s) (hs_budget s) (hs_s_inv s) (hs_s_min1_inv s) r f (hs_init s).
(** SetClauseOutputConvTM (60-131). *)
Definition h_conv_set (strict budget_on : bool) (j : junk) (lits : ptr) (c : hconv) : M hconv :=
  let s := hc_s c in
  r <- mloop (Z.to_nat (hs_ncl s)) 0 (h_cset_clause strict budget_on j lits c) (hs_rng s) ;;
  ret (mkHc (hs_with_rng s r (hs_fast s)) (hc_np c) (hc_active c) (hc_ppc c)).

(** Literal loop of EvalClauseOutputConvTM (150-180). *)
Definition h_ceval_body (curr : ptr) (literal_k : Z) (a : ptr * ptr * bool * bool)
  : M (bool * (ptr * ptr * bool * bool)) :=
  let '(pl_pos, pl_neg, out, empty) := a in
  v <- load pl_pos ;;
  let empty := if v >=? 0 then false else empty in
  stop <- (if v >=? 0 then l <- load_at curr literal_k ;; ret (l =? 0) else ret false) ;;
  if stop : bool then ret (true, (pl_pos, pl_neg, false, empty)) else
  pl_pos <- padd pl_pos 1 ;;
  v <- load pl_neg ;;
  let empty := if v >=? 0 then false else empty in
  stop <- (if v >=? 0 then l <- load_at curr literal_k ;; ret (l =? 1) else ret false) ;;
  if stop : bool then ret (true, (pl_pos, pl_neg, false, empty)) else
  pl_neg <- padd pl_neg 1 ;;
  ret (false, (pl_pos, pl_neg, out, empty)).
(** One patch (142-188); true = goto end_of_clause. *)
Definition h_ceval_patch (lits : ptr) (c : hconv) (clause_k patch_k : Z) (_ : unit) : M (bool * unit) :=
  let s := hc_s c in
  pq <- h_halves s clause_k ;;
  o <- imul patch_k (hs_nlit s) ;;
  curr <- padd lits o ;;
  a <- mfor (Z.to_nat (hs_nlit s)) 0 (h_ceval_body curr) (fst pq, snd pq, true, true) ;;
  let '(_, _, out, empty) := a in
  let out := if empty : bool then false else out in
  if out : bool then store_at (hs_outputs s) clause_k 1 ;;; ret (true, tt) else ret (false, tt).
(** EvalClauseOutputConvTM (134-192). *)
Definition h_ceval_clause (lits : ptr) (c : hconv) (clause_k : Z) (_ : unit) : M unit :=
  store_at (hs_outputs (hc_s c)) clause_k 0 ;;;
  mfor (Z.to_nat (hc_np c)) 0 (h_ceval_patch lits c clause_k) tt.
Definition h_conv_eval (lits : ptr) (c : hconv) : M unit :=
  mloop (Z.to_nat (hs_ncl (hc_s c))) 0 (h_ceval_clause lits c) tt.

(** &literals[active_patches[clause_k] * num_literals] (208): uint32 arithmetic.
    [strict]: the address must be inside the buffer; otherwise forming it is
    harmless and only accesses count. *)
Definition h_patch_ptr (strict : bool) (lits : ptr) (ap nlit : Z) : M ptr :=
  let d := (ap * nlit) mod 2 ^ 32 in
  if strict then padd lits d
  else match lits with
       | None => undef
       | Some a => ret (Some (mkAddr (ad_id a) (ad_off a + d)))
       end.

(** TrainUpdateConvTM (196-232): one clause, all clauses. *)
Definition h_cupdate_body (strict budget_on boost : bool) (j : junk) (c : hconv) (lits : ptr) (pc : Z) (pp : Q) (nc : Z)
  (np : Q) (n_features : Z) (clause_k : Z) (a : rng * rng) : M (rng * rng) :=
  let s := hc_s c in
  let '(r, f) := a in
  o <- imul clause_k n_features ;;
  row <- padd (hs_clauses s) o ;;
  ow <- imul clause_k (hs_ncls s) ;;
  wrow <- padd (hs_weights s) ow ;;
  ap <- load_any strict (Z.of_nat (j_active j (Z.to_nat clause_k))) (hc_active c) clause_k ;;
  patch_literals <- h_patch_ptr strict lits ap (hs_nlit s) ;;
  (if budget_on then
     n <- load_any strict (j_counts j (Z.to_nat clause_k)) (hs_counts s) clause_k ;;
     if n >? hs_budget s then store_at (hs_outputs s) clause_k 0 else ret tt
   else ret tt) ;;;
  let '(d, f) := draw_lt f pp in
  r <- (if d : bool then
          wp <- padd wrow pc ;;
          out <- load_at (hs_outputs s) clause_k ;;
          h_clause_update boost s row wp 1 patch_literals out r
        else ret r) ;;
  let '(d, f) := draw_lt f np in
  r <- (if d : bool then
          wp <- padd wrow nc ;;
          out <- load_at (hs_outputs s) clause_k ;;
          h_clause_update boost s row wp (-1) patch_literals out r
        else ret r) ;;
  ret (r, f).
Definition h_conv_update (strict budget_on boost : bool) (j : junk) (lits : ptr) (pc : Z) (pp : Q) (nc : Z) (np : Q)
  (c : hconv) : M hconv :=
  let s := hc_s c in
  n_features <- imul (hs_nlit s) 2 ;;
  a <- mloop (Z.to_nat (hs_ncl s)) 0 (h_cupdate_body strict budget_on boost j c lits pc pp nc np n_features)
             (hs_rng s, hs_fast s) ;;
  ret (mkHc (hs_with_rng s (fst a) (snd a)) (hc_np c) (hc_active c) (hc_ppc c)).

(** A block at work (clause_block.hpp:65-77, 187-212) on the example buffer of an input
    block holding whole examples: training on one example, evaluation of one. *)
Inductive ccall :=
| CTrain (index : nat) (pc : nat) (pp : Q) (nc : nat) (np : Q)
| CEval (index : nat).
Definition h_ccall (strict budget_on boost : bool) (j : junk) (inp : hinput) (c : hconv) (x : ccall) : M (hinput * hconv) :=
  match x with
  | CTrain index pc pp nc np =>
      inp <- h_prepare (Z.of_nat index) inp ;;
      c <- h_conv_set strict budget_on j (in_cur inp) c ;;
      h_count_votes (hc_s c) ;;;
      c <- h_conv_update strict budget_on boost j (in_cur inp) (Z.of_nat pc) pp (Z.of_nat nc) np c ;;
      ret (inp, c)
  | CEval index =>
      inp <- h_prepare (Z.of_nat index) inp ;;
      h_conv_eval (in_cur inp) c ;;;
      h_count_votes (hc_s c) ;;;
      ret (inp, c)
  end.
Fixpoint h_ccalls (strict budget_on boost : bool) (j : junk) (xs : list ccall) (inp : hinput) (c : hconv) : M (hinput * hconv) :=
  match xs with
  | [] => ret (inp, c)
  | x :: t => r <- h_ccall strict budget_on boost j inp c x ;; h_ccalls strict budget_on boost j t (fst r) (snd r)
  end.
