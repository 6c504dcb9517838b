(** The AVX2 convolutional block access by access: src/func_conv_avx2.hpp on the
    arrays of src/aligned_tsetlin_state.hpp, in the manner of ModelAvx2Imp.v.  The
    functions of ModelConvAvx2.v with every load, store and index; a vector load at
    an address that is not a multiple of 32 is [Wild] where it happens. *)
From Coq Require Import ZArith List Bool QArith Lia.
From Verif Require Import Base ModelDense ModelLayout ModelFeedback ModelAvx2 ModelConv ModelSparse ModelSparseImp ModelAvx2Imp.
Import ListNotations.
Open Scope Z_scope.

(** The dense AVX2 members and the convolutional ones
    (aligned_tsetlin_state.hpp:42-52). *)
Record ximp := mkXi {
  xi_v : vimp;
  xi_np : nat;               (* num_patches_per_example, positive *)
  xi_active : list nat;      (* active_patches *)
  xi_ppc : list Z;           (* literal_counts_per_patch *)
  xi_rng : rng               (* rng *)
}.

(** InitializeConvAVX2 (11-31); [ja], [jp]: what is in the new arrays; None: false
    was returned. *)
Definition imp_xinitialize (budget_on pad : bool) (std_of : Z -> rng) (vec_of : Z -> vrng) (fast_of : Z -> rng) (jm jc jk : nat -> Z)
  (ja : nat -> nat) (jp : nat -> Z) (np : Z) (nlit ncl ncls : nat) (budget : Z) (sv : Q) (seed : Z) : R (option ximp) :=
  o <- imp_initialize budget_on pad vec_of fast_of jm jc jk nlit ncl ncls budget sv seed;
  match o with
  | None => Ret None
  | Some s => if np >? 0 then Ret (Some (mkXi s (Z.to_nat np) (map ja (seq 0 ncl)) (fresh (Z.to_nat np) jp) (std_of seed))) else Ret None
  end.

(** SetClauseOutputConvAVX2: chunk loop of one patch (87-120); [lp] is where
    curr_literal points. *)
Definition imp_xset_chunk (lits : list Z) (lp : nat) (cl : list Z) (row lmem chunk : nat) (count : Z) : R (Z * bool) :=
  let zeros := v_set1 0 in
  literals <- vld_u lits lp (chunk * 32);
  clauses <- vld cl row (chunk * 32);
  let not_active := v_cmpgt zeros clauses in
  let count := count + popcount (v_movemask (v_not not_active)) in
  let is_false := v_cmpeq (v_or not_active literals) zeros in
  if v_any is_false then Ret (count, true)
  else
    let neg_literals := v_cmpeq zeros literals in
    clauses <- vld cl row (lmem + chunk * 32);
    let not_active := v_cmpgt zeros clauses in
    let count := count + popcount (v_movemask (v_not not_active)) in
    let is_false := v_cmpeq (v_or not_active neg_literals) zeros in
    Ret (count, v_any is_false).
Fixpoint imp_xset_chunks (lits : list Z) (lp : nat) (cl : list Z) (row lmem chunk k : nat) (count : Z) : R (Z * bool) :=
  match k with
  | O => Ret (count, false)
  | S k' => c <- imp_xset_chunk lits lp cl row lmem chunk count;
            if snd c then Ret c else imp_xset_chunks lits lp cl row lmem (S chunk) k' (fst c)
  end.
(** The remainder (123-161): the count, None = falsified. *)
Definition imp_xset_reminder (lits : list Z) (lp : nat) (cl : list Z) (row lmem : nat) (mask : vec) (chunk : nat) (count : Z) : R (option Z) :=
  let zeros := v_set1 0 in
  literals <- vld_u lits lp (chunk * 32);
  clauses <- vld cl row (chunk * 32);
  let not_active := v_cmpgt zeros clauses in
  let active_masked := v_and (v_not not_active) mask in
  let count := count + popcount (v_movemask active_masked) in
  let is_false := v_cmpeq (v_or (v_not active_masked) literals) zeros in
  if v_any is_false then Ret None
  else
    let neg_literals := v_cmpeq zeros literals in
    clauses <- vld cl row (lmem + chunk * 32);
    let not_active := v_cmpgt zeros clauses in
    let active_masked := v_and (v_not not_active) mask in
    let count := count + popcount (v_movemask active_masked) in
    let is_false := v_cmpeq (v_or (v_not active_masked) neg_literals) zeros in
    if v_any is_false then Ret None else Ret (Some count).

(** One patch (79-173): clause_outputs, active_patches_storage,
    literal_counts_per_patch. *)
Definition imp_xset_patch (budget_on : bool) (lits : list Z) (mask : vec) (n_chunks : nat) (s : vimp) (clause_k row patch_k : nat)
  (a : list Z * list nat * list Z) : R (list Z * list nat * list Z) :=
  let '(outs, storage, ppc) := a in
  lp <- int_ (patch_k * m_nlit s);
  c <- imp_xset_chunks lits lp (m_clauses s) row (m_lmem s) 0 n_chunks 0;
  o <- (if snd c then Ret None else imp_xset_reminder lits lp (m_clauses s) row (m_lmem s) mask n_chunks (fst c));
  match o with
  | None => Ret (outs, storage, ppc)
  | Some count =>
      outs <- set_ix clause_k 1 outs;
      ppc <- (if budget_on then set_ix patch_k count ppc else Ret ppc);
      Ret (outs, storage ++ [patch_k], ppc)
  end.
(** One clause (72-184). *)
Definition imp_xset_clause (budget_on : bool) (lits : list Z) (mask : vec) (n_chunks clause_k : nat) (x : ximp) : R ximp :=
  let s := xi_v x in
  outs <- set_ix clause_k 0 (m_outputs s);
  two <- int_ (m_lmem s * 2); row <- int_ (clause_k * two);
  a <- fold_ix (xi_np x) 0 (imp_xset_patch budget_on lits mask n_chunks s clause_k row) (outs, [], xi_ppc x);
  let '(outs, storage, ppc) := a in
  match storage with
  | [] => Ret (mkXi (m_set_outputs s outs (m_counts s)) (xi_np x) (xi_active x) ppc (xi_rng x))
  | _ =>
      let '(i, r) := pick_index (length storage) (xi_rng x) in
      p <- ix storage i;
      active <- set_ix clause_k p (xi_active x);
      counts <- (if budget_on then n <- ix ppc i; set_ix clause_k n (m_counts s) else Ret (m_counts s));
      Ret (mkXi (m_set_outputs s outs counts) (xi_np x) active ppc r)
  end.
(** SetClauseOutputConvAVX2 (60-186). *)
Definition imp_xset (budget_on : bool) (lits : list Z) (x : ximp) : R ximp :=
  mask <- vld (m_mask (xi_v x)) 0 0;
  if (m_ncl (xi_v x) =? 0)%nat then Ret x
  else n_chunks <- last_chunk (m_lmem (xi_v x)); fold_ix (m_ncl (xi_v x)) 0 (imp_xset_clause budget_on lits mask n_chunks) x.

(** EvalClauseOutputConvAVX2 (189-293): one patch; active_literals is 0 at its
    start. *)
Definition imp_xeval_chunk (lits : list Z) (lp : nat) (cl : list Z) (row lmem chunk : nat) (act : bool) : R (bool * bool) :=
  let zeros := v_set1 0 in
  literals <- vld_u lits lp (chunk * 32);
  clauses <- vld cl row (chunk * 32);
  let not_active := v_cmpgt zeros clauses in
  let act := act || existsb (fun x => x) (v_movemask (v_not not_active)) in
  let is_false := v_cmpeq (v_or not_active literals) zeros in
  if v_any is_false then Ret (act, true)
  else
    let neg_literals := v_cmpeq zeros literals in
    clauses <- vld cl row (lmem + chunk * 32);
    let not_active := v_cmpgt zeros clauses in
    let act := act || existsb (fun x => x) (v_movemask (v_not not_active)) in
    let is_false := v_cmpeq (v_or not_active neg_literals) zeros in
    Ret (act, v_any is_false).
Fixpoint imp_xeval_chunks (lits : list Z) (lp : nat) (cl : list Z) (row lmem chunk k : nat) (act : bool) : R (bool * bool) :=
  match k with
  | O => Ret (act, false)
  | S k' => c <- imp_xeval_chunk lits lp cl row lmem chunk act;
            if snd c then Ret c else imp_xeval_chunks lits lp cl row lmem (S chunk) k' (fst c)
  end.
Definition imp_xeval_reminder (lits : list Z) (lp : nat) (cl : list Z) (row lmem : nat) (mask : vec) (chunk : nat) (act : bool) : R Z :=
  let zeros := v_set1 0 in
  literals <- vld_u lits lp (chunk * 32);
  clauses <- vld cl row (chunk * 32);
  let not_active := v_cmpgt zeros clauses in
  let act := act || existsb (fun x => x) (v_movemask (v_and (v_not not_active) mask)) in
  let is_false := v_and (v_cmpeq (v_or not_active literals) zeros) mask in
  if v_any is_false then Ret 0
  else
    let neg_literals := v_cmpeq zeros literals in
    clauses <- vld cl row (lmem + chunk * 32);
    let not_active := v_cmpgt zeros clauses in
    let act := act || existsb (fun x => x) (v_movemask (v_and (v_not not_active) mask)) in
    let is_false := v_and (v_cmpeq (v_or not_active neg_literals) zeros) mask in
    if v_any is_false then Ret 0 else Ret (if act then 1 else 0).
(** The patch loop: [k] patches from [patch_k] on; break at the first that fires. *)
Fixpoint imp_xeval_patches (lits : list Z) (mask : vec) (n_chunks : nat) (s : vimp) (clause_k row k patch_k : nat) (outs : list Z) : R (list Z) :=
  match k with
  | O => Ret outs
  | S k' =>
      lp <- int_ (patch_k * m_nlit s);
      c <- imp_xeval_chunks lits lp (m_clauses s) row (m_lmem s) 0 n_chunks false;
      o <- (if snd c then Ret 0 else imp_xeval_reminder lits lp (m_clauses s) row (m_lmem s) mask n_chunks (fst c));
      if o =? 1 then set_ix clause_k 1 outs
      else imp_xeval_patches lits mask n_chunks s clause_k row k' (S patch_k) outs
  end.
Definition imp_xeval_clause (np : nat) (lits : list Z) (mask : vec) (n_chunks clause_k : nat) (s : vimp) : R vimp :=
  outs <- set_ix clause_k 0 (m_outputs s);
  two <- int_ (m_lmem s * 2); row <- int_ (clause_k * two);
  outs <- imp_xeval_patches lits mask n_chunks s clause_k row np 0 outs;
  Ret (m_set_outputs s outs (m_counts s)).
Definition xi_with (x : ximp) (s : vimp) : ximp := mkXi s (xi_np x) (xi_active x) (xi_ppc x) (xi_rng x).
Definition imp_xeval (lits : list Z) (x : ximp) : R ximp :=
  mask <- vld (m_mask (xi_v x)) 0 0;
  if (m_ncl (xi_v x) =? 0)%nat then Ret x
  else n_chunks <- last_chunk (m_lmem (xi_v x));
       s <- fold_ix (m_ncl (xi_v x)) 0 (imp_xeval_clause (xi_np x) lits mask n_chunks) (xi_v x);
       Ret (xi_with x s).

(** The feedback functors of func_avx2.hpp (464-614) and ClauseUpdateAVX2 (429-461)
    with the literals at [lp]. *)
Definition imp_xt1a_chunk (boost : bool) (cmp : Z) (lits : list Z) (lp row lmem chunk : nat) (st : list Z * vrng) : R (list Z * vrng) :=
  let '(cl, r) := st in
  let minus_one := v_set1 (-1) in
  let cmp_s := v_set1 cmp in
  let ones := v_set1 1 in
  literals <- vld_u lits lp (chunk * 32);
  clause <- vld cl row (chunk * 32);
  let literal_on := v_cmpeq literals ones in
  let '(rand, r) := next_v r in
  let update := v_cmpgt cmp_s rand in
  let subtract := v_and minus_one (v_and (v_not literal_on) update) in
  let add := if boost then v_and literal_on ones else v_and ones (v_and literal_on (v_not update)) in
  cl <- vst cl row (chunk * 32) (v_adds clause (v_or subtract add));
  clause <- vld cl row (lmem + chunk * 32);
  let '(rand, r) := next_v r in
  let update := v_cmpgt cmp_s rand in
  let subtract := v_and minus_one (v_and literal_on update) in
  let add := if boost then v_and (v_not literal_on) ones
             else v_and ones (v_and (v_not literal_on) (v_not update)) in
  cl <- vst cl row (lmem + chunk * 32) (v_adds clause (v_or subtract add));
  Ret (cl, r).
Definition imp_xt2_chunk (lits : list Z) (lp row lmem chunk : nat) (cl : list Z) : R (list Z) :=
  let zeros := v_set1 0 in
  let ones := v_set1 1 in
  literals <- vld_u lits lp (chunk * 32);
  clause <- vld cl row (chunk * 32);
  let lit_mask := v_cmpeq literals zeros in
  let not_active := v_cmpgt zeros clause in
  let inc := v_and (v_and lit_mask not_active) ones in
  cl <- vst cl row (chunk * 32) (v_adds clause inc);
  clause <- vld cl row (lmem + chunk * 32);
  let not_active := v_cmpgt zeros clause in
  let inc := v_and (v_and (v_not lit_mask) not_active) ones in
  vst cl row (lmem + chunk * 32) (v_adds clause inc).
Definition imp_xclause_update (boost : bool) (lits : list Z) (lp row wp : nat) (target output : Z) (s : vimp) : R vimp :=
  w <- ix (m_weights s) wp;
  let sign := if w >=? 0 then 1 else -1 in
  if target * sign >? 0 then
    if output =? 1 then
      ws <- set_ix wp (wrap16 (w + sign)) (m_weights s);
      c <- fold_ix (m_lmem s / 32) 0 (imp_xt1a_chunk boost (m_cmp s) lits lp row (m_lmem s)) (m_clauses s, m_vrng s);
      Ret (m_store s (fst c) ws (snd c))
    else
      c <- fold_ix (m_lmem s / 32) 0 (imp_t1b_chunk (m_cmp s) row (m_lmem s)) (m_clauses s, m_vrng s);
      Ret (m_store s (fst c) (m_weights s) (snd c))
  else if (target * sign <? 0) && (output =? 1) then
    ws <- set_ix wp (wrap16 (w - sign)) (m_weights s);
    c <- fold_ix (m_lmem s / 32) 0 (imp_xt2_chunk lits lp row (m_lmem s)) (m_clauses s);
    Ret (m_store s c ws (m_vrng s))
  else Ret s.

(** TrainUpdateConvAVX2 (296-331), one clause; active_patches[clause_k] *
    num_literals is uint32, and only loads through the pointer count. *)
Definition imp_xupdate_clause (budget_on boost : bool) (lits : list Z) (active : list nat) (pc : nat) (pp : Q) (nc : nat) (np : Q)
  (clause_k : nat) (s : vimp) : R vimp :=
  two <- int_ (m_lmem s * 2); row <- int_ (clause_k * two); wrow <- int_ (clause_k * m_wmem s);
  ap <- ix active clause_k;
  let lp := Z.to_nat ((Z.of_nat ap * Z.of_nat (m_nlit s)) mod 2 ^ 32) in
  outs <- (if budget_on then
             n <- ix (m_counts s) clause_k; if n >? m_budget s then set_ix clause_k 0 (m_outputs s) else Ret (m_outputs s)
           else Ret (m_outputs s));
  let s := m_set_outputs s outs (m_counts s) in
  let '(d, r) := draw_lt (m_fast s) pp in
  s <- (if d then o <- ix (m_outputs s) clause_k; imp_xclause_update boost lits lp row (wrow + pc) 1 o (m_set_fast s r) else Ret (m_set_fast s r));
  let '(d, r) := draw_lt (m_fast s) np in
  if d then o <- ix (m_outputs s) clause_k; imp_xclause_update boost lits lp row (wrow + nc) (-1) o (m_set_fast s r) else Ret (m_set_fast s r).
Definition imp_xupdate (budget_on boost : bool) (lits : list Z) (pc : nat) (pp : Q) (nc : nat) (np : Q) (x : ximp) : R ximp :=
  s <- fold_ix (m_ncl (xi_v x)) 0 (imp_xupdate_clause budget_on boost lits (xi_active x) pc pp nc np) (xi_v x);
  Ret (xi_with x s).

(** CountVotesAVX2 and the state transfer are those of the dense block
    (main.cpp:183-204, aligned_tsetlin_state.hpp:84-140). *)
Definition imp_xvotes (x : ximp) : R ximp := s <- imp_vvotes (xi_v x); Ret (xi_with x s).

(** What the executor does with a block during one example: outputs and votes, then
    (with what the feedback decided) the update; or an evaluation; and what the
    trainer does between the epochs. *)
Inductive xcall :=
| XTrain (lits : list Z) (pc : nat) (pp : Q) (nc : nat) (np : Q)
| XEval (lits : list Z)
| XState (c : list (list Z)) (off : nat)
| XWeights (w : list (list Z)) (off : nat).
Definition xi_call (budget_on boost : bool) (x : ximp) (c : xcall) : R ximp :=
  match c with
  | XTrain l pc pp nc np => x <- imp_xset budget_on l x; x <- imp_xvotes x; imp_xupdate budget_on boost l pc pp nc np x
  | XEval l => x <- imp_xeval l x; imp_xvotes x
  | XState c off => s <- imp_set_state (concat c) off (xi_v x); Ret (xi_with x s)
  | XWeights w off => s <- imp_set_wts (concat w) off (xi_v x); Ret (xi_with x s)
  end.
Fixpoint xi_calls (budget_on boost : bool) (cs : list xcall) (x : ximp) : R ximp :=
  match cs with
  | [] => Ret x
  | c :: t => x <- xi_call budget_on boost x c; xi_calls budget_on boost t x
  end.
