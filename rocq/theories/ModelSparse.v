(** Model of the sparse clause block (src/func_sparse.hpp on the state of
    src/sparse_tsetlin_state.hpp), of its state transfer
    (src/clause_block.hpp:286-402, green_tsetlin/sparse_tsetlin_machine.py) and
    of RuleSet.compile_from_sparse_state (green_tsetlin/ruleset.py:43-103).

    Literal numbers (uint32) are [nat], automaton states (int8) are [Z].  The
    arrays handed over by python are assumed to have the dtypes the C++ code
    reads (int8 data, uint32 indices and indptr). *)
From Coq Require Import ZArith List Bool QArith Lia.
From Verif Require Import Base ModelDense ModelRuleSet ModelLayout ModelFeedback ModelExecutor.
Import ListNotations.
Open Scope Z_scope.

(** ** State (sparse_tsetlin_state.hpp:17-54) *)

(** [sp_rows], [sp_states]: 2*num_clauses vectors each, first the positive
    clauses, then the negated ones.  [sp_weights]: one row of num_classes
    weights per clause (num_class_weights_mem = num_classes). *)
Record sblock := mkSB {
  sp_nlit : nat;
  sp_ncl : nat;
  sp_ncls : nat;
  sp_csize : nat;                (* clause_size *)
  sp_alsize : nat;               (* active_literals_size *)
  sp_thr : Z;                    (* lower_ta_threshold *)
  sp_rows : list (list nat);     (* clauses *)
  sp_states : list (list Z);     (* clause_states *)
  sp_al : list (list nat);       (* active_literals, one list per class *)
  sp_repl : list nat;            (* al_replace_index *)
  sp_weights : list (list Z);
  sp_outputs : list Z;
  sp_counts : list Z;
  sp_votes : list Z;
  sp_budget : Z;
  sp_si : Q;                     (* s_inv *)
  sp_sm : Q;                     (* s_min1_inv *)
  sp_fast : rng
}.

Definition memb (a : nat) (l : list nat) : bool := existsb (Nat.eqb a) l.

(** ** Clause outputs *)

Inductive scan := Falsified | Found | Exhausted.

(** SetClauseOutputSparseTM, search of one positive automaton (170-193). *)
Fixpoint scan_pos (ta : nat) (lits : list nat) : scan :=
  match lits with
  | [] => Exhausted
  | l :: t => if (ta <? l)%nat then Falsified else if (l <? ta)%nat then scan_pos ta t else Found
  end.

(** The loop over the positive automata (160-201): true = output set to 0.
    [back] is pos_clause.back(). *)
Fixpoint pos_falsified (back : nat) (lits row : list nat) (sts : list Z) : bool :=
  match row, sts with
  | ta :: row', st :: sts' =>
      if st <? 0 then pos_falsified back lits row' sts'
      else match scan_pos ta lits with
           | Falsified => true
           | Found => pos_falsified back lits row' sts'
           | Exhausted => if (ta =? back)%nat then true else pos_falsified back lits row' sts'
           end
  | _, _ => false
  end.

(** Search of one negated automaton (212-233, and 340-359): true = found. *)
Fixpoint scan_neg (ta : nat) (lits : list nat) : bool :=
  match lits with
  | [] => false
  | l :: t => if (ta =? l)%nat then true else if (l <? ta)%nat then scan_neg ta t else false
  end.

(** The loop over the negated automata (202-235, and 331-361). *)
Fixpoint neg_falsified (lits row : list nat) (sts : list Z) : bool :=
  match row, sts with
  | ta :: row', st :: sts' =>
      if st <? 0 then neg_falsified lits row' sts'
      else if scan_neg ta lits then true else neg_falsified lits row' sts'
  | _, _ => false
  end.

(** Included automata (240-253). *)
Definition n_nonneg (sts : list Z) : Z := zsum (map (fun st => b2z (st >=? 0)) sts).

(** One clause of SetClauseOutputSparseTM (134-259): output, literal count. *)
Definition sp_set_output (lits prow nrow : list nat) (psts nsts : list Z) : Z * Z :=
  if (length prow =? 0)%nat && (length nrow =? 0)%nat then (1, 0)
  else
    let falsified := pos_falsified (last prow O) lits prow psts || neg_falsified lits nrow nsts in
    ((if falsified then 0 else 1), n_nonneg psts + n_nonneg nsts).

(** EvalClauseOutputSparseTM, search of one positive automaton (302-322). *)
Fixpoint scan_pos_eval (ta : nat) (lits : list nat) : scan :=
  match lits with
  | [] => Exhausted
  | l :: t => if (ta =? l)%nat then Found else if (l <? ta)%nat then scan_pos_eval ta t else Falsified
  end.

Fixpoint pos_falsified_eval (back : nat) (lits row : list nat) (sts : list Z) : bool :=
  match row, sts with
  | ta :: row', st :: sts' =>
      if st <? 0 then pos_falsified_eval back lits row' sts'
      else match scan_pos_eval ta lits with
           | Falsified => true
           | Found => pos_falsified_eval back lits row' sts'
           | Exhausted => if (ta =? back)%nat then true else pos_falsified_eval back lits row' sts'
           end
  | _, _ => false
  end.

(** One clause of EvalClauseOutputSparseTM (273-366). *)
Definition sp_eval_output (lits prow nrow : list nat) (psts nsts : list Z) : Z :=
  if (length prow =? 0)%nat || (length nrow =? 0)%nat then 0
  else if pos_falsified_eval (last prow O) lits prow psts || neg_falsified lits nrow nsts then 0 else 1.

(** The vectors of clause [k]. *)
Definition prow_of (b : sblock) (k : nat) : list nat := nth k (sp_rows b) [].
Definition nrow_of (b : sblock) (k : nat) : list nat := nth (k + sp_ncl b) (sp_rows b) [].
Definition psts_of (b : sblock) (k : nat) : list Z := nth k (sp_states b) [].
Definition nsts_of (b : sblock) (k : nat) : list Z := nth (k + sp_ncl b) (sp_states b) [].

Definition sp_with_outputs (b : sblock) (outs counts votes : list Z) : sblock :=
  mkSB (sp_nlit b) (sp_ncl b) (sp_ncls b) (sp_csize b) (sp_alsize b) (sp_thr b) (sp_rows b) (sp_states b) (sp_al b)
       (sp_repl b) (sp_weights b) outs counts votes (sp_budget b) (sp_si b) (sp_sm b) (sp_fast b).

(** SetClauseOutputSparseTM (128-264). *)
Definition sp_train_output (budget_on : bool) (lits : list nat) (b : sblock) : sblock :=
  let rs := map (fun k => sp_set_output lits (prow_of b k) (nrow_of b k) (psts_of b k) (nsts_of b k)) (seq 0 (sp_ncl b)) in
  sp_with_outputs b (map fst rs) (if budget_on then map snd rs else sp_counts b) (sp_votes b).

(** EvalClauseOutputSparseTM (268-368). *)
Definition sp_eval_set (lits : list nat) (b : sblock) : sblock :=
  sp_with_outputs b
    (map (fun k => sp_eval_output lits (prow_of b k) (nrow_of b k) (psts_of b k) (nsts_of b k)) (seq 0 (sp_ncl b)))
    (sp_counts b) (sp_votes b).

(** CountVotesSparseTM (371-389). *)
Definition sp_count_votes (b : sblock) : sblock :=
  sp_with_outputs b (sp_outputs b) (sp_counts b)
    (count_votes_loop (sp_outputs b) (sp_weights b) (repeat 0 (sp_ncls b))).

(** ** Active literals: UpdateAL (813-861) *)

Definition update_al (dynamic : bool) (alsize : nat) (al : list nat) (repl lit : nat) : list nat * nat :=
  if (length al <? alsize)%nat then
    if memb lit al then (al, repl) else (al ++ [lit], repl)
  else if dynamic then
    if memb lit al then (al, repl)
    else
      let repl' := S repl in
      (set_nth repl lit al, if (repl' =? alsize)%nat then O else repl')
  else (al, repl).

(** ** Feedback *)

(** Index of the first automaton of [lit]. *)
Fixpoint index_of (lit : nat) (row : list nat) : option nat :=
  match row with
  | [] => None
  | ta :: t => if (ta =? lit)%nat then Some O
               else match index_of lit t with Some k => Some (S k) | None => None end
  end.

(** What Type Ia changes: the states, the active literals, the generator. *)
Record fb1a := mkF { f_pst : list Z; f_nst : list Z; f_al : list nat; f_repl : nat; f_rng : rng }.

(** Type1aFeedbackSparseTM, one literal of the example (556-603). *)
Definition t1a_lit (boost dynamic : bool) (alsize : nat) (si sm : Q) (prow nrow : list nat) (f : fb1a) (lit : nat) : fb1a :=
  let f :=
    match index_of lit prow with
    | Some k =>
        let v := nth k (f_pst f) 0 in
        if v <? 127 then
          if boost then mkF (set_nth k (wrap8 (v + 1)) (f_pst f)) (f_nst f) (f_al f) (f_repl f) (f_rng f)
          else
            let '(d, r) := draw_le (f_rng f) sm in
            mkF (if d then set_nth k (wrap8 (v + 1)) (f_pst f) else f_pst f) (f_nst f) (f_al f) (f_repl f) r
        else f
    | None =>
        let '(al, repl) := update_al dynamic alsize (f_al f) (f_repl f) lit in
        mkF (f_pst f) (f_nst f) al repl (f_rng f)
    end in
  match index_of lit nrow with
  | Some k =>
      let v := nth k (f_nst f) 0 in
      if v >? -127 then
        let '(d, r) := draw_le (f_rng f) si in
        mkF (f_pst f) (if d then set_nth k (wrap8 (v - 1)) (f_nst f) else f_nst f) (f_al f) (f_repl f) r
      else f
  | None => f
  end.

(** The automata of literals absent from the example, positive row (613-627):
    down with probability 1/s. *)
Fixpoint absent_down (si : Q) (lits row : list nat) (sts : list Z) (r : rng) : list Z * rng :=
  match row, sts with
  | ta :: row', v :: sts' =>
      let '(v', r) :=
        if memb ta lits then (v, r)
        else if v >? -127 then let '(d, r) := draw_le r si in ((if d then wrap8 (v - 1) else v), r)
        else (v, r) in
      let '(t, r) := absent_down si lits row' sts' r in (v' :: t, r)
  | _, _ => (sts, r)
  end.

(** Negated row (630-654): up. *)
Fixpoint absent_up (boost : bool) (sm : Q) (lits row : list nat) (sts : list Z) (r : rng) : list Z * rng :=
  match row, sts with
  | ta :: row', v :: sts' =>
      let '(v', r) :=
        if memb ta lits then (v, r)
        else if v <? 127 then
          if boost then (wrap8 (v + 1), r)
          else let '(d, r) := draw_le r sm in ((if d then wrap8 (v + 1) else v), r)
        else (v, r) in
      let '(t, r) := absent_up boost sm lits row' sts' r in (v' :: t, r)
  | _, _ => (sts, r)
  end.

(** Type1aFeedbackSparseTM (540-657). *)
Definition sp_t1a (boost dynamic : bool) (alsize : nat) (si sm : Q) (lits prow nrow : list nat) (f : fb1a) : fb1a :=
  let f := fold_left (t1a_lit boost dynamic alsize si sm prow nrow) lits f in
  let '(pst, r) := absent_down si lits prow (f_pst f) (f_rng f) in
  let '(nst, r) := absent_up boost sm lits nrow (f_nst f) r in
  mkF pst nst (f_al f) (f_repl f) r.

(** One row of Type1bFeedbackSparseTM (672-679, 682-689). *)
Fixpoint sp_t1b_row (si : Q) (sts : list Z) (r : rng) : list Z * rng :=
  match sts with
  | [] => ([], r)
  | v :: t => let '(d, r) := draw_le r si in
              let v' := if d && (v >? -127) then wrap8 (v - 1) else v in
              let '(t', r) := sp_t1b_row si t r in (v' :: t', r)
  end.

(** Type2FeedbackSparseTM, the present automata (704-721 and 723-737). *)
Definition t2_pos (lits row : list nat) (sts : list Z) : list Z :=
  map2 (fun ta v => if negb (memb ta lits) && (v <? 0) then wrap8 (v + 1) else v) row sts.
Definition t2_neg (lits row : list nat) (sts : list Z) : list Z :=
  map2 (fun ta v => if memb ta lits && (v <? 0) then wrap8 (v + 1) else v) row sts.

(** Adding automata for one active literal (740-780). *)
Record rows2 := mkR { r_prow : list nat; r_psts : list Z; r_nrow : list nat; r_nsts : list Z }.
Definition t2_add (csize : nat) (thr : Z) (lits : list nat) (s : rows2) (a : nat) : rows2 :=
  if memb a lits then
    if memb a (r_nrow s) then s
    else if (length (r_nrow s) <? csize)%nat
         then mkR (r_prow s) (r_psts s) (r_nrow s ++ [a]) (r_nsts s ++ [wrap8 (thr + 5)]) else s
  else
    if memb a (r_prow s) then s
    else if (length (r_prow s) <? csize)%nat
         then mkR (r_prow s ++ [a]) (r_psts s ++ [wrap8 (thr + 5)]) (r_nrow s) (r_nsts s) else s.

Definition sp_t2 (csize : nat) (thr : Z) (al lits : list nat) (s : rows2) : rows2 :=
  let s := mkR (r_prow s) (t2_pos lits (r_prow s) (r_psts s)) (r_nrow s) (t2_neg lits (r_nrow s) (r_nsts s)) in
  fold_left (t2_add csize thr lits) al s.

(** vector::erase at position [k]. *)
Definition erase {A} (k : nat) (l : list A) : list A := firstn k l ++ skipn (S k) l.

(** prune_clause (482-497): the index moves on after an erase too. *)
Fixpoint prune_loop (thr : Z) (fuel k : nat) (row : list nat) (sts : list Z) : list nat * list Z :=
  match fuel with
  | O => (row, sts)
  | S f => if (k <? length row)%nat then
             if nth k sts 0 <? thr then prune_loop thr f (S k) (erase k row) (erase k sts)
             else prune_loop thr f (S k) row sts
           else (row, sts)
  end.
Definition prune_clause (thr : Z) (row : list nat) (sts : list Z) : list nat * list Z :=
  prune_loop thr (length row) 0 row sts.

(** std::swap of neighbours. *)
Definition swap_at {A} (d : A) (j : nat) (l : list A) : list A :=
  set_nth j (nth (S j) l d) (set_nth (S j) (nth j l d) l).

(** sort_clauses_and_states (499-535).  [swapped] is never reset. *)
Definition bubble_step (j : nat) (s : list nat * list Z * bool) : list nat * list Z * bool :=
  let '(row, sts, swapped) := s in
  if (nth (S j) row O <? nth j row O)%nat then (swap_at O j row, swap_at 0 j sts, true) else s.
Fixpoint bubble_loop (fuel i : nat) (s : list nat * list Z * bool) : list nat * list Z * bool :=
  match fuel with
  | O => s
  | S f =>
      let s := for_loop (length (fst (fst s)) - i - 1) bubble_step s in
      if negb (snd s) then s else bubble_loop f (S i) s
  end.
Definition sort_clause (row : list nat) (sts : list Z) : list nat * list Z :=
  if (length row =? 1)%nat then (row, sts)
  else if (length row =? 2)%nat then
    if (nth 1 row O <? nth 0 row O)%nat then (swap_at O 0 row, swap_at 0 0 sts) else (row, sts)
  else fst (bubble_loop (length row) 0 (row, sts, false)).

(** ** Updates *)

(** Writing back what an update of clause [k] for class [c] may change. *)
Definition sp_store (b : sblock) (k : nat) (s : rows2) (c : nat) (al : list nat) (repl : nat) (w : Z) (r : rng) : sblock :=
  mkSB (sp_nlit b) (sp_ncl b) (sp_ncls b) (sp_csize b) (sp_alsize b) (sp_thr b)
       (set_nth (k + sp_ncl b) (r_nrow s) (set_nth k (r_prow s) (sp_rows b)))
       (set_nth (k + sp_ncl b) (r_nsts s) (set_nth k (r_psts s) (sp_states b)))
       (set_nth c al (sp_al b)) (set_nth c repl (sp_repl b))
       (set_nth k (set_nth c w (nth k (sp_weights b) [])) (sp_weights b))
       (sp_outputs b) (sp_counts b) (sp_votes b) (sp_budget b) (sp_si b) (sp_sm b) r.

Definition prune_rows (thr : Z) (s : rows2) : rows2 :=
  let '(p, ps) := prune_clause thr (r_prow s) (r_psts s) in
  let '(n, ns) := prune_clause thr (r_nrow s) (r_nsts s) in mkR p ps n ns.
Definition sort_rows (s : rows2) : rows2 :=
  let '(p, ps) := sort_clause (r_prow s) (r_psts s) in
  let '(n, ns) := sort_clause (r_nrow s) (r_nsts s) in mkR p ps n ns.

(** ClauseUpdateSparseTM (443-480) on clause [k] for class [c]. *)
Definition sp_clause_update (boost dynamic : bool) (lits : list nat) (k c : nat) (target : Z) (b : sblock) : sblock :=
  let s := mkR (prow_of b k) (psts_of b k) (nrow_of b k) (nsts_of b k) in
  let al := nth c (sp_al b) [] in
  let repl := nth c (sp_repl b) O in
  let w := nth c (nth k (sp_weights b) []) 0 in
  let out := nth k (sp_outputs b) 0 in
  let sign := if w >=? 0 then 1 else -1 in
  if target * sign >? 0 then
    if out =? 1 then
      let f := sp_t1a boost dynamic (sp_alsize b) (sp_si b) (sp_sm b) lits (r_prow s) (r_nrow s)
                 (mkF (r_psts s) (r_nsts s) al repl (sp_fast b)) in
      sp_store b k (prune_rows (sp_thr b) (mkR (r_prow s) (f_pst f) (r_nrow s) (f_nst f))) c (f_al f) (f_repl f)
        (wrap16 (w + sign)) (f_rng f)
    else if out =? 0 then
      let '(ps, r) := sp_t1b_row (sp_si b) (r_psts s) (sp_fast b) in
      let '(ns, r) := sp_t1b_row (sp_si b) (r_nsts s) r in
      sp_store b k (prune_rows (sp_thr b) (mkR (r_prow s) ps (r_nrow s) ns)) c al repl w r
    else b
  else if (target * sign <? 0) && (out =? 1) then
    sp_store b k (sort_rows (sp_t2 (sp_csize b) (sp_thr b) al lits s)) c al repl (wrap16 (w - sign)) (sp_fast b)
  else b.

Definition sp_with_fast (b : sblock) (outs : list Z) (r : rng) : sblock :=
  mkSB (sp_nlit b) (sp_ncl b) (sp_ncls b) (sp_csize b) (sp_alsize b) (sp_thr b) (sp_rows b) (sp_states b) (sp_al b)
       (sp_repl b) (sp_weights b) outs (sp_counts b) (sp_votes b) (sp_budget b) (sp_si b) (sp_sm b) r.

(** TrainUpdateSparseTM, one clause (397-437). *)
Definition sp_update_clause (budget_on boost dynamic : bool) (lits : list nat) (pc : nat) (pp : Q) (nc : nat) (np : Q)
  (b : sblock) (k : nat) : sblock :=
  let outs := if budget_on && (nth k (sp_counts b) 0 >? sp_budget b) then set_nth k 0 (sp_outputs b) else sp_outputs b in
  let '(d, r) := draw_lt (sp_fast b) pp in
  let b := sp_with_fast b outs r in
  let b := if d then sp_clause_update boost dynamic lits k pc 1 b else b in
  let '(d, r) := draw_lt (sp_fast b) np in
  let b := sp_with_fast b (sp_outputs b) r in
  if d then sp_clause_update boost dynamic lits k nc (-1) b else b.

(** TrainUpdateSparseTM (392-440). *)
Definition sp_train_update (budget_on boost dynamic : bool) (lits : list nat) (pc : nat) (pp : Q) (nc : nat) (np : Q)
  (b : sblock) : sblock :=
  fold_left (sp_update_clause budget_on boost dynamic lits pc pp nc np) (seq 0 (sp_ncl b)) b.

(** ** The block as seen by the executor (clause_block.hpp:65-77, 432-462) *)

Definition sp_train_ex (budget_on : bool) (lits : list nat) (b : sblock) : sblock * list Z :=
  let b := sp_count_votes (sp_train_output budget_on lits b) in (b, sp_votes b).
Definition sp_eval_ex (lits : list nat) (b : sblock) : sblock * list Z :=
  let b := sp_count_votes (sp_eval_set lits b) in (b, sp_votes b).

(** ** Initialisation: InitializeSparseTM (24-94) *)

Definition sp_initialize (budget_on : bool) (fast_of : Z -> rng) (junk : list Z)
  (nlit ncl ncls csize alsize : nat) (thr budget : Z) (si sm : Q) (seed : Z) : option sblock :=
  if seed =? 0 then None
  else if budget_on && (budget <? 1) then None
  else
    let '(ws, f) := init_weights ncls ncl (fast_of seed) in
    Some (mkSB nlit ncl ncls csize alsize thr (repeat [] (2 * ncl)) (repeat [] (2 * ncl)) (repeat [] ncls) (repeat O ncls)
               ws (repeat 0 ncl) junk (repeat 0 ncls) budget si sm f).

(** ** State transfer *)

Definition csr := (list Z * list nat * list nat)%type.    (* data, indices, indptr *)

(** get_clause_state_sparse_npy (286-319). *)
Definition csr_get_step (b : sblock) (i : nat) (acc : csr * nat) : csr * nat :=
  let '(data, indices, indptr, offset) := acc in
  let n := length (nth i (sp_rows b) []) in
  (data ++ map (fun k => nth k (nth i (sp_states b) []) 0) (seq 0 n),
   indices ++ map (fun k => nth k (nth i (sp_rows b) []) O) (seq 0 n),
   indptr ++ [offset], (offset + n)%nat).
Definition csr_get (b : sblock) : csr :=
  let '(data, indices, indptr, offset) := for_loop (sp_ncl b * 2) (csr_get_step b) ([], [], [], O) in
  (data, indices, indptr ++ [offset]).

Definition sp_with_rows (b : sblock) (rows : list (list nat)) (sts : list (list Z)) : sblock :=
  mkSB (sp_nlit b) (sp_ncl b) (sp_ncls b) (sp_csize b) (sp_alsize b) (sp_thr b) rows sts (sp_al b)
       (sp_repl b) (sp_weights b) (sp_outputs b) (sp_counts b) (sp_votes b) (sp_budget b) (sp_si b) (sp_sm b) (sp_fast b).

(** set_clause_state_sparse_npy (322-357). *)
Definition csr_set (c : csr) (b : sblock) : sblock :=
  let '(data, indices, indptr) := c in
  let n := (length indptr - 1)%nat in
  let span i := seq (nth i indptr O) (nth (S i) indptr O - nth i indptr O) in
  sp_with_rows b (map (fun i => map (fun j => nth j indices O) (span i)) (seq 0 n))
                 (map (fun i => map (fun j => nth j data 0) (span i)) (seq 0 n)).

Definition sp_with_al (b : sblock) (al : list (list nat)) : sblock :=
  mkSB (sp_nlit b) (sp_ncl b) (sp_ncls b) (sp_csize b) (sp_alsize b) (sp_thr b) (sp_rows b) (sp_states b) al
       (sp_repl b) (sp_weights b) (sp_outputs b) (sp_counts b) (sp_votes b) (sp_budget b) (sp_si b) (sp_sm b) (sp_fast b).

(** get_active_literals_npy (360-373). *)
Definition al_get (b : sblock) : list (list nat) := map (fun i => nth i (sp_al b) []) (seq 0 (sp_ncls b)).
(** set_active_literals_npy (375-388): the argument is converted to one uint32
    array, so rows of different lengths are refused by pybind11 (TypeError); the
    rows have shape[1] entries each.  Rows beyond the array (the C++ code would
    read out of bounds) are empty here. *)
Definition al_set (rows : list (list nat)) (b : sblock) : res sblock :=
  if forallb (fun r => (length r =? length (hd [] rows))%nat) rows then
    if (length rows =? 0)%nat then Raise IndexError      (* shape has one entry only; shape[1] is out of bounds *)
    else Ok (sp_with_al b (map (fun i => nth i rows []) (seq 0 (sp_ncls b))))
  else Raise TypeError.

(** Weights (sparse_tsetlin_state.hpp:82-104), row by row: the contiguous
    arrays with num_class_weights_mem = num_classes. *)
Definition sp_with_weights (b : sblock) (ws : list (list Z)) : sblock :=
  mkSB (sp_nlit b) (sp_ncl b) (sp_ncls b) (sp_csize b) (sp_alsize b) (sp_thr b) (sp_rows b) (sp_states b) (sp_al b)
       (sp_repl b) ws (sp_outputs b) (sp_counts b) (sp_votes b) (sp_budget b) (sp_si b) (sp_sm b) (sp_fast b).
Definition sp_set_weights (src : list (list Z)) (off : nat) (b : sblock) : sblock :=
  sp_with_weights b (map (fun i => nth (i + off) src []) (seq 0 (sp_ncl b))).
Definition sp_get_weights (dst : list (list Z)) (off : nat) (b : sblock) : list (list Z) :=
  for_loop (sp_ncl b) (fun i dst => set_nth (i + off) (nth i (sp_weights b) []) dst) dst.

(** SparseState (sparse_tsetlin_machine.py:16-46). *)
Record sparse_state := mkSparse {
  ss_nlit : option nat;
  ss_ncls : nat;                (* w.shape[1] *)
  ss_w : list (list Z);
  ss_c : list csr;              (* c_data[k], c_indices[k], c_indptr[k] *)
  ss_al : list (list (list nat))
}.

(** Loop of _load_state_from_backend (sparse_tsetlin_machine.py:119-128), on a
    new zero state (115). *)
Fixpoint sp_load_loop (cbs : list sblock) (off : nat) (c : list csr) (al : list (list (list nat))) (w : list (list Z))
  : list csr * list (list (list nat)) * list (list Z) :=
  match cbs with
  | [] => (c, al, w)
  | cb :: t => sp_load_loop t (off + sp_ncl cb) (c ++ [csr_get cb]) (al ++ [al_get cb]) (sp_get_weights w off cb)
  end.
Definition sp_load_state (nlit ncl ncls : nat) (cbs : list sblock) : sparse_state :=
  let '(c, al, w) := sp_load_loop cbs 0 [] [] (repeat (repeat 0 ncls) ncl) in
  mkSparse (Some nlit) ncls w c al.

(** Loop of _save_state_in_backend (sparse_tsetlin_machine.py:144-149). *)
Fixpoint sp_save_loop (s : sparse_state) (cbs : list sblock) (index off : nat) : res (list sblock) :=
  match cbs with
  | [] => Ok []
  | cb :: t =>
      match nth_error (ss_c s) index, nth_error (ss_al s) index with
      | Some c, Some al =>
          match al_set al (sp_set_weights (ss_w s) off (csr_set c cb)) with
          | Ok cb' => match sp_save_loop s t (S index) (off + sp_ncl cb) with
                      | Ok t' => Ok (cb' :: t')
                      | Raise e => Raise e
                      end
          | Raise e => Raise e
          end
      | _, _ => Raise IndexError
      end
  end.
Definition sp_save_state (s : sparse_state) (cbs : list sblock) : res (list sblock) := sp_save_loop s cbs 0 0.

(** SparseState.copy (sparse_tsetlin_machine.py:49-56): n_literals is not copied. *)
Definition sparse_copy (s : sparse_state) : sparse_state := mkSparse None (ss_ncls s) (ss_w s) (ss_c s) (ss_al s).

(** ** Rule sets: RuleSet.compile_from_sparse_state (ruleset.py:43-103) *)

(** [c for i, c in enumerate(row) if states[i] > 0] (76, 81). *)
Definition positives (row : list nat) (sts : list Z) : list nat :=
  map fst (filter (fun p : nat * Z => snd p >? 0) (combine row sts)).

(** Body of the loop over the clauses of a block (68-98). *)
Definition compile_sparse_step (nlit ncls : nat) (pos neg : list nat) (wk : list Z) (m : rule_map) : rule_map :=
  if all_zero wk then m
  else
    let key := pos ++ map (fun c => (c + nlit)%nat) neg in
    if (length key <? 1)%nat then m
    else
      let rule_weights := match rm_get key m with Some v => v | None => repeat 0 ncls end in
      rm_set key (add16 rule_weights wk) m.

Definition csr_slice {A} (l : list A) (a b : nat) : list A := firstn (b - a) (skipn a l).

Fixpoint compile_sparse_block (nlit ncls : nat) (c : csr) (num i k : nat) (w : list (list Z)) (done : nat) (m : rule_map)
  : res (rule_map * nat) :=
  match k with
  | O => Ok (m, done)
  | S k' =>
      let '(data, indices, indptr) := c in
      let p a := nth a indptr O in
      let pos := positives (csr_slice indices (p i) (p (S i))) (csr_slice data (p i) (p (S i))) in
      let neg := positives (csr_slice indices (p (i + num)%nat) (p (S (i + num)))) (csr_slice data (p (i + num)%nat) (p (S (i + num)))) in
      match nth_error w done with
      | None => Raise IndexError
      | Some wk => compile_sparse_block nlit ncls c num (S i) k' w (S done) (compile_sparse_step nlit ncls pos neg wk m)
      end
  end.

Fixpoint compile_sparse_loop (nlit ncls : nat) (cs : list csr) (w : list (list Z)) (done : nat) (m : rule_map) : res rule_map :=
  match cs with
  | [] => Ok m
  | c :: t =>
      let num := Nat.div (length (snd c) - 1) 2 in
      match compile_sparse_block nlit ncls c num 0 num w done m with
      | Ok (m, done) => compile_sparse_loop nlit ncls t w done m
      | Raise e => Raise e
      end
  end.

Definition compile_from_sparse_state (s : sparse_state) : res ruleset :=
  match (match ss_nlit s with
         | Some n => Ok n
         | None => match ss_c s with
                   | [] => Raise IndexError
                   | (_, [], _) :: _ => Raise ValueError
                   | (_, indices, _) :: _ => Ok (S (fold_right Nat.max O indices))
                   end
         end) with
  | Raise e => Raise e
  | Ok nlit =>
      match compile_sparse_loop nlit (ss_ncls s) (ss_c s) (ss_w s) 0 [] with
      | Ok m => Ok (mkRuleSet (map fst m) (map snd m) nlit (ss_ncls s))
      | Raise e => Raise e
      end
  end.
