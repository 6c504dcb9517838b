(** The sparse clause block once more, access by access: src/func_sparse.hpp on
    std::vector and raw arrays, with every index checked.  The functional model
    of the same code is ModelSparse.v.

    [Wild] is an index outside a vector with operator[] or outside a raw array
    (undefined behaviour); [Throw] is std::out_of_range from vector::at (which
    pybind11 turns into IndexError). *)
From Coq Require Import ZArith List Bool QArith Lia.
From Verif Require Import Base ModelDense ModelLayout ModelSparse.
Import ListNotations.
Open Scope Z_scope.

Inductive R (A : Type) := Ret (a : A) | Throw | Wild.
Arguments Ret {A} a.
Arguments Throw {A}.
Arguments Wild {A}.
Definition bindR {A B} (m : R A) (f : A -> R B) : R B :=
  match m with Ret a => f a | Throw => Throw | Wild => Wild end.
Notation "x <- m ; f" := (bindR m (fun x => f)) (at level 100, m at next level, right associativity).

(** v[k], p[k] *)
Definition ix {A} (l : list A) (k : nat) : R A := match nth_error l k with Some x => Ret x | None => Wild end.
Definition set_ix {A} (k : nat) (x : A) (l : list A) : R (list A) := if (k <? length l)%nat then Ret (set_nth k x l) else Wild.
(** v.at(k) *)
Definition at_ {A} (l : list A) (k : nat) : R A := match nth_error l k with Some x => Ret x | None => Throw end.
Definition set_at {A} (k : nat) (x : A) (l : list A) : R (list A) := if (k <? length l)%nat then Ret (set_nth k x l) else Throw.

(** for(size_t i = 0; i < n; ++i) with a way out of the loop: [None] goes on,
    [Some o] leaves (break, goto, return). *)
Fixpoint scan_ix {O} (fuel i : nat) (step : nat -> R (option O)) : R (option O) :=
  match fuel with
  | O%nat => Ret None
  | S f => o <- step i; match o with Some x => Ret (Some x) | None => scan_ix f (S i) step end
  end.
(** ... and one that changes a state. *)
Fixpoint fold_ix {S} (fuel i : nat) (body : nat -> S -> R S) (s : S) : R S :=
  match fuel with
  | O => Ret s
  | Datatypes.S f => s <- body i s; fold_ix f (Datatypes.S i) body s
  end.

(** ** State *)

Record simp := mkI {
  i_nlit : nat; i_ncl : nat; i_ncls : nat; i_csize : nat; i_alsize : nat; i_thr : Z;
  i_rows : list (list nat);
  i_states : list (list Z);
  i_al : list (list nat);
  i_repl : list nat;
  i_weights : list Z;            (* clause_weights, num_clauses * num_classes *)
  i_outputs : list Z;
  i_counts : list Z;             (* literal_counts; [] = nullptr *)
  i_votes : list Z;
  i_budget : Z;
  i_si : Q; i_sm : Q;
  i_fast : rng
}.
Definition i_set_outputs (s : simp) (o c : list Z) : simp :=
  mkI (i_nlit s) (i_ncl s) (i_ncls s) (i_csize s) (i_alsize s) (i_thr s) (i_rows s) (i_states s) (i_al s) (i_repl s)
      (i_weights s) o c (i_votes s) (i_budget s) (i_si s) (i_sm s) (i_fast s).
Definition i_set_votes (s : simp) (v : list Z) : simp :=
  mkI (i_nlit s) (i_ncl s) (i_ncls s) (i_csize s) (i_alsize s) (i_thr s) (i_rows s) (i_states s) (i_al s) (i_repl s)
      (i_weights s) (i_outputs s) (i_counts s) v (i_budget s) (i_si s) (i_sm s) (i_fast s).
Definition i_set_fast (s : simp) (r : rng) : simp :=
  mkI (i_nlit s) (i_ncl s) (i_ncls s) (i_csize s) (i_alsize s) (i_thr s) (i_rows s) (i_states s) (i_al s) (i_repl s)
      (i_weights s) (i_outputs s) (i_counts s) (i_votes s) (i_budget s) (i_si s) (i_sm s) r.
Definition i_store (s : simp) (rows : list (list nat)) (states : list (list Z)) (al : list (list nat)) (repl : list nat)
  (weights : list Z) (r : rng) : simp :=
  mkI (i_nlit s) (i_ncl s) (i_ncls s) (i_csize s) (i_alsize s) (i_thr s) rows states al repl
      weights (i_outputs s) (i_counts s) (i_votes s) (i_budget s) (i_si s) (i_sm s) r.

(** ** Clause outputs *)

(** Lines 170-193. *)
Definition imp_scan_pos (ta : nat) (lits : list nat) : R scan :=
  o <- scan_ix (length lits) 0 (fun lit_k =>
         l <- at_ lits lit_k;
         if (ta <? l)%nat then Ret (Some Falsified) else if (l <? ta)%nat then Ret None else Ret (Some Found));
  Ret (match o with Some x => x | None => Exhausted end).
(** Lines 160-201: is the output set to 0? *)
Definition imp_pos (lits row : list nat) (sts : list Z) : R bool :=
  o <- scan_ix (length row) 0 (fun ta_k =>
         st <- ix sts ta_k;
         if st <? 0 then Ret None
         else ta <- ix row ta_k; f <- imp_scan_pos ta lits;
              match f with
              | Falsified => Ret (Some tt)
              | Found => Ret None
              | Exhausted => back <- ix row (length row - 1); if (ta =? back)%nat then Ret (Some tt) else Ret None
              end);
  Ret (match o with Some _ => true | None => false end).
(** Lines 212-233 and 340-359. *)
Definition imp_scan_neg (ta : nat) (lits : list nat) : R bool :=
  o <- scan_ix (length lits) 0 (fun lit_k =>
         l <- at_ lits lit_k;
         if (ta =? l)%nat then Ret (Some true) else if (l <? ta)%nat then Ret None else Ret (Some false));
  Ret (match o with Some x => x | None => false end).
(** Lines 202-235 and 331-361. *)
Definition imp_neg (lits row : list nat) (sts : list Z) : R bool :=
  o <- scan_ix (length row) 0 (fun ta_k =>
         st <- ix sts ta_k;
         if st <? 0 then Ret None
         else ta <- ix row ta_k; f <- imp_scan_neg ta lits; if f then Ret (Some tt) else Ret None);
  Ret (match o with Some _ => true | None => false end).
(** Lines 240-253. *)
Definition imp_count (row : list nat) (sts : list Z) : R Z :=
  fold_ix (length row) 0 (fun ta_k n => st <- ix sts ta_k; Ret (if st >=? 0 then n + 1 else n)) 0.

(** SetClauseOutputSparseTM, one clause (134-259).  The neg loop is skipped by
    the goto when the pos loop has set the output to 0. *)
Definition imp_set_clause (budget_on : bool) (lits : list nat) (k : nat) (s : simp) : R simp :=
  prow <- ix (i_rows s) k; nrow <- ix (i_rows s) (k + i_ncl s);
  psts <- ix (i_states s) k; nsts <- ix (i_states s) (k + i_ncl s);
  outs <- set_ix k 1 (i_outputs s);
  if (length prow =? 0)%nat && (length nrow =? 0)%nat then
    counts <- (if budget_on then set_ix k 0 (i_counts s) else Ret (i_counts s));
    Ret (i_set_outputs s outs counts)
  else
    f <- imp_pos lits prow psts;
    f <- (if f then Ret true else imp_neg lits nrow nsts);
    outs <- (if f then set_ix k 0 outs else Ret outs);
    counts <- (if budget_on then p <- imp_count prow psts; n <- imp_count nrow nsts; set_ix k (p + n) (i_counts s)
               else Ret (i_counts s));
    Ret (i_set_outputs s outs counts).
Definition imp_set (budget_on : bool) (lits : list nat) (s : simp) : R simp :=
  fold_ix (i_ncl s) 0 (imp_set_clause budget_on lits) s.

(** Lines 302-322. *)
Definition imp_scan_pos_eval (ta : nat) (lits : list nat) : R scan :=
  o <- scan_ix (length lits) 0 (fun lit_k =>
         l <- at_ lits lit_k;
         if (ta =? l)%nat then Ret (Some Found) else if (l <? ta)%nat then Ret None else Ret (Some Falsified));
  Ret (match o with Some x => x | None => Exhausted end).
(** Lines 294-330. *)
Definition imp_pos_eval (lits row : list nat) (sts : list Z) : R bool :=
  o <- scan_ix (length row) 0 (fun ta_k =>
         st <- ix sts ta_k;
         if st <? 0 then Ret None
         else ta <- ix row ta_k; f <- imp_scan_pos_eval ta lits;
              match f with
              | Falsified => Ret (Some tt)
              | Found => Ret None
              | Exhausted => back <- ix row (length row - 1); if (ta =? back)%nat then Ret (Some tt) else Ret None
              end);
  Ret (match o with Some _ => true | None => false end).
(** EvalClauseOutputSparseTM (268-368). *)
Definition imp_eval_clause (lits : list nat) (k : nat) (s : simp) : R simp :=
  prow <- ix (i_rows s) k; nrow <- ix (i_rows s) (k + i_ncl s);
  psts <- ix (i_states s) k; nsts <- ix (i_states s) (k + i_ncl s);
  outs <- set_ix k 1 (i_outputs s);
  if (length prow =? 0)%nat || (length nrow =? 0)%nat then
    outs <- set_ix k 0 outs; Ret (i_set_outputs s outs (i_counts s))
  else
    f <- imp_pos_eval lits prow psts;
    f <- (if f then Ret true else imp_neg lits nrow nsts);
    outs <- (if f then set_ix k 0 outs else Ret outs);
    Ret (i_set_outputs s outs (i_counts s)).
Definition imp_eval (lits : list nat) (s : simp) : R simp := fold_ix (i_ncl s) 0 (imp_eval_clause lits) s.

(** CountVotesSparseTM (371-389): memset, then the two loops. *)
Definition imp_votes (s : simp) : R simp :=
  if negb (i_ncls s <=? length (i_votes s))%nat then Wild
  else
    votes <- fold_ix (i_ncl s) 0 (fun clause_k votes =>
               o <- ix (i_outputs s) clause_k;
               if o =? 1 then
                 fold_ix (i_ncls s) 0 (fun class_k votes =>
                   to_add <- ix (i_weights s) (clause_k * i_ncls s + class_k);
                   v <- ix votes class_k;
                   set_ix class_k (wrap16 (v + to_add)) votes) votes
               else Ret votes) (repeat 0 (i_ncls s) ++ skipn (i_ncls s) (i_votes s));
    Ret (i_set_votes s votes).

(** ** Feedback *)

(** Is [x] in the vector (the inner loops of 613-620, 706-713, ...)? *)
Definition imp_mem (x : nat) (l : list nat) : R bool :=
  o <- scan_ix (length l) 0 (fun k => y <- at_ l k; if (x =? y)%nat then Ret (Some tt) else Ret None);
  Ret (match o with Some _ => true | None => false end).
(** The position of [x]. *)
Definition imp_find (x : nat) (l : list nat) : R (option nat) :=
  scan_ix (length l) 0 (fun k => y <- at_ l k; if (y =? x)%nat then Ret (Some k) else Ret None).

(** UpdateAL (813-861): al_replace_index is indexed by [class_k]. *)
Definition imp_update_al (dynamic : bool) (alsize : nat) (al : list nat) (repl : list nat) (class_k lit : nat) : R (list nat * list nat) :=
  if (length al <? alsize)%nat then
    m <- imp_mem lit al; if m then Ret (al, repl) else Ret (al ++ [lit], repl)
  else if dynamic then
    m <- imp_mem lit al;
    if m then Ret (al, repl)
    else r <- ix repl class_k; al <- set_at r lit al; repl <- set_ix class_k (S r) repl;
         r <- ix repl class_k;
         repl <- (if (r =? alsize)%nat then set_ix class_k O repl else Ret repl);
         Ret (al, repl)
  else Ret (al, repl).

Record i1a := mkI1 { j_pst : list Z; j_nst : list Z; j_al : list nat; j_repl : list nat; j_rng : rng }.

(** Type1aFeedbackSparseTM, one literal (556-603). *)
Definition imp_t1a_lit (boost dynamic : bool) (alsize : nat) (si sm : Q) (prow nrow : list nat) (class_k lit : nat) (f : i1a) : R i1a :=
  o <- imp_find lit prow;
  f <- match o with
       | Some k =>
           v <- at_ (j_pst f) k;
           if v <? 127 then
             if boost then p <- set_at k (wrap8 (v + 1)) (j_pst f); Ret (mkI1 p (j_nst f) (j_al f) (j_repl f) (j_rng f))
             else
               let '(d, r) := draw_le (j_rng f) sm in
               p <- (if d then set_at k (wrap8 (v + 1)) (j_pst f) else Ret (j_pst f));
               Ret (mkI1 p (j_nst f) (j_al f) (j_repl f) r)
           else Ret f
       | None =>
           a <- imp_update_al dynamic alsize (j_al f) (j_repl f) class_k lit;
           Ret (mkI1 (j_pst f) (j_nst f) (fst a) (snd a) (j_rng f))
       end;
  o <- imp_find lit nrow;
  match o with
  | Some k =>
      v <- at_ (j_nst f) k;
      if v >? -127 then
        let '(d, r) := draw_le (j_rng f) si in
        n <- (if d then set_at k (wrap8 (v - 1)) (j_nst f) else Ret (j_nst f));
        Ret (mkI1 (j_pst f) n (j_al f) (j_repl f) r)
      else Ret f
  | None => Ret f
  end.

(** The loops over a row that move states in place. *)
Definition imp_absent_down (si : Q) (lits row : list nat) (sts : list Z) (r : rng) : R (list Z * rng) :=
  fold_ix (length row) 0 (fun ta_k sr =>
    ta <- at_ row ta_k; m <- imp_mem ta lits;
    if m then Ret sr
    else v <- at_ (fst sr) ta_k;
         if v >? -127 then
           let '(d, r) := draw_le (snd sr) si in
           s <- (if d then set_at ta_k (wrap8 (v - 1)) (fst sr) else Ret (fst sr)); Ret (s, r)
         else Ret sr) (sts, r).
Definition imp_absent_up (boost : bool) (sm : Q) (lits row : list nat) (sts : list Z) (r : rng) : R (list Z * rng) :=
  fold_ix (length row) 0 (fun ta_k sr =>
    ta <- at_ row ta_k; m <- imp_mem ta lits;
    if m then Ret sr
    else v <- at_ (fst sr) ta_k;
         if v <? 127 then
           if boost then s <- set_at ta_k (wrap8 (v + 1)) (fst sr); Ret (s, snd sr)
           else let '(d, r) := draw_le (snd sr) sm in
                s <- (if d then set_at ta_k (wrap8 (v + 1)) (fst sr) else Ret (fst sr)); Ret (s, r)
         else Ret sr) (sts, r).
(** Type1aFeedbackSparseTM (540-657). *)
Definition imp_t1a (boost dynamic : bool) (alsize : nat) (si sm : Q) (lits prow nrow : list nat) (class_k : nat) (f : i1a) : R i1a :=
  f <- fold_ix (length lits) 0 (fun lit_k f => lit <- at_ lits lit_k; imp_t1a_lit boost dynamic alsize si sm prow nrow class_k lit f) f;
  p <- imp_absent_down si lits prow (j_pst f) (j_rng f);
  n <- imp_absent_up boost sm lits nrow (j_nst f) (snd p);
  Ret (mkI1 (fst p) (fst n) (j_al f) (j_repl f) (snd n)).

(** One row of Type1bFeedbackSparseTM (672-689). *)
Definition imp_t1b (si : Q) (row : list nat) (sts : list Z) (r : rng) : R (list Z * rng) :=
  fold_ix (length row) 0 (fun ta_k sr =>
    let '(d, r) := draw_le (snd sr) si in
    if d then
      v <- at_ (fst sr) ta_k;
      if v >? -127 then s <- set_at ta_k (wrap8 (v - 1)) (fst sr); Ret (s, r) else Ret (fst sr, r)
    else Ret (fst sr, r)) (sts, r).

(** Type2FeedbackSparseTM: present automata (704-737). *)
Definition imp_t2_row (present : bool) (lits row : list nat) (sts : list Z) : R (list Z) :=
  fold_ix (length row) 0 (fun ta_k sts =>
    ta <- at_ row ta_k; m <- imp_mem ta lits;
    if Bool.eqb m present then
      v <- at_ sts ta_k; if v <? 0 then set_at ta_k (wrap8 (v + 1)) sts else Ret sts
    else Ret sts) sts.
(** New automata (740-780). *)
Definition imp_t2_add (csize : nat) (thr : Z) (lits : list nat) (a : nat) (s : rows2) : R rows2 :=
  m <- imp_mem a lits;
  if m then
    n <- imp_mem a (r_nrow s);
    if n then Ret s
    else if (length (r_nrow s) <? csize)%nat
         then Ret (mkR (r_prow s) (r_psts s) (r_nrow s ++ [a]) (r_nsts s ++ [wrap8 (thr + 5)])) else Ret s
  else
    p <- imp_mem a (r_prow s);
    if p then Ret s
    else if (length (r_prow s) <? csize)%nat
         then Ret (mkR (r_prow s ++ [a]) (r_psts s ++ [wrap8 (thr + 5)]) (r_nrow s) (r_nsts s)) else Ret s.
Definition imp_t2 (csize : nat) (thr : Z) (al lits : list nat) (s : rows2) : R rows2 :=
  p <- imp_t2_row false lits (r_prow s) (r_psts s);
  n <- imp_t2_row true lits (r_nrow s) (r_nsts s);
  fold_ix (length al) 0 (fun k s => a <- at_ al k; imp_t2_add csize thr lits a s) (mkR (r_prow s) p (r_nrow s) n).

(** v.erase(v.begin() + k): undefined at or behind the end. *)
Definition erase_ix {A} (k : nat) (l : list A) : R (list A) := if (k <? length l)%nat then Ret (erase k l) else Wild.
(** prune_clause (482-497). *)
Fixpoint imp_prune_loop (thr : Z) (fuel k : nat) (row : list nat) (sts : list Z) : R (list nat * list Z) :=
  match fuel with
  | O => Ret (row, sts)
  | S f => if (k <? length row)%nat then
             v <- at_ sts k;
             if v <? thr then row <- erase_ix k row; sts <- erase_ix k sts; imp_prune_loop thr f (S k) row sts
             else imp_prune_loop thr f (S k) row sts
           else Ret (row, sts)
  end.
Definition imp_prune (thr : Z) (row : list nat) (sts : list Z) : R (list nat * list Z) := imp_prune_loop thr (length row) 0 row sts.

(** std::swap(v.at(j), v.at(j + 1)) *)
Definition swap_at_ {A} (j : nat) (l : list A) : R (list A) :=
  x <- at_ l j; y <- at_ l (S j); l <- set_at (S j) x l; set_at j y l.
(** sort_clauses_and_states (499-535); clause_row->size() - i - 1 is computed in
    size_t, with i < size() no wrap. *)
Definition imp_bubble_step (j : nat) (s : list nat * list Z * bool) : R (list nat * list Z * bool) :=
  let '(row, sts, swapped) := s in
  x <- at_ row j; y <- at_ row (S j);
  if (y <? x)%nat then row <- swap_at_ j row; sts <- swap_at_ j sts; Ret (row, sts, true) else Ret s.
Fixpoint imp_bubble (fuel i : nat) (s : list nat * list Z * bool) : R (list nat * list Z * bool) :=
  match fuel with
  | O => Ret s
  | S f => s <- fold_ix (length (fst (fst s)) - i - 1) 0 imp_bubble_step s;
           if negb (snd s) then Ret s else imp_bubble f (S i) s
  end.
Definition imp_sort (row : list nat) (sts : list Z) : R (list nat * list Z) :=
  if (length row =? 1)%nat then Ret (row, sts)
  else if (length row =? 2)%nat then
    x <- at_ row 0; y <- at_ row 1;
    if (y <? x)%nat then row <- swap_at_ 0 row; sts <- swap_at_ 0 sts; Ret (row, sts) else Ret (row, sts)
  else s <- imp_bubble (length row) 0 (row, sts, false); Ret (fst s).

(** ** Updates *)

(** ClauseUpdateSparseTM (443-480) on clause [k] for class [c]; the pointers were
    formed by the caller. *)
Definition imp_clause_update (boost dynamic : bool) (lits : list nat) (k c : nat) (target : Z) (s : simp) : R simp :=
  prow <- ix (i_rows s) k; nrow <- ix (i_rows s) (k + i_ncl s);
  psts <- ix (i_states s) k; nsts <- ix (i_states s) (k + i_ncl s);
  al <- ix (i_al s) c;
  out <- ix (i_outputs s) k;
  w <- ix (i_weights s) (k * i_ncls s + c);
  let sign := if w >=? 0 then 1 else -1 in
  let save (p n : list nat * list Z) (al : list nat) (repl : list nat) (w : Z) (r : rng) : R simp :=
    rows <- set_ix k (fst p) (i_rows s); rows <- set_ix (k + i_ncl s) (fst n) rows;
    states <- set_ix k (snd p) (i_states s); states <- set_ix (k + i_ncl s) (snd n) states;
    als <- set_ix c al (i_al s);
    ws <- set_ix (k * i_ncls s + c) w (i_weights s);
    Ret (i_store s rows states als repl ws r) in
  if target * sign >? 0 then
    if out =? 1 then
      f <- imp_t1a boost dynamic (i_alsize s) (i_si s) (i_sm s) lits prow nrow c (mkI1 psts nsts al (i_repl s) (i_fast s));
      p <- imp_prune (i_thr s) prow (j_pst f); n <- imp_prune (i_thr s) nrow (j_nst f);
      save p n (j_al f) (j_repl f) (wrap16 (w + sign)) (j_rng f)
    else if out =? 0 then
      p <- imp_t1b (i_si s) prow psts (i_fast s); n <- imp_t1b (i_si s) nrow nsts (snd p);
      p' <- imp_prune (i_thr s) prow (fst p); n' <- imp_prune (i_thr s) nrow (fst n);
      save p' n' al (i_repl s) w (snd n)
    else Ret s
  else if (target * sign <? 0) && (out =? 1) then
    t <- imp_t2 (i_csize s) (i_thr s) al lits (mkR prow psts nrow nsts);
    p <- imp_sort (r_prow t) (r_psts t); n <- imp_sort (r_nrow t) (r_nsts t);
    save p n al (i_repl s) (wrap16 (w - sign)) (i_fast s)
  else Ret s.

(** TrainUpdateSparseTM, one clause (397-437): all pointers are formed first. *)
Definition imp_update_clause (budget_on boost dynamic : bool) (lits : list nat) (pc : nat) (pp : Q) (nc : nat) (np : Q)
  (k : nat) (s : simp) : R simp :=
  _ <- ix (i_rows s) k; _ <- ix (i_rows s) (k + i_ncl s); _ <- ix (i_states s) k; _ <- ix (i_states s) (k + i_ncl s);
  _ <- ix (i_al s) pc; _ <- ix (i_al s) nc;
  _ <- ix (i_weights s) (k * i_ncls s);
  outs <- (if budget_on then
             n <- ix (i_counts s) k; if n >? i_budget s then set_ix k 0 (i_outputs s) else Ret (i_outputs s)
           else Ret (i_outputs s));
  let s := i_set_outputs s outs (i_counts s) in
  let '(d, r) := draw_lt (i_fast s) pp in
  s <- (if d then imp_clause_update boost dynamic lits k pc 1 (i_set_fast s r) else Ret (i_set_fast s r));
  let '(d, r) := draw_lt (i_fast s) np in
  if d then imp_clause_update boost dynamic lits k nc (-1) (i_set_fast s r) else Ret (i_set_fast s r).
Definition imp_train_update (budget_on boost dynamic : bool) (lits : list nat) (pc : nat) (pp : Q) (nc : nat) (np : Q)
  (s : simp) : R simp :=
  fold_ix (i_ncl s) 0 (imp_update_clause budget_on boost dynamic lits pc pp nc np) s.

(** What the executor calls (clause_block.hpp:65-77, 432-462). *)
Definition imp_train_ex (budget_on : bool) (lits : list nat) (s : simp) : R simp := s <- imp_set budget_on lits s; imp_votes s.
Definition imp_eval_ex (lits : list nat) (s : simp) : R simp := s <- imp_eval lits s; imp_votes s.

(** ** State transfer (clause_block.hpp:322-386, sparse_tsetlin_state.hpp:82-93) *)

(** for (j = a; j < b; ++j) v.push_back(src[j]) from a raw array. *)
Definition imp_copy {A} (src : list A) (a b : nat) : R (list A) :=
  fold_ix (b - a) a (fun j acc => x <- ix src j; Ret (acc ++ [x])) [].
(** set_clause_state_sparse_npy (322-357); resize(-1) throws. *)
Definition imp_csr_set (c : csr) (s : simp) : R simp :=
  let '(data, indices, indptr) := c in
  if (length indptr =? 0)%nat then Throw
  else
    rs <- fold_ix (length indptr - 1) 0 (fun i (rs : list (list nat) * list (list Z)) =>
            a <- ix indptr i; b <- ix indptr (S i);
            d <- imp_copy data a b; r <- imp_copy indices a b;
            Ret (fst rs ++ [r], snd rs ++ [d])) ([], []);
    Ret (i_store s (fst rs) (snd rs) (i_al s) (i_repl s) (i_weights s) (i_fast s)).
(** set_active_literals_npy (374-386): the array's shape and its buffer. *)
Definition imp_al_set (shape buf : list nat) (s : simp) : R simp :=
  al <- fold_ix (i_ncls s) 0 (fun i al =>
          w <- ix shape 1; r <- imp_copy buf (i * w) (i * w + w); set_ix i r al) (i_al s);
  Ret (i_store s (i_rows s) (i_states s) al (i_repl s) (i_weights s) (i_fast s)).
(** set_clause_weights (sparse_tsetlin_state.hpp:82-93): memcpy row by row. *)
Definition imp_set_weights (src : list Z) (off : nat) (s : simp) : R simp :=
  ws <- fold_ix (i_ncl s) 0 (fun i ws =>
          fold_ix (i_ncls s) 0 (fun c ws =>
            x <- ix src ((i + off) * i_ncls s + c); set_ix (i * i_ncls s + c) x ws) ws) (i_weights s);
  Ret (i_store s (i_rows s) (i_states s) (i_al s) (i_repl s) ws (i_fast s)).

(** _save_state_in_backend (sparse_tsetlin_machine.py:144-149).  A missing block
    is IndexError, active literals of different lengths TypeError: [Throw]. *)
Definition imp_put_al (al : list (list nat)) (s : simp) : R simp :=
  if forallb (fun r => (length r =? length (hd [] al))%nat) al
  then imp_al_set (if (length al =? 0)%nat then [O] else [length al; length (hd [] al)]) (concat al) s
  else Throw.
Fixpoint imp_save (st : sparse_state) (cbs : list simp) (index off : nat) : R (list simp) :=
  match cbs with
  | [] => Ret []
  | cb :: t =>
      c <- at_ (ss_c st) index;
      cb <- imp_csr_set c cb;
      cb <- imp_set_weights (concat (ss_w st)) off cb;
      al <- at_ (ss_al st) index;
      cb <- imp_put_al al cb;
      t <- imp_save st t (S index) (off + i_ncl cb);
      Ret (cb :: t)
  end.
