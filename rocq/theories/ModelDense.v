(** Model of the scalar dense clause block: src/func_tm.hpp with the state of
    src/aligned_tsetlin_state.hpp.  A clause is a pair of automata rows
    (positive literals, negated literals); the flat memory layout behind it is
    modelled separately in ModelLayout.v. *)
From Coq Require Import ZArith List Bool QArith Lia.
From Verif Require Import Base.
Import ListNotations.
Open Scope Z_scope.

Record clause := mkClause { cl_pos : list Z; cl_neg : list Z }.

(** The mutable state of one block (aligned_tsetlin_state.hpp:22-52). *)
Record block := mkBlock {
  b_nlit : nat;                  (* num_literals *)
  b_ncls : nat;                  (* num_classes *)
  b_clauses : list clause;       (* clauses, int8 *)
  b_weights : list (list Z);     (* clause_weights, int16, one row per clause *)
  b_outputs : list Z;            (* clause_outputs, uint8 *)
  b_counts : list Z;             (* literal_counts, uint32 *)
  b_votes : list Z;              (* class_votes, int16 *)
  b_budget : Z;                  (* literal_budget, uint32 *)
  b_s_inv : Q;                   (* 1/s *)
  b_s_min1_inv : Q;              (* (s-1)/s *)
  b_rng : rng;                   (* std::default_random_engine + uniform(0,1) *)
  b_fast : rng                   (* Wyhash64 *)
}.

(** Inner loop of SetClauseOutputTM (func_tm.hpp:116-147): returns the output
    and the literal count; the loop leaves at the first falsified literal, and
    the counts so far are stored.  [budget_on] is the template flag
    do_literal_budget.  The sum of two uint32 counters cannot wrap for any
    realistic literal count and is kept in Z. *)
Fixpoint set_output_loop (budget_on : bool) (pos neg lits : list Z) (pc nc : Z) : Z * Z :=
  match pos, neg, lits with
  | p :: pos', q :: neg', l :: lits' =>
      if (p >=? 0) && (l =? 0) then (0, pc + nc)
      else
        let pc := if (p >=? 0) && budget_on then pc + 1 else pc in
        if (q >=? 0) && (l =? 1) then (0, pc + nc)
        else
          let nc := if (q >=? 0) && budget_on then nc + 1 else nc in
          set_output_loop budget_on pos' neg' lits' pc nc
  | _, _, _ => (1, pc + nc)
  end.

Definition set_output (budget_on : bool) (lits : list Z) (c : clause) : Z * Z :=
  set_output_loop budget_on (cl_pos c) (cl_neg c) lits 0 0.

(** SetClauseOutputTM (func_tm.hpp:100-151). *)
Definition train_set_clause_output (budget_on : bool) (lits : list Z) (b : block) : block :=
  let rs := map (set_output budget_on lits) (b_clauses b) in
  mkBlock (b_nlit b) (b_ncls b) (b_clauses b) (b_weights b)
          (map fst rs) (if budget_on then map snd rs else b_counts b)
          (b_votes b) (b_budget b) (b_s_inv b) (b_s_min1_inv b) (b_rng b) (b_fast b).

(** Inner loop of EvalClauseOutputTM (func_tm.hpp:162-194). *)
Fixpoint eval_output_loop (pos neg lits : list Z) (is_empty : bool) : Z :=
  match pos, neg, lits with
  | p :: pos', q :: neg', l :: lits' =>
      let is_empty := if p >=? 0 then false else is_empty in
      if (p >=? 0) && (l =? 0) then 0
      else
        let is_empty := if q >=? 0 then false else is_empty in
        if (q >=? 0) && (l =? 1) then 0
        else eval_output_loop pos' neg' lits' is_empty
  | _, _, _ => if is_empty then 0 else 1
  end.

Definition eval_output (lits : list Z) (c : clause) : Z :=
  eval_output_loop (cl_pos c) (cl_neg c) lits true.

(** EvalClauseOutputTM (func_tm.hpp:154-197). *)
Definition eval_set_clause_output (lits : list Z) (b : block) : block :=
  mkBlock (b_nlit b) (b_ncls b) (b_clauses b) (b_weights b)
          (map (eval_output lits) (b_clauses b)) (b_counts b)
          (b_votes b) (b_budget b) (b_s_inv b) (b_s_min1_inv b) (b_rng b) (b_fast b).

(** CountVotesTM (func_tm.hpp:206-225): int16 accumulation. *)
Fixpoint count_votes_loop (outs : list Z) (ws : list (list Z)) (votes : list Z) : list Z :=
  match outs, ws with
  | o :: outs', w :: ws' =>
      count_votes_loop outs' ws'
        (if o =? 1 then map2 (fun v t => wrap16 (v + t)) votes w else votes)
  | _, _ => votes
  end.

Definition count_votes (b : block) : block :=
  mkBlock (b_nlit b) (b_ncls b) (b_clauses b) (b_weights b) (b_outputs b) (b_counts b)
          (count_votes_loop (b_outputs b) (b_weights b) (repeat 0 (b_ncls b)))
          (b_budget b) (b_s_inv b) (b_s_min1_inv b) (b_rng b) (b_fast b).

(** *** Feedback *)

(** "if(x < 127) x += 1"  on int8 (func_tm.hpp:317-318). *)
Definition inc_sat (v : Z) : Z := if v <? 127 then wrap8 (v + 1) else v.
(** "if(x > -127) x -= 1"  on int8 (func_tm.hpp:333-334). *)
Definition dec_sat (v : Z) : Z := if v >? -127 then wrap8 (v - 1) else v.

(** u(state.rng) <= p *)
Definition draw_le (r : rng) (p : Q) : bool * rng :=
  let '(u, r') := next_u r in (Qle_bool u p, r').
(** fast_rng.next_u() < p *)
Definition draw_lt (r : rng) (p : Q) : bool * rng :=
  let '(u, r') := next_u r in (Qlt_bool u p, r').

(** Type1aFeedbackTM (func_tm.hpp:293-355), in the loop's draw order. *)
Fixpoint type1a (boost : bool) (s_inv s_min1_inv : Q) (pos neg lits : list Z) (r : rng)
  : list Z * list Z * rng :=
  match pos, neg, lits with
  | p :: pos', q :: neg', l :: lits' =>
      if l =? 1 then
        let '(p1, r) :=
          if boost then (inc_sat p, r)
          else let '(d, r) := draw_le r s_min1_inv in (if d then inc_sat p else p, r) in
        let '(d, r) := draw_le r s_inv in
        let q1 := if d then dec_sat q else q in
        let '(ps, qs, r) := type1a boost s_inv s_min1_inv pos' neg' lits' r in
        (p1 :: ps, q1 :: qs, r)
      else
        let '(d, r) := draw_le r s_inv in
        let p1 := if d then dec_sat p else p in
        let '(d, r) := draw_le r s_min1_inv in
        let q1 := if d then inc_sat q else q in
        let '(ps, qs, r) := type1a boost s_inv s_min1_inv pos' neg' lits' r in
        (p1 :: ps, q1 :: qs, r)
  | _, _, _ => (pos, neg, r)
  end.

(** Type1bFeedbackTM (func_tm.hpp:357-389). *)
Fixpoint type1b (s_inv : Q) (pos neg : list Z) (r : rng) : list Z * list Z * rng :=
  match pos, neg with
  | p :: pos', q :: neg' =>
      let '(d, r) := draw_le r s_inv in
      let p1 := if d then dec_sat p else p in
      let '(d, r) := draw_le r s_inv in
      let q1 := if d then dec_sat q else q in
      let '(ps, qs, r) := type1b s_inv pos' neg' r in
      (p1 :: ps, q1 :: qs, r)
  | _, _ => (pos, neg, r)
  end.

(** Type2FeedbackTM (func_tm.hpp:392-415). *)
Fixpoint type2 (pos neg lits : list Z) : list Z * list Z :=
  match pos, neg, lits with
  | p :: pos', q :: neg', l :: lits' =>
      let '(ps, qs) := type2 pos' neg' lits' in
      if l =? 0 then ((if p <? 0 then wrap8 (p + 1) else p) :: ps, q :: qs)
      else (p :: ps, (if q <? 0 then wrap8 (q + 1) else q) :: qs)
  | _, _, _ => (pos, neg)
  end.

(** ClauseUpdateTM (func_tm.hpp:260-291): new clause, new weight, new rng. *)
Definition clause_update (boost : bool) (s_inv s_min1_inv : Q) (c : clause) (w : Z)
  (target : Z) (lits : list Z) (output : Z) (r : rng) : clause * Z * rng :=
  let sign := if w >=? 0 then 1 else -1 in
  if target * sign >? 0 then
    if output =? 1 then
      let w := wrap16 (w + sign) in
      let '(p, q, r) := type1a boost s_inv s_min1_inv (cl_pos c) (cl_neg c) lits r in
      (mkClause p q, w, r)
    else
      let '(p, q, r) := type1b s_inv (cl_pos c) (cl_neg c) r in
      (mkClause p q, w, r)
  else if (target * sign <? 0) && (output =? 1) then
    let w := wrap16 (w - sign) in
    let '(p, q) := type2 (cl_pos c) (cl_neg c) lits in
    (mkClause p q, w, r)
  else (c, w, r).

(** Body of the clause loop of TrainUpdateTM (func_tm.hpp:234-256) for one
    clause: budget check, positive draw, negative draw. Returns the new
    clause, weights row, stored output and both generators. *)
Definition train_update_clause (budget_on boost : bool) (budget : Z) (s_inv s_min1_inv : Q)
  (lits : list Z) (pc : nat) (pp : Q) (nc : nat) (np : Q)
  (c : clause) (ws : list Z) (out count : Z) (r fast : rng)
  : clause * list Z * Z * rng * rng :=
  let out := if budget_on && (count >? budget) then 0 else out in
  let '(d, fast) := draw_lt fast pp in
  let '(c, ws, r) :=
    if d then
      let '(c', w', r') := clause_update boost s_inv s_min1_inv c (nth pc ws 0) 1 lits out r in
      (c', set_nth pc w' ws, r')
    else (c, ws, r) in
  let '(d, fast) := draw_lt fast np in
  let '(c, ws, r) :=
    if d then
      let '(c', w', r') := clause_update boost s_inv s_min1_inv c (nth nc ws 0) (-1) lits out r in
      (c', set_nth nc w' ws, r')
    else (c, ws, r) in
  (c, ws, out, r, fast).

(** Clause loop of TrainUpdateTM (func_tm.hpp:227-258). [counts] is read only
    when [budget_on]. *)
Fixpoint train_update_loop (budget_on boost : bool) (budget : Z) (s_inv s_min1_inv : Q)
  (lits : list Z) (pc : nat) (pp : Q) (nc : nat) (np : Q)
  (cs : list clause) (wss : list (list Z)) (outs counts : list Z) (r fast : rng)
  : list clause * list (list Z) * list Z * rng * rng :=
  match cs, wss, outs with
  | c :: cs', ws :: wss', o :: outs' =>
      let '(c1, ws1, o1, r, fast) :=
        train_update_clause budget_on boost budget s_inv s_min1_inv lits pc pp nc np
          c ws o (hd 0 counts) r fast in
      let '(cs2, wss2, outs2, r, fast) :=
        train_update_loop budget_on boost budget s_inv s_min1_inv lits pc pp nc np
          cs' wss' outs' (tl counts) r fast in
      (c1 :: cs2, ws1 :: wss2, o1 :: outs2, r, fast)
  | _, _, _ => (cs, wss, outs, r, fast)
  end.

Definition train_update (budget_on boost : bool) (lits : list Z) (pc : nat) (pp : Q) (nc : nat) (np : Q)
  (b : block) : block :=
  let '(cs, wss, outs, r, fast) :=
    train_update_loop budget_on boost (b_budget b) (b_s_inv b) (b_s_min1_inv b) lits pc pp nc np
      (b_clauses b) (b_weights b) (b_outputs b) (b_counts b) (b_rng b) (b_fast b) in
  mkBlock (b_nlit b) (b_ncls b) cs wss outs (b_counts b) (b_votes b) (b_budget b)
          (b_s_inv b) (b_s_min1_inv b) r fast.

(** *** Initialisation (func_tm.hpp:13-74) *)

(** init_clauses: each automaton is drawn from {-1, 0}
    (uniform_int_distribution, func_tm.hpp:50-59).  The distribution over the
    engine is an oracle: a draw <= 1/2 stands for -1, any other for 0. *)
Fixpoint init_row (n : nat) (r : rng) : list Z * rng :=
  match n with
  | O => ([], r)
  | S k => let '(u, r) := next_u r in
           let '(t, r) := init_row k r in
           ((if Qle_bool u (1#2) then -1 else 0) :: t, r)
  end.

Fixpoint init_clauses (nlit ncl : nat) (r : rng) : list clause * rng :=
  match ncl with
  | O => ([], r)
  | S k => let '(p, r) := init_row nlit r in
           let '(q, r) := init_row nlit r in
           let '(t, r) := init_clauses nlit k r in
           (mkClause p q :: t, r)
  end.

(** init_clause_weights: +1 if next_u() > 0.5, else -1 (func_tm.hpp:61-73). *)
Fixpoint init_weight_row (n : nat) (r : rng) : list Z * rng :=
  match n with
  | O => ([], r)
  | S k => let '(u, r) := next_u r in
           let '(t, r) := init_weight_row k r in
           ((if Qlt_bool (1#2) u then 1 else -1) :: t, r)
  end.

Fixpoint init_weights (ncls ncl : nat) (r : rng) : list (list Z) * rng :=
  match ncl with
  | O => ([], r)
  | S k => let '(w, r) := init_weight_row ncls r in
           let '(t, r) := init_weights ncls k r in
           (w :: t, r)
  end.

(** InitializeTM::operator() (func_tm.hpp:17-46).  [std_of], [fast_of] map a
    seed to the seeded generators; [junk] is the uninitialised literal_counts
    array.  Fails (None) exactly on seed 0. *)
Definition initialize (std_of fast_of : Z -> rng) (junk : list Z)
  (nlit ncl ncls : nat) (budget : Z) (s_inv s_min1_inv : Q) (seed : Z) : option block :=
  if seed =? 0 then None
  else
    let '(cs, r) := init_clauses nlit ncl (std_of seed) in
    let '(ws, f) := init_weights ncls ncl (fast_of seed) in
    Some (mkBlock nlit ncls cs ws (repeat 0 ncl) junk (repeat 0 ncls) budget s_inv s_min1_inv r f).
