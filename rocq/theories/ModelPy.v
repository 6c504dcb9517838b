(** Model of the pure python fallback backend: green_tsetlin/py_gtc
    (tsetlin_state.py, clause_block.py, feedback_block.py, executors.py,
    dense_input_block.py), dense state; TsetlinStateSparse is in
    ModelPySparse.v. *)
From Coq Require Import ZArith List Bool QArith Lia.
From Verif Require Import Base ModelInference ModelDense ModelFeedback ModelExecutor.
Import ListNotations.
Open Scope Z_scope.

(** Members of TsetlinState (tsetlin_state.py:6-28) together with the outputs
    kept by ClauseBlock (clause_block.py:94-98).  An automata row has
    2*n_literals int8 entries, a weight row n_classes int8 entries.  [p_s] is a
    non-zero float taken as an exact rational. *)
Record pyblock := mkPy {
  p_nlit : nat;                  (* n_literals *)
  p_ncls : nat;                  (* n_classes *)
  p_rows : list (list Z);        (* clauses, int8 *)
  p_weights : list (list Z);     (* clause_weights, int8 *)
  p_outputs : list Z;            (* ClauseBlock.clause_outputs, uint8 *)
  p_counts : list Z;             (* literal_counts, int32 *)
  p_budget : option Z;           (* literal_budget *)
  p_do_budget : bool;            (* do_literal_budget *)
  p_s : Q;                       (* s *)
  p_rng : rng                    (* self.rng, the only generator of the block *)
}.

(** ** Clause outputs *)

(** Inner loop of set_clause_output (tsetlin_state.py:52-76), literal_k from [k]
    for [n] rounds. *)
Fixpoint py_set_loop (do_budget : bool) (nlit : nat) (row lits : list Z) (n k : nat) (pc nc : Z) : Z * Z :=
  match n with
  | O => (1, pc + nc)
  | S n' =>
      if (nth k row 0 >=? 0) && (nth k lits 0 =? 0) then (0, pc + nc)
      else
        let pc := if (nth k row 0 >=? 0) && do_budget then pc + 1 else pc in
        if (nth (k + nlit) row 0 >=? 0) && (nth k lits 0 =? 1) then (0, pc + nc)
        else
          let nc := if (nth (k + nlit) row 0 >=? 0) && do_budget then nc + 1 else nc in
          py_set_loop do_budget nlit row lits n' (S k) pc nc
  end.

Definition py_set_output (do_budget : bool) (nlit : nat) (lits row : list Z) : Z * Z :=
  py_set_loop do_budget nlit row lits nlit 0 0 0.

(** Inner loop of eval_clause_output (tsetlin_state.py:87-103). *)
Fixpoint py_eval_loop (nlit : nat) (row lits : list Z) (n k : nat) (is_empty : bool) : Z :=
  match n with
  | O => if is_empty then 0 else 1
  | S n' =>
      let is_empty := if nth k row 0 >? 0 then false else is_empty in
      if (nth k row 0 >? 0) && (nth k lits 0 =? 0) then 0
      else
        let is_empty := if nth (k + nlit) row 0 >? 0 then false else is_empty in
        if (nth (k + nlit) row 0 >? 0) && (nth k lits 0 =? 1) then 0
        else py_eval_loop nlit row lits n' (S k) is_empty
  end.

Definition py_eval_output (nlit : nat) (lits row : list Z) : Z :=
  py_eval_loop nlit row lits nlit 0 true.

Definition py_with_outputs (p : pyblock) (outs counts : list Z) : pyblock :=
  mkPy (p_nlit p) (p_ncls p) (p_rows p) (p_weights p) outs counts (p_budget p) (p_do_budget p) (p_s p) (p_rng p).

(** set_clause_output (tsetlin_state.py:40-76). *)
Definition py_train_output (lits : list Z) (p : pyblock) : pyblock :=
  let rs := map (py_set_output (p_do_budget p) (p_nlit p) lits) (p_rows p) in
  py_with_outputs p (map fst rs) (if p_do_budget p then map snd rs else p_counts p).

(** eval_clause_output (tsetlin_state.py:78-105). *)
Definition py_eval_set (lits : list Z) (p : pyblock) : pyblock :=
  py_with_outputs p (map (py_eval_output (p_nlit p) lits) (p_rows p)) (p_counts p).

(** vote_counter (tsetlin_state.py:214-217): np.dot of a uint8 vector and an
    int8 matrix has dtype int16; the sum is taken modulo 2^16. *)
Definition py_votes (p : pyblock) : list Z :=
  map (fun c => wrap16 (zsum (map2 (fun o w => o * nth c w 0) (p_outputs p) (p_weights p))))
      (seq 0 (p_ncls p)).

(** ClauseBlock.train_example / eval_example (clause_block.py:77-86): new block
    and the votes handed to register_votes. *)
Definition py_train_ex (lits : list Z) (p : pyblock) : pyblock * list Z :=
  let p := py_train_output lits p in (p, py_votes p).
Definition py_eval_ex (lits : list Z) (p : pyblock) : pyblock * list Z :=
  let p := py_eval_set lits p in (p, py_votes p).

(** ** Training *)

(** "if row[i] < 127: row[i] += 1" and "if row[i] > -127: row[i] -= 1" on int8
    (tsetlin_state.py:161-162, 166-167). *)
Definition row_up (i : nat) (row : list Z) : list Z := set_nth i (inc_sat (nth i row 0)) row.
Definition row_down (i : nat) (row : list Z) : list Z := set_nth i (dec_sat (nth i row 0)) row.

(** Loop body of T1aFeedback (tsetlin_state.py:152-178); use_boost_true_positive
    is always False. *)
Definition py_t1a_step (nlit : nat) (si sm : Q) (lits : list Z) (st : list Z * rng) (k : nat) : list Z * rng :=
  let '(row, r) := st in
  if nth k lits 0 =? 1 then
    let '(d, r) := draw_le r sm in
    let row := if d then row_up k row else row in
    let '(d, r) := draw_le r si in
    (if d then row_down (k + nlit) row else row, r)
  else
    let '(d, r) := draw_le r si in
    let row := if d then row_down k row else row in
    let '(d, r) := draw_le r sm in
    (if d then row_up (k + nlit) row else row, r).

(** T1aFeedback (tsetlin_state.py:142-178). *)
Definition py_t1a (nlit : nat) (s : Q) (lits row : list Z) (r : rng) : list Z * rng :=
  fold_left (py_t1a_step nlit (1 / s) ((s - 1) / s) lits) (seq 0 nlit) (row, r).

(** T1bFeedback (tsetlin_state.py:181-196). *)
Definition py_t1b_step (nlit : nat) (si : Q) (st : list Z * rng) (k : nat) : list Z * rng :=
  let '(row, r) := st in
  let '(d, r) := draw_le r si in
  let row := if d then row_down k row else row in
  let '(d, r) := draw_le r si in
  (if d then row_down (k + nlit) row else row, r).
Definition py_t1b (nlit : nat) (s : Q) (row : list Z) (r : rng) : list Z * rng :=
  fold_left (py_t1b_step nlit (1 / s)) (seq 0 nlit) (row, r).

(** T2Feedback (tsetlin_state.py:200-210). *)
Definition row_t2 (i : nat) (row : list Z) : list Z :=
  if nth i row 0 <? 0 then set_nth i (wrap8 (nth i row 0 + 1)) row else row.
Definition py_t2_step (nlit : nat) (lits row : list Z) (k : nat) : list Z :=
  if nth k lits 0 =? 0 then row_t2 k row else row_t2 (k + nlit) row.
Definition py_t2 (nlit : nat) (lits row : list Z) : list Z :=
  fold_left (py_t2_step nlit lits) (seq 0 nlit) row.

(** update_clause (tsetlin_state.py:123-138); the weight is stored in an int8
    array. *)
Definition py_update_clause (nlit : nat) (s : Q) (row ws : list Z) (target : Z) (lits : list Z)
  (out : Z) (c : nat) (r : rng) : list Z * list Z * rng :=
  let w := nth c ws 0 in
  let sign := if w >=? 0 then 1 else -1 in
  if target * sign >? 0 then
    if out =? 1 then
      let '(row, r) := py_t1a nlit s lits row r in (row, set_nth c (wrap8 (w + sign)) ws, r)
    else
      let '(row, r) := py_t1b nlit s row r in (row, ws, r)
  else if (target * sign <? 0) && (out =? 1) then
    (py_t2 nlit lits row, set_nth c (wrap8 (w - sign)) ws, r)
  else (row, ws, r).

(** Body of the clause loop of train_update (tsetlin_state.py:109-120). *)
Definition py_train_clause (do_budget : bool) (budget : Z) (nlit : nat) (s : Q) (lits : list Z)
  (pc : nat) (pp : Q) (nc : nat) (np : Q) (row ws : list Z) (out count : Z) (r : rng)
  : list Z * list Z * Z * rng :=
  let out := if do_budget && (count >? budget) then 0 else out in
  let '(d, r) := draw_lt r pp in
  let '(row, ws, r) := if d then py_update_clause nlit s row ws 1 lits out pc r else (row, ws, r) in
  let '(d, r) := draw_lt r np in
  let '(row, ws, r) := if d then py_update_clause nlit s row ws (-1) lits out nc r else (row, ws, r) in
  (row, ws, out, r).

Fixpoint py_train_loop (do_budget : bool) (budget : Z) (nlit : nat) (s : Q) (lits : list Z)
  (pc : nat) (pp : Q) (nc : nat) (np : Q) (rows wss : list (list Z)) (outs counts : list Z) (r : rng)
  : list (list Z) * list (list Z) * list Z * rng :=
  match rows, wss, outs with
  | row :: rows', ws :: wss', o :: outs' =>
      let '(row, ws, o, r) :=
        py_train_clause do_budget budget nlit s lits pc pp nc np row ws o (hd 0 counts) r in
      let '(rows', wss', outs', r) :=
        py_train_loop do_budget budget nlit s lits pc pp nc np rows' wss' outs' (tl counts) r in
      (row :: rows', ws :: wss', o :: outs', r)
  | _, _, _ => (rows, wss, outs, r)
  end.

(** train_update (tsetlin_state.py:107-120).  With do_literal_budget the budget
    is an int (None switches do_literal_budget off at initialize, line 27). *)
Definition py_train_update (lits : list Z) (pc : nat) (pp : Q) (nc : nat) (np : Q) (p : pyblock) : pyblock :=
  let budget := match p_budget p with Some b => b | None => 0 end in
  let '(rows, wss, outs, r) :=
    py_train_loop (p_do_budget p) budget (p_nlit p) (p_s p) lits pc pp nc np
      (p_rows p) (p_weights p) (p_outputs p) (p_counts p) (p_rng p) in
  mkPy (p_nlit p) (p_ncls p) rows wss outs (p_counts p) (p_budget p) (p_do_budget p) (p_s p) r.

(** initialize (tsetlin_state.py:17-28): rng.choice over {-1,0} and {-1,1} is an
    oracle as in [ModelDense.init_row].  Any seed is accepted; a
    do_literal_budget that is already False stays False. *)
Fixpoint py_init_rows (len n : nat) (r : rng) : list (list Z) * rng :=
  match n with
  | O => ([], r)
  | S k => let '(row, r) := init_row len r in
           let '(t, r) := py_init_rows len k r in (row :: t, r)
  end.
Definition py_initialize (rng_of : Z -> rng) (nlit ncl ncls : nat) (budget : option Z) (do_budget : bool)
  (s : Q) (seed : Z) : pyblock :=
  let '(rows, r) := py_init_rows (nlit * 2) ncl (rng_of seed) in
  let '(ws, r) := init_weights ncls ncl r in
  mkPy nlit ncls rows ws [] (repeat 0 ncl) budget
       (match budget with None => false | Some b => if b =? 32700 then false else do_budget end) s r.

(** ** FeedbackBlock (feedback_block.py); the record is that of ModelFeedback,
    with m_votes an array of any integer dtype and probabilities exact (the code
    rounds them to float32). *)

(** reset (18-19).  The array filled is the one registered last, shared with the
    clause block that made it; that block replaces its own on the next example,
    so the sharing is not modelled. *)
Definition py_reset (f : fblock) : fblock := fb_reset f.

(** register_votes (22-23): the votes are replaced. *)
Definition py_register (v : list Z) (f : fblock) : fblock :=
  mkFb (fb_ncls f) (fb_thr f) v (fb_probs f) (fb_pos f) (fb_neg f)
       (fb_pp f) (fb_np f) (fb_correct f) (fb_total f) (fb_rng f).

(** Vote loop of process (31-39): strict improvement over -threshold. *)
Fixpoint py_predicted_loop (i best : nat) (bestv : Q) (votes : list Z) : nat :=
  match votes with
  | [] => best
  | v :: t => if Qlt_bool bestv (inject_Z v) then py_predicted_loop (S i) i (inject_Z v) t
              else py_predicted_loop (S i) best bestv t
  end.
Definition py_predicted (thr : Q) (votes : list Z) : nat := py_predicted_loop 0 0 (- thr) votes.

(** Generator.choice(n, p=...) (52): searchsorted(side="right") in the normalised
    cumulative sum, the first index whose value exceeds the draw. *)
Fixpoint py_pick (sum acc u : Q) (i : nat) (ps : list Q) : nat :=
  match ps with
  | [] => i
  | p :: t => let acc' := (acc + p / sum)%Q in
              if Qlt_bool u acc' then i else py_pick sum acc' u (S i) t
  end.

(** (T - clip(v)) / (2T) + 1e-16 (56-57). *)
Definition py_pos_prob (T : Q) (v : Z) : Q := (pos_prob T v + eps)%Q.

(** process (26-58).  A zero sum makes p NaN, which choice rejects with
    ValueError; the fields written before remain, the block is not used again. *)
Definition py_process (label : nat) (f : fblock) : res fblock :=
  let votes := firstn (fb_ncls f) (fb_votes f) in
  let probs := map (neg_prob (fb_thr f)) votes in
  let correct := if Nat.eqb (py_predicted (fb_thr f) votes) label then fb_correct f + 1 else fb_correct f in
  let probs := set_nth label 0%Q probs in
  if Qeq_bool (qsum probs) 0 then Raise ValueError
  else
    let '(u, r) := next_u (fb_rng f) in
    let neg := py_pick (qsum probs) 0 u 0 probs in
    Ok (mkFb (fb_ncls f) (fb_thr f) (fb_votes f) probs label neg
          (py_pos_prob (fb_thr f) (nth label (fb_votes f) 0)) (nth neg probs 0%Q)
          correct (fb_total f + 1) r).

(** predict (61-71). *)
Definition py_predict (f : fblock) : nat := argmax (firstn (fb_ncls f) (fb_votes f)).

(** ** SingleThreadExecutor (executors.py:6-127) *)

Record pyexec := mkPx {
  px_blocks : list (bool * pyblock);   (* with the trainable flag *)
  px_fb : fblock;
  px_rng : irng
}.

(** Loop over the clause blocks (71-77, 113-114). *)
Fixpoint py_run_examples (f : list Z -> pyblock -> pyblock * list Z) (e : list Z) (bs : list (bool * pyblock)) (fb : fblock)
  : list (bool * pyblock) * fblock :=
  match bs with
  | [] => ([], fb)
  | (t, b) :: bs' =>
      let '(b1, v) := f e b in
      let '(bs2, fb2) := py_run_examples f e bs' (py_register v fb) in
      ((t, b1) :: bs2, fb2)
  end.

(** Update loop over the trainable blocks (90-99). *)
Definition py_run_updates (e : list Z) (fb : fblock) (bs : list (bool * pyblock)) : list (bool * pyblock) :=
  map (fun tb : bool * pyblock =>
         let (t, b) := tb in
         if t then (t, py_train_update e (fb_pos fb) (fb_pp fb) (fb_neg fb) (fb_np fb) b) else (t, b)) bs.

(** One example of train_slice (64-99). *)
Definition py_train_one (d : list Z * nat) (bs : list (bool * pyblock)) (fb : fblock)
  : res (list (bool * pyblock) * fblock) :=
  let '(bs, fb) := py_run_examples py_train_ex (fst d) bs (py_reset fb) in
  match py_process (snd d) fb with
  | Raise x => Raise x
  | Ok fb => Ok (py_run_updates (fst d) fb bs, fb)
  end.

Fixpoint py_train_list (ds : list (list Z * nat)) (bs : list (bool * pyblock)) (fb : fblock)
  : res (list (bool * pyblock) * fblock) :=
  match ds with
  | [] => Ok (bs, fb)
  | d :: ds' => match py_train_one d bs fb with
                | Raise x => Raise x
                | Ok (bs, fb) => py_train_list ds' bs fb
                end
  end.

(** train_epoch with its train_slice(0, n) (46-99). *)
Definition py_train_epoch (data : list (list Z * nat)) (x : pyexec) : res (Q * pyexec) :=
  let '(idx, r) := shuffle (seq 0 (length data)) (px_rng x) in
  match py_train_list (select (list Z) nat data idx) (px_blocks x) (fb_reset_counter (px_fb x)) with
  | Raise e => Raise e
  | Ok (bs, fb) => Ok (fb_accuracy fb, mkPx bs fb r)
  end.

(** eval_predict (101-119). *)
Fixpoint py_eval_list (es : list (list Z)) (bs : list (bool * pyblock)) (fb : fblock)
  : list nat * list (bool * pyblock) * fblock :=
  match es with
  | [] => ([], bs, fb)
  | e :: es' =>
      let '(bs, fb) := py_run_examples py_eval_ex e bs (py_reset fb) in
      let y := py_predict fb in
      let '(ys, bs, fb) := py_eval_list es' bs fb in
      (y :: ys, bs, fb)
  end.
Definition py_eval_predict (data : list (list Z * nat)) (out : list nat) (x : pyexec) : bool * list nat * pyexec :=
  if negb (Nat.eqb (length out) (length data)) then (false, out, x)
  else
    let '(ys, bs, fb) := py_eval_list (map fst data) (px_blocks x) (px_fb x) in
    (true, ys, mkPx bs fb (px_rng x)).

(** DenseInputBlock.prepare_example (dense_input_block.py:48-53): both arrays are
    indexed with index * labels_per_example, which is the index itself for one
    label per example.  Without labels the factor is 0, and m_labels is the empty
    array, whose access raises. *)
Definition py_prepare (x : list (list Z)) (y : list Z) (per : nat) (i : nat) : res (list Z * Z) :=
  match nth_error y (i * per), nth_error x (i * per) with
  | Some l, Some e => Ok (e, l)
  | _, _ => Raise IndexError
  end.
