(** Model of the sparse state of the pure python backend: TsetlinStateSparse
    (green_tsetlin/py_gtc/tsetlin_state.py:227-491), ClauseBlockSparse
    (clause_block.py:117-134), SparseInputBlock.prepare_example
    (dense_input_block.py:108-115) and the executor loop over such blocks.
    Line numbers without a file are those of tsetlin_state.py. *)
From Coq Require Import ZArith List Bool QArith Lia.
From Verif Require Import Base ModelInference ModelDense ModelFeedback ModelExecutor ModelSparse ModelPy.
Import ListNotations.
Open Scope Z_scope.

(** Members of TsetlinStateSparse (228-243, 245-259) and the outputs kept by
    ClauseBlock (clause_block.py:94-98).  Automata are python ints without bound.
    List k of [q_index] and [q_states] holds the positive literals of clause k,
    list k + n_clauses its negated literals.  t = 20 and al_size = 7 are set once
    (242-243). *)
Record psblock := mkPS {
  q_nlit : nat;                  (* n_literals *)
  q_ncl : nat;                   (* n_clauses *)
  q_ncls : nat;                  (* n_classes *)
  q_index : list (list nat);     (* clause_indexes *)
  q_states : list (list Z);      (* clauses *)
  q_al : list (list nat);        (* active_literals *)
  q_weights : list (list Z);     (* clause_weights, int8 *)
  q_outputs : list Z;            (* ClauseBlock.clause_outputs, int32 *)
  q_counts : list Z;             (* literal_counts, int32 *)
  q_budget : option Z;           (* literal_budget *)
  q_do_budget : bool;            (* do_literal_budget *)
  q_s : Q;                       (* s *)
  q_rng : rng
}.

Definition rbind {A B} (x : res A) (f : A -> res B) : res B :=
  match x with Ok a => f a | Raise e => Raise e end.
Fixpoint rfold {A S} (f : S -> A -> res S) (l : list A) (s : S) : res S :=
  match l with [] => Ok s | a :: t => rbind (f s a) (rfold f t) end.
Fixpoint rmap {A B} (f : A -> res B) (l : list A) : res (list B) :=
  match l with [] => Ok [] | a :: t => rbind (f a) (fun b => rbind (rmap f t) (fun bs => Ok (b :: bs))) end.

(** l[k] on a python list of lists, 0 <= k. *)
Definition item_at {A} (l : list A) (k : nat) : res A :=
  match nth_error l k with Some a => Ok a | None => Raise IndexError end.

(** ** Clause outputs *)

(** "for i, ta in enumerate(indexes): if states[i] > 0 and (ta not in literals)"
    (298-300, 317-319) and with "in" (302-304, 321-323): true when some automaton
    switches the clause off.  The two lists have the same length. *)
Definition ps_misses (lits : list nat) (ix : list nat) (st : list Z) : bool :=
  existsb (fun p => (snd p >? 0) && negb (memb (fst p) lits)) (combine ix st).
Definition ps_hits (lits : list nat) (ix : list nat) (st : list Z) : bool :=
  existsb (fun p => (snd p >? 0) && memb (fst p) lits) (combine ix st).

(** One clause of set_clause_output (292-304).  The second test of line 294 looks
    at list clause_k + n_classes. *)
Definition ps_set_clause (lits : list nat) (b : psblock) (k : nat) : res Z :=
  rbind (item_at (q_states b) k) (fun sp =>
  rbind (if (length sp =? 0)%nat
         then rbind (item_at (q_states b) (k + q_ncls b)) (fun s => Ok (length s =? 0)%nat)
         else Ok false) (fun skip : bool =>
  if skip then Ok 1
  else Ok (if ps_misses lits (nth k (q_index b) []) (nth k (q_states b) [])
              || ps_hits lits (nth (k + q_ncl b) (q_index b) []) (nth (k + q_ncl b) (q_states b) [])
           then 0 else 1))).

(** set_clause_output (287-307). *)
Definition ps_set_output (lits : list nat) (b : psblock) : res (list Z) :=
  rmap (ps_set_clause lits b) (seq 0 (q_ncl b)).

(** One round of the loop of eval_clause_output (315-323), which runs over
    range(n_classes).  For clause_k >= n_clauses line 321 at the latest
    raises IndexError. *)
Definition ps_eval_clause (lits : list nat) (b : psblock) (outs : list Z) (k : nat) : res (list Z) :=
  if (k <? q_ncl b)%nat then
    Ok (if ps_misses lits (nth k (q_index b) []) (nth k (q_states b) [])
           || ps_hits lits (nth (k + q_ncl b) (q_index b) []) (nth (k + q_ncl b) (q_states b) [])
        then set_nth k 0 outs else outs)
  else Raise IndexError.

(** eval_clause_output (311-325). *)
Definition ps_eval_output (lits : list nat) (b : psblock) : res (list Z) :=
  rfold (ps_eval_clause lits b) (seq 0 (q_ncls b)) (repeat 1 (q_ncl b)).

(** vote_counter (328-331): np.dot of an int32 vector and an int8 matrix has dtype
    int32. *)
Definition ps_votes (b : psblock) : list Z :=
  map (fun c => wrap32 (zsum (map2 (fun o w => o * nth c w 0) (q_outputs b) (q_weights b))))
      (seq 0 (q_ncls b)).

Definition ps_with_outputs (b : psblock) (outs : list Z) : psblock :=
  mkPS (q_nlit b) (q_ncl b) (q_ncls b) (q_index b) (q_states b) (q_al b) (q_weights b) outs (q_counts b)
       (q_budget b) (q_do_budget b) (q_s b) (q_rng b).

(** ClauseBlock.train_example / eval_example (clause_block.py:77-86). *)
Definition ps_train_ex (lits : list nat) (b : psblock) : res (psblock * list Z) :=
  rbind (ps_set_output lits b) (fun o => let b := ps_with_outputs b o in Ok (b, ps_votes b)).
Definition ps_eval_ex (lits : list nat) (b : psblock) : res (psblock * list Z) :=
  rbind (ps_eval_output lits b) (fun o => let b := ps_with_outputs b o in Ok (b, ps_votes b)).

(** ** Feedback *)

(** update_al (468-478), always called with dynamic_AL = True. *)
Definition ps_update_al (al : list nat) (lit : nat) : list nat :=
  if (length al <? 7)%nat then if memb lit al then al else al ++ [lit]
  else if memb lit al then al else tl al ++ [lit].

(** int(np.where(indexes == lit)[0]) (397, 406): fails unless there is exactly one
    position. *)
Definition ps_where (ix : list nat) (lit : nat) : res nat :=
  match filter (fun i => (nth i ix O =? lit)%nat) (seq 0 (length ix)) with
  | [i] => Ok i
  | _ => Raise TypeError
  end.

(** One literal of the example on one side of the clause (395-401, 404-410). *)
Definition ps_touch (p : Q) (d : Z) (ix : list nat) (st : list Z) (al : list nat) (lit : nat) (r : rng)
  : res (list Z * list nat * rng) :=
  if memb lit ix then
    let '(hit, r) := draw_le r p in
    if hit then rbind (ps_where ix lit) (fun i => Ok (set_nth i (nth i st 0 + d) st, al, r)) else Ok (st, al, r)
  else Ok (st, ps_update_al al lit, r).

(** Loop over the literals of the example in T1aFeedback (394-410): states of both
    sides, active literals of the class (positive, negated), generator. *)
Definition ps_t1a_lit (si sm : Q) (pix nix : list nat) (s : list Z * list Z * list nat * list nat * rng) (lit : nat)
  : res (list Z * list Z * list nat * list nat * rng) :=
  let '(ps, ns, ap, an, r) := s in
  rbind (ps_touch sm 1 pix ps ap lit r) (fun '(ps, ap, r) =>
  rbind (ps_touch si (-1) nix ns an lit r) (fun '(ns, an, r) => Ok (ps, ns, ap, an, r))).

(** Automata of literals outside the example (413-423). *)
Fixpoint ps_drift (p : Q) (d : Z) (lits ix : list nat) (st : list Z) (r : rng) : list Z * rng :=
  match ix, st with
  | ta :: ix', v :: st' =>
      if memb ta lits then let '(t, r) := ps_drift p d lits ix' st' r in (v :: t, r)
      else let '(hit, r) := draw_le r p in
           let '(t, r) := ps_drift p d lits ix' st' r in ((if hit then v + d else v) :: t, r)
  | _, _ => (st, r)
  end.

(** T1aFeedback (384-423); s is not 0. *)
Definition ps_t1a (s : Q) (lits : list nat) (q : rows2) (ap an : list nat) (r : rng) : res (rows2 * list nat * list nat * rng) :=
  let si := (1 / s)%Q in let sm := ((s - 1) / s)%Q in
  rbind (rfold (ps_t1a_lit si sm (r_prow q) (r_nrow q)) lits (r_psts q, r_nsts q, ap, an, r)) (fun '(ps, ns, ap, an, r) =>
  let '(ps, r) := ps_drift si (-1) lits (r_prow q) ps r in
  let '(ns, r) := ps_drift sm 1 lits (r_nrow q) ns r in
  Ok (mkR (r_prow q) ps (r_nrow q) ns, ap, an, r)).

(** T1bFeedback (426-437). *)
Fixpoint ps_fall (p : Q) (st : list Z) (r : rng) : list Z * rng :=
  match st with
  | [] => ([], r)
  | v :: t => let '(hit, r) := draw_le r p in
              let '(t, r) := ps_fall p t r in ((if hit then v - 1 else v) :: t, r)
  end.
Definition ps_t1b (s : Q) (q : rows2) (r : rng) : rows2 * rng :=
  let '(ps, r) := ps_fall (1 / s) (r_psts q) r in
  let '(ns, r) := ps_fall (1 / s) (r_nsts q) r in
  (mkR (r_prow q) ps (r_nrow q) ns, r).

(** Automata raised by T2Feedback (442-451): [want] is membership in the example. *)
Fixpoint ps_t2_up (want : bool) (lits ix : list nat) (st : list Z) : list Z :=
  match ix, st with
  | ta :: ix', v :: st' =>
      (if Bool.eqb (memb ta lits) want && (v <=? 0) then v + 1 else v) :: ps_t2_up want lits ix' st'
  | _, _ => st
  end.
(** Active literals added by it (455-464). *)
Definition ps_t2_add (want : bool) (lits : list nat) (q : list nat * list Z) (lit : nat) : list nat * list Z :=
  if negb (memb lit (fst q)) && Bool.eqb (memb lit lits) want then (fst q ++ [lit], snd q ++ [0]) else q.
(** T2Feedback (440-464). *)
Definition ps_t2 (lits : list nat) (q : rows2) (ap an : list nat) : rows2 :=
  let '(p, ps) := fold_left (ps_t2_add false lits) ap (r_prow q, ps_t2_up false lits (r_prow q) (r_psts q)) in
  let '(n, ns) := fold_left (ps_t2_add true lits) an (r_nrow q, ps_t2_up true lits (r_nrow q) (r_nsts q)) in
  mkR p ps n ns.

(** ** Updates *)

Definition ps_rows (b : psblock) (k : nat) : rows2 :=
  mkR (nth k (q_index b) []) (nth k (q_states b) []) (nth (k + q_ncl b) (q_index b) []) (nth (k + q_ncl b) (q_states b) []).

(** What an update of clause [k] for class [c] writes. *)
Definition ps_store (b : psblock) (k : nat) (q : rows2) (c : nat) (ap an : list nat) (w : Z) (r : rng) : psblock :=
  mkPS (q_nlit b) (q_ncl b) (q_ncls b)
       (set_nth (k + q_ncl b) (r_nrow q) (set_nth k (r_prow q) (q_index b)))
       (set_nth (k + q_ncl b) (r_nsts q) (set_nth k (r_psts q) (q_states b)))
       (set_nth (c + q_ncls b) an (set_nth c ap (q_al b)))
       (set_nth k (set_nth c w (nth k (q_weights b) [])) (q_weights b))
       (q_outputs b) (q_counts b) (q_budget b) (q_do_budget b) (q_s b) r.

(** update_clause (365-381); weights are stored in an int8 array. *)
Definition ps_update_clause (lits : list nat) (k : nat) (target : Z) (c : nat) (b : psblock) : res psblock :=
  let w := nth c (nth k (q_weights b) []) 0 in
  let sign := if w >=? 0 then 1 else -1 in
  let out := nth k (q_outputs b) 0 in
  let ap := nth c (q_al b) [] in
  let an := nth (c + q_ncls b) (q_al b) [] in
  if target * sign >? 0 then
    if out =? 1 then
      rbind (ps_t1a (q_s b) lits (ps_rows b k) ap an (q_rng b)) (fun '(q, ap, an, r) =>
      Ok (ps_store b k q c ap an (wrap8 (w + sign)) r))
    else let '(q, r) := ps_t1b (q_s b) (ps_rows b k) (q_rng b) in Ok (ps_store b k q c ap an w r)
  else if (target * sign <? 0) && (out =? 1) then
    Ok (ps_store b k (ps_t2 lits (ps_rows b k) ap an) c ap an (wrap8 (w - sign)) (q_rng b))
  else Ok b.

(** list.remove(v) and list.pop(i). *)
Fixpoint remove_first (v : Z) (l : list Z) : list Z :=
  match l with [] => [] | x :: t => if x =? v then t else x :: remove_first v t end.
Definition pop_at {A} (i : nat) (l : list A) : list A := firstn i l ++ skipn (S i) l.

(** Removal of automata below -t (348-354, 356-362): the loop runs over a copy of
    the states. *)
Fixpoint ps_prune (copy : list Z) (i : nat) (ix : list nat) (st : list Z) : list nat * list Z :=
  match copy with
  | [] => (ix, st)
  | v :: t => if v <? 0 - 20 then ps_prune t i (pop_at i ix) (remove_first v st) else ps_prune t (S i) ix st
  end.
Definition ps_prune_rows (q : rows2) : rows2 :=
  let '(p, ps) := ps_prune (r_psts q) 0 (r_prow q) (r_psts q) in
  let '(n, ns) := ps_prune (r_nsts q) 0 (r_nrow q) (r_nsts q) in
  mkR p ps n ns.

Definition ps_with_rows (b : psblock) (k : nat) (q : rows2) : psblock :=
  mkPS (q_nlit b) (q_ncl b) (q_ncls b)
       (set_nth (k + q_ncl b) (r_nrow q) (set_nth k (r_prow q) (q_index b)))
       (set_nth (k + q_ncl b) (r_nsts q) (set_nth k (r_psts q) (q_states b)))
       (q_al b) (q_weights b) (q_outputs b) (q_counts b) (q_budget b) (q_do_budget b) (q_s b) (q_rng b).
Definition ps_with_rng (b : psblock) (outs : list Z) (r : rng) : psblock :=
  mkPS (q_nlit b) (q_ncl b) (q_ncls b) (q_index b) (q_states b) (q_al b) (q_weights b) outs (q_counts b)
       (q_budget b) (q_do_budget b) (q_s b) r.

(** One clause of train_update (335-362).  literal_counts is never written after
    initialize. *)
Definition ps_train_clause (lits : list nat) (pc : nat) (pp : Q) (nc : nat) (np : Q) (b : psblock) (k : nat) : res psblock :=
  let budget := match q_budget b with Some z => z | None => 0 end in
  let outs := if q_do_budget b && (nth k (q_counts b) 0 >? budget) then set_nth k 0 (q_outputs b) else q_outputs b in
  let '(d, r) := draw_lt (q_rng b) pp in
  let b := ps_with_rng b outs r in
  rbind (if d then ps_update_clause lits k 1 pc b else Ok b) (fun b =>
  let '(d, r) := draw_lt (q_rng b) np in
  let b := ps_with_rng b (q_outputs b) r in
  rbind (if d then ps_update_clause lits k (-1) nc b else Ok b) (fun b =>
  Ok (ps_with_rows b k (ps_prune_rows (ps_rows b k))))).

(** train_update (333-362). *)
Definition ps_train_update (lits : list nat) (pc : nat) (pp : Q) (nc : nat) (np : Q) (b : psblock) : res psblock :=
  rfold (ps_train_clause lits pc pp nc np) (seq 0 (q_ncl b)) b.

(** initialize (245-259): no automata, weights as in the dense state. *)
Definition ps_initialize (rng_of : Z -> rng) (nlit ncl ncls : nat) (budget : option Z) (do_budget : bool)
  (s : Q) (seed : Z) : psblock :=
  let '(ws, r) := init_weights ncls ncl (rng_of seed) in
  mkPS nlit ncl ncls (repeat [] (ncl * 2)) (repeat [] (ncl * 2)) (repeat [] (ncls * 2)) ws [] (repeat 0 ncl) budget
       (match budget with None => false | Some b => if b =? 32700 then false else do_budget end) s r.

(** get_clause_state (484-487): the array passed in is returned as it is. *)
Definition ps_get_clause_state (src : list (list Z)) (offset : nat) (b : psblock) : list (list Z) := src.

(** SparseInputBlock.prepare_example (dense_input_block.py:108-115). *)
Definition ps_prepare (indices : list nat) (indptr : list nat) (i : nat) : list nat :=
  map (fun j => nth j indices O) (seq (nth i indptr O) (nth (S i) indptr O - nth i indptr O)).

(** ** SingleThreadExecutor (executors.py:46-119) over such blocks *)

Record psexec := mkPsx { sx_blocks : list (bool * psblock); sx_fb : fblock; sx_rng : irng }.

Fixpoint ps_run (f : list nat -> psblock -> res (psblock * list Z)) (e : list nat) (bs : list (bool * psblock)) (fb : fblock)
  : res (list (bool * psblock) * fblock) :=
  match bs with
  | [] => Ok ([], fb)
  | (t, b) :: bs' =>
      rbind (f e b) (fun '(b1, v) =>
      rbind (ps_run f e bs' (py_register v fb)) (fun '(bs2, fb2) => Ok ((t, b1) :: bs2, fb2)))
  end.

Definition ps_updates (e : list nat) (fb : fblock) (bs : list (bool * psblock)) : res (list (bool * psblock)) :=
  rmap (fun tb : bool * psblock =>
          let (t, b) := tb in
          if t then rbind (ps_train_update e (fb_pos fb) (fb_pp fb) (fb_neg fb) (fb_np fb) b) (fun b => Ok (t, b)) else Ok (t, b)) bs.

(** One example of train_slice (executors.py:64-99). *)
Definition ps_train_one (s : list (bool * psblock) * fblock) (d : list nat * nat) : res (list (bool * psblock) * fblock) :=
  rbind (ps_run ps_train_ex (fst d) (fst s) (py_reset (snd s))) (fun '(bs, fb) =>
  rbind (py_process (snd d) fb) (fun fb =>
  rbind (ps_updates (fst d) fb bs) (fun bs => Ok (bs, fb)))).

(** train_epoch (executors.py:46-99). *)
Definition ps_train_epoch (data : list (list nat * nat)) (x : psexec) : res (Q * psexec) :=
  let '(idx, r) := shuffle (seq 0 (length data)) (sx_rng x) in
  rbind (rfold ps_train_one (select (list nat) nat data idx) (sx_blocks x, fb_reset_counter (sx_fb x))) (fun '(bs, fb) =>
  Ok (fb_accuracy fb, mkPsx bs fb r)).

(** eval_predict (executors.py:101-119). *)
Fixpoint ps_eval_list (es : list (list nat)) (bs : list (bool * psblock)) (fb : fblock)
  : res (list nat * list (bool * psblock) * fblock) :=
  match es with
  | [] => Ok ([], bs, fb)
  | e :: es' =>
      rbind (ps_run ps_eval_ex e bs (py_reset fb)) (fun '(bs, fb) =>
      rbind (ps_eval_list es' bs fb) (fun '(ys, bs, fb') => Ok (py_predict fb :: ys, bs, fb')))
  end.
Definition ps_eval_predict (data : list (list nat * nat)) (out : list nat) (x : psexec) : res (bool * list nat * psexec) :=
  if negb (Nat.eqb (length out) (length data)) then Ok (false, out, x)
  else rbind (ps_eval_list (map fst data) (sx_blocks x) (sx_fb x)) (fun '(ys, bs, fb) => Ok (true, ys, mkPsx bs fb (sx_rng x))).
