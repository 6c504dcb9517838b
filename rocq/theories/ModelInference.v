(** Model of src/inference.hpp (class Inference) and of
    green_tsetlin/predictor.py (class Predictor). *)
From Coq Require Import ZArith List Bool Lia.
From Verif Require Import Base ModelRuleSet.
Import ListNotations.
Open Scope Z_scope.

(** Argmax loop shared by src/inference.hpp:154-165 (Inference::predict) and
    src/feedback_block.hpp:128-140 (FeedbackBlock::predict): start with class 0,
    replace on strictly larger votes.  [i] is the index of the head of [vs]. *)
Fixpoint argmax_loop (i best_k : nat) (best_v : Z) (vs : list Z) : nat :=
  match vs with
  | [] => best_k
  | v :: t => if v >? best_v then argmax_loop (S i) i v t else argmax_loop (S i) best_k best_v t
  end.

Definition argmax (votes : list Z) : nat :=
  match votes with
  | [] => O          (* m_votes[0] on an empty vector is undefined; n_classes >= 1 *)
  | v :: t => argmax_loop 1 0 v t
  end.

(** The mutable fields of Inference (src/inference.hpp:209-226). *)
Record inference := mkInf {
  inf_nlit : nat;
  inf_ncls : nat;
  inf_empty : nat;                (* m_empty_class, default 0 *)
  inf_rules : list (list nat);
  inf_weights : list (list Z);
  inf_active : list nat;          (* m_active_clauses *)
  inf_votes : list Z;             (* m_votes, int32 *)
  inf_imp : list Z;               (* m_importance_literals, int32 *)
  inf_example : list Z            (* m_example, 2*nlit bytes *)
}.

(** Constructor + set_rules (src/inference.hpp:25-42, 64-68); m_example is
    uninitialised memory: an arbitrary [junk]. *)
Definition new_inference (nlit ncls : nat) (rules : list (list nat)) (weights : list (list Z))
  (junk : list Z) : inference :=
  mkInf nlit ncls 0 rules weights [] (repeat 0 ncls) (repeat 0 (nlit * 2)) junk.

(** memcpy + negated copy (src/inference.hpp:128-130); uint8 "!" gives 1 for 0. *)
Definition extend_example (nlit : nat) (x : list Z) : list Z :=
  let e := firstn nlit x in e ++ map (fun v => if v =? 0 then 1 else 0) e.

(** Inner loop src/inference.hpp:134-141: stops at the first zero entry. *)
Fixpoint rule_active (ex : list Z) (rule : list nat) : bool :=
  match rule with
  | [] => true
  | l :: t => if nth l ex 0 =? 0 then false else rule_active ex t
  end.

(** m_votes[i] += m_weights[clause_k][i] for all classes (145-146), int32. *)
Definition add32 (v w : list Z) : list Z := map2 (fun a b => wrap32 (a + b)) v w.

(** Clause loop src/inference.hpp:132-149. *)
Fixpoint inf_clause_loop (ex : list Z) (k : nat) (rules : list (list nat)) (ws : list (list Z))
  (active : list nat) (votes : list Z) : list nat * list Z :=
  match rules with
  | [] => (active, votes)
  | r :: rules' =>
      let w := hd [] ws in
      if rule_active ex r
      then inf_clause_loop ex (S k) rules' (tl ws) (active ++ [k]) (add32 votes w)
      else inf_clause_loop ex (S k) rules' (tl ws) active votes
  end.

(** Inference::predict (src/inference.hpp:122-166). *)
Definition inf_predict (s : inference) (x : list Z) : nat * inference :=
  let ex := extend_example (inf_nlit s) x in
  let '(active, votes) :=
    inf_clause_loop ex 0 (inf_rules s) (inf_weights s) [] (repeat 0 (inf_ncls s)) in
  let s' := mkInf (inf_nlit s) (inf_ncls s) (inf_empty s) (inf_rules s) (inf_weights s)
                  active votes (inf_imp s) ex in
  match active with
  | [] => (inf_empty s, s')
  | _ => (argmax votes, s')
  end.

(** m_importance_literals[literal_k] += w_i for every literal of the rule
    (src/inference.hpp:199-202), int32. *)
Fixpoint add_importance (imp : list Z) (rule : list nat) (w : Z) : list Z :=
  match rule with
  | [] => imp
  | l :: t => add_importance (set_nth l (wrap32 (nth l imp 0 + w)) imp) t w
  end.

(** Loop src/inference.hpp:177-204. *)
Fixpoint importance_loop (excl : bool) (rules : list (list nat)) (ws : list (list Z)) (y : nat)
  (active : list nat) (imp : list Z) : list Z :=
  match active with
  | [] => imp
  | k :: t =>
      let w := nth y (nth k ws []) 0 in
      if excl && (w <? 1) then importance_loop excl rules ws y t imp
      else importance_loop excl rules ws y t (add_importance imp (nth k rules []) w)
  end.

(** Inference::calculate_importance with literal importance enabled and
    feature importance disabled (src/inference.hpp:168-205).  [excl] is the
    template flag exclude_negative_clauses. *)
Definition inf_explain (excl : bool) (s : inference) (y : nat) : inference :=
  let imp := importance_loop excl (inf_rules s) (inf_weights s) y (inf_active s)
               (repeat 0 (length (inf_imp s))) in
  mkInf (inf_nlit s) (inf_ncls s) (inf_empty s) (inf_rules s) (inf_weights s)
        (inf_active s) (inf_votes s) imp (inf_example s).
