(** Model of the two C exporters: green_tsetlin/writers/simple_c.py and
    green_tsetlin/writers/topographical_c.py.  Both are modelled up to the
    characters they write. *)
From Coq Require Import String Ascii DecimalString Decimal.
From Coq Require Import ZArith List Bool Lia.
From Verif Require Import Base ModelRuleSet ModelC.
Import ListNotations.
Open Scope Z_scope.

(** "{}".format(k) for python and numpy integers. *)
Definition fmt_nat (k : nat) : text := tx (NilZero.string_of_uint (Nat.to_uint k)).
Definition fmt_int (w : Z) : text :=
  if w <? 0 then "-"%char :: fmt_nat (Z.to_nat (- w)) else fmt_nat (Z.to_nat w).

(** sep.join(parts) *)
Fixpoint join (sep : text) (parts : list text) : text :=
  match parts with
  | [] => []
  | [p] => p
  | p :: r => p ++ sep ++ join sep r
  end.

(** One condition (simple_c.py:59-62, topographical_c.py:161-164). *)
Definition fmt_cond (n : nat) (ta : nat) : text :=
  if (ta <? n)%nat then tx "x[" ++ fmt_nat ta ++ tx "] > 0"
  else tx "x[" ++ fmt_nat (ta - n) ++ tx "] == 0".

(** " ".join(["votes[{}] += {};".format(k, w) for k, w in enumerate(weights)])
    (simple_c.py:66, topographical_c.py:173), from index [k]. *)
Fixpoint fmt_votes_from (k : nat) (ws : list Z) : list text :=
  match ws with
  | [] => []
  | w :: r => (tx "votes[" ++ fmt_nat k ++ tx "] += " ++ fmt_int w ++ tx ";") :: fmt_votes_from (S k) r
  end.
Definition fmt_votes (ws : list Z) : text := join (tx " ") (fmt_votes_from 0 ws).

(** "if({}){{".format(" && ".join(if_list))  (simple_c.py:64-65). *)
Definition fmt_if (n : nat) (tas : list nat) : text :=
  tx "if(" ++ join (tx " && ") (map (fmt_cond n) tas) ++ tx "){".

(** _write_header (simple_c.py:39-51, topographical_c.py:60-72). *)
Definition fmt_header (ncls : nat) : text :=
  ln "#include <inttypes.h>" ++ ln "#include <string.h>" ++ [newline] ++
  tx "#define NUM_CLASSES " ++ fmt_nat ncls ++ [newline] ++
  ln "#define DEFAULT_OUTPUT 0" ++
  ln "int predict_tm(uint8_t* x)" ++ ln "{" ++
  ln "    static int16_t votes[NUM_CLASSES] = {0};" ++
  ln "    memset(votes, 0, sizeof(votes));" ++ [newline] ++ [newline].

(** _write_find_output (simple_c.py:73-95, topographical_c.py:74-94) with
    default_output = 0. *)
Definition fmt_find_output : text :=
  ln "int output_class = DEFAULT_OUTPUT;" ++
  ln "int16_t most_votes = votes[DEFAULT_OUTPUT];" ++
  ln "for(int i = 1; i < NUM_CLASSES; ++i)" ++
  ln "{" ++
  ln "    if(votes[i] > most_votes)" ++ ln "    {" ++
  ln "        most_votes = votes[i];" ++ ln "        output_class = i;" ++ ln "    }" ++
  ln "}" ++ ln "    return output_class;" ++ ln "}".

(** ** SimpleC *)

(** _write_rule (simple_c.py:53-71). *)
Definition simple_rule (n : nat) (rule : list nat) (ws : list Z) : text :=
  fmt_if n rule ++ [newline] ++ fmt_votes ws ++ [newline] ++ tx "}" ++ [newline].

(** Loop simple_c.py:30-31; weights[rule_k] raises IndexError when there are
    fewer weight rows than rules. *)
Fixpoint simple_rules (n : nat) (rules : list (list nat)) (wss : list (list Z)) : res text :=
  match rules with
  | [] => Ok []
  | r :: rules' =>
      match wss with
      | [] => Raise IndexError
      | ws :: wss' => match simple_rules n rules' wss' with
                      | Ok t => Ok (simple_rule n r ws ++ t)
                      | Raise e => Raise e
                      end
      end
  end.

(** SimpleC(rs).to_file (simple_c.py:19-36): the text of the file. *)
Definition simple_c (rs : ruleset) : res text :=
  match simple_rules (rs_nliterals rs) (rs_rules rs) (rs_weights rs) with
  | Raise e => Raise e
  | Ok body =>
      Ok (ln "#ifndef __SIMPLE_C_OUTPUT__H_" ++ ln "#define __SIMPLE_C_OUTPUT__H_" ++
          ln "// Export from green_tsetlin:SimpleC" ++ [newline] ++
          fmt_header (rs_nclasses rs) ++ [newline] ++ tx "// start clauses" ++ [newline] ++
          body ++ fmt_find_output ++ [newline] ++ ln "#endif // #ifndef __SIMPLE_C_OUTPUT__H_")
  end.

(** ** TopographicalC *)

(** class Node (topographical_c.py:7-11). *)
Inductive node := Node (ta : option nat) (w : option (list Z)) (childs : list node).

Definition mem (a : nat) (l : list nat) : bool := existsb (Nat.eqb a) l.
(** Python set operations on duplicate free lists. *)
Definition set_diff (a b : list nat) : list nat := filter (fun v => negb (mem v b)) a.
Definition subset (a b : list nat) : bool := forallb (fun v => mem v b) a.
Definition set_eqb (a b : list nat) : bool := subset a b && subset b a.

(** Keys of ta2r (topographical_c.py:103-110): literals outside the path of
    the rules still to place, and the rules below a literal. *)
Definition ta_keys (sets : list (list nat)) (path rules : list nat) : list nat :=
  nodup Nat.eq_dec (concat (map (fun k => set_diff (nth k sets []) path) rules)).
Definition ta_rules (sets : list (list nat)) (path rules : list nat) (ta : nat) : list nat :=
  filter (fun k => mem ta (set_diff (nth k sets []) path)) rules.

(** max(ta2r.items(), key=len of the rule set) (114): python returns the first
    maximal entry in dictionary order, which depends on the iteration order of
    sets.  The order is not modelled: [pick] selects among all maximal
    literals, and the theorems hold for every [pick]. *)
Definition best_keys (sets : list (list nat)) (path rules : list nat) : list nat :=
  let keys := ta_keys sets path rules in
  let m := fold_right Nat.max O (map (fun t => length (ta_rules sets path rules t)) keys) in
  filter (fun t => Nat.eqb (length (ta_rules sets path rules t)) m) keys.

Definition choose (pick : nat) (cands : list nat) : option nat :=
  match cands with
  | [] => None
  | c :: _ => Some (nth (pick mod length cands) cands c)
  end.

(** Weight row of the last rule in iteration order equal to the path (105-107);
    the order is again left to [pick]. *)
Definition node_weight (sets : list (list nat)) (wss : list (list Z)) (path rules : list nat) (pick : nat)
  (old : option (list Z)) : option (list Z) :=
  match choose pick (filter (fun k => set_eqb (nth k sets []) path) rules) with
  | Some k => Some (nth k wss [])
  | None => old
  end.

(** _subtree (95-121): one call performs the current iteration of the while
    loop, the recursive call for the child, and continues with the remaining
    iterations.  [intree] is self.rules_in_tree.  Returns the weights and the
    children of the node for [path] and the new rules_in_tree.  [None] = out of
    fuel, which does not happen for the fuel used below (proved). *)
Fixpoint subtree (fuel : nat) (pick : list nat -> list nat -> nat) (sets : list (list nat)) (wss : list (list Z))
  (path rules intree : list nat) (w : option (list Z)) : option (option (list Z) * list node * list nat) :=
  match fuel with
  | O => None
  | S f =>
      match rules with
      | [] => Some (w, [], intree)
      | _ =>
          let w := node_weight sets wss path rules (pick path rules) w in
          let intree := intree ++ filter (fun k => set_eqb (nth k sets []) path) rules in
          match choose (pick path rules) (best_keys sets path rules) with
          | None => Some (w, [], intree)
          | Some ta =>
              match subtree f pick sets wss (ta :: path) (ta_rules sets path rules ta) intree None with
              | None => None
              | Some (cw, cch, intree) =>
                  match subtree f pick sets wss path (set_diff rules intree) intree w with
                  | None => None
                  | Some (w, ch, intree) => Some (w, Node (Some ta) cw cch :: ch, intree)
                  end
              end
          end
      end
  end.

(** self.rules = [set(r) for r in rs.rules] (28). *)
Definition rule_sets (rs : ruleset) : list (list nat) := map (nodup Nat.eq_dec) (rs_rules rs).

Definition tree_fuel (sets : list (list nat)) : nat := S (fold_right (fun s a => S (length s) + a)%nat O sets).

(** _generate_tree (91-93). *)
Definition generate_tree (pick : list nat -> list nat -> nat) (rs : ruleset) : option node :=
  let sets := rule_sets rs in
  match subtree (tree_fuel sets) pick sets (rs_weights rs) [] (seq 0 (length sets)) [] None with
  | Some (w, ch, _) => Some (Node None w ch)
  | None => None
  end.

(** _export_tree2 (151-187). *)
Fixpoint export_tree (n : nat) (t : node) (d : nat) (conds : list nat) : text :=
  match t with
  | Node ta w childs =>
      let conds := match ta with Some a => conds ++ [a] | None => conds end in
      match w with
      | Some ws =>
          concat (repeat (tx "  ") d) ++ fmt_if n conds ++ [newline] ++ fmt_votes ws ++ [newline] ++
          (fix each (cs : list node) : text :=
             match cs with [] => [] | c :: r => export_tree n c (S d) [] ++ each r end) childs ++
          (match ta with
           | Some _ => concat (repeat (tx "  ") (S d)) ++ tx "}" ++ [newline]
           | None => []
           end)
      | None =>
          (fix each (cs : list node) : text :=
             match cs with [] => [] | c :: r => export_tree n c d conds ++ each r end) childs
      end
  end.

(** TopographicalC(rs).to_file (37-58) on a new writer; self.weights[rule_k]
    raises IndexError when weight rows are missing (107). *)
Definition topographical_c (pick : list nat -> list nat -> nat) (rs : ruleset) : res text :=
  if (length (rs_weights rs) <? length (rs_rules rs))%nat then Raise IndexError
  else
    match generate_tree pick rs with
    | None => Raise RuntimeError     (* recursion without end; proved impossible *)
    | Some root =>
        Ok (ln "#ifndef __TOPOGRAPHICAL_C_OUTPUT__H_" ++ ln "#define __TOPOGRAPHICAL_C_OUTPUT__H_" ++
            ln "// Export from green_tsetlin:TopographicalC" ++ [newline] ++
            fmt_header (rs_nclasses rs) ++ [newline] ++ tx "// start clauses" ++ [newline] ++
            export_tree (rs_nliterals rs) root 0 [] ++
            fmt_find_output ++ [newline] ++ ln "#endif // #ifndef __TOPOGRAPHICAL_C_OUTPUT__H_")
    end.

(** Predictor.export_as_program (predictor.py:49-61): a new writer per call. *)
Inductive exporter := ESimple | ETopological | EOther.
Definition export_as_program (pick : list nat -> list nat -> nat) (e : exporter) (rs : ruleset) : res text :=
  match e with
  | ESimple => simple_c rs
  | ETopological => topographical_c pick rs
  | EOther => Raise ValueError
  end.
