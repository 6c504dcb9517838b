(** Independent specification vocabulary: what users mean by "literal holds",
    "clause fires", "votes" and "first class with the most votes".
    Nothing here refers to the model of the code. *)
From Coq Require Import ZArith List Bool Lia.
From Verif Require Import Base.
Import ListNotations.
Open Scope Z_scope.

(** A 0/1 vector. *)
Definition binary (x : list Z) : Prop := Forall (fun v => v = 0 \/ v = 1) x.

(** Literal number [i] of a machine with [n] input literals: numbers below [n]
    are the inputs themselves, numbers [n .. 2n-1] their negations. *)
Definition lit_true (n : nat) (x : list Z) (i : nat) : bool :=
  if Nat.ltb i n then negb (nth i x 0 =? 0) else nth (i - n) x 0 =? 0.

(** A conjunction of literals holds on [x]. *)
Definition conj_true (n : nat) (x : list Z) (rule : list nat) : bool :=
  forallb (lit_true n x) rule.

(** Literals included by an automata row (state >= 0). *)
Definition included (row : list Z) : list nat :=
  filter (fun i => 0 <=? nth i row (-1)) (seq 0 (length row)).

(** A clause fires at evaluation: it includes something and all of it holds. *)
Definition clause_fires (n : nat) (x : list Z) (row : list Z) : bool :=
  match included row with
  | [] => false
  | _ => conj_true n x (included row)
  end.

(** A clause matches during training: everything included holds (an empty
    clause matches everything). *)
Definition clause_matches (n : nat) (x : list Z) (row : list Z) : bool :=
  conj_true n x (included row).

(** Total vote for class [c]: weights of the firing clauses, as an unbounded
    integer. *)
Fixpoint clause_vote_total (n : nat) (x : list Z) (rows ws : list (list Z)) (c : nat) : Z :=
  match rows, ws with
  | row :: rows', w :: ws' =>
      (if clause_fires n x row then nth c w 0 else 0)
      + clause_vote_total n x rows' ws' c
  | _, _ => 0
  end.

(** Same for an explicit rule list. *)
Fixpoint rule_vote_total (n : nat) (x : list Z) (rules : list (list nat)) (ws : list (list Z)) (c : nat) : Z :=
  match rules, ws with
  | r :: rules', w :: ws' =>
      (if conj_true n x r then nth c w 0 else 0)
      + rule_vote_total n x rules' ws' c
  | _, _ => 0
  end.

(** [k] is the first index with the maximal value. *)
Definition first_argmax (votes : list Z) (k : nat) : Prop :=
  (k < length votes)%nat /\
  (forall j, (j < length votes)%nat -> nth j votes 0 <= nth k votes 0) /\
  (forall j, (j < k)%nat -> nth j votes 0 < nth k votes 0).

(** Well-formed rectangular matrices. *)
Definition rows_of (width : nat) (m : list (list Z)) : Prop :=
  Forall (fun r => length r = width) m.

(** Weight that de-duplication should give to rule [r] for class [c]: the sum
    over all clauses that include exactly the literals [r]. *)
Fixpoint merged_weight (rows ws : list (list Z)) (r : list nat) (c : nat) : Z :=
  match rows, ws with
  | row :: rows', w :: ws' =>
      (if list_eq_dec Nat.eq_dec (included row) r then nth c w 0 else 0)
      + merged_weight rows' ws' r c
  | _, _ => 0
  end.

(** What an explanation of class [y] should give to literal [l]: the class-y
    weights of the rules that hold on [x] and mention [l]; with [excl] only
    weights >= 1 count. *)
Fixpoint literal_contribution (n : nat) (x : list Z) (excl : bool) (rules : list (list nat)) (ws : list (list Z))
  (y l : nat) : Z :=
  match rules, ws with
  | r :: rules', w :: ws' =>
      (if conj_true n x r && existsb (Nat.eqb l) r && (negb excl || (1 <=? nth y w 0)) then nth y w 0 else 0)
      + literal_contribution n x excl rules' ws' y l
  | _, _ => 0
  end.

(** [y] is the last position of [k]. *)
Definition last_index (names : list nat) (k y : nat) : Prop :=
  nth_error names y = Some k /\ forall j, (y < j)%nat -> nth_error names j <> Some k.
