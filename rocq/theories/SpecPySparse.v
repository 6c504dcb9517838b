(** What the properties of the python sparse state (C96-C100) say. *)
From Coq Require Import ZArith List Bool QArith Lia.
From Verif Require Import Base ModelFeedback ModelSparse ModelPySparse.
Import ListNotations.
Open Scope Z_scope.

(** Literal [l] is included on the side with literals [ix] and automata [st]. *)
Definition on (ix : list nat) (st : list Z) (l : nat) : Prop := exists i, nth_error ix i = Some l /\ 0 < nth i st 0.

(** All included literals of clause [k] hold in the example. *)
Definition clause_holds (b : psblock) (k : nat) (lits : list nat) : Prop :=
  (forall l, on (nth k (q_index b) []) (nth k (q_states b) []) l -> In l lits) /\
  (forall l, on (nth (k + q_ncl b) (q_index b) []) (nth (k + q_ncl b) (q_states b) []) l -> ~ In l lits).

(** Parallel lists without duplicates, literals below [n]. *)
Definition side_ok (n : nat) (ix : list nat) (st : list Z) : Prop :=
  length ix = length st /\ NoDup ix /\ Forall (fun l => (l < n)%nat) ix.
Definition active_ok (n : nat) (al : list nat) : Prop :=
  NoDup al /\ (length al <= 7)%nat /\ Forall (fun l => (l < n)%nat) al.

(** A block of [ncl] clauses and [ncls] classes over [n] literals. *)
Record ps_shape (n ncls ncl : nat) (b : psblock) : Prop := {
  pk_ncl : q_ncl b = ncl;
  pk_ncls : q_ncls b = ncls;
  pk_index : length (q_index b) = (ncl * 2)%nat;
  pk_states : length (q_states b) = (ncl * 2)%nat;
  pk_al : length (q_al b) = (ncls * 2)%nat;
  pk_weights : length (q_weights b) = ncl;
  pk_width : Forall (fun w => length w = ncls /\ Forall is_int8 w) (q_weights b);
  pk_sides : forall j, side_ok n (nth j (q_index b) []) (nth j (q_states b) []);
  pk_active : forall c, active_ok n (nth c (q_al b) []);
  pk_counts : q_counts b = repeat 0 ncl
}.

(** Between two examples no automaton is below -20. *)
Definition ps_floor (b : psblock) : Prop := forall j, Forall (fun v => -20 <= v) (nth j (q_states b) []).

Definition ps_ok (n ncls ncl : nat) (b : psblock) : Prop := ps_shape n ncls ncl b /\ ps_floor b.

(** Any sequence of epochs and evaluations. *)
Inductive pscall := PsTrain (data : list (list nat * nat)) | PsEval (data : list (list nat * nat)) (out : list nat).
Fixpoint ps_calls (cs : list pscall) (x : psexec) : res psexec :=
  match cs with
  | [] => Ok x
  | PsTrain d :: cs' => match ps_train_epoch d x with Ok (_, x) => ps_calls cs' x | Raise e => Raise e end
  | PsEval d out :: cs' => match ps_eval_predict d out x with Ok (_, x) => ps_calls cs' x | Raise e => Raise e end
  end.
Definition ps_data (c : pscall) : list (list nat * nat) := match c with PsTrain d => d | PsEval d _ => d end.

(** Literals and label in range. *)
Definition example_ok (n ncls : nat) (d : list nat * nat) : Prop := Forall (fun l => (l < n)%nat) (fst d) /\ (snd d < ncls)%nat.

(** Random numbers used by the first [j] literals of the example: one for every
    side of the clause that has the literal. *)
Definition used (pix nix lits : list nat) (j : nat) : nat :=
  (length (filter (fun l => memb l pix) (firstn j lits)) + length (filter (fun l => memb l nix) (firstn j lits)))%nat.
(** Literals of [ix] before position [i] that are not in the example. *)
Definition outside (lits ix : list nat) (i : nat) : nat := length (filter (fun l => negb (memb l lits)) (firstn i ix)).
(** A list kept to its last seven elements. *)
Definition last7 (l : list nat) : list nat := skipn (length l - 7) l.
(** Active literals after seeing [lit]. *)
Definition see (al : list nat) (lit : nat) : list nat := if memb lit al then al else last7 (al ++ [lit]).
(** Active literals after seeing the literals of the example that side [ix] lacks. *)
Definition seen (ix lits al : list nat) : list nat := fold_left see (filter (fun l => negb (memb l ix)) lits) al.

(** One block trained on a sequence of examples with their two classes; both
    probabilities are 1. *)
Fixpoint ps_steps (ds : list (list nat * nat * nat)) (b : psblock) : res psblock :=
  match ds with
  | [] => Ok b
  | (lits, pc, nc) :: ds' =>
      match ps_train_ex lits b with
      | Ok (b, _) => match ps_train_update lits pc 1 nc 1 b with Ok b => ps_steps ds' b | Raise e => Raise e end
      | Raise e => Raise e
      end
  end.

(** The same block without a literal budget. *)
Definition no_budget (b : psblock) : psblock :=
  mkPS (q_nlit b) (q_ncl b) (q_ncls b) (q_index b) (q_states b) (q_al b) (q_weights b) (q_outputs b) (q_counts b) None false (q_s b) (q_rng b).
(** Counts as initialize leaves them, a budget that is not negative. *)
Definition bud_ok (b : psblock) : Prop := (forall k, nth k (q_counts b) 0 = 0) /\ match q_budget b with Some z => 0 <= z | None => True end.

(** Beyond clause [k], class [c] and the generator nothing differs. *)
Record only_changes (k c : nat) (b b' : psblock) : Prop := {
  oc_sizes : q_nlit b' = q_nlit b /\ q_ncl b' = q_ncl b /\ q_ncls b' = q_ncls b;
  oc_rows : forall j, j <> k -> j <> (k + q_ncl b)%nat ->
    nth j (q_index b') [] = nth j (q_index b) [] /\ nth j (q_states b') [] = nth j (q_states b) [];
  oc_active : forall j, j <> c -> j <> (c + q_ncls b)%nat -> nth j (q_al b') [] = nth j (q_al b) [];
  oc_weights : forall i j, i <> k \/ j <> c -> nth j (nth i (q_weights b') []) 0 = nth j (nth i (q_weights b) []) 0;
  oc_rest : q_outputs b' = q_outputs b /\ q_counts b' = q_counts b /\ q_budget b' = q_budget b /\ q_do_budget b' = q_do_budget b /\ q_s b' = q_s b
}.
