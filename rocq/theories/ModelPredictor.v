(** Model of green_tsetlin/predictor.py (class Predictor) over the Inference
    object of ModelInference.v. *)
From Coq Require Import ZArith List Bool Lia.
From Verif Require Import Base ModelRuleSet ModelInference.
Import ListNotations.
Open Scope Z_scope.

(** The explanation argument (predictor.py:24-26); [XOther] is any other text. *)
Inductive xmode := XNone | XLiterals | XFeatures | XBoth | XOther.

(** Predictor fields that matter (predictor.py:16-39).  Target names are
    abstract labels (numbers standing for python strings). *)
Record predictor := mkPred {
  p_mode : xmode;
  p_excl : bool;                     (* exclude_negative_clauses *)
  p_ncls : nat;
  p_names : option (list nat);       (* target_names *)
  p_last : option nat;               (* _predict_if_target_is_none *)
  p_inf : inference                  (* _inf *)
}.

(** from_ruleset (predictor.py:41-47) with _create_backend_inference (168-172).
    n_features is -1, so the two feature modes resize a vector to 2^64-1
    elements in the C++ constructor (inference.hpp:36-37): std::length_error,
    which pybind11 turns into ValueError.  In mode "none" the literal
    importance vector stays empty and the backend ignores
    exclude_negative_clauses (predictor.py:177-178). *)
Definition from_ruleset (mode : xmode) (excl : bool) (rs : ruleset) (junk : list Z) : res predictor :=
  match mode with
  | XNone | XLiterals =>
      Ok (mkPred mode excl (rs_nclasses rs) None None
            (new_inference (rs_nliterals rs) (rs_nclasses rs) (rs_rules rs) (rs_weights rs) junk))
  | XFeatures | XBoth => Raise ValueError
  | XOther => Raise ValueError
  end.

(** set_target_names (predictor.py:86-88). *)
Definition set_target_names (names : list nat) (p : predictor) : predictor :=
  mkPred (p_mode p) (p_excl p) (p_ncls p) (Some names) (p_last p) (p_inf p).

Inductive answer := AClass (k : nat) | AName (s : nat).

(** predict (predictor.py:91-107).  The copy to contiguous memory does not
    change the values. *)
Definition pred_predict (p : predictor) (x : list Z) : res answer * predictor :=
  let '(k, inf) := inf_predict (p_inf p) x in
  let p' := mkPred (p_mode p) (p_excl p) (p_ncls p) (p_names p) (Some k) inf in
  match p_names p with
  | None => (Ok (AClass k), p')
  | Some names => match nth_error names k with
                  | Some s => (Ok (AName s), p')
                  | None => (Raise IndexError, p')
                  end
  end.

(** inv_target_names = {v: k for k, v in enumerate(names)}: the last index wins. *)
Fixpoint inv_lookup (i : nat) (names : list nat) (t : nat) : option nat :=
  match names with
  | [] => None
  | s :: r => match inv_lookup (S i) r t with
              | Some k => Some k
              | None => if Nat.eqb s t then Some i else None
              end
  end.

Definition with_inf (p : predictor) (inf : inference) : predictor :=
  mkPred (p_mode p) (p_excl p) (p_ncls p) (p_names p) (p_last p) inf.

(** calculate_explanations + _get_explanation_from_backend for one class
    (predictor.py:140-141, 109-111). *)
Definition explain_class (p : predictor) (y : nat) : list Z * predictor :=
  let inf := inf_explain (p_excl p) (p_inf p) y in
  (inf_imp inf, with_inf p inf).

(** explain(explain="target", target) (predictor.py:129-141). Feature modes
    cannot occur (see [from_ruleset]). *)
Definition pred_explain_target (p : predictor) (target : option nat) : res (list Z) * predictor :=
  match p_mode p with
  | XLiterals =>
      match target, p_names p with
      | None, _ =>
          match p_last p with
          | None => (Raise TypeError, p)      (* calculate_explanations(None) *)
          | Some y => let '(e, p') := explain_class p y in (Ok e, p')
          end
      | Some t, None => let '(e, p') := explain_class p t in (Ok e, p')
      | Some t, Some names =>
          match inv_lookup 0 names t with
          | None => (Raise ValueError, p)
          | Some y => let '(e, p') := explain_class p y in (Ok e, p')
          end
      end
  | _ => (Raise ValueError, p)
  end.

(** Loop predictor.py:144-147. *)
Fixpoint explain_each (p : predictor) (ys : list nat) : list (nat * list Z) * predictor :=
  match ys with
  | [] => ([], p)
  | y :: t => let '(e, p1) := explain_class p y in
              let '(r, p2) := explain_each p1 t in
              ((y, e) :: r, p2)
  end.

(** explain(explain="all") (predictor.py:143-152): with target names the
    dictionary itself is iterated, so the pair pattern meets an int key. *)
Definition pred_explain_all (p : predictor) : res (list (nat * list Z)) * predictor :=
  match p_mode p with
  | XLiterals =>
      let '(r, p') := explain_each p (seq 0 (p_ncls p)) in
      match p_names p with
      | Some _ => match r with [] => (Ok [], p') | _ => (Raise TypeError, p') end
      | None => (Ok r, p')
      end
  | _ => (Raise ValueError, p)
  end.

(** predict_and_explain (predictor.py:157-159). *)
Definition pred_predict_and_explain (p : predictor) (x : list Z) : res answer * res (list Z) * predictor :=
  let '(a, p1) := pred_predict p x in
  match a with
  | Raise e => (Raise e, Raise e, p1)
  | Ok _ => let '(e, p2) := pred_explain_target p1 None in (a, e, p2)
  end.

(** get_votes (predictor.py:161-162). *)
Definition pred_votes (p : predictor) : list Z := inf_votes (p_inf p).

(** Calls a user can make. *)
Inductive pcall := CPredict (x : list Z) | CExplain (t : option nat) | CExplainAll | CNames (names : list nat).
Definition pstep (p : predictor) (c : pcall) : predictor :=
  match c with
  | CPredict x => snd (pred_predict p x)
  | CExplain t => snd (pred_explain_target p t)
  | CExplainAll => snd (pred_explain_all p)
  | CNames names => set_target_names names p
  end.
Definition prun (p : predictor) (cs : list pcall) : predictor := fold_left pstep cs p.
