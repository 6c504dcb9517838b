(** Specification vocabulary for the native inference object. *)
From Coq Require Import ZArith List Bool Lia.
From Verif Require Import Base Spec ModelInferImp.
Import ListNotations.
Open Scope Z_scope.

(** Rules over [nlit] literals for [ncls] classes: literal numbers below 2 nlit, no
    literal twice, one weight per class, and no sum of weights leaves int32. *)
Definition rules_ok (nlit ncls : nat) (rules : list (list nat)) (ws : list (list Z)) : Prop :=
  Forall (fun r => NoDup r /\ Forall (fun l => (l < 2 * nlit)%nat) r) rules /\
  length ws = length rules /\ Forall (fun w => length w = ncls) ws /\
  forall c, (c < ncls)%nat -> zsum (map (fun w => Z.abs (nth c w 0)) ws) <= 2147483647.
(** The features of each clause: numbers below [nexp], none twice. *)
Definition features_ok (nexp : nat) (f : list (list nat)) : Prop :=
  Forall (fun r => NoDup r /\ Forall (fun l => (l < nexp)%nat) r) f.

(** Histories that respect what the object relies on and does not check.
    [fresh]: the last prediction was made with the present rules (or there was
    none); [fset]: features have been set; [nr]: number of rules. *)
Fixpoint proper (fl : iflags) (nlit ncls nexp : nat) (fresh fset : bool) (nr : nat) (cs : list icall) : Prop :=
  match cs with
  | [] => True
  | IRules r w :: cs => rules_ok nlit ncls r w /\ proper fl nlit ncls nexp false fset (length r) cs
  | IFeatures f :: cs =>
      features_ok nexp f /\
      proper fl nlit ncls nexp fresh (fset || (f_feat fl && Nat.eqb (length f) nexp)) nr cs
  | IEmpty _ :: cs => proper fl nlit ncls nexp fresh fset nr cs
  | IPredict x :: cs => (nlit <= length x)%nat /\ (1 <= ncls)%nat /\ proper fl nlit ncls nexp true fset nr cs
  | IExplain y :: cs =>
      fresh = true /\ (y < ncls)%nat /\ (f_feat fl = true -> fset = true /\ (nr <= nexp)%nat) /\
      proper fl nlit ncls nexp fresh fset nr cs
  end.

(** What explaining class [y] on example [x] should give feature [f]: the weights of
    the rules that hold and whose feature list has [f]; with [excl] the positive ones. *)
Definition feature_contribution (n : nat) (x : list Z) (excl : bool) (rules features : list (list nat)) (ws : list (list Z)) (y f : nat) : Z :=
  zsum (map (fun k => let w := nth y (nth k ws []) 0 in
                      if conj_true n x (nth k rules []) && existsb (Nat.eqb f) (nth k features []) && (negb excl || (1 <=? w)) then w else 0)
            (seq 0 (length rules))).
