(** When a machine knows its training data. *)
From Coq Require Import ZArith List Bool QArith Lia.
From Verif Require Import Base Spec SpecConv.
Import ListNotations.
Open Scope Z_scope.

(** Total vote for class [c] during training: weights of the clauses all of whose
    included literals hold, as an unbounded integer. *)
Fixpoint match_vote_total (n : nat) (x : list Z) (rows ws : list (list Z)) (c : nat) : Z :=
  match rows, ws with
  | row :: rows', w :: ws' => (if clause_matches n x row then nth c w 0 else 0) + match_vote_total n x rows' ws' c
  | _, _ => 0
  end.

(** Votes for the classes of an example with label [l]: the label has the
    threshold's worth of votes, every other class as many against it. *)
Definition decided (T : Q) (ncls : nat) (l : nat) (votes : nat -> Z) : Prop :=
  (l < ncls)%nat /\ (T <= inject_Z (votes l))%Q /\
  (forall c, (c < ncls)%nat -> c <> l -> (inject_Z (votes c) <= - T)%Q).

(** Clauses [rows] with weights [ws] decide every example; no total leaves the 16
    bits votes are counted in. *)
Definition knows (T : Q) (n ncls : nat) (rows ws : list (list Z)) (data : list (list Z * nat)) : Prop :=
  Forall (fun d => length (fst d) = n /\ binary (fst d) /\
    (forall c, (c < ncls)%nat -> -32768 <= match_vote_total n (fst d) rows ws c <= 32767) /\
    decided T ncls (snd d) (match_vote_total n (fst d) rows ws)) data.

(** No draw to come is below [p]. *)
Definition never_below (p : Q) (r : rng) : Prop := forall i, (p <= rng_src r (rng_pos r + i))%Q.

(** The same for examples of [np] patches: a clause votes when it matches one of
    them. *)
Fixpoint conv_match_total (n np : nat) (lits : list Z) (rows ws : list (list Z)) (c : nat) : Z :=
  match rows, ws with
  | row :: rows', w :: ws' =>
      (if existsb (fun p => clause_matches n (nth_patch n lits p) row) (seq 0 np) then nth c w 0 else 0) + conv_match_total n np lits rows' ws' c
  | _, _ => 0
  end.
Definition conv_knows (T : Q) (n np ncls : nat) (rows ws : list (list Z)) (data : list (list Z * nat)) : Prop :=
  Forall (fun d => conv_example n np (fst d) /\
    (forall c, (c < ncls)%nat -> -32768 <= conv_match_total n np (fst d) rows ws c <= 32767) /\
    decided T ncls (snd d) (conv_match_total n np (fst d) rows ws)) data.
