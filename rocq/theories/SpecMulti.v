(** Vocabulary of the multi-label properties, independent of the model of the
    training step. *)
From Coq Require Import ZArith List Bool QArith Lia.
From Verif Require Import Base Spec ModelDense ModelFeedback.
Import ListNotations.
Open Scope Z_scope.

(** The row of labels of example i in an array with n labels per example. *)
Definition label_row (n : nat) (mem : list Z) (i : nat) : list Z := firstn n (skipn (i * n) mem).

(** Two blocks that differ at most in the weights of the classes from n on. *)
Definition same_on (n : nat) (b1 b2 : block) : Prop :=
  b_nlit b1 = b_nlit b2 /\ b_ncls b1 = b_ncls b2 /\ b_clauses b1 = b_clauses b2 /\
  map (firstn n) (b_weights b1) = map (firstn n) (b_weights b2) /\
  b_counts b1 = b_counts b2 /\ b_budget b1 = b_budget b2 /\ b_rng b1 = b_rng b2 /\ b_fast b1 = b_fast b2.

(** A class is answered correctly by comparing its vote with [other]: label 1
    wants vote >= other, any other label vote < other. *)
Definition right (label vote other : Z) : Prop := if label =? 1 then other <= vote else vote < other.
Definition rightb (label vote other : Z) : bool := if label =? 1 then other <=? vote else vote <? other.

(** A feedback block for n labels, and blocks with an ON and an OFF weight per
    label. *)
Definition fb_multi (n : nat) (f : fblock) : Prop := fb_ncls f = n /\ length (fb_votes f) = (2 * n)%nat.
Definition blocks_multi (n : nat) (bs : list (bool * block)) : Prop :=
  Forall (fun tb : bool * block => b_ncls (snd tb) = (2 * n)%nat /\ rows_of (2 * n) (b_weights (snd tb))) bs.
