(** The classes under other numbers. *)
From Coq Require Import ZArith List Bool QArith Lia.
From Verif Require Import Base ModelDense ModelFeedback ModelExecutor ModelDenseExec.
Import ListNotations.
Open Scope Z_scope.

(** [p] gives every class a number of its own. *)
Definition renaming (n : nat) (p : nat -> nat) : Prop :=
  (forall c, (c < n)%nat -> (p c < n)%nat) /\ forall c d, (c < n)%nat -> (d < n)%nat -> p c = p d -> c = d.
(** [b] has for class [p c] what [a] has for class [c]. *)
Definition renamed (n : nat) (p : nat -> nat) (a b : list Z) : Prop :=
  length a = n /\ length b = n /\ forall c, (c < n)%nat -> nth (p c) b 0 = nth c a 0.
(** The same clauses, parameters and generators; the weights renamed. *)
Record block_renamed (n : nat) (p : nat -> nat) (b b2 : block) : Prop := {
  br_nlit : b_nlit b2 = b_nlit b;
  br_ncls : b_ncls b = n /\ b_ncls b2 = n;
  br_clauses : b_clauses b2 = b_clauses b;
  br_weights : Forall2 (renamed n p) (b_weights b) (b_weights b2);
  br_counts : b_counts b2 = b_counts b;
  br_budget : b_budget b2 = b_budget b;
  br_si : b_s_inv b2 = b_s_inv b;
  br_sm : b_s_min1_inv b2 = b_s_min1_inv b;
  br_rng : b_rng b2 = b_rng b;
  br_fast : b_fast b2 = b_fast b
}.
Definition blocks_renamed (n : nat) (p : nat -> nat) : list (bool * block) -> list (bool * block) -> Prop :=
  Forall2 (fun a b => fst b = fst a /\ block_renamed n p (snd a) (snd b)).
(** A feedback block for [n] classes with threshold [T]. *)
Definition feedback_for (n : nat) (T : Q) (f : fblock) : Prop := fb_ncls f = n /\ fb_thr f = T /\ length (fb_votes f) = n.
Definition with_draws (src : nat -> Q) (f : fblock) : fblock :=
  mkFb (fb_ncls f) (fb_thr f) (fb_votes f) (fb_probs f) (fb_pos f) (fb_neg f) (fb_pp f) (fb_np f) (fb_correct f) (fb_total f) (mkRng src (rng_pos (fb_rng f))).
(** The examples with their labels renamed. *)
Definition relabel (p : nat -> nat) (ds : list (list Z * nat)) : list (list Z * nat) := map (fun d => (fst d, p (snd d))) ds.
(** Training over a list of examples, and the class sums of an evaluation. *)
Definition trained_on (bo boost : bool) (ds : list (list Z * nat)) (bs : list (bool * block)) (f : fblock) : list (bool * block) * fblock :=
  train_list block (list Z) (dense_train_ex bo) (dense_upd bo boost) nat fb_process ds bs f.
Definition sums (bs : list (bool * block)) (f : fblock) (x : list Z) : list Z :=
  fb_votes (snd (run_examples block (list Z) dense_eval_ex x bs (fb_reset f))).
