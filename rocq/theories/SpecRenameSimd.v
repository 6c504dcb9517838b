(** The classes of a vectorised machine under other numbers. *)
From Coq Require Import ZArith List Bool QArith.
From Verif Require Import Base ModelDense ModelFeedback ModelExecutor ModelLayout ModelAvx2 ModelNeon SpecRename.
Import ListNotations.
Open Scope Z_scope.

(** The same clauses, parameters and generators; the weights renamed. *)
Record ablock_renamed (n : nat) (p : nat -> nat) (b b2 : ablock) : Prop := {
  ar_nlit : a_nlit b2 = a_nlit b;
  ar_lmem : a_lmem b2 = a_lmem b;
  ar_mask : a_mask b2 = a_mask b;
  ar_ncls : a_ncls b = n /\ a_ncls b2 = n;
  ar_rows : a_rows b2 = a_rows b;
  ar_weights : Forall2 (renamed n p) (a_weights b) (a_weights b2);
  ar_counts : a_counts b2 = a_counts b;
  ar_budget : a_budget b2 = a_budget b;
  ar_cmp : a_cmp b2 = a_cmp b;
  ar_vrng : a_vrng b2 = a_vrng b;
  ar_fast : a_fast b2 = a_fast b
}.
Definition ablocks_renamed (n : nat) (p : nat -> nat) : list (bool * ablock) -> list (bool * ablock) -> Prop :=
  Forall2 (fun a b => fst b = fst a /\ ablock_renamed n p (snd a) (snd b)).
(** Training over a list of examples, and the class sums of an evaluation. *)
Definition avx_trained_on (bo boost : bool) (ds : list (list Z * nat)) (bs : list (bool * ablock)) (f : fblock) : list (bool * ablock) * fblock :=
  train_list ablock (list Z) (avx_train_ex bo) (avx_upd bo boost) nat fb_process ds bs f.
Definition neon_trained_on (boost : bool) (ds : list (list Z * nat)) (bs : list (bool * ablock)) (f : fblock) : list (bool * ablock) * fblock :=
  train_list ablock (list Z) neon_train_ex (neon_upd boost) nat fb_process ds bs f.
Definition avx_sums (bs : list (bool * ablock)) (f : fblock) (x : list Z) : list Z :=
  fb_votes (snd (run_examples ablock (list Z) avx_eval_ex x bs (fb_reset f))).
Definition neon_sums (bs : list (bool * ablock)) (f : fblock) (x : list Z) : list Z :=
  fb_votes (snd (run_examples ablock (list Z) neon_eval_ex x bs (fb_reset f))).
