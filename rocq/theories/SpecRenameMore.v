(** The classes of sparse and convolutional machines under other numbers. *)
From Coq Require Import ZArith List Bool QArith.
From Verif Require Import Base ModelDense ModelFeedback ModelExecutor ModelSparse ModelConv SpecRename.
Import ListNotations.
Open Scope Z_scope.

(** [b] has for class [p c] what [a] has for class [c]; entries of any kind. *)
Definition renamed_in {A} (d : A) (n : nat) (p : nat -> nat) (a b : list A) : Prop :=
  length a = n /\ length b = n /\ forall c, (c < n)%nat -> nth (p c) b d = nth c a d.
(** The same clauses, parameters and generator; the weights, the active literals
    and their replacement indices renamed. *)
Record sblock_renamed (n : nat) (p : nat -> nat) (b b2 : sblock) : Prop := {
  sr_nlit : sp_nlit b2 = sp_nlit b;
  sr_ncl : sp_ncl b2 = sp_ncl b;
  sr_ncls : sp_ncls b = n /\ sp_ncls b2 = n;
  sr_csize : sp_csize b2 = sp_csize b;
  sr_alsize : sp_alsize b2 = sp_alsize b;
  sr_thr : sp_thr b2 = sp_thr b;
  sr_rows : sp_rows b2 = sp_rows b;
  sr_states : sp_states b2 = sp_states b;
  sr_al : renamed_in [] n p (sp_al b) (sp_al b2);
  sr_repl : renamed_in O n p (sp_repl b) (sp_repl b2);
  sr_weights : Forall2 (renamed n p) (sp_weights b) (sp_weights b2);
  sr_counts : sp_counts b2 = sp_counts b;
  sr_budget : sp_budget b2 = sp_budget b;
  sr_si : sp_si b2 = sp_si b;
  sr_sm : sp_sm b2 = sp_sm b;
  sr_fast : sp_fast b2 = sp_fast b
}.
Definition sblocks_renamed (n : nat) (p : nat -> nat) : list (bool * sblock) -> list (bool * sblock) -> Prop :=
  Forall2 (fun a b => fst b = fst a /\ sblock_renamed n p (snd a) (snd b)).
(** A convolutional block renamed, with the same patches. *)
Definition cvblock_renamed (n : nat) (p : nat -> nat) (v v2 : cvblock) : Prop :=
  block_renamed n p (cv_b v) (cv_b v2) /\ cv_np v2 = cv_np v /\ cv_active v2 = cv_active v /\ cv_ppc v2 = cv_ppc v.
Definition cvblocks_renamed (n : nat) (p : nat -> nat) : list (bool * cvblock) -> list (bool * cvblock) -> Prop :=
  Forall2 (fun a b => fst b = fst a /\ cvblock_renamed n p (snd a) (snd b)).
(** Examples with their labels renamed; training over a list of examples; the
    class sums of an evaluation. *)
Definition relabelled {X} (p : nat -> nat) (ds : list (X * nat)) : list (X * nat) := map (fun d => (fst d, p (snd d))) ds.
Definition sp_trained_on (bo boost dynamic : bool) (ds : list (list nat * nat)) (bs : list (bool * sblock)) (f : fblock) : list (bool * sblock) * fblock :=
  train_list sblock (list nat) (sp_train_ex bo) (sp_train_update bo boost dynamic) nat fb_process ds bs f.
Definition cv_trained_on (bo boost : bool) (ds : list (list Z * nat)) (bs : list (bool * cvblock)) (f : fblock) : list (bool * cvblock) * fblock :=
  train_list cvblock (list Z) (conv_train_ex bo) (conv_update bo boost) nat fb_process ds bs f.
Definition sp_sums (bs : list (bool * sblock)) (f : fblock) (x : list nat) : list Z :=
  fb_votes (snd (run_examples sblock (list nat) sp_eval_ex x bs (fb_reset f))).
Definition cv_sums (bs : list (bool * cvblock)) (f : fblock) (x : list Z) : list Z :=
  fb_votes (snd (run_examples cvblock (list Z) conv_eval_ex x bs (fb_reset f))).
