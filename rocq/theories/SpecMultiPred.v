(** Vocabulary for the predictor of a multi-label machine. *)
From Coq Require Import ZArith List Bool Lia.
From Verif Require Import Base Spec.
Import ListNotations.
Open Scope Z_scope.

(** A machine for [n] labels has class k for "label k is on" and class n + k for
    "label k is off" (tsetlin_machine.py:117-118): the labels of an example. *)
Definition labels_on (n : nat) (votes : nat -> Z) : list nat := filter (fun k => votes (n + k)%nat <? votes k) (seq 0 n).
