(** Renaming the classes of a machine with uniform feedback. *)
From Coq Require Import ZArith List Bool QArith.
From Verif Require Import Base ModelFeedback ModelExecutor ModelTrainerFeedback.
Import ListNotations.
Open Scope Z_scope.

(** A draw in [0, 1) chooses class [c] of [n]: it lies in the c-th of [n] parts of
    the same length. *)
Definition chooses (n : nat) (u : Q) (c : nat) : Prop :=
  (c < n)%nat /\ (inject_Z (Z.of_nat c) <= u * inject_Z (Z.of_nat n) < inject_Z (Z.of_nat c + 1))%Q.
(** Where the one generator chooses a class, the other one chooses the renamed
    class. *)
Definition draws_renamed (n : nat) (p : nat -> nat) (r r2 : rng) : Prop :=
  forall i, exists c, chooses n (rng_src r (rng_pos r + i)%nat) c /\ chooses n (rng_src r2 (rng_pos r2 + i)%nat) (p c).
(** Training over a list of examples with the uniform feedback block; an example
    for which it does not stop within [fuel] draws gets no feedback. *)
Definition uni_trained_on {B X} (ex : X -> B -> B * list Z) (upd : X -> nat -> Q -> nat -> Q -> B -> B) (fuel : nat)
  (ds : list (X * nat)) (bs : list (bool * B)) (f : fblock) : list (bool * B) * fblock :=
  train_list B X ex upd nat (fb_step no_feedback fuel FUniform) ds bs f.
(** The pair of classes of the last example and the chances of their feedback. *)
Definition same_feedback (p : nat -> nat) (f f2 : fblock) : Prop :=
  fb_pos f2 = p (fb_pos f) /\ fb_neg f2 = p (fb_neg f) /\ fb_pp f2 = fb_pp f /\ fb_np f2 = fb_np f.
