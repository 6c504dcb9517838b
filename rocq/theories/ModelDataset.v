(** Model of green_tsetlin/dataset_generator.py:xor_dataset (17-43).
    imdb_dataset is in ModelImdb.v. *)
From Coq Require Import ZArith List Bool QArith Lia.
From Verif Require Import Base ModelExecutor ModelMachine.
Import ListNotations.
Open Scope Z_scope.

(** prng.randint(low=0, high=2, size=(rows, cols)) (33, 40), row by row.
    RandomState is one generator; integer and float draws are given by two
    arbitrary streams. *)
Fixpoint randint_row (cols : nat) (r : irng) : list Z * irng :=
  match cols with
  | O => ([], r)
  | S k => let '(v, r) := next_int 2 r in
           let '(t, r) := randint_row k r in (Z.of_nat v :: t, r)
  end.
Fixpoint randint (rows cols : nat) (r : irng) : list (list Z) * irng :=
  match rows with
  | O => ([], r)
  | S k => let '(v, r) := randint_row cols r in
           let '(t, r) := randint k cols r in (v :: t, r)
  end.

(** prng.random(n) (37). *)
Fixpoint random (n : nat) (r : rng) : list Q * rng :=
  match n with
  | O => ([], r)
  | S k => let '(u, r) := next_u r in
           let '(t, r) := random k r in (u :: t, r)
  end.

(** np.logical_xor(x[:, 0], x[:, 1]) (34, 41): truth values of the entries. *)
Definition xor_labels (x : list (list Z)) : list bool :=
  map (fun row => xorb (negb (nth 0 row 0 =? 0)) (negb (nth 1 row 0 =? 0))) x.

(** flips = prng.random(n_train) < noise; train_y[flips] = not train_y[flips]
    (37-38). *)
Definition flip_labels (noise : fl) (us : list Q) (y : list bool) : list bool :=
  map2 (fun u b => if fl_ltb (Fin u) noise then negb b else b) us y.

(** xor_dataset: (train_x, train_y, test_x, test_y); astype(np.uint32) turns
    True into 1 (43). *)
Definition xor_dataset (noise : option fl) (n_train n_test : nat) (n_literals : Z) (ir : irng) (ur : rng)
  : res (list (list Z) * list Z * list (list Z) * list Z) :=
  if n_literals <? 2 then Raise ValueError
  else
    let cols := Z.to_nat n_literals in
    let '(train_x, ir) := randint n_train cols ir in
    let train_y := xor_labels train_x in
    let train_y :=
      match noise with
      | None => train_y
      | Some p => if fl_ltb (Fin 0) p then flip_labels p (fst (random n_train ur)) train_y else train_y
      end in
    let '(test_x, ir) := randint n_test cols ir in
    let test_y := xor_labels test_x in
    Ok (train_x, map b2z train_y, test_x, map b2z test_y).
