(** What the input blocks, im2col and the XOR data set should deliver. *)
From Coq Require Import ZArith List Bool QArith.
From Verif Require Import Base Spec ModelInput.
Import ListNotations.
Open Scope Z_scope.

(** What a CSR matrix of [n] columns means: entry (i, j) is the sum of the
    values stored for it (scipy toarray). *)
Definition csr_entry (indices indptr : list nat) (data : list Z) (i j : nat) : Z :=
  zsum (map (fun k => if Nat.eqb (nth k indices O) j then nth k data 0 else 0)
            (seq (nth i indptr O) (nth (i + 1) indptr O - nth i indptr O))).

Definition csr_ok (n rows : nat) (indices indptr : list nat) (data : list Z) : Prop :=
  length indptr = S rows /\ length data = length indices /\
  (forall i, (i <= rows)%nat -> (nth i indptr O <= length indices)%nat) /\
  Forall (fun j => (j < n)%nat) indices.

(** The aligned buffer holding the row [f 0 .. f (n-1)], zero behind it. *)
Definition row_buffer (n : nat) (f : nat -> Z) : list Z :=
  map f (seq 0 n) ++ repeat 0 ((n / 32 + 1) * 32 - n).

(** Presenting the examples [idx] one after the other. *)
Definition prepare_all (prep : nat -> iblock -> iblock) (idx : list nat) (b : iblock) : iblock :=
  fold_left (fun b i => prep i b) idx b.

(** Labels per example: the second dimension, 1 if there is none. *)
Definition labels_per (labels : ndarray) : nat := nth 1 (a_shape labels) 1%nat.

(** Conditions a block can be in: constructed, given data (also repeatedly, also
    with a failing call), asked for examples of the data it holds. *)
Inductive csr_reach (n : nat) : iblock -> Prop :=
| CRnew : csr_reach n (new_iblock n)
| CRset : forall b indices indptr labels r b', csr_reach n b ->
    csr_set_data indices indptr labels b = (r, b') -> csr_reach n b'
| CRprep : forall b rows data i, csr_reach n b -> csr_ok n rows (ib_indices b) (ib_indptr b) data -> (i < rows)%nat ->
    csr_reach n (csr_prepare i b).
Inductive dense_reach (n : nat) : iblock -> Prop :=
| DRnew : dense_reach n (new_iblock n)
| DRset : forall b examples labels r b', dense_reach n b ->
    dense_set_data examples labels b = (r, b') -> dense_reach n b'
| DRprep : forall b rows i, dense_reach n b -> length (ib_data b) = (rows * n)%nat -> (i < rows)%nat ->
    dense_reach n (dense_prepare i b).

(** numpy indexing of a C-ordered image array (examples, N, N, channels). *)
Definition pixel (N channels : nat) (src : list Z) (e i j c : nat) : Z :=
  nth (((e * N + i) * N + j) * channels + c) src 0.

(** numpy indexing of a C-ordered (examples, rows, columns, channels) array. *)
Definition pixel_hw (H W channels : nat) (src : list Z) (e i j c : nat) : Z :=
  nth (((e * H + i) * W + j) * channels + c) src 0.

Definition xor_of (row : list Z) : Z := (nth 0 row 0 + nth 1 row 0) mod 2.

