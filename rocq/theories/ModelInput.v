(** Model of src/input_block.hpp: the blocks that present one example at a
    time, and tsetlin_im2col. *)
From Coq Require Import ZArith List Bool QArith Lia.
From Verif Require Import Base ModelLayout ModelFeedback ModelExecutor.
Import ListNotations.
Open Scope Z_scope.

(** numpy array handed over by pybind11: shape and C-contiguous buffer. *)
Record ndarray := mkArr { a_shape : list nat; a_mem : list Z }.

(** The fields of DenseInputBlock<uint8_t> and of SparseInputDenseOutputBlock
    (input_block.hpp:134-145, 203-205).  [ib_data] is the dense matrix,
    [ib_indices]/[ib_indptr] the CSR arrays; [ib_label] is the row that
    m_current_label points to. *)
Record iblock := mkIB {
  ib_nlit : nat;
  ib_nex : nat;
  ib_perex : nat;                 (* m_num_labels_per_example *)
  ib_data : list Z;
  ib_indices : list nat;
  ib_indptr : list nat;
  ib_labels : option (list Z);    (* m_labels, None = nullptr *)
  ib_cur : list Z;                (* m_current_example, aligned *)
  ib_label : list Z
}.

(** Constructor (48-68): one_example_mem bytes, all zero. *)
Definition new_iblock (nlit : nat) : iblock :=
  mkIB nlit 0 0 [] [] [] None (repeat 0 ((nlit / 32 + 1) * 32)) [].

(** The label part of set_data (119-131). *)
Definition set_labels (labels : ndarray) (b : iblock) : res unit * iblock :=
  match a_shape labels with
  | [] | O :: _ =>
      (Ok tt, mkIB (ib_nlit b) (ib_nex b) (ib_perex b) (ib_data b) (ib_indices b) (ib_indptr b)
                   None (ib_cur b) (ib_label b))
  | n :: rest =>
      if negb (Nat.eqb n (ib_nex b)) then (Raise RuntimeError, b)
      else (Ok tt, mkIB (ib_nlit b) (ib_nex b) (match rest with [] => 1 | k :: _ => k end)
                        (ib_data b) (ib_indices b) (ib_indptr b)
                        (Some (a_mem labels)) (ib_cur b) (ib_label b))
  end.

(** DenseInputBlock::set_data (104-132); a one-dimensional examples array has
    no shape[1] (undefined, not used). *)
Definition dense_set_data (examples labels : ndarray) (b : iblock) : res unit * iblock :=
  let n := nth 0 (a_shape examples) O in
  let b := mkIB (ib_nlit b) n (ib_perex b) (ib_data b) (ib_indices b) (ib_indptr b)
                (ib_labels b) (ib_cur b) (ib_label b) in
  if negb (Nat.eqb (nth 1 (a_shape examples) O) (ib_nlit b)) then (Raise RuntimeError, b)
  else
    set_labels labels (mkIB (ib_nlit b) n (ib_perex b) (a_mem examples) (ib_indices b) (ib_indptr b)
                            (ib_labels b) (ib_cur b) (ib_label b)).

(** SparseInputDenseOutputBlock::set_data_sparse (176-200): the labels must
    match, an empty label array is not special. *)
Definition csr_set_data (indices indptr : list nat) (labels : ndarray) (b : iblock) : res unit * iblock :=
  let n := (length indptr - 1)%nat in
  let b := mkIB (ib_nlit b) n (ib_perex b) (ib_data b) indices indptr (ib_labels b) (ib_cur b) (ib_label b) in
  if negb (Nat.eqb (nth 0 (a_shape labels) O) n) then (Raise RuntimeError, b)
  else (Ok tt, mkIB (ib_nlit b) n (match a_shape labels with [_] => 1 | _ => nth 1 (a_shape labels) O end)
                    (ib_data b) indices indptr (Some (a_mem labels)) (ib_cur b) (ib_label b)).

(** m_current_label = &m_labels[index*m_num_labels_per_example] (85-86, 164-165). *)
Definition current_label (b : iblock) (index : nat) : list Z :=
  match ib_labels b with
  | None => ib_label b
  | Some mem => slice mem (index * ib_perex b) (ib_perex b)
  end.

Definition with_current (b : iblock) (cur label : list Z) : iblock :=
  mkIB (ib_nlit b) (ib_nex b) (ib_perex b) (ib_data b) (ib_indices b) (ib_indptr b) (ib_labels b) cur label.

(** DenseInputBlock::prepare_example (83-89). *)
Definition dense_prepare (index : nat) (b : iblock) : iblock :=
  with_current b (memcpy (ib_cur b) 0 (ib_data b) (index * ib_nlit b) (ib_nlit b)) (current_label b index).

(** SparseInputDenseOutputBlock::prepare_example (162-174): clear, then set the
    stored columns of the row. *)
Definition csr_prepare (index : nat) (b : iblock) : iblock :=
  let start := nth index (ib_indptr b) O in
  let stop := nth (index + 1) (ib_indptr b) O in
  let cur := memcpy (ib_cur b) 0 (repeat 0 (ib_nlit b)) 0 (ib_nlit b) in
  let cur := fold_left (fun cur it => set_nth (nth it (ib_indices b) O) 1 cur) (seq start (stop - start)) cur in
  with_current b cur (current_label b index).

(** SparseInputBlock::prepare_example (247-263): the stored columns themselves. *)
Definition sparse_prepare (index : nat) (indices indptr cur : list nat) : list nat :=
  let start := nth index indptr O in
  let stop := nth (index + 1) indptr O in
  fold_left (fun cur it => cur ++ [nth it indices O]) (seq start (stop - start)) [].

(** ** Training through an input block

    The example loop of train_slice (executor.hpp:111-153) with the input block
    in place: prepare_example, then the blocks read the current example and the
    feedback block the current label. *)
Section InputLoop.
  Context {B E L I : Type}.
  Variable train_ex : E -> B -> B * list Z.
  Variable update : E -> nat -> Q -> nat -> Q -> B -> B.
  Variable process : L -> fblock -> fblock.
  Variable prep : nat -> I -> I.
  Variable ex : I -> E.
  Variable lab : I -> L.

  Fixpoint train_input (idx : list nat) (s : I) (bs : list (bool * B)) (fb : fblock) : I * list (bool * B) * fblock :=
    match idx with
    | [] => (s, bs, fb)
    | i :: r =>
        let s := prep i s in
        let '(bs, fb) := train_one B E train_ex update L process (ex s, lab s) bs fb in
        train_input r s bs fb
    end.
End InputLoop.

(** ** tsetlin_im2col (input_block.hpp:328-406) *)

(** cumlative_encode (319-326) writing at offset [off]. *)
Definition cumlative_encode (mem : list Z) (off number size : nat) : list Z :=
  for_loop number (fun i mem => set_nth (off + i) 1 mem) (memcpy mem off (repeat 0 size) 0 size).

(** Body of the loop over window positions (369-388): writes one patch, returns
    the memory and the next patch index. *)
Definition im2col_patch (src : list Z) (width height channels pw ph ex_o dst_o lpp py px : nat)
  (st : list Z * nat) : list Z * nat :=
  let '(mem, patch_index) := st in
  let po := (dst_o + patch_index * lpp)%nat in
  let mem := cumlative_encode mem po py (height - ph) in
  let po := (po + (height - ph))%nat in
  let mem := cumlative_encode mem po px (width - pw) in
  let po := (po + (width - pw))%nat in
  let mem := for_loop ph (fun y mem =>
    memcpy mem (po + y * (pw * channels)) src
           (ex_o + (py + y) * width * channels + px * channels) (pw * channels)) mem in
  (mem, S patch_index).

(** The whole function: [shape] = (n_examples, width, height, channels) taken
    from the numpy array in this order (346-349); [junk] is the freshly
    allocated result memory.  int sizes are kept unbounded; windows larger than
    the image are not modelled. *)
Definition im2col (n_examples width height channels : nat) (src : list Z) (pw ph : nat) (junk : list Z) : list Z :=
  let npy := (height - ph + 1)%nat in
  let npx := (width - pw + 1)%nat in
  let lpp := (pw * ph * channels + (width - pw) + (height - ph))%nat in
  for_loop n_examples (fun e mem =>
    let ex_o := (e * (width * height * channels))%nat in
    let dst_o := (e * (npx * npy * lpp))%nat in
    fst (for_loop npy (fun py st =>
           for_loop npx (fun px st =>
             im2col_patch src width height channels pw ph ex_o dst_o lpp py px st) st) (mem, O))) junk.
