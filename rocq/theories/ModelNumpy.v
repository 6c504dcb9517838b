(** Numpy arrays as they lie in memory, and the C++ code that reads them
    through a raw pointer: the data handed to the trainer
    (green_tsetlin/trainer.py:110-160, 178-213, 402-416), the input block
    (src/input_block.hpp:83-132), the predictor (green_tsetlin/predictor.py:91-107,
    src/inference.hpp:85-94, 122-130) and tsetlin_im2col
    (src/input_block.hpp:328-406).

    Positions count elements, not bytes.  [None] is undefined behaviour: a read
    outside the buffer or an overflow of a C++ [int]. *)
From Coq Require Import ZArith List Bool Lia.
From Verif Require Import Base ModelLayout ModelInput ModelRuleSet ModelInference ModelPredictor.
Import ListNotations.
Open Scope Z_scope.

Definition obind {A B} (a : option A) (f : A -> option B) : option B :=
  match a with Some x => f x | None => None end.

(** ** int *)

(** The result of an operation on two [int]s (32 bits); signed overflow is
    undefined. *)
Definition int_op (z : Z) : option Z :=
  if (-2147483648 <=? z) && (z <=? 2147483647) then Some z else None.
Definition imul (a b : Z) : option Z := int_op (a * b).
Definition iadd (a b : Z) : option Z := int_op (a + b).
Definition isub (a b : Z) : option Z := int_op (a - b).

(** ** Arrays *)

(** A two-dimensional numpy array: a window on a buffer.  Entry (i, j) is at
    position [v_off + i * v_rs + j * v_cs].  A one-dimensional array of n
    entries is the one with a single row of n entries when it is an example,
    and the one with n rows of one entry when it holds labels. *)
Record view := mkView {
  v_buf : list Z;
  v_off : Z;
  v_n : nat;         (* rows *)
  v_m : nat;         (* columns *)
  v_rs : Z;          (* row stride *)
  v_cs : Z           (* column stride *)
}.

Definition pos (v : view) (i j : nat) : Z := v_off v + Z.of_nat i * v_rs v + Z.of_nat j * v_cs v.

(** Entry (i, j) as python sees it. *)
Definition get (v : view) (i j : nat) : Z := nth (Z.to_nat (pos v i j)) (v_buf v) 0.

(** flags["C_CONTIGUOUS"]: axes of one entry do not count, empty arrays are
    contiguous (numpy's relaxed strides). *)
Definition c_contiguous (v : view) : bool :=
  (v_n v =? 0)%nat || (v_m v =? 0)%nat ||
  (((v_m v =? 1)%nat || (v_cs v =? 1)) && ((v_n v =? 1)%nat || (v_rs v =? Z.of_nat (v_m v)))).

(** A new C-ordered array with the given rows of [m] entries. *)
Definition from_rows (m : nat) (rows : list (list Z)) : view :=
  mkView (concat rows) 0 (length rows) m (Z.of_nat m) 1.

Definition rows_of (v : view) : list (list Z) :=
  map (fun i => map (get v i) (seq 0 (v_m v))) (seq 0 (v_n v)).

(** ndarray.copy(): order 'C' is the default of the method. *)
Definition np_copy (v : view) : view := from_rows (v_m v) (rows_of v).

(** np.ascontiguousarray (no change of dtype). *)
Definition ascontiguous (v : view) : view := if c_contiguous v then v else np_copy v.

(** x[index] with a list of row numbers: a new array. *)
Definition take_rows (v : view) (index : list nat) : view :=
  from_rows (v_m v) (map (fun i => map (get v i) (seq 0 (v_m v))) index).

(** ** The trainer *)

(** set_train_data (trainer.py:148-150): the array kept in x_train. *)
Definition train_array (copy_training_data : bool) (x : view) : view :=
  if copy_training_data then np_copy x else x.
(** set_eval_data (197-199). *)
Definition eval_array (x : view) : view := np_copy x.
(** The training and the validation part of a fold (407-416). *)
Definition fold_train (copy_training_data : bool) (x : view) (index : list nat) : view :=
  train_array copy_training_data (ascontiguous (take_rows x index)).
Definition fold_eval (x : view) (index : list nat) : view :=
  eval_array (ascontiguous (take_rows x index)).

(** ** The input block *)

(** [len] elements from position [o] of the buffer. *)
Definition read (buf : list Z) (o : Z) (len : nat) : option (list Z) :=
  if (0 <=? o) && (o + Z.of_nat len <=? Z.of_nat (length buf))
  then Some (firstn len (skipn (Z.to_nat o) buf)) else None.

(** memcpy(m_current_example, &m_data[index * m_num_literals], m_num_literals)
    (input_block.hpp:88), the pointer being buffer_info.ptr (114), the address
    of entry (0, 0).  array_t<uint8_t> takes an array of the right dtype as it
    is, whatever its strides. *)
Definition present (x : view) (num_literals : Z) (index : Z) : option (list Z) :=
  obind (imul index num_literals) (fun o => read (v_buf x) (v_off x + o) (Z.to_nat num_literals)).

(** m_current_label = &m_labels[index*m_num_labels_per_example] (85-86): the
    [m_num_labels_per_example] numbers found there. *)
Definition present_label (y : view) (index : Z) : option (list Z) :=
  present y (Z.of_nat (v_m y)) index.

(** ** The predictor *)

(** Predictor.predict (predictor.py:91-101): an example that is not contiguous
    is copied to x_copy_mem; np.copyto raises ValueError unless the numbers of
    entries agree (an array of one entry is always contiguous).  The backend
    reads n_literals bytes from the pointer (inference.hpp:91-93, 128) and does
    not look at the shape; it reads the first row of a matrix. *)
Inductive looked := Example (x : list Z) | Error (e : exn) | Undefined.

Definition predictor_reads (n_literals : nat) (x : view) : looked :=
  let x_aligned :=
    if c_contiguous x then Some x
    else if (v_n x =? 1)%nat && (v_m x =? n_literals)%nat then Some (np_copy x) else None in
  match x_aligned with
  | None => Error ValueError
  | Some a => match read (v_buf a) (v_off a) n_literals with
              | Some e => Example e
              | None => Undefined
              end
  end.

(** ... and goes on as in [pred_predict]. *)
Definition predict_array (p : predictor) (x : view) : option (res answer * predictor) :=
  match predictor_reads (inf_nlit (p_inf p)) x with
  | Example e => Some (pred_predict p e)
  | Error e => Some (Raise e, p)
  | Undefined => None
  end.

(** ** tsetlin_im2col *)

(** The [int] computations of the function, in order (346-363): the sizes; the
    size of the result passed to safe_aligned_alloc (gt_common.hpp:14-45), where
    it is rounded up; and, for every example (365-368), the two offsets.  The
    offsets inside an example are not larger than these and not repeated here.
    Windows are not larger than the image. *)
Definition im2col_sizes (n_examples width height channels pw ph : Z) : option (Z * Z * Z) :=
  obind (isub height ph) (fun hy => obind (iadd hy 1) (fun n_patches_y =>
  obind (isub width pw) (fun wx => obind (iadd wx 1) (fun n_patches_x =>
  obind (imul n_patches_x n_patches_y) (fun n_patches =>
  obind (imul pw ph) (fun a => obind (imul a channels) (fun literals_features_per_patch =>
  obind (iadd literals_features_per_patch wx) (fun b => obind (iadd b hy) (fun literals_per_patch =>
  obind (imul n_examples n_patches) (fun c => obind (imul c literals_per_patch) (fun total_mem =>
  Some (n_patches, literals_per_patch, total_mem)))))))))))).

(** safe_aligned_alloc(align_to, mem) (gt_common.hpp:14-25): bytes allocated. *)
Definition alloc_bytes (align_to mem : Z) : option Z :=
  let r := Z.rem mem align_to in
  if mem <? align_to then Some align_to
  else if r >? 0 then obind (isub align_to r) (iadd mem) else Some mem.

(** The offsets of example [k]: example_index * (width * height * channels) and
    example_index * (n_patches * literals_per_patch). *)
Definition example_offsets (width height channels n_patches literals_per_patch k : Z) : option (Z * Z) :=
  obind (imul width height) (fun a => obind (imul a channels) (fun example_size => obind (imul k example_size) (fun src_o =>
  obind (imul n_patches literals_per_patch) (fun row_size => obind (imul k row_size) (fun dst_o => Some (src_o, dst_o)))))).

Fixpoint all_offsets (e : nat) (f : Z -> option (Z * Z)) : option unit :=
  match e with
  | O => Some tt
  | S k => obind (all_offsets k f) (fun _ => obind (f (Z.of_nat k)) (fun _ => Some tt))
  end.

(** The whole function; [junk] is the part of the allocated memory that becomes
    the array (the bytes added by rounding up lie behind it).  The narrowing of
    the four sizes of the shape to int is not modelled. *)
Definition im2col_int (n_examples width height channels : nat) (src : list Z) (pw ph : nat) (junk : list Z)
  : option (list Z) :=
  let z := Z.of_nat in
  obind (im2col_sizes (z n_examples) (z width) (z height) (z channels) (z pw) (z ph)) (fun s =>
  let '(n_patches, literals_per_patch, total_mem) := s in
  obind (alloc_bytes 32 total_mem) (fun _ =>
  obind (all_offsets n_examples (example_offsets (z width) (z height) (z channels) n_patches literals_per_patch)) (fun _ =>
  Some (im2col n_examples width height channels src pw ph junk)))).
