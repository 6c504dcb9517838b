(** C109 - C112: arrays handed over from python. *)
From Coq Require Import ZArith List Bool Lia ZifyBool.
From Verif Require Import Base ModelLayout ModelInput ModelRuleSet ModelInference ModelPredictor SpecInput ProofsInput
  ModelNumpy SpecNumpy ProofsNumpy PropertiesInput.
Import ListNotations.
Open Scope Z_scope.

(** ** C109: the clause blocks see the rows of the array that was given *)

(** Training data with copy_training_data (the default), evaluation data, and
    the two parts of a fold: whatever the strides of the array. *)
Theorem C109_copied : forall x i, in_buffer x -> (0 < v_m x)%nat -> (i < v_n x)%nat ->
  Z.of_nat i * Z.of_nat (v_m x) <= 2147483647 ->
  sees (train_array true x) x i i /\ sees (eval_array x) x i i.
Proof. intros x i Hb Hm Hi Hz. split; apply np_copy_sees; auto. Qed.

Theorem C109_folds : forall copy x index k i, in_buffer x -> (0 < v_m x)%nat ->
  nth_error index k = Some i -> (i < v_n x)%nat -> Z.of_nat k * Z.of_nat (v_m x) <= 2147483647 ->
  sees (fold_train copy x index) x k i /\ sees (fold_eval x index) x k i.
Proof.
  intros copy x index k i Hb Hm Hk Hi Hz.
  assert (E : nth_error (fold_rows x index) k = Some (row x i)).
  { unfold fold_rows. rewrite nth_error_map, Hk. reflexivity. }
  rewrite fold_train_eq, fold_eval_eq. split; apply sees_rows; auto; apply fold_rows_length.
Qed.

(** Without the copy: for C-contiguous arrays. *)
Theorem C109_uncopied_partial : forall x i, in_buffer x -> (0 < v_m x)%nat -> (i < v_n x)%nat ->
  c_contiguous x = true -> Z.of_nat i * Z.of_nat (v_m x) <= 2147483647 -> sees (train_array false x) x i i.
Proof. intros x i Hb Hm Hi Hc Hz. apply present_contiguous; auto. Qed.

(** And for no other layout. *)
Theorem C109_uncopied_only_partial : forall x, in_buffer x -> (0 < v_n x)%nat -> (0 < v_m x)%nat ->
  (forall b, length b = length (v_buf x) -> forall i, (i < v_n x)%nat ->
     sees (train_array false (on_buffer x b)) (on_buffer x b) i i) ->
  (v_m x = 1%nat \/ v_cs x = 1) /\ (v_n x = 1%nat \/ v_rs x = Z.of_nat (v_m x)).
Proof.
  intros x Hb Hn Hm H.
  assert (C : c_contiguous x = true).
  { apply all_rows_contiguous; auto. intros i Hi. apply H; auto. rewrite map_length, seq_length. reflexivity. }
  unfold c_contiguous in C. lia.
Qed.

(** A matrix in Fortran order, not copied: the second example is not its second
    row. *)
Theorem C109_refuted : exists x l, in_buffer x /\ v_rs x = 1 /\ v_cs x = Z.of_nat (v_n x) /\
  present (train_array false x) (Z.of_nat (v_m x)) 1 = Some l /\ ~ is_row x 1 l.
Proof.
  exists (mkView [1; 0; 1; 0; 1; 0] 0 2 3 1 2), [0; 1; 0].
  split; [|split; [|split; [|split]]]; try reflexivity.
  - intros i j Hi Hj. cbn [v_off v_rs v_cs v_buf v_n v_m length] in *. lia.
  - intros [_ H]. specialize (H 1%nat). cbn [v_m v_off v_rs v_cs v_buf] in H.
    assert (A : (1 < 3)%nat) by lia. specialize (H A). vm_compute in H. discriminate H.
Qed.

(** x[::-1] of a whole matrix, not copied: every example but the first is read
    behind the end of the memory. *)
Theorem C109_reversed_refuted : forall x i, c_contiguous x = true -> (0 < v_m x)%nat -> (2 <= v_n x)%nat -> v_off x = 0 ->
  length (v_buf x) = (v_n x * v_m x)%nat -> (1 <= i)%nat ->
  present (train_array false (reversed x)) (Z.of_nat (v_m x)) (Z.of_nat i) = None.
Proof.
  intros x i Hc Hm Hn Ho Hl Hi. unfold train_array, present, imul.
  destruct (int_op (Z.of_nat i * Z.of_nat (v_m x))) as [o|] eqn:E; [|reflexivity].
  apply int_op_inv in E. destruct E as [-> _]. cbn [obind]. apply read_none.
  cbn [reversed v_buf v_off]. rewrite Hl, Ho, Nat2Z.id.
  assert (R : v_rs x = Z.of_nat (v_m x)) by (unfold c_contiguous in Hc; lia).
  rewrite R. nia.
Qed.

(** The bytes are those the model of the input block works on. *)
Theorem C109_input_block : forall x b i l,
  present x (Z.of_nat (ib_nlit b)) (Z.of_nat i) = Some l -> 0 <= v_off x -> ib_data b = skipn (Z.to_nat (v_off x)) (v_buf x) ->
  firstn (ib_nlit b) (ib_cur (dense_prepare i b)) = l.
Proof. exact present_dense_prepare. Qed.

(** Every second column of a 2 x 4 matrix. *)
Definition ex_view : view := mkView [1; 0; 0; 1; 0; 0; 1; 1] 1 2 2 4 2.
Example C109_case : in_buffer ex_view /\ is_row ex_view 1 [0; 1] /\ c_contiguous ex_view = false /\
  present (train_array true ex_view) 2 1 = Some [0; 1] /\ present (train_array false ex_view) 2 1 = Some [1; 0] /\
  present (fold_train false ex_view [1%nat; 0%nat]) 2 0 = Some [0; 1].
Proof.
  split; [|split; [|vm_compute; auto]].
  - intros i j Hi Hj. cbn [ex_view v_off v_rs v_cs v_buf v_n v_m length] in *. lia.
  - split; [reflexivity|]. intros j Hj. cbn [ex_view v_m] in Hj. destruct j as [|[|j]]; [reflexivity|reflexivity|lia].
Qed.
Example C109_reversed_case : let x := from_rows 2 [[1; 0]; [0; 1]] in
  c_contiguous x = true /\ rows_of (reversed x) = [[0; 1]; [1; 0]] /\
  present (train_array false (reversed x)) 2 0 = Some [0; 1] /\ present (train_array false (reversed x)) 2 1 = None.
Proof. vm_compute. auto. Qed.

(** ** C110: the position of an example fits into an int *)

Theorem C110_exact_partial : forall x, in_buffer x -> (0 < v_n x)%nat -> (0 < v_m x)%nat -> c_contiguous x = true ->
  ((forall i, (i < v_n x)%nat -> sees x x i i) <-> (Z.of_nat (v_n x) - 1) * Z.of_nat (v_m x) <= 2147483647).
Proof.
  intros x Hb Hn Hm Hc. split.
  - intro H. destruct (H (v_n x - 1)%nat ltac:(lia)) as (l & _ & P). unfold present, imul in P.
    destruct (int_op (Z.of_nat (v_n x - 1) * Z.of_nat (v_m x))) eqn:E; [|discriminate P].
    apply int_op_inv in E. replace (Z.of_nat (v_n x) - 1) with (Z.of_nat (v_n x - 1)) by lia. lia.
  - intros L i Hi. apply present_contiguous; auto.
    assert (Z.of_nat i * Z.of_nat (v_m x) <= (Z.of_nat (v_n x) - 1) * Z.of_nat (v_m x))
      by (apply Z.mul_le_mono_nonneg_r; lia). lia.
Qed.

(** Which examples are lost: all from number 2^31 / n_literals on. *)
Theorem C110_overflow : forall x num_literals i, 2147483647 < i * num_literals -> present x num_literals i = None.
Proof. intros x m i H. unfold present, imul. rewrite int_op_none by lia. reflexivity. Qed.

(** 100000 examples of 30000 literals (3 GB), copied as usual. *)
Theorem C110_refuted : exists x, in_buffer x /\ Z.of_nat (v_n x) = 100000 /\ Z.of_nat (v_m x) = 30000 /\
  present (train_array true x) (Z.of_nat (v_m x)) 99999 = None.
Proof.
  exists (from_rows (Z.to_nat 30000) (repeat (repeat 0 (Z.to_nat 30000)) (Z.to_nat 100000))).
  split; [|split; [|split]].
  - apply from_rows_in_buffer. apply Forall_forall. intros r H. apply repeat_spec in H. subst r. apply repeat_length.
  - cbn [from_rows v_n]. rewrite repeat_length. apply Z2Nat.id. lia.
  - cbn [from_rows v_m]. apply Z2Nat.id. lia.
  - apply C110_overflow. cbn [from_rows v_m]. rewrite Z2Nat.id by lia. reflexivity.
Qed.

Example C110_case : present (from_rows 3 [[1; 0; 1]; [0; 1; 1]]) 3 1 = Some [0; 1; 1] /\
  (2 - 1) * 3 <= 2147483647 /\ present (from_rows 3 [[1; 0; 1]; [0; 1; 1]]) 3 715827883 = None.
Proof. vm_compute. repeat split; discriminate. Qed.

(** ** C111: the predictor answers for the example it was given *)

Theorem C111_example : forall p x l, v_n x = 1%nat -> v_m x = inf_nlit (p_inf p) -> (0 < v_m x)%nat -> in_buffer x ->
  is_row x 0 l -> predict_array p x = Some (pred_predict p l).
Proof.
  intros p x l Hn Hm Hp Hb Hl. unfold predict_array.
  rewrite (predictor_reads_row _ x l) by (auto; lia). reflexivity.
Qed.

(** An array of the wrong size that is not contiguous is refused. *)
Theorem C111_refused : forall p x, c_contiguous x = false -> v_n x <> 1%nat \/ v_m x <> inf_nlit (p_inf p) ->
  predict_array p x = Some (Raise ValueError, p).
Proof.
  intros p x Hc H. unfold predict_array, predictor_reads. rewrite Hc.
  destruct ((v_n x =? 1)%nat && (v_m x =? inf_nlit (p_inf p))%nat) eqn:E; [lia|]. reflexivity.
Qed.

(** A contiguous one is not: too short an example is read past its end, too long
    a one is cut, and of a matrix only the first row is looked at. *)
Theorem C111_short_refuted : forall p x, c_contiguous x = true -> v_n x = 1%nat -> (v_m x < inf_nlit (p_inf p))%nat ->
  v_off x = 0 -> length (v_buf x) = v_m x -> predict_array p x = None.
Proof.
  intros p x Hc Hn Hm Ho Hl. unfold predict_array, predictor_reads. rewrite Hc, read_none by lia. reflexivity.
Qed.
Theorem C111_size_refuted : forall p x, c_contiguous x = true -> in_buffer x -> (0 < v_n x)%nat -> (0 < inf_nlit (p_inf p))%nat ->
  (inf_nlit (p_inf p) <= v_m x)%nat ->
  exists l, is_row x 0 l /\ predict_array p x = Some (pred_predict p (firstn (inf_nlit (p_inf p)) l)).
Proof.
  intros p x Hc Hb Hn Hp Hm. set (n := inf_nlit (p_inf p)) in *.
  destruct (present_contiguous x 0 Hc Hb Hn ltac:(lia) ltac:(lia)) as (l & R & P).
  exists l. split; [exact R|]. unfold predict_array, predictor_reads. rewrite Hc. fold n.
  assert (B : 0 <= v_off x /\ v_off x + Z.of_nat n <= Z.of_nat (length (v_buf x))).
  { unfold present, imul in P. rewrite int_op_some in P by lia. cbn [obind] in P. apply read_inv in P. lia. }
  destruct (read_some (v_buf x) (v_off x) n ltac:(lia) ltac:(lia)) as [l' L']. rewrite L'. f_equal. f_equal.
  apply read_inv in L'. destruct L' as (_ & _ & L1 & L2). destruct R as [R1 R2].
  apply nth_error_ext. intro j. destruct (Nat.lt_ge_cases j n) as [C|C].
  - rewrite L2 by auto. assert (F : nth_error (firstn n l) j = nth_error l j) by exact (nth_error_firstn_skipn l 0 n j C).
    rewrite F, R2 by lia. f_equal. rewrite contiguous_pos by (auto; lia). lia.
  - assert (A : nth_error l' j = None) by (apply nth_error_None; lia).
    rewrite A. symmetry. apply nth_error_None. rewrite firstn_length. lia.
Qed.

Definition ex_inference : inference := new_inference 2 2 [[0]; [3]]%nat [[1; -1]; [0; 3]] [].
Definition ex_predictor : predictor := mkPred XNone false 2 None None ex_inference.
(** The second column of a matrix; a vector too short; a matrix of two rows. *)
Example C111_case :
  predictor_reads 2 (mkView [1; 0; 1; 1] 1 1 2 0 2) = Example [0; 1] /\
  option_map fst (predict_array ex_predictor (mkView [1; 0; 0; 1] 0 1 2 0 2)) = Some (Ok (AClass 1)) /\
  option_map fst (predict_array ex_predictor (mkView [1; 1; 0; 1] 0 1 2 0 3)) = Some (Ok (AClass 0)) /\
  predict_array ex_predictor (mkView [1] 0 1 1 0 1) = None /\
  option_map fst (predict_array ex_predictor (from_rows 2 [[1; 1]; [1; 0]])) = Some (Ok (AClass 0)) /\
  option_map fst (predict_array ex_predictor (mkView [1; 0; 1; 1; 0; 0] 0 1 3 0 2)) = Some (Raise ValueError).
Proof. vm_compute. repeat split. Qed.

(** ** C112: im2col for any number of images *)

(** Defined exactly up to 2^31 - 32 bytes of result. *)
Theorem C112_exact_partial : forall n w h c pw ph src junk,
  1 <= n -> 1 <= pw <= w -> 1 <= ph <= h -> 1 <= c ->
  ((exists r, im2col_int (Z.to_nat n) (Z.to_nat w) (Z.to_nat h) (Z.to_nat c) src (Z.to_nat pw) (Z.to_nat ph) junk = Some r) <->
   n * ((w - pw + 1) * (h - ph + 1)) * (pw * ph * c + (w - pw) + (h - ph)) <= 2147483616).
Proof. intros. apply im2col_int_exact; auto. Qed.

(** And then it has the windows of C36. *)
Theorem C112_windows_partial : forall n_ex N channels pw ph src junk out e py px,
  let npx := (N - pw + 1)%nat in let npy := (N - ph + 1)%nat in
  let lpp := (pw * ph * channels + (N - pw) + (N - ph))%nat in
  im2col_int n_ex N N channels src pw ph junk = Some out ->
  (pw <= N)%nat -> (ph <= N)%nat ->
  length src = (n_ex * (N * N * channels))%nat -> length junk = (n_ex * (npx * npy * lpp))%nat ->
  (e < n_ex)%nat -> (py + ph <= N)%nat -> (px + pw <= N)%nat ->
  let row := slice out ((e * (npx * npy) + (py * npx + px)) * lpp) lpp in
  (forall k, (k < N - ph)%nat -> nth k row 0 = if (k <? py)%nat then 1 else 0) /\
  (forall k, (k < N - pw)%nat -> nth (N - ph + k) row 0 = if (k <? px)%nat then 1 else 0) /\
  (forall y x c, (y < ph)%nat -> (x < pw)%nat -> (c < channels)%nat ->
     nth (N - ph + (N - pw) + ((y * pw + x) * channels + c)) row 0 = pixel N channels src e (py + y) (px + x) c).
Proof.
  intros n_ex N channels pw ph src junk out e py px npx npy lpp H Hpw Hph Hl Hj He Hpy Hpx row0.
  apply im2col_int_value in H. subst out.
  exact (proj2 (proj2 (C36_windows n_ex N channels pw ph src junk e py px Hpw Hph Hl Hj He Hpy Hpx))).
Qed.

(** The 60000 images of MNIST (28 x 28) with windows of 10 x 10: the size of the
    result overflows. *)
Theorem C112_refuted : forall src junk,
  im2col_int (Z.to_nat 60000) (Z.to_nat 28) (Z.to_nat 28) (Z.to_nat 1) src (Z.to_nat 10) (Z.to_nat 10) junk = None.
Proof.
  intros src junk.
  destruct (im2col_int (Z.to_nat 60000) (Z.to_nat 28) (Z.to_nat 28) (Z.to_nat 1) src (Z.to_nat 10) (Z.to_nat 10) junk) as [r|] eqn:E;
    [|reflexivity].
  exfalso. pose proof (proj1 (im2col_int_exact 60000 28 28 1 10 10 ltac:(lia) ltac:(lia) ltac:(lia) ltac:(lia) src junk)
    (ex_intro _ r E)) as L. lia.
Qed.

Example C112_case : im2col_int 1 3 3 1 [1;2;3;4;5;6;7;8;9] 2 2 (repeat 7 24) =
  Some [0;0; 1;2;4;5;  0;1; 2;3;5;6;  1;0; 4;5;7;8;  1;1; 5;6;8;9] /\
  43740 * ((28 - 10 + 1) * (28 - 10 + 1)) * (10 * 10 * 1 + (28 - 10) + (28 - 10)) <= 2147483616.
Proof. split; [reflexivity|vm_compute; discriminate]. Qed.

Print Assumptions C109_copied.
Print Assumptions C109_folds.
Print Assumptions C109_uncopied_partial.
Print Assumptions C109_uncopied_only_partial.
Print Assumptions C109_refuted.
Print Assumptions C109_reversed_refuted.
Print Assumptions C109_input_block.
Print Assumptions C110_exact_partial.
Print Assumptions C110_overflow.
Print Assumptions C110_refuted.
Print Assumptions C111_example.
Print Assumptions C111_refused.
Print Assumptions C111_short_refuted.
Print Assumptions C111_size_refuted.
Print Assumptions C112_exact_partial.
Print Assumptions C112_windows_partial.
Print Assumptions C112_refuted.
