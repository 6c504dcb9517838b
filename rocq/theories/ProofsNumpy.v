(** Lemmas about arrays in memory. *)
From Coq Require Import ZArith List Bool Lia ZifyBool.
From Verif Require Import Base ModelLayout ModelInput ModelRuleSet ModelInference ModelPredictor ModelNumpy SpecNumpy.
Import ListNotations.
Open Scope Z_scope.

Lemma int_op_some : forall z, -2147483648 <= z <= 2147483647 -> int_op z = Some z.
Proof.
  intros z H. unfold int_op.
  destruct ((-2147483648 <=? z) && (z <=? 2147483647)) eqn:E; auto. lia.
Qed.
Lemma int_op_inv : forall z w, int_op z = Some w -> w = z /\ -2147483648 <= z <= 2147483647.
Proof.
  intros z w. unfold int_op.
  destruct ((-2147483648 <=? z) && (z <=? 2147483647)) eqn:E; [|discriminate].
  intro H. injection H as <-. lia.
Qed.
Lemma int_op_none : forall z, 2147483647 < z -> int_op z = None.
Proof.
  intros z H. unfold int_op.
  destruct ((-2147483648 <=? z) && (z <=? 2147483647)) eqn:E; auto. lia.
Qed.

Lemma nth_error_firstn_skipn : forall (l : list Z) a n j, (j < n)%nat ->
  nth_error (firstn n (skipn a l)) j = nth_error l (a + j).
Proof.
  intros l. induction l as [|h t IH]; intros a n j H.
  - rewrite skipn_nil, firstn_nil. destruct (a + j)%nat; destruct j; reflexivity.
  - destruct a as [|a].
    + cbn [skipn]. clear IH. revert n j H.
      generalize (h :: t) as l. clear. induction l as [|x l IH]; intros n j H.
      * rewrite firstn_nil. reflexivity.
      * destruct n as [|n]; [lia|]. cbn [firstn]. destruct j as [|j]; [reflexivity|].
        cbn [nth_error Nat.add]. apply (IH n j). lia.
    + cbn [skipn]. rewrite IH by auto. reflexivity.
Qed.

Lemma read_inv : forall buf o n l, read buf o n = Some l ->
  0 <= o /\ o + Z.of_nat n <= Z.of_nat (length buf) /\ length l = n /\
  forall j, (j < n)%nat -> nth_error l j = nth_error buf (Z.to_nat (o + Z.of_nat j)).
Proof.
  intros buf o n l H. unfold read in H.
  destruct ((0 <=? o) && (o + Z.of_nat n <=? Z.of_nat (length buf))) eqn:E; [|discriminate].
  injection H as <-. split; [lia|]. split; [lia|]. split.
  - rewrite firstn_length, skipn_length. lia.
  - intros j Hj. rewrite nth_error_firstn_skipn by auto. f_equal. lia.
Qed.
Lemma read_some : forall buf o n, 0 <= o -> o + Z.of_nat n <= Z.of_nat (length buf) ->
  exists l, read buf o n = Some l.
Proof.
  intros buf o n H1 H2. unfold read.
  destruct ((0 <=? o) && (o + Z.of_nat n <=? Z.of_nat (length buf))) eqn:E; [eauto|lia].
Qed.
Lemma read_none : forall buf o n, Z.of_nat (length buf) < o + Z.of_nat n -> read buf o n = None.
Proof.
  intros buf o n H. unfold read.
  destruct ((0 <=? o) && (o + Z.of_nat n <=? Z.of_nat (length buf))) eqn:E; [lia|auto].
Qed.

Lemma nth_error_ext : forall (l l' : list Z), (forall j, nth_error l j = nth_error l' j) -> l = l'.
Proof.
  induction l as [|h t IH]; intros [|h' t'] H.
  - reflexivity.
  - specialize (H 0%nat). discriminate H.
  - specialize (H 0%nat). discriminate H.
  - pose proof (H 0%nat) as H0. cbn [nth_error] in H0. injection H0 as ->. f_equal. apply IH. intro j. exact (H (S j)).
Qed.
Lemma nth_error_ext2 : forall (l l' : list (list Z)), (forall j, nth_error l j = nth_error l' j) -> l = l'.
Proof.
  induction l as [|h t IH]; intros [|h' t'] H.
  - reflexivity.
  - specialize (H 0%nat). discriminate H.
  - specialize (H 0%nat). discriminate H.
  - pose proof (H 0%nat) as H0. cbn [nth_error] in H0. injection H0 as ->. f_equal. apply IH. intro j. exact (H (S j)).
Qed.

Lemma is_row_unique : forall x i l l', is_row x i l -> is_row x i l' -> l = l'.
Proof.
  intros x i l l' [H1 H2] [H3 H4]. apply nth_error_ext. intro j.
  destruct (Nat.lt_ge_cases j (v_m x)) as [C|C].
  - rewrite H2, H4 by auto. reflexivity.
  - assert (A : nth_error l j = None) by (apply nth_error_None; lia).
    assert (B : nth_error l' j = None) by (apply nth_error_None; lia). congruence.
Qed.

(** A layout in which row [i] starts [i * m] after the first entry. *)
Lemma contiguous_pos : forall x i j, c_contiguous x = true -> (i < v_n x)%nat -> (j < v_m x)%nat ->
  v_off x + Z.of_nat i * v_rs x + Z.of_nat j * v_cs x = v_off x + Z.of_nat i * Z.of_nat (v_m x) + Z.of_nat j.
Proof.
  intros x i j H Hi Hj. unfold c_contiguous in H.
  assert (A : v_m x = 1%nat \/ v_cs x = 1) by lia.
  assert (B : v_n x = 1%nat \/ v_rs x = Z.of_nat (v_m x)) by lia.
  assert (A2 : Z.of_nat j * v_cs x = Z.of_nat j).
  { destruct A as [A|A]; [replace j with O by lia; lia | rewrite A; lia]. }
  assert (B2 : Z.of_nat i * v_rs x = Z.of_nat i * Z.of_nat (v_m x)).
  { destruct B as [B|B]; [replace i with O by lia; lia | rewrite B; lia]. }
  lia.
Qed.

Lemma present_contiguous : forall x i, c_contiguous x = true -> in_buffer x -> (i < v_n x)%nat -> (0 < v_m x)%nat ->
  Z.of_nat i * Z.of_nat (v_m x) <= 2147483647 -> sees x x i i.
Proof.
  intros x i Hc Hb Hi Hm Hz.
  assert (P0 : 0 <= v_off x + Z.of_nat i * Z.of_nat (v_m x) < Z.of_nat (length (v_buf x))).
  { pose proof (Hb i 0%nat Hi Hm) as P. pose proof (contiguous_pos x i 0%nat Hc Hi Hm) as Q. lia. }
  assert (P1 : v_off x + Z.of_nat i * Z.of_nat (v_m x) + Z.of_nat (v_m x) <= Z.of_nat (length (v_buf x))).
  { assert (Hl : (v_m x - 1 < v_m x)%nat) by lia.
    pose proof (Hb i (v_m x - 1)%nat Hi Hl) as P. pose proof (contiguous_pos x i (v_m x - 1)%nat Hc Hi Hl) as Q. lia. }
  destruct (read_some (v_buf x) (v_off x + Z.of_nat i * Z.of_nat (v_m x)) (v_m x)) as [l Hl]; [lia|lia|].
  exists l. split.
  - apply read_inv in Hl. destruct Hl as (_ & _ & L & N). split; [exact L|].
    intros j Hj. rewrite N by auto. f_equal. rewrite contiguous_pos by auto. reflexivity.
  - unfold present, imul. rewrite int_op_some by lia. cbn [obind]. rewrite Nat2Z.id. exact Hl.
Qed.

(** *** Copies *)

Lemma from_rows_in_buffer : forall m rows, Forall (fun r => length r = m) rows -> in_buffer (from_rows m rows).
Proof.
  intros m rows H i j Hi Hj. cbn [from_rows v_n v_m v_off v_rs v_cs v_buf] in *.
  assert (L : length (concat rows) = (length rows * m)%nat).
  { clear Hi. induction H as [|r t Hr Ht IH]; [reflexivity|]. cbn [concat length]. rewrite app_length, IH. lia. }
  rewrite L. nia.
Qed.
Lemma from_rows_contiguous : forall m rows, c_contiguous (from_rows m rows) = true.
Proof. intros m rows. unfold c_contiguous. cbn [from_rows v_n v_m v_rs v_cs]. rewrite !Z.eqb_refl, !orb_true_r. reflexivity. Qed.
Lemma concat_nth : forall m rows, Forall (fun r : list Z => length r = m) rows -> forall i j, (j < m)%nat ->
  nth_error (concat rows) (i * m + j) = match nth_error rows i with Some r => nth_error r j | None => None end.
Proof.
  intros m rows H. induction H as [|r t Hr Ht IH]; intros i j Hj.
  - cbn [concat]. destruct (i * m + j)%nat; destruct i; reflexivity.
  - cbn [concat]. destruct i as [|i].
    + cbn [Nat.mul Nat.add nth_error]. rewrite nth_error_app1 by lia. reflexivity.
    + cbn [nth_error]. rewrite nth_error_app2 by lia. rewrite <- IH by auto. f_equal. lia.
Qed.
Lemma from_rows_row : forall m rows i r, Forall (fun r => length r = m) rows -> nth_error rows i = Some r ->
  is_row (from_rows m rows) i r.
Proof.
  intros m rows i r H Hi. split; cbn [from_rows v_n v_m v_off v_rs v_cs v_buf].
  - rewrite Forall_forall in H. apply H. eapply nth_error_In; eauto.
  - intros j Hj.
    replace (Z.to_nat (0 + Z.of_nat i * Z.of_nat m + Z.of_nat j * 1)) with (i * m + j)%nat by lia.
    rewrite concat_nth by auto. rewrite Hi. reflexivity.
Qed.

Definition row (x : view) (i : nat) : list Z := map (get x i) (seq 0 (v_m x)).
Lemma row_is_row : forall x i, in_buffer x -> (i < v_n x)%nat -> is_row x i (row x i).
Proof.
  intros x i Hb Hi. split; [unfold row; rewrite map_length, seq_length; reflexivity|].
  intros j Hj. unfold row. rewrite nth_error_map.
  assert (S0 : nth_error (seq 0 (v_m x)) j = Some j).
  { rewrite (nth_error_nth' _ 0%nat) by (rewrite seq_length; lia). rewrite seq_nth by lia. reflexivity. }
  rewrite S0. cbn [option_map]. unfold get, pos. symmetry. apply nth_error_nth'.
  pose proof (Hb i j Hi Hj). lia.
Qed.
Lemma rows_of_length : forall x, Forall (fun r => length r = v_m x) (rows_of x).
Proof. intro x. apply Forall_forall. intros r H. apply in_map_iff in H. destruct H as (i & <- & _). rewrite map_length, seq_length. reflexivity. Qed.
Lemma rows_of_nth : forall x i, (i < v_n x)%nat -> nth_error (rows_of x) i = Some (row x i).
Proof.
  intros x i Hi. unfold rows_of. rewrite nth_error_map.
  rewrite (nth_error_nth' _ 0%nat) by (rewrite seq_length; lia). rewrite seq_nth by lia. reflexivity.
Qed.

(** Copies of arrays whose rows are rows of [x]. *)
Lemma sees_rows : forall x rows k i, in_buffer x -> (0 < v_m x)%nat ->
  Forall (fun r => length r = v_m x) rows -> nth_error rows k = Some (row x i) -> (i < v_n x)%nat ->
  Z.of_nat k * Z.of_nat (v_m x) <= 2147483647 ->
  sees (from_rows (v_m x) rows) x k i.
Proof.
  intros x rows k i Hb Hm Hr Hk Hi Hz.
  assert (Hkn : (k < length rows)%nat) by (apply nth_error_Some; congruence).
  destruct (present_contiguous (from_rows (v_m x) rows) k) as (l & L1 & L2).
  - apply from_rows_contiguous.
  - apply from_rows_in_buffer. auto.
  - exact Hkn.
  - exact Hm.
  - exact Hz.
  - exists l. split; [|exact L2].
    rewrite (is_row_unique _ _ _ _ L1 (from_rows_row _ _ _ _ Hr Hk)). apply row_is_row; auto.
Qed.
Lemma np_copy_sees : forall x i, in_buffer x -> (0 < v_m x)%nat -> (i < v_n x)%nat ->
  Z.of_nat i * Z.of_nat (v_m x) <= 2147483647 -> sees (np_copy x) x i i.
Proof.
  intros x i Hb Hm Hi Hz. unfold np_copy. apply sees_rows; auto.
  - apply rows_of_length.
  - apply rows_of_nth. auto.
Qed.
Lemma np_copy_in_buffer : forall x, in_buffer (np_copy x).
Proof. intro x. apply from_rows_in_buffer. apply rows_of_length. Qed.

(** A copy of a C-ordered array is that array. *)
Lemma np_copy_from_rows : forall m rows, Forall (fun r => length r = m) rows -> np_copy (from_rows m rows) = from_rows m rows.
Proof.
  intros m rows H. unfold np_copy. cbn [from_rows v_m]. f_equal.
  apply nth_error_ext2. intro i. destruct (Nat.lt_ge_cases i (length rows)) as [C|C].
  - rewrite rows_of_nth by exact C. destruct (nth_error rows i) as [r|] eqn:E; [|apply nth_error_None in E; lia].
    f_equal. eapply is_row_unique; [|apply from_rows_row; eauto].
    apply row_is_row; [apply from_rows_in_buffer; auto|exact C].
  - assert (A : nth_error (rows_of (from_rows m rows)) i = None).
    { apply nth_error_None. unfold rows_of. rewrite map_length, seq_length. exact C. }
    assert (B : nth_error rows i = None) by (apply nth_error_None; lia). congruence.
Qed.
Lemma ascontiguous_from_rows : forall m rows, ascontiguous (from_rows m rows) = from_rows m rows.
Proof. intros. unfold ascontiguous. rewrite from_rows_contiguous. reflexivity. Qed.

Definition fold_rows (x : view) (index : list nat) : list (list Z) := map (row x) index.
Lemma take_rows_eq : forall x index, take_rows x index = from_rows (v_m x) (fold_rows x index).
Proof. reflexivity. Qed.
Lemma fold_rows_length : forall x index, Forall (fun r => length r = v_m x) (fold_rows x index).
Proof. intros. apply Forall_forall. intros r H. apply in_map_iff in H. destruct H as (i & <- & _). unfold row. rewrite map_length, seq_length. reflexivity. Qed.

Lemma fold_train_eq : forall c x index, fold_train c x index = from_rows (v_m x) (fold_rows x index).
Proof.
  intros c x index. unfold fold_train, train_array. rewrite take_rows_eq, ascontiguous_from_rows.
  destruct c; [apply np_copy_from_rows, fold_rows_length|reflexivity].
Qed.
Lemma fold_eval_eq : forall x index, fold_eval x index = from_rows (v_m x) (fold_rows x index).
Proof. intros x index. unfold fold_eval, eval_array. rewrite take_rows_eq, ascontiguous_from_rows. apply np_copy_from_rows, fold_rows_length. Qed.

(** *** Exactness *)

Lemma seq_buffer : forall n k, (k < n)%nat -> nth_error (map Z.of_nat (seq 0 n)) k = Some (Z.of_nat k).
Proof.
  intros n k H. rewrite nth_error_map. rewrite (nth_error_nth' _ 0%nat) by (rewrite seq_length; lia).
  rewrite seq_nth by lia. reflexivity.
Qed.

Lemma sees_positions : forall x i j, in_buffer x -> sees (on_buffer x (map Z.of_nat (seq 0 (length (v_buf x)))))
    (on_buffer x (map Z.of_nat (seq 0 (length (v_buf x))))) i i -> (i < v_n x)%nat -> (j < v_m x)%nat ->
  v_off x + Z.of_nat i * v_rs x + Z.of_nat j * v_cs x = v_off x + Z.of_nat i * Z.of_nat (v_m x) + Z.of_nat j.
Proof.
  intros x i j Hb (l & [L1 L2] & P) Hi Hj.
  pose proof (Hb i j Hi Hj) as B.
  unfold present, imul in P.
  destruct (int_op (Z.of_nat i * Z.of_nat (v_m (on_buffer x (map Z.of_nat (seq 0 (length (v_buf x)))))))) as [o|] eqn:E;
    [|discriminate P].
  apply int_op_inv in E. destruct E as [-> _]. cbn [obind] in P. rewrite Nat2Z.id in P.
  apply read_inv in P. cbn [on_buffer v_buf v_off v_m v_rs v_cs] in P, L1, L2.
  rewrite map_length, seq_length in P. destruct P as (P1 & P2 & P3 & P4).
  pose proof (L2 j Hj) as A. pose proof (P4 j Hj) as C.
  rewrite A in C. rewrite !seq_buffer in C by lia. injection C as C. lia.
Qed.

Lemma all_rows_contiguous : forall x, in_buffer x -> (0 < v_n x)%nat -> (0 < v_m x)%nat ->
  let b := map Z.of_nat (seq 0 (length (v_buf x))) in
  (forall i, (i < v_n x)%nat -> sees (on_buffer x b) (on_buffer x b) i i) -> c_contiguous x = true.
Proof.
  intros x Hb Hn Hm b H. unfold c_contiguous.
  assert (A : v_m x = 1%nat \/ v_cs x = 1).
  { destruct (Nat.eq_dec (v_m x) 1) as [C|C]; [auto|right].
    assert (P := sees_positions x 0 1 Hb (H 0%nat Hn) Hn). lia. }
  assert (B : v_n x = 1%nat \/ v_rs x = Z.of_nat (v_m x)).
  { destruct (Nat.eq_dec (v_n x) 1) as [C|C]; [auto|right].
    assert (P := sees_positions x 1 0 Hb (H 1%nat ltac:(lia)) ltac:(lia)). lia. }
  lia.
Qed.

(** The block of ModelInput.v sees the same bytes. *)
Lemma present_dense_prepare : forall x b i l,
  present x (Z.of_nat (ib_nlit b)) (Z.of_nat i) = Some l -> 0 <= v_off x -> ib_data b = skipn (Z.to_nat (v_off x)) (v_buf x) ->
  firstn (ib_nlit b) (ib_cur (dense_prepare i b)) = l.
Proof.
  intros x b i l H Ho Hd. unfold present, imul in H.
  destruct (int_op (Z.of_nat i * Z.of_nat (ib_nlit b))) as [o|] eqn:E; [|discriminate H].
  apply int_op_inv in E. destruct E as [-> _]. cbn [obind] in H. rewrite Nat2Z.id in H.
  apply read_inv in H. destruct H as (_ & H2 & H3 & H4).
  unfold dense_prepare, with_current. cbn [ib_cur]. unfold memcpy. cbn [firstn app].
  assert (K : forall (l1 : list Z) a1 a2, skipn a1 (skipn a2 l1) = skipn (a2 + a1) l1).
  { intros l1 a1 a2. revert l1. induction a2 as [|a2 IH]; intro l1; [reflexivity|].
    destruct l1 as [|h t]; [cbn [skipn Nat.add]; rewrite skipn_nil; reflexivity|].
    cbn [skipn Nat.add]. apply IH. }
  assert (L : firstn (ib_nlit b) (skipn (i * ib_nlit b) (ib_data b)) = l).
  { rewrite Hd, K. apply nth_error_ext. intro j.
    destruct (Nat.lt_ge_cases j (ib_nlit b)) as [C|C].
    - rewrite nth_error_firstn_skipn by auto. rewrite H4 by auto. f_equal. lia.
    - assert (A : nth_error l j = None) by (apply nth_error_None; lia).
      rewrite A. apply nth_error_None. rewrite firstn_length. lia. }
  rewrite L. rewrite firstn_app, H3, Nat.sub_diag. cbn [firstn]. rewrite app_nil_r.
  rewrite <- H3. apply firstn_all.
Qed.

(** *** The predictor *)

Lemma predictor_reads_row : forall n x l, v_n x = 1%nat -> v_m x = n -> (0 < n)%nat -> in_buffer x -> is_row x 0 l ->
  predictor_reads n x = Example l.
Proof.
  intros n x l Hn Hm Hp Hb Hl. unfold predictor_reads.
  assert (G : forall y, c_contiguous y = true -> in_buffer y -> v_n y = 1%nat -> v_m y = n ->
    is_row y 0 l -> read (v_buf y) (v_off y) n = Some l).
  { intros y C B N M R. destruct (present_contiguous y 0 C B) as (l' & R' & P); [lia|lia|lia|].
    rewrite (is_row_unique _ _ _ _ R R'). unfold present, imul in P. rewrite int_op_some in P by lia.
    cbn [obind] in P. rewrite Nat2Z.id, M in P.
    replace (v_off y + Z.of_nat 0 * Z.of_nat n) with (v_off y) in P by lia. exact P. }
  destruct (c_contiguous x) eqn:E.
  - rewrite (G x) by auto. reflexivity.
  - rewrite Hn, Hm, !Nat.eqb_refl. cbn [andb].
    rewrite (G (np_copy x)); [reflexivity|apply from_rows_contiguous|apply np_copy_in_buffer| |exact Hm|].
    + cbn [np_copy from_rows v_n]. unfold rows_of. rewrite map_length, seq_length. exact Hn.
    + rewrite (is_row_unique _ _ _ _ Hl (row_is_row x 0 Hb ltac:(lia))).
      apply from_rows_row; [apply rows_of_length|apply rows_of_nth; lia].
Qed.

(** *** im2col *)

Section Im2col.
Variables (n w h c pw ph : Z).
Hypothesis Hn : 1 <= n.
Hypothesis Hw : 1 <= pw <= w.
Hypothesis Hh : 1 <= ph <= h.
Hypothesis Hc : 1 <= c.
Let np := (w - pw + 1) * (h - ph + 1).
Let lpp := pw * ph * c + (w - pw) + (h - ph).

Lemma mul_ge : forall a b, 1 <= a -> 1 <= b -> a <= a * b /\ b <= a * b.
Proof. intros; nia. Qed.
Lemma window_covers : w <= (w - pw + 1) * pw /\ h <= (h - ph + 1) * ph.
Proof. split; nia. Qed.

Lemma np_pos : 1 <= np.
Proof. unfold np. nia. Qed.
Lemma features_pos : 1 <= pw * ph * c.
Proof. assert (1 <= pw * ph) by nia. nia. Qed.
Lemma lpp_pos : 1 <= lpp.
Proof. pose proof features_pos. unfold lpp. lia. Qed.

Lemma example_fits : w * h * c <= np * lpp.
Proof.
  pose proof window_covers as [A B]. pose proof np_pos.
  assert (C1 : w * h <= ((w - pw + 1) * pw) * ((h - ph + 1) * ph)) by (apply Z.mul_le_mono_nonneg; lia).
  assert (C2 : ((w - pw + 1) * pw) * ((h - ph + 1) * ph) = np * (pw * ph)) by (unfold np; ring).
  assert (C3 : w * h * c <= np * (pw * ph) * c) by (apply Z.mul_le_mono_nonneg_r; lia).
  assert (C4 : np * (pw * ph) * c <= np * lpp).
  { rewrite <- Z.mul_assoc. apply Z.mul_le_mono_nonneg_l; [lia|]. unfold lpp. lia. }
  lia.
Qed.

Lemma sizes_some : n * np * lpp <= 2147483647 -> im2col_sizes n w h c pw ph = Some (np, lpp, n * np * lpp).
Proof.
  intro T. pose proof np_pos as N1. pose proof lpp_pos as L1. pose proof features_pos as F1.
  pose proof (mul_ge n np ltac:(lia) ltac:(lia)) as [A1 A2].
  pose proof (mul_ge (n * np) lpp ltac:(lia) ltac:(lia)) as [B1 B2].
  assert (P1 : pw * ph <= pw * ph * c) by (apply mul_ge; nia).
  assert (P2 : 1 <= pw * ph) by nia.
  assert (Q1 : w - pw + 1 <= np /\ h - ph + 1 <= np) by (unfold np; apply mul_ge; lia).
  unfold lpp in B2. cbv zeta in *.
  unfold im2col_sizes, imul, iadd, isub.
  rewrite (int_op_some (h - ph)) by lia. cbn [obind].
  rewrite (int_op_some (h - ph + 1)) by lia. cbn [obind].
  rewrite (int_op_some (w - pw)) by lia. cbn [obind].
  rewrite (int_op_some (w - pw + 1)) by lia. cbn [obind].
  fold np. rewrite (int_op_some np) by lia. cbn [obind].
  rewrite (int_op_some (pw * ph)) by lia. cbn [obind].
  rewrite (int_op_some (pw * ph * c)) by lia. cbn [obind].
  rewrite (int_op_some (pw * ph * c + (w - pw))) by lia. cbn [obind].
  fold lpp. rewrite (int_op_some lpp) by (unfold lpp; lia). cbn [obind].
  rewrite (int_op_some (n * np)) by lia. cbn [obind].
  rewrite (int_op_some (n * np * lpp)) by (unfold lpp; lia). reflexivity.
Qed.
Lemma sizes_inv : forall r, im2col_sizes n w h c pw ph = Some r ->
  r = (np, lpp, n * np * lpp) /\ n * np * lpp <= 2147483647.
Proof.
  intros r H. unfold im2col_sizes, imul, iadd, isub in H.
  repeat (match type of H with
          | obind (int_op ?z) _ = _ => let E := fresh "E" in destruct (int_op z) eqn:E; [|discriminate H];
              apply int_op_inv in E; destruct E as [-> E]; cbn [obind] in H
          end).
  injection H as <-. fold np. fold lpp. split; [reflexivity|]. unfold np, lpp in *. lia.
Qed.

Lemma all_offsets_some : forall f k, (forall i, (i < k)%nat -> f (Z.of_nat i) <> None) -> all_offsets k f = Some tt.
Proof.
  induction k as [|k IH]; intro H; [reflexivity|]. cbn [all_offsets].
  rewrite IH by (intros; apply H; lia). cbn [obind].
  destruct (f (Z.of_nat k)) eqn:E; [reflexivity|]. exfalso. apply (H k); auto.
Qed.

Lemma offsets_some : forall k, 0 <= k < n -> n * np * lpp <= 2147483647 -> example_offsets w h c np lpp k <> None.
Proof.
  intros k Hk T. pose proof np_pos as N1. pose proof lpp_pos as L1. pose proof example_fits as EF.
  assert (R1 : 1 <= np * lpp) by (pose proof (mul_ge np lpp); lia).
  assert (A : k * (np * lpp) <= n * (np * lpp)) by (apply Z.mul_le_mono_nonneg_r; lia).
  assert (A2 : np * lpp <= n * (np * lpp)) by (apply mul_ge; lia).
  assert (A3 : n * (np * lpp) = n * np * lpp) by ring.
  assert (B : k * (w * h * c) <= k * (np * lpp)) by (apply Z.mul_le_mono_nonneg_l; lia).
  assert (W1 : 1 <= w * h) by (pose proof (mul_ge w h); lia).
  assert (W2 : w * h <= w * h * c) by (apply (mul_ge (w * h) c); lia).
  assert (B0 : 0 <= k * (w * h * c)) by (apply Z.mul_nonneg_nonneg; lia).
  assert (B1 : 0 <= k * (np * lpp)) by (apply Z.mul_nonneg_nonneg; lia).
  unfold example_offsets, imul.
  rewrite (int_op_some (w * h)) by lia. cbn [obind].
  rewrite (int_op_some (w * h * c)) by lia. cbn [obind].
  rewrite (int_op_some (k * (w * h * c))) by lia. cbn [obind].
  rewrite (int_op_some (np * lpp)) by lia. cbn [obind].
  rewrite (int_op_some (k * (np * lpp))) by lia. cbn [obind]. discriminate.
Qed.

Lemma alloc_some : forall m, 0 <= m -> ((exists b, alloc_bytes 32 m = Some b) /\ m <= 2147483647 <-> m <= 2147483616).
Proof.
  intros m Hm. unfold alloc_bytes, isub, iadd.
  pose proof (Z.rem_bound_pos m 32 Hm ltac:(lia)) as Rb.
  pose proof (Z.quot_rem' m 32) as Qr.
  destruct (m <? 32) eqn:E1.
  - split; [lia|]. intro. split; [eauto|lia].
  - destruct (Z.rem m 32 >? 0) eqn:E2.
    + rewrite (int_op_some (32 - Z.rem m 32)) by lia. cbn [obind]. split.
      * intros [[b H] _]. apply int_op_inv in H. lia.
      * intro L. split; [|lia]. exists (m + (32 - Z.rem m 32)). apply int_op_some. lia.
    + split; [|intro; split; [eauto|lia]]. intros [_ L]. lia.
Qed.

Lemma im2col_int_exact : forall src junk,
  (exists r, im2col_int (Z.to_nat n) (Z.to_nat w) (Z.to_nat h) (Z.to_nat c) src (Z.to_nat pw) (Z.to_nat ph) junk = Some r) <->
  n * np * lpp <= 2147483616.
Proof.
  intros src junk. unfold im2col_int. rewrite !Z2Nat.id by lia.
  assert (T0 : 0 <= n * np * lpp) by (pose proof np_pos; pose proof lpp_pos; apply Z.mul_nonneg_nonneg; [apply Z.mul_nonneg_nonneg|]; lia).
  split.
  - intros [r H]. destruct (im2col_sizes n w h c pw ph) as [s|] eqn:E; [|discriminate H].
    apply sizes_inv in E. destruct E as [-> L]. cbn [obind] in H.
    destruct (alloc_bytes 32 (n * np * lpp)) as [b|] eqn:E; [|discriminate H].
    apply (proj1 (alloc_some (n * np * lpp) T0)). split; [exists b; exact E|exact L].
  - intro L. rewrite sizes_some by lia. cbn [obind].
    destruct (proj2 (alloc_some (n * np * lpp) T0) L) as [[b Hb] _]. rewrite Hb. cbn [obind].
    rewrite all_offsets_some; [cbn [obind]; eauto|].
    intros i Hi. apply offsets_some; lia.
Qed.
End Im2col.

Lemma im2col_int_value : forall n w h c src pw ph junk r,
  im2col_int n w h c src pw ph junk = Some r -> r = im2col n w h c src pw ph junk.
Proof.
  intros n w h c src pw ph junk r H. unfold im2col_int in H.
  destruct (im2col_sizes _ _ _ _ _ _) as [[[a b] d]|]; [|discriminate H]. cbn [obind] in H.
  destruct (alloc_bytes 32 d); [|discriminate H]. cbn [obind] in H.
  destruct (all_offsets _ _); [|discriminate H]. cbn [obind] in H. congruence.
Qed.
