(** C30, C36, C37: what is presented to the clause blocks. *)
From Coq Require Import ZArith Arith List Bool QArith Lia.
From Verif Require Import Base Spec SpecInput ModelLayout ModelFeedback ModelExecutor ModelMachine ModelInput ModelDataset
  ProofsInput ModelDense ModelDenseExec ExampleData.
Import ListNotations.
Open Scope Z_scope.

(** ** C30 *)

(** CSR input presents the 0/1 row of the matrix and its label, whatever the
    block held or presented before; stored values must be positive. *)
Theorem C30_csr_row : forall n rows indices indptr data labels b0 b idx i,
  csr_ok n rows indices indptr data -> Forall (fun v => 0 < v) data ->
  csr_reach n b0 -> a_shape labels <> [] -> csr_set_data indices indptr labels b0 = (Ok tt, b) ->
  Forall (fun k => (k < rows)%nat) idx -> (i < rows)%nat ->
  let b' := csr_prepare i (prepare_all csr_prepare idx b) in
  ib_cur b' = row_buffer n (fun j => if csr_entry indices indptr data i j =? 0 then 0 else 1) /\
  ib_label b' = slice (a_mem labels) (i * labels_per labels) (labels_per labels).
Proof. exact csr_presented. Qed.

(** CSR block and dense block, each with its own past, present the same literals
    and labels when they hold the same 0/1 matrix. *)
Theorem C30_csr_equals_dense : forall n rows indices indptr data examples labels b0 b c0 c idx jdx i,
  csr_ok n rows indices indptr data -> Forall (fun v => 0 < v) data ->
  length (a_mem examples) = (rows * n)%nat ->
  (forall i j, (i < rows)%nat -> (j < n)%nat ->
     nth (i * n + j) (a_mem examples) 0 = if csr_entry indices indptr data i j =? 0 then 0 else 1) ->
  csr_reach n b0 -> csr_set_data indices indptr labels b0 = (Ok tt, b) ->
  dense_reach n c0 -> dense_set_data examples labels c0 = (Ok tt, c) ->
  Forall (fun k => (k < rows)%nat) idx -> Forall (fun k => (k < rows)%nat) jdx -> (i < rows)%nat ->
  let b' := csr_prepare i (prepare_all csr_prepare idx b) in
  let c' := dense_prepare i (prepare_all dense_prepare jdx c) in
  ib_cur b' = ib_cur c' /\ ib_label b' = ib_label c'.
Proof.
  intros n rows indices indptr data examples labels b0 b c0 c idx jdx i Hok Hd Hl Hm Hb Eb Hc Ec Hi Hj Hlt b' c'.
  assert (L : (0 < nth 0 (a_shape labels) 0)%nat).
  { unfold csr_set_data in Eb. destruct Hok as [K1 _]. rewrite K1 in Eb.
    destruct (Nat.eqb_spec (nth 0 (a_shape labels) O) (S rows - 1)); [lia|discriminate Eb]. }
  assert (Hs : a_shape labels <> []) by (intros E; rewrite E in L; cbn in L; lia).
  destruct (C30_csr_row n rows indices indptr data labels b0 b idx i) as [A1 A2]; auto.
  destruct (dense_presented n rows examples labels c0 c jdx i) as [B1 B2]; auto.
  unfold b', c'. rewrite A1, A2, B1, B2. split; auto.
  unfold row_buffer. f_equal. apply map_ext_in. intros j Hin. apply in_seq in Hin. symmetry. apply Hm; lia.
Qed.

(** Hence any training pass over any order of examples leaves the clause blocks
    and the feedback block in the same state. *)
Theorem C30_training_equal : forall (B : Type) train_ex update process n rows indices indptr data examples labels b0 b c0 c idx bs fb,
  csr_ok n rows indices indptr data -> Forall (fun v => 0 < v) data ->
  length (a_mem examples) = (rows * n)%nat ->
  (forall i j, (i < rows)%nat -> (j < n)%nat ->
     nth (i * n + j) (a_mem examples) 0 = if csr_entry indices indptr data i j =? 0 then 0 else 1) ->
  csr_reach n b0 -> csr_set_data indices indptr labels b0 = (Ok tt, b) ->
  dense_reach n c0 -> dense_set_data examples labels c0 = (Ok tt, c) ->
  Forall (fun k => (k < rows)%nat) idx ->
  let r1 := @train_input B (list Z) (list Z) iblock train_ex update process csr_prepare ib_cur ib_label idx b bs fb in
  let r2 := @train_input B (list Z) (list Z) iblock train_ex update process dense_prepare ib_cur ib_label idx c bs fb in
  snd (fst r1) = snd (fst r2) /\ snd r1 = snd r2.
Proof.
  intros B train_ex update process n rows indices indptr data examples labels b0 b c0 c idx bs fb
    Hok Hd Hl Hm Hb Eb Hc Ec Hi r1 r2.
  destruct idx as [|i0 idx0]; [split; reflexivity|].
  assert (L : (0 < nth 0 (a_shape labels) 0)%nat).
  { unfold csr_set_data in Eb. destruct Hok as [K1 _]. rewrite K1 in Eb. inversion Hi; subst.
    destruct (Nat.eqb_spec (nth 0 (a_shape labels) O) (S rows - 1)); [lia|discriminate Eb]. }
  assert (Hs : a_shape labels <> []) by (intros E; rewrite E in L; cbn in L; lia).
  pose proof (csr_trains B train_ex update process n rows indices indptr data labels b0 b (i0 :: idx0) bs fb Hok Hd Hb Hs Eb Hi) as A.
  pose proof (dense_trains B train_ex update process n rows examples labels c0 c (i0 :: idx0) bs fb Hl L Hc Ec Hi) as D.
  cbv zeta in A, D. fold r1 in A. fold r2 in D.
  assert (X : (snd (fst r1), snd r1) = (snd (fst r2), snd r2)).
  { rewrite A, D. f_equal. apply map_ext_in. intros i Hin.
    assert (Hlt : (i < rows)%nat) by exact (proj1 (Forall_forall _ _) Hi i Hin).
    f_equal. unfold row_buffer. f_equal. apply map_ext_in. intros j Hj. apply in_seq in Hj. symmetry. apply Hm; lia. }
  inversion X. auto.
Qed.

(** The executor presents the examples by index: training through a block that
    presents row [i] of [data] is training on the selected rows. *)
Theorem C30_input_block_refines : forall (B E L I : Type) train_ex update process (prep : nat -> I -> I) (ex : I -> E) (lab : I -> L)
  (inv : I -> Prop) (data : list (E * L)),
  (forall i s d, inv s -> nth_error data i = Some d -> (ex (prep i s), lab (prep i s)) = d /\ inv (prep i s)) ->
  forall idx s bs fb, inv s -> Forall (fun i => (i < length data)%nat) idx ->
  let '(s', bs', fb') := @train_input B E L I train_ex update process prep ex lab idx s bs fb in
  (bs', fb') = train_list B E train_ex update L process (select E L data idx) bs fb /\ inv s'.
Proof. exact train_input_rows. Qed.

(** The index list of SparseInputBlock is the row's stored columns, whatever was
    presented before. *)
Theorem C30_sparse_block_row : forall i indices indptr cur,
  sparse_prepare i indices indptr cur =
  map (fun k => nth k indices O) (seq (nth i indptr O) (nth (i + 1) indptr O - nth i indptr O)).
Proof. exact sparse_prepare_eq. Qed.

(** An explicitly stored zero is presented as 1. *)
Theorem C30_stored_zero_refuted : exists n rows indices indptr data labels b,
  csr_ok n rows indices indptr data /\ csr_set_data indices indptr labels (new_iblock n) = (Ok tt, b) /\
  csr_entry indices indptr data 0 1 = 0 /\ nth 1 (ib_cur (csr_prepare 0 b)) 0 = 1.
Proof.
  exists 3%nat, 1%nat, [1%nat], [0%nat; 1%nat], [0], (mkArr [1%nat] [0]).
  eexists. split; [|split; [reflexivity|split; reflexivity]].
  repeat split; auto. intros i Hi. destruct i as [|[|i]]; cbn; lia.
Qed.

(** Rows {2,0} (unsorted), {} and {1, 1} (stored twice) of a 3 x 3 matrix. *)
Definition ex_indices : list nat := [2%nat; 0%nat; 1%nat; 1%nat].
Definition ex_indptr : list nat := [0%nat; 2%nat; 2%nat; 4%nat].
Definition ex_csr_data : list Z := [1; 1; 1; 2].
Definition ex_labels : ndarray := mkArr [3%nat] [0; 1; 1].
Definition ex_dense : ndarray := mkArr [3%nat; 3%nat] [1;0;1; 0;0;0; 0;1;0].
Example C30_case_hyps : csr_ok 3 3 ex_indices ex_indptr ex_csr_data /\ Forall (fun v => 0 < v) ex_csr_data /\
  (forall i j, (i < 3)%nat -> (j < 3)%nat ->
     nth (i * 3 + j) (a_mem ex_dense) 0 = if csr_entry ex_indices ex_indptr ex_csr_data i j =? 0 then 0 else 1).
Proof.
  split; [|split].
  - repeat split; auto.
    + intros i Hi. destruct i as [|[|[|[|i]]]]; cbn; lia.
    + repeat (apply Forall_cons || apply Forall_nil); lia.
  - repeat (apply Forall_cons || apply Forall_nil); lia.
  - intros i j Hi Hj. destruct i as [|[|[|i]]]; [| | |lia]; (destruct j as [|[|[|j]]]; [| | |lia]); reflexivity.
Qed.
Example C30_case : let b := snd (csr_set_data ex_indices ex_indptr ex_labels (new_iblock 3)) in
  fst (csr_set_data ex_indices ex_indptr ex_labels (new_iblock 3)) = Ok tt /\
  fst (dense_set_data ex_dense ex_labels (new_iblock 3)) = Ok tt /\
  firstn 4 (ib_cur (csr_prepare 2 (csr_prepare 0 b))) = [0;1;0;0] /\
  ib_label (csr_prepare 2 (csr_prepare 0 b)) = [1].
Proof. repeat split. Qed.

(** ** C36 *)

(** Square images of N x N pixels: the result has one row of [lpp] bytes per
    window position, positions row by row. *)
Theorem C36_windows : forall n_ex N channels pw ph src junk e py px,
  let npx := (N - pw + 1)%nat in let npy := (N - ph + 1)%nat in
  let lpp := (pw * ph * channels + (N - pw) + (N - ph))%nat in
  (pw <= N)%nat -> (ph <= N)%nat ->
  length src = (n_ex * (N * N * channels))%nat -> length junk = (n_ex * (npx * npy * lpp))%nat ->
  (e < n_ex)%nat -> (py + ph <= N)%nat -> (px + pw <= N)%nat ->
  let out := im2col n_ex N N channels src pw ph junk in
  let row := slice out ((e * (npx * npy) + (py * npx + px)) * lpp) lpp in
  length out = length junk /\ length row = lpp /\
  (forall k, (k < N - ph)%nat -> nth k row 0 = if (k <? py)%nat then 1 else 0) /\
  (forall k, (k < N - pw)%nat -> nth (N - ph + k) row 0 = if (k <? px)%nat then 1 else 0) /\
  (forall y x c, (y < ph)%nat -> (x < pw)%nat -> (c < channels)%nat ->
     nth (N - ph + (N - pw) + ((y * pw + x) * channels + c)) row 0 = pixel N channels src e (py + y) (px + x) c).
Proof.
  intros n_ex N channels pw ph src junk e py px npx npy lpp Hpw Hph Hl Hj He Hpy Hpx out row.
  assert (R : row = patch N N channels pw ph src e py px)
    by (apply (im2col_patch_at N N channels pw ph Hpw Hph); auto; lia).
  split; [|split].
  - unfold out. rewrite (im2col_eq N N channels pw ph Hpw Hph) by auto. rewrite Hj.
    apply concat_chunks_length. intros k Hk. apply (example_patches_length N N channels pw ph Hpw Hph n_ex); auto.
  - rewrite R. apply (patch_length N N channels pw ph Hpw Hph n_ex); auto; lia.
  - rewrite R. exact (patch_square n_ex N channels pw ph src e py px Hpw Hph Hl He Hpy Hpx).
Qed.

(** Equal position codes mean equal positions, also across examples. *)
Theorem C36_positions_distinct : forall n_ex N channels pw ph src junk e1 e2 py px qy qx,
  let npx := (N - pw + 1)%nat in let npy := (N - ph + 1)%nat in
  let lpp := (pw * ph * channels + (N - pw) + (N - ph))%nat in
  (pw <= N)%nat -> (ph <= N)%nat ->
  length src = (n_ex * (N * N * channels))%nat -> length junk = (n_ex * (npx * npy * lpp))%nat ->
  (e1 < n_ex)%nat -> (e2 < n_ex)%nat ->
  (py + ph <= N)%nat -> (px + pw <= N)%nat -> (qy + ph <= N)%nat -> (qx + pw <= N)%nat ->
  let out := im2col n_ex N N channels src pw ph junk in
  slice out ((e1 * (npx * npy) + (py * npx + px)) * lpp) (N - ph + (N - pw)) =
  slice out ((e2 * (npx * npy) + (qy * npx + qx)) * lpp) (N - ph + (N - pw)) ->
  py = qy /\ px = qx.
Proof.
  intros n_ex N channels pw ph src junk e1 e2 py px qy qx npx npy lpp Hpw Hph Hl Hj He1 He2 H1 H2 H3 H4 out E.
  assert (S1 : forall l a m n, (m <= n)%nat -> firstn m (slice l a n) = slice l a m).
  { intros l a m n Hmn. unfold slice. rewrite firstn_firstn. f_equal. lia. }
  rewrite <- !(S1 out _ (N - ph + (N - pw))%nat lpp) in E by (unfold lpp; lia).
  unfold out, lpp, npx, npy in E.
  rewrite (im2col_patch_at N N channels pw ph Hpw Hph n_ex src junk e1 py px) in E by (auto; lia).
  rewrite (im2col_patch_at N N channels pw ph Hpw Hph n_ex src junk e2 qy qx) in E by (auto; lia).
  exact (codes_differ N channels pw ph src e1 e2 py px qy qx n_ex Hpw Hph Hl He1 He2 H1 H2 H3 H4 E).
Qed.

(** The width is taken from shape[1]: for an image array of 2 rows and 3 columns
    the window at (0, 0) does not hold the image's pixels. *)
Theorem C36_non_square_refuted : exists src,
  let out := im2col 1 2 3 1 src 2 2 (repeat 7 10) in
  let row := slice out 0 5 in
  length src = (1 * (2 * 3 * 1))%nat /\
  nth (1 + 0 + ((1 * 2 + 0) * 1 + 0)) row 0 <> pixel_hw 2 3 1 src 0 (0 + 1) (0 + 0) 0.
Proof. exists [0;1;2;3;4;5]. split; [reflexivity|]. vm_compute. discriminate. Qed.

Example C36_case : im2col 1 3 3 1 [1;2;3;4;5;6;7;8;9] 2 2 (repeat 7 24) =
  [0;0; 1;2;4;5;  0;1; 2;3;5;6;  1;0; 4;5;7;8;  1;1; 5;6;8;9].
Proof. reflexivity. Qed.

(** ** C37 *)

Theorem C37_xor_dataset : forall noise n_train n_test n_literals ir ur train_x train_y test_x test_y,
  xor_dataset noise n_train n_test n_literals ir ur = Ok (train_x, train_y, test_x, test_y) ->
  length train_x = n_train /\ length test_x = n_test /\
  rows_of (Z.to_nat n_literals) train_x /\ rows_of (Z.to_nat n_literals) test_x /\
  Forall binary train_x /\ Forall binary test_x /\
  test_y = map xor_of test_x /\ length train_y = n_train /\
  (forall i, (i < n_train)%nat ->
     nth i train_y 0 =
     let clean := xor_of (nth i train_x []) in
     match noise with
     | Some p => if fl_ltb (Fin 0) p && fl_ltb (Fin (rng_src ur (rng_pos ur + i))) p then 1 - clean else clean
     | None => clean
     end).
Proof.
  intros noise n_train n_test n_literals ir ur train_x train_y test_x test_y H. unfold xor_dataset in H.
  destruct (Z.ltb_spec n_literals 2) as [Hn|Hn]; [discriminate|].
  destruct (randint n_train (Z.to_nat n_literals) ir) as [tx ir1] eqn:E1.
  destruct (randint n_test (Z.to_nat n_literals) ir1) as [sx ir2] eqn:E2.
  destruct (randint_spec _ _ _ _ _ E1) as [A1 [A2 A3]]. destruct (randint_spec _ _ _ _ _ E2) as [B1 [B2 B3]].
  set (ty := match noise with
             | None => xor_labels tx
             | Some p => if fl_ltb (Fin 0) p then flip_labels p (fst (random n_train ur)) (xor_labels tx) else xor_labels tx
             end) in H.
  assert (Ety : ty = match noise with
             | None => xor_labels tx
             | Some p => if fl_ltb (Fin 0) p then flip_labels p (fst (random n_train ur)) (xor_labels tx) else xor_labels tx
             end) by reflexivity.
  clearbody ty. inversion H; subst train_x train_y test_x test_y. clear H.
  assert (Clean : forall i, (i < n_train)%nat -> nth i (map b2z (xor_labels tx)) 0 = xor_of (nth i tx [])).
  { intros i Hi. rewrite (xor_labels_eq (Z.to_nat n_literals) tx) by (auto; lia).
    rewrite (nth_indep _ 0 (xor_of [])) by (rewrite map_length; lia). apply map_nth. }
  assert (LX : length (xor_labels tx) = n_train) by (unfold xor_labels; rewrite map_length; exact A1).
  do 6 (split; [assumption|]). split; [apply (xor_labels_eq (Z.to_nat n_literals)); auto; lia|].
  split.
  - rewrite map_length, Ety. destruct noise as [p|]; [|exact LX]. destruct (fl_ltb (Fin 0) p); [|exact LX].
    rewrite flip_length; [exact LX|]. now rewrite random_length, LX.
  - intros i Hi. cbv zeta. rewrite Ety. destruct noise as [p|]; [|now apply Clean].
    destruct (fl_ltb (Fin 0) p); cbn [andb]; [|now apply Clean].
    rewrite flip_nth by (rewrite random_length; auto). rewrite random_nth, Clean by auto. reflexivity.
Qed.

Theorem C37_result_or_error : forall noise n_train n_test n_literals ir ur,
  if n_literals <? 2 then xor_dataset noise n_train n_test n_literals ir ur = Raise ValueError
  else exists r, xor_dataset noise n_train n_test n_literals ir ur = Ok r.
Proof.
  intros noise n_train n_test n_literals ir ur. unfold xor_dataset. destruct (n_literals <? 2); [reflexivity|].
  destruct (randint n_train (Z.to_nat n_literals) ir) as [tx ir1].
  destruct (randint n_test (Z.to_nat n_literals) ir1) as [sx ir2]. eexists. reflexivity.
Qed.

Example C37_case : exists tx ty sx sy,
  xor_dataset (Some (Fin (3 # 10))) 4 2 3 (mkIrng (fun i => (i * i / 3)%nat) 0) ex_rng = Ok (tx, ty, sx, sy) /\
  map xor_of tx <> ty /\ ty <> [0;0;0;0].
Proof. do 4 eexists. split; [vm_compute; reflexivity|]. split; discriminate. Qed.

Print Assumptions C30_csr_row.
Print Assumptions C30_csr_equals_dense.
Print Assumptions C30_training_equal.
Print Assumptions C30_input_block_refines.
Print Assumptions C30_sparse_block_row.
Print Assumptions C30_stored_zero_refuted.
Print Assumptions C36_windows.
Print Assumptions C36_positions_distinct.
Print Assumptions C36_non_square_refuted.
Print Assumptions C37_xor_dataset.
Print Assumptions C37_result_or_error.
