(** The AVX2 block against the scalar block on the same state. *)
From Coq Require Import ZArith Arith List Bool QArith Lia ZifyBool.
From Verif Require Import Base BaseProofs Spec SpecLearning ModelInference ModelDense ModelLayout ModelFeedback ModelExecutor ModelDenseExec ModelAvx2
  SpecAvx2 ProofsClause ProofsLayout ProofsEval ProofsStep ProofsExecutor ProofsInput ProofsTopInference ModelPredictor ModelRuleSet ProofsAvx2.
Import ListNotations.
Open Scope Z_scope.

(** ** Sizes *)

Lemma lmem_of_facts : forall n, (0 < n)%nat ->
  (32 <= lmem_of n)%nat /\ (lmem_of n - 32 <= n <= lmem_of n)%nat /\ lmem_of n = (lmem_of n / 32 * 32)%nat.
Proof.
  intros n Hn. unfold lmem_of. pose proof (Nat.div_mod n 32 ltac:(lia)) as D.
  pose proof (Nat.mod_upper_bound n 32 ltac:(lia)) as M.
  destruct (Nat.eqb_spec (n mod 32) 0) as [E|E].
  - rewrite E in D. lia.
  - rewrite Nat.div_mul by lia. lia.
Qed.

Lemma list_eq_seq : forall (l : list Z) (f : nat -> Z) n, length l = n -> (forall i, (i < n)%nat -> nth i l 0 = f i) -> l = map f (seq 0 n).
Proof.
  intros l f n H1 H2. apply list_ext0.
  - now rewrite map_length, seq_length.
  - intros i Hi. rewrite nth_map_seq by lia. apply H2. lia.
Qed.

Lemma nth_repeat_lt : forall (v : Z) m i, (i < m)%nat -> nth i (repeat v m) 0 = v.
Proof. intros v m. induction m as [|m IH]; intros [|i] H; cbn; try lia; auto. apply IH. lia. Qed.

Lemma mask_of_lanes : forall n, (0 < n)%nat ->
  mask_of n = map (fun i => if (lmem_of n - 32 + i <? n)%nat then -1 else 0) (seq 0 32).
Proof.
  intros n Hn. unfold mask_of, lmem_of. pose proof (Nat.div_mod n 32 ltac:(lia)) as D.
  pose proof (Nat.mod_upper_bound n 32 ltac:(lia)) as M.
  destruct (Nat.eqb_spec (n mod 32) 0) as [E|E].
  - apply list_eq_seq; [apply repeat_length|]. intros i Hi. rewrite nth_repeat_lt by lia.
    rewrite E in D. replace (n - 32 + i <? n)%nat with true by (symmetry; apply Nat.ltb_lt; lia). reflexivity.
  - apply list_eq_seq; [rewrite app_length, !repeat_length; lia|]. intros i Hi.
    destruct (Nat.lt_ge_cases i (n mod 32)) as [K|K].
    + rewrite app_nth1 by (rewrite repeat_length; lia). rewrite nth_repeat_lt by lia.
      replace ((n / 32 + 1) * 32 - 32 + i <? n)%nat with true by (symmetry; apply Nat.ltb_lt; lia). reflexivity.
    + rewrite app_nth2 by (rewrite repeat_length; lia). rewrite repeat_length, nth_repeat_lt by lia.
      replace ((n / 32 + 1) * 32 - 32 + i <? n)%nat with false by (symmetry; apply Nat.ltb_ge; lia). reflexivity.
Qed.

(** ** One clause *)

Section OneClause.
  Variables (n : nat) (x lits row : list Z).
  Hypothesis Hn : (0 < n)%nat.
  Hypothesis Hbuf : buffer_of n x lits.
  Hypothesis Hbin : binary x.
  Hypothesis Hrow : length row = (2 * lmem_of n)%nat.
  Notation lmem := (lmem_of n).
  Notation cl := (row_clause n lmem row).

  Lemma rc_pos_len : length (cl_pos cl) = n.
  Proof. pose proof (lmem_of_facts n Hn). cbn [row_clause cl_pos]. rewrite firstn_length. lia. Qed.
  Lemma rc_neg_len : length (cl_neg cl) = n.
  Proof. pose proof (lmem_of_facts n Hn). cbn [row_clause cl_neg]. unfold slice. rewrite firstn_length, skipn_length. lia. Qed.

  Lemma rc_pos_nth : forall i d, (i < n)%nat -> nth i (cl_pos cl) d = nth i row 0.
  Proof.
    intros i d Hi. rewrite (nth_indep _ d 0) by (rewrite rc_pos_len; lia).
    cbn [row_clause cl_pos]. now rewrite nth_firstn_lt by lia.
  Qed.
  Lemma rc_neg_nth : forall i d, (i < n)%nat -> nth i (cl_neg cl) d = nth (lmem + i) row 0.
  Proof.
    intros i d Hi. rewrite (nth_indep _ d 0) by (rewrite rc_neg_len; lia).
    cbn [row_clause cl_neg]. unfold slice. rewrite nth_firstn_lt by lia. now rewrite nth_skipn.
  Qed.

  Lemma lit_val : forall i, (i < n)%nat -> wrap8 (nth i lits 0) = nth i x 0 /\ (nth i x 0 = 0 \/ nth i x 0 = 1).
  Proof.
    intros i Hi. destruct Hbuf as [B1 [B2 B3]].
    assert (E : nth i lits 0 = nth i x 0).
    { rewrite <- B3. now rewrite nth_firstn_lt by lia. }
    assert (K : nth i x 0 = 0 \/ nth i x 0 = 1) by (apply nth_binary; [auto|lia]).
    rewrite E. split; [|auto]. destruct K as [K|K]; rewrite K; reflexivity.
  Qed.

  Lemma falsified_pair : existsb (fun j => fpos lits row j || fneg lits row lmem j) (seq 0 n) = false <-> pair_ok (cl_pos cl) (cl_neg cl) x.
  Proof.
    destruct Hbuf as [B1 _].
    assert (A : forall i, (i < n)%nat ->
       (fpos lits row i || fneg lits row lmem i = false <->
        (0 <= nth i (cl_pos cl) (-1) -> nth i x 0 <> 0) /\ (0 <= nth i (cl_neg cl) (-1) -> nth i x 0 <> 1))).
    { intros i Hi. rewrite rc_pos_nth, rc_neg_nth by lia. unfold fpos, fneg.
      destruct (lit_val i Hi) as [E1 E2]. rewrite E1. lia. }
    split.
    - intros H i Hi. apply A; [lia|]. destruct (fpos lits row i || fneg lits row lmem i) eqn:F; auto.
      exfalso. rewrite <- not_true_iff_false in H. apply H. apply existsb_exists. exists i. split; [apply in_seq; lia|auto].
    - intros H. apply not_true_iff_false. intros E. apply existsb_exists in E. destruct E as [i [I1 I2]]. apply in_seq in I1.
      assert (F : fpos lits row i || fneg lits row lmem i = false) by (apply A; [lia|apply H; lia]). congruence.
  Qed.

  Lemma n_incl_sum : forall (l : list Z) (f : nat -> Z) m, length l = m -> (forall i, (i < m)%nat -> nth i l 0 = f i) ->
    n_incl l = zsum (map (fun i => b2z (0 <=? f i)) (seq 0 m)).
  Proof.
    intros l f m H1 H2. rewrite (list_eq_seq l f m H1 H2). generalize (seq 0 m). intros s.
    induction s as [|a s IH]; [reflexivity|]. cbn [map zsum]. rewrite n_incl_cons, IH. unfold b2z. reflexivity.
  Qed.

  Lemma incl_sum : n_incl (cl_pos cl) + n_incl (cl_neg cl) = zsum (map (fun j => ipos row j + ineg row lmem j) (seq 0 n)).
  Proof.
    rewrite (n_incl_sum (cl_pos cl) (fun i => nth i row 0) n rc_pos_len) by (intros; apply rc_pos_nth; auto).
    rewrite (n_incl_sum (cl_neg cl) (fun i => nth (lmem + i) row 0) n rc_neg_len) by (intros; apply rc_neg_nth; auto).
    generalize (seq 0 n). intros s. induction s as [|a s IH]; [reflexivity|]. cbn [map zsum].
    unfold ipos at 1, ineg at 1. lia.
  Qed.

  Lemma act_incl : existsb (act_at row lmem) (seq 0 n) = (0 <? n_incl (cl_pos cl) + n_incl (cl_neg cl)).
  Proof.
    rewrite incl_sum. generalize (seq 0 n). intros s.
    assert (P : forall s, 0 <= zsum (map (fun j => ipos row j + ineg row lmem j) s)).
    { clear. induction s as [|a s IH]; cbn [map zsum]; [lia|]. unfold ipos at 1, ineg at 1, b2z.
      destruct (0 <=? nth a row 0), (0 <=? nth (lmem + a) row 0); lia. }
    induction s as [|a s IH]; [reflexivity|]. cbn [map zsum existsb]. rewrite IH. specialize (P s).
    unfold act_at, ipos at 2, ineg at 2, b2z.
    destruct (0 <=? nth a row 0), (0 <=? nth (lmem + a) row 0); cbn [orb]; lia.
  Qed.

  Lemma avx_set_output_scalar : forall bo,
    fst (avx_set_output lits lmem (mask_of n) row) = fst (set_output bo x cl) /\
    (fst (set_output bo x cl) = 1 -> snd (avx_set_output lits lmem (mask_of n) row) = Some (snd (set_output true x cl))).
  Proof.
    intros bo. pose proof (lmem_of_facts n Hn) as [F1 [F2 F3]]. destruct Hbuf as [B1 [B2 B3]].
    pose proof (avx_set_output_spec lits row lmem Hrow B2 n (mask_of n) (mask_of_lanes n Hn) F2 F1 F3) as A.
    destruct (avx_set_output lits lmem (mask_of n) row) as [o st]. cbn [fst snd]. destruct A as [A1 A2].
    assert (S : forall b, fst (set_output b x cl) = 1 <-> pair_ok (cl_pos cl) (cl_neg cl) x).
    { intros b. unfold set_output. apply set_output_loop_spec; rewrite ?rc_pos_len, ?rc_neg_len; lia. }
    setoid_rewrite <- falsified_pair in S.
    assert (E : o = fst (set_output bo x cl)).
    { rewrite A1. specialize (S bo).
      destruct (set_output_loop_01 bo (cl_pos cl) (cl_neg cl) x 0 0) as [K|K]; fold (set_output bo x cl) in K; rewrite K in *.
      - destruct (existsb _ (seq 0 n)); auto. exfalso. destruct S as [_ S]. specialize (S eq_refl). lia.
      - destruct (existsb _ (seq 0 n)); auto. exfalso. destruct S as [S _]. specialize (S eq_refl). discriminate. }
    split; [exact E|]. rewrite <- E. intros Ho. rewrite (A2 Ho). f_equal.
    assert (T : fst (set_output true x cl) = 1). { apply S. apply S with (b := bo). rewrite <- E. auto. }
    unfold set_output in T |- *. rewrite set_output_loop_count by (rewrite ?rc_pos_len, ?rc_neg_len; auto).
    rewrite <- incl_sum. lia.
  Qed.

  Lemma avx_eval_output_scalar : avx_eval_output lits lmem (mask_of n) row = eval_output x cl.
  Proof.
    pose proof (lmem_of_facts n Hn) as [F1 [F2 F3]]. destruct Hbuf as [B1 [B2 B3]].
    rewrite (avx_eval_output_spec lits row lmem Hrow B2 n (mask_of n) (mask_of_lanes n Hn) F2 F1 F3).
    rewrite act_incl.
    pose proof (eval_output_loop_spec (cl_pos cl) (cl_neg cl) x true) as S. rewrite rc_pos_len, rc_neg_len in S.
    specialize (S ltac:(lia) ltac:(lia)). fold (eval_output x cl) in S. rewrite <- falsified_pair in S.
    destruct (eval_output_loop_01 (cl_pos cl) (cl_neg cl) x true) as [K|K]; fold (eval_output x cl) in K; rewrite K in *.
    - destruct (existsb _ (seq 0 n)); auto.
      destruct (0 <? n_incl (cl_pos cl) + n_incl (cl_neg cl)) eqn:G; auto. exfalso.
      destruct S as [_ S]. assert (0 = 1) by (apply S; split; [auto|right; lia]). lia.
    - destruct S as [S _]. destruct (S eq_refl) as [S1 S2]. rewrite S1. destruct S2 as [S2|S2]; [discriminate|].
      replace (0 <? n_incl (cl_pos cl) + n_incl (cl_neg cl)) with true by lia. reflexivity.
  Qed.
End OneClause.

(** ** One block *)

Lemma avx_train_outputs : forall n x lits b bo si sm r, avx_ok n b -> buffer_of n x lits -> binary x ->
  a_outputs (avx_train_output bo lits b) = b_outputs (train_set_clause_output bo x (scalar_view si sm r b)).
Proof.
  intros n x lits b bo si sm r [O1 O2 O3 O4 O5] Hb Hx. unfold avx_train_output, train_set_clause_output, scalar_view.
  cbn [a_outputs b_outputs b_clauses]. rewrite !map_map. rewrite O2, O3, O4.
  apply map_ext_in. intros row Hr. rewrite Forall_forall in O5. specialize (O5 row Hr).
  apply (avx_set_output_scalar n x lits row O1 Hb Hx O5 bo).
Qed.

Lemma nth_map2_same : forall (A : Type) (f : A -> Z -> Z) l1 l2 k d, (k < length l1)%nat -> (k < length l2)%nat ->
  nth k (map2 f l1 l2) 0 = f (nth k l1 d) (nth k l2 0).
Proof.
  intros A f l1. induction l1 as [|a l1 IH]; intros [|b l2] k d H1 H2; cbn [length] in *; try lia.
  destruct k; cbn [map2 nth]; [reflexivity|]. apply IH; lia.
Qed.

Lemma avx_train_counts : forall n x lits b si sm r k, avx_ok n b -> buffer_of n x lits -> binary x ->
  length (a_counts b) = length (a_rows b) ->
  nth k (a_outputs (avx_train_output true lits b)) 0 = 1 ->
  nth k (a_counts (avx_train_output true lits b)) 0 =
  nth k (b_counts (train_set_clause_output true x (scalar_view si sm r b))) 0.
Proof.
  intros n x lits b si sm r k [O1 O2 O3 O4 O5] Hb Hx HL. unfold avx_train_output, train_set_clause_output, scalar_view.
  cbn [a_outputs a_counts b_counts b_clauses]. rewrite !map_map. rewrite O2, O3, O4.
  destruct (Nat.lt_ge_cases k (length (a_rows b))) as [Hk|Hk].
  - rewrite (nth_indep _ 0 ((fun r => fst (avx_set_output lits (lmem_of n) (mask_of n) r)) [])) by (rewrite map_length; auto).
    rewrite (map_nth (fun r => fst (avx_set_output lits (lmem_of n) (mask_of n) r))).
    intros H1. rewrite (nth_map2_same _ _ _ _ k (avx_set_output lits (lmem_of n) (mask_of n) [])) by (rewrite ?map_length; lia).
    rewrite (map_nth (avx_set_output lits (lmem_of n) (mask_of n))).
    rewrite (nth_indep (map _ (a_rows b)) 0 ((fun r => snd (set_output true x (row_clause n (lmem_of n) r))) [])) by (rewrite map_length; auto).
    rewrite (map_nth (fun r => snd (set_output true x (row_clause n (lmem_of n) r)))).
    rewrite Forall_forall in O5. specialize (O5 (nth k (a_rows b) []) (nth_In _ _ Hk)).
    destruct (avx_set_output_scalar n x lits _ O1 Hb Hx O5 true) as [A1 A2]. rewrite A2; [reflexivity|].
    rewrite <- A1. exact H1.
  - intros H1. rewrite nth_overflow in H1 by (rewrite map_length; auto). discriminate.
Qed.

Lemma avx_eval_outputs : forall n x lits b si sm r, avx_ok n b -> buffer_of n x lits -> binary x ->
  a_outputs (avx_eval_set lits b) = b_outputs (eval_set_clause_output x (scalar_view si sm r b)).
Proof.
  intros n x lits b si sm r [O1 O2 O3 O4 O5] Hb Hx. unfold avx_eval_set, eval_set_clause_output, scalar_view.
  cbn [a_outputs b_outputs b_clauses]. rewrite !map_map. rewrite O2, O3, O4.
  apply map_ext_in. intros row Hr. rewrite Forall_forall in O5. specialize (O5 row Hr).
  apply (avx_eval_output_scalar n x lits row O1 Hb Hx O5).
Qed.

(** The whole block after an evaluation is the scalar block's. *)
Lemma avx_eval_scalar : forall n x lits b si sm r, avx_ok n b -> buffer_of n x lits -> binary x ->
  let '(b', v) := avx_eval_ex lits b in
  (scalar_view si sm r b', v) = dense_eval_ex x (scalar_view si sm r b) /\ avx_ok n b'.
Proof.
  intros n x lits b si sm r H Hb Hx. pose proof (avx_eval_outputs n x lits b si sm r H Hb Hx) as A.
  unfold avx_eval_ex, dense_eval_ex. cbv zeta.
  unfold avx_count_votes, count_votes, scalar_view, avx_eval_set, eval_set_clause_output in *.
  cbn [a_nlit a_lmem a_mask a_ncls a_rows a_weights a_outputs a_counts a_votes a_budget a_cmp a_vrng a_fast
       b_nlit b_ncls b_clauses b_weights b_outputs b_counts b_votes b_budget b_s_inv b_s_min1_inv b_rng b_fast] in *.
  rewrite A. split; [reflexivity|]. destruct H as [O1 O2 O3 O4 O5]. constructor; auto.
Qed.

Lemma avx_train_votes : forall n x lits b bo si sm r, avx_ok n b -> buffer_of n x lits -> binary x ->
  snd (avx_train_ex bo lits b) = snd (dense_train_ex bo x (scalar_view si sm r b)).
Proof.
  intros n x lits b bo si sm r H Hb Hx. pose proof (avx_train_outputs n x lits b bo si sm r H Hb Hx) as A.
  unfold avx_train_ex, dense_train_ex, avx_count_votes, count_votes. cbn [snd a_votes b_votes].
  rewrite A. reflexivity.
Qed.

(** ** Evaluation through the executor *)

Definition view_blocks (si sm : Q) (r : rng) (bs : list (bool * ablock)) : list (bool * block) :=
  map (fun tb : bool * ablock => (fst tb, scalar_view si sm r (snd tb))) bs.
Definition view_exec (si sm : Q) (r : rng) (e : exec ablock) : exec block :=
  mkExec (view_blocks si sm r (x_blocks e)) (x_fb e) (x_index e) (x_rng e).
Definition blocks_avx (n : nat) (bs : list (bool * ablock)) : Prop := Forall (fun tb => avx_ok n (snd tb)) bs.
(** Buffers presented to the AVX2 blocks, and the examples in them. *)
Definition presents (n : nat) (lits x : list Z) : Prop := buffer_of n x lits /\ binary x.

Section View.
  Variables (si sm : Q) (r : rng) (n : nat).
  Notation V := (view_blocks si sm r).

  Lemma run_eval_view : forall lits x bs fb, presents n lits x -> blocks_avx n bs ->
    let '(bs', fb') := run_examples ablock (list Z) avx_eval_ex lits bs fb in
    run_examples block (list Z) dense_eval_ex x (V bs) fb = (V bs', fb') /\ blocks_avx n bs'.
  Proof.
    intros lits x bs. induction bs as [|[t b] bs IH]; intros fb [P1 P2] H; cbn [run_examples view_blocks map].
    - split; [reflexivity|constructor].
    - inversion H as [|? ? H1 H2]; subst. cbn [snd] in H1.
      pose proof (avx_eval_scalar n x lits b si sm r H1 P1 P2) as A.
      destruct (avx_eval_ex lits b) as [b1 v]. destruct A as [A1 A2]. cbn [fst snd]. rewrite <- A1.
      specialize (IH (fb_register v fb) (conj P1 P2) H2).
      destruct (run_examples ablock (list Z) avx_eval_ex lits bs (fb_register v fb)) as [bs2 fb2].
      destruct IH as [I1 I2]. unfold view_blocks in I1. rewrite I1. split; [reflexivity|]. constructor; auto.
  Qed.

  Lemma eval_list_view : forall es xs bs fb, Forall2 (presents n) es xs -> blocks_avx n bs ->
    let '(ys, bs', fb') := eval_list ablock (list Z) avx_eval_ex es bs fb in
    eval_list block (list Z) dense_eval_ex xs (V bs) fb = (ys, V bs', fb') /\ blocks_avx n bs'.
  Proof.
    intros es xs bs fb P. revert bs fb. induction P as [|lits x es xs P1 P IH]; intros bs fb H; cbn [eval_list].
    - split; auto.
    - pose proof (run_eval_view lits x bs (fb_reset fb) P1 H) as A.
      destruct (run_examples ablock (list Z) avx_eval_ex lits bs (fb_reset fb)) as [bs1 fb1].
      destruct A as [A1 A2]. rewrite A1. specialize (IH bs1 fb1 A2).
      destruct (eval_list ablock (list Z) avx_eval_ex es bs1 fb1) as [[ys bs2] fb2]. destruct IH as [I1 I2]. rewrite I1. auto.
  Qed.

  Theorem eval_predict_view : forall (L : Type) (adata xdata : list (list Z * L)) out (e : exec ablock),
    Forall2 (presents n) (map fst adata) (map fst xdata) -> blocks_avx n (x_blocks e) ->
    let '(ok, ys, e') := eval_predict ablock (list Z) avx_eval_ex L adata out e in
    eval_predict block (list Z) dense_eval_ex L xdata out (view_exec si sm r e) = (ok, ys, view_exec si sm r e') /\
    blocks_avx n (x_blocks e').
  Proof.
    intros L adata xdata out e P H. unfold eval_predict.
    assert (EL : length adata = length xdata).
    { pose proof (Forall2_length _ _ _ _ _ P) as K. rewrite !map_length in K. exact K. }
    rewrite EL. destruct (negb (length out =? length xdata)%nat); [auto|].
    pose proof (eval_list_view _ _ (x_blocks e) (x_fb e) P H) as A. cbn [view_exec x_blocks x_fb x_index x_rng].
    destruct (eval_list ablock (list Z) avx_eval_ex (map fst adata) (x_blocks e) (x_fb e)) as [[ys bs] fb].
    destruct A as [A1 A2]. rewrite A1. auto.
  Qed.
End View.

(** ** Blocks on padded memory *)

(** The row of clause [k] in the flat array (func_avx2.hpp:181-186: clauses +
    clause_k * num_literals_mem * 2). *)
Definition view_row (f : flat) (k : nat) : list Z := slice (f_clauses f) (k * (f_lmem f * 2)) (f_lmem f * 2).

(** The AVX2 block [b] runs on the arrays of [f]. *)
Definition avx_block_on (n ncls : nat) (f : flat) (b : ablock) : Prop :=
  (0 < n)%nat /\ a_nlit b = n /\ a_lmem b = lmem_of n /\ a_mask b = mask_of n /\ a_ncls b = ncls /\
  f_lmem f = lmem_of n /\ f_nlit f = n /\
  a_rows b = map (view_row f) (seq 0 (f_ncl f)) /\ a_weights b = view_all_weights f.

Lemma slice_in_slice : forall (mem : list Z) a b c d, (c + d <= b)%nat ->
  slice (slice mem a b) c d = slice mem (a + c) d.
Proof.
  intros mem a b c d H. unfold slice. rewrite skipn_firstn_comm, firstn_firstn.
  replace (Nat.min d (b - c)) with d by lia. rewrite skipn_skipn'. reflexivity.
Qed.

Lemma avx_block_scalar : forall n ncls f b si sm r, avx_block_on n ncls f b -> block_on n ncls f (scalar_view si sm r b).
Proof.
  intros n ncls f b si sm r [H0 [H1 [H2 [H3 [H4 [H5 [H6 [H7 H8]]]]]]]]. unfold block_on, scalar_view.
  cbn [b_ncls b_clauses b_weights]. split; [auto|]. split; [|auto].
  rewrite H7, map_map. unfold view_clauses. apply map_ext. intros k.
  unfold row_clause, view_clause, view_row. rewrite H1, H2, H5, H6.
  pose proof (lmem_of_facts n H0) as [F1 [F2 F3]]. f_equal.
  - change (firstn n (slice (f_clauses f) (k * (lmem_of n * 2)) (lmem_of n * 2)))
      with (slice (slice (f_clauses f) (k * (lmem_of n * 2)) (lmem_of n * 2)) 0 n).
    rewrite slice_in_slice by lia. now rewrite Nat.add_0_r.
  - rewrite slice_in_slice by lia. reflexivity.
Qed.

Lemma avx_block_ok : forall n ncls f b, avx_block_on n ncls f b -> flat_wf n ncls f -> avx_ok n b.
Proof.
  intros n ncls f b [H0 [H1 [H2 [H3 [H4 [H5 [H6 [H7 H8]]]]]]]] W. constructor; auto.
  rewrite H7. apply Forall_forall. intros row Hr. apply in_map_iff in Hr. destruct Hr as [k [<- Hk]]. apply in_seq in Hk.
  destruct W as [W1 W2 W3 W4 W5 W6]. unfold view_row, slice. rewrite firstn_length, skipn_length, W5, H5.
  assert (k * (lmem_of n * 2) + lmem_of n * 2 <= f_ncl f * (lmem_of n * 2))%nat by nia. lia.
Qed.

(** The predictor agrees with a machine running on AVX2 blocks. *)
Theorem avx_predictor_agrees : forall (L : Type) n ncls s rs mode excl junk p cbs (e : exec ablock)
  (adata : list (list Z * L)) (xs : list (list Z)) out,
  Forall (flat_wf n ncls) cbs -> state_shape n (total_clauses cbs) ncls s ->
  Forall2 (fun f tb => avx_block_on n ncls f (snd tb)) (save_state_in_backend s cbs) (x_blocks e) ->
  fb_ready ncls (x_fb e) ->
  compile_from_dense_state s = Ok rs -> from_ruleset mode excl rs junk = Ok p ->
  length out = length adata ->
  (forall r c, (c < ncls)%nat -> is_int16 (merged_weight (ds_c s) (ds_w s) r c)) ->
  Forall2 (presents n) (map fst adata) xs ->
  Forall (fun x => forall c, (c < ncls)%nat -> is_int16 (clause_vote_total n x (ds_c s) (ds_w s) c)) xs ->
  exists ys e', eval_predict ablock (list Z) avx_eval_ex L adata out e = (true, ys, e') /\
    map (fun x => fst (pred_predict p x)) xs = map (fun y => Ok (AClass y)) ys.
Proof.
  intros L n ncls s rs mode excl junk p cbs e adata xs out Hcb Hsh Hbs Hfb Hc Hp Hout Hm P Hi.
  set (xdata := map2 (fun x (d : list Z * L) => (x, snd d)) xs adata).
  assert (LX : length xs = length adata).
  { pose proof (Forall2_length _ _ _ _ _ P) as K. rewrite map_length in K. auto. }
  assert (FX : map fst xdata = xs).
  { unfold xdata. clear - LX. revert adata LX. induction xs as [|x xs IH]; intros [|d ds] H; cbn [length map map2 fst] in *; try lia; auto.
    f_equal. apply IH. lia. }
  assert (WS : Forall (flat_wf n ncls) (save_state_in_backend s cbs)).
  { unfold save_state_in_backend. destruct Hsh as [S1 [S2 [S3 [S4 [S5 S6]]]]].
    apply save_loop_wf; auto.
    - rewrite (flatten_length (2 * n)) by auto. nia.
    - rewrite (flatten_length ncls) by auto. nia. }
  assert (AB : blocks_avx n (x_blocks e)).
  { unfold blocks_avx. clear - Hbs WS. induction Hbs as [|f tb fs bs H1 H IH]; constructor.
    - inversion WS; subst. eapply avx_block_ok; eauto.
    - inversion WS; subst. auto. }
  rewrite <- FX in P.
  pose proof (eval_predict_view 0 0 (mkRng (fun _ => 0%Q) 0) n L adata xdata out e P AB) as E.
  assert (Hd : length out = length xdata). { rewrite <- (map_length fst xdata), FX. lia. }
  destruct (predictor_agrees_merged L n ncls s rs mode excl junk p cbs (view_exec 0 0 (mkRng (fun _ => 0%Q) 0) e) xdata out) as [ys [e2 [Q1 Q2]]]; auto.
  - cbn [view_exec x_blocks]. unfold view_blocks. clear - Hbs. induction Hbs as [|f tb fs bs H1 H IH]; cbn [map]; constructor; auto.
    cbn [snd]. apply avx_block_scalar. exact H1.
  - apply Forall_forall. intros d Hd'. assert (Hx : In (fst d) xs) by (rewrite <- FX; apply in_map; auto).
    rewrite Forall_forall in Hi. rewrite FX in P.
    assert (K : Forall (fun x => length x = n /\ binary x) xs).
    { clear - P. induction P as [|l x ls xs [[P1 _] P2] P IH]; constructor; auto. }
    rewrite Forall_forall in K. destruct (K _ Hx) as [K1 K2]. split; [exact K1|]. split; [exact K2|]. apply Hi. exact Hx.
  - destruct (eval_predict ablock (list Z) avx_eval_ex L adata out e) as [[ok ys'] e'] eqn:EE.
    destruct E as [E1 E2]. rewrite E1 in Q1. assert (T1 : ok = true) by congruence. assert (T2 : ys' = ys) by congruence.
    exists ys, e'. split; [rewrite T1, T2; reflexivity|].
    rewrite <- Q2, <- FX, map_map. reflexivity.
Qed.
