(** The python fallback against the scalar block: outputs, votes, feedback. *)
From Coq Require Import ZArith List Bool QArith Lia ZifyBool Arith.
From Verif Require Import Base BaseProofs Spec SpecLearning ModelInference ModelDense ModelDenseExec ModelFeedback ModelExecutor
  ProofsClause ProofsLearning ProofsLayout ProofsStep ProofsEval ProofsSparseRules ModelPy.
Import ListNotations.
Open Scope Z_scope.

(** ** Clause outputs *)

Lemma skipn_nth_cons : forall k (l : list Z), (k < length l)%nat -> skipn k l = nth k l 0 :: skipn (S k) l.
Proof.
  induction k as [|k IH]; intros [|a l] H; cbn [length] in H; try lia; auto.
  cbn [skipn nth]. rewrite IH by lia. reflexivity.
Qed.

Lemma nth_left : forall k (pos neg : list Z), (k < length pos)%nat -> nth k (pos ++ neg) 0 = nth k pos 0.
Proof. intros. apply app_nth1. auto. Qed.
Lemma nth_right : forall n k (pos neg : list Z), length pos = n -> nth (k + n) (pos ++ neg) 0 = nth k neg 0.
Proof. intros. rewrite app_nth2 by lia. f_equal. lia. Qed.

Lemma py_set_loop_native : forall bo n pos neg lits m k pc nc,
  length pos = n -> length neg = n -> length lits = n -> (k + m = n)%nat ->
  py_set_loop bo n (pos ++ neg) lits m k pc nc = set_output_loop bo (skipn k pos) (skipn k neg) (skipn k lits) pc nc.
Proof.
  intros bo n pos neg lits m. induction m as [|m IH]; intros k pc nc Hp Hn Hl Hk.
  - rewrite !skipn_all2 by lia. reflexivity.
  - rewrite (skipn_nth_cons k pos), (skipn_nth_cons k neg), (skipn_nth_cons k lits) by lia.
    cbn [py_set_loop set_output_loop]. rewrite nth_left by lia. rewrite (nth_right n) by auto.
    destruct ((nth k pos 0 >=? 0) && (nth k lits 0 =? 0)); auto.
    destruct ((nth k neg 0 >=? 0) && (nth k lits 0 =? 1)); auto. apply IH; auto; lia.
Qed.

Theorem py_set_native : forall bo n lits c, length (cl_pos c) = n -> length (cl_neg c) = n -> length lits = n ->
  py_set_output bo n lits (clause_row c) = set_output bo lits c.
Proof.
  intros. unfold py_set_output, set_output, clause_row. rewrite py_set_loop_native by auto. reflexivity.
Qed.

(** The literals that the python evaluation counts: state strictly positive.
    Shifting the states by one turns them into the included literals. *)
Definition shift (row : list Z) : list Z := map (fun v => v - 1) row.

Lemma shift_length : forall row, length (shift row) = length row. Proof. intros. apply map_length. Qed.
Lemma nth_shift : forall row k, (k < length row)%nat -> nth k (shift row) 0 = nth k row 0 - 1.
Proof.
  intros. unfold shift. rewrite nth_indep with (d' := (fun v => v - 1) 0) by (rewrite map_length; auto).
  apply (map_nth (fun v => v - 1)).
Qed.
Lemma shift_app : forall a b, shift (a ++ b) = shift a ++ shift b. Proof. intros. apply map_app. Qed.

Lemma py_eval_loop_native : forall n pos neg lits m k e,
  length pos = n -> length neg = n -> length lits = n -> (k + m = n)%nat ->
  py_eval_loop n (pos ++ neg) lits m k e = eval_output_loop (skipn k (shift pos)) (skipn k (shift neg)) (skipn k lits) e.
Proof.
  intros n pos neg lits m. induction m as [|m IH]; intros k e Hp Hn Hl Hk.
  - rewrite !skipn_all2 by (rewrite ?shift_length; lia). reflexivity.
  - rewrite (skipn_nth_cons k (shift pos)), (skipn_nth_cons k (shift neg)), (skipn_nth_cons k lits) by (rewrite ?shift_length; lia).
    cbn [py_eval_loop eval_output_loop]. rewrite nth_left by lia. rewrite (nth_right n) by auto.
    rewrite !nth_shift by lia.
    replace (nth k pos 0 - 1 >=? 0) with (nth k pos 0 >? 0) by lia.
    replace (nth k neg 0 - 1 >=? 0) with (nth k neg 0 >? 0) by lia.
    destruct ((nth k pos 0 >? 0) && (nth k lits 0 =? 0)); auto.
    destruct ((nth k neg 0 >? 0) && (nth k lits 0 =? 1)); auto. apply IH; auto; lia.
Qed.

Lemma py_eval_native : forall n lits c, length (cl_pos c) = n -> length (cl_neg c) = n -> length lits = n ->
  py_eval_output n lits (clause_row c) = eval_output lits (mkClause (shift (cl_pos c)) (shift (cl_neg c))).
Proof.
  intros. unfold py_eval_output, eval_output, clause_row. rewrite py_eval_loop_native by auto. reflexivity.
Qed.

Lemma split_len : forall n (row : list Z), length row = (2 * n)%nat ->
  length (cl_pos (split_row n row)) = n /\ length (cl_neg (split_row n row)) = n.
Proof. intros. unfold split_row. cbn [cl_pos cl_neg]. rewrite firstn_length, skipn_length. lia. Qed.

Theorem py_eval_exact : forall n lits row, length row = (2 * n)%nat -> length lits = n -> binary lits ->
  py_eval_output n lits row = b2z (clause_fires n lits (shift row)).
Proof.
  intros n lits row Hr Hl Hb. destruct (split_len n row Hr) as [L1 L2].
  rewrite <- (split_row_row n row) at 1. rewrite py_eval_native by auto.
  rewrite (eval_output_fires n) by (cbn [cl_pos cl_neg]; rewrite ?shift_length; auto).
  cbn [cl_pos cl_neg]. rewrite <- shift_app. f_equal. f_equal. f_equal. apply firstn_skipn.
Qed.

Lemma included_shift : forall row, Forall (fun v => v <> 0) row -> included (shift row) = included row.
Proof.
  intros row H. unfold included. rewrite shift_length. apply filter_ext_in.
  intros i Hi. apply in_seq in Hi.
  rewrite (nth_indep (shift row) (-1) 0) by (rewrite shift_length; lia). rewrite nth_shift by lia.
  rewrite (nth_indep row (-1) 0) by lia.
  rewrite Forall_forall in H. assert (nth i row 0 <> 0) by (apply H, nth_In; lia). lia.
Qed.

Theorem py_eval_agrees : forall n lits c, length (cl_pos c) = n -> length (cl_neg c) = n -> length lits = n -> binary lits ->
  Forall (fun v => v <> 0) (clause_row c) -> py_eval_output n lits (clause_row c) = eval_output lits c.
Proof.
  intros n lits c Hp Hn Hl Hb Hz. rewrite py_eval_exact; auto.
  2:{ unfold clause_row. rewrite app_length. lia. }
  rewrite (eval_output_fires n) by auto. unfold clause_fires. rewrite included_shift by auto. reflexivity.
Qed.

(** ** Votes *)

Lemma outs_total_zero : forall ncls outs ws, Forall (fun o => o = 0 \/ o = 1) outs -> rows_of ncls ws ->
  forall c, zsum (map2 (fun o w => o * nth c w 0) outs ws) = outs_total outs ws c.
Proof.
  intros ncls outs. unfold outs_total.
  induction outs as [|o outs IH]; intros [|w ws] Ho Hw c; try reflexivity.
  inversion Ho; inversion Hw; subst. cbn [map2 zsum]. rewrite IH by auto.
  destruct H1; subst; [replace (0 =? 1) with false by reflexivity|replace (1 =? 1) with true by reflexivity]; lia.
Qed.

Lemma py_votes_native : forall p b, p_ncls p = b_ncls b -> p_weights p = b_weights b -> p_outputs p = b_outputs b ->
  Forall (fun o => o = 0 \/ o = 1) (p_outputs p) -> rows_of (b_ncls b) (b_weights b) ->
  py_votes p = b_votes (count_votes b).
Proof.
  intros p b E1 E2 E3 Ho Hw. unfold py_votes, count_votes. cbn [b_votes]. rewrite E1, E2, E3 in *.
  assert (L : length (count_votes_loop (b_outputs b) (b_weights b) (repeat 0 (b_ncls b))) = b_ncls b)
    by (apply count_votes_loop_length; auto; apply repeat_length).
  apply list_ext0. { rewrite map_length, seq_length. auto. }
  intros k Hk. rewrite map_length, seq_length in Hk. rewrite nth_map_seq by auto.
  rewrite (count_votes_loop_nth (b_ncls b)); auto; [|apply repeat_length|rewrite nth_repeat; reflexivity].
  rewrite (outs_total_zero (b_ncls b)) by auto.
  f_equal. rewrite nth_repeat. lia.
Qed.

(** ** Evaluation of whole data sets *)

(** Same machine in both backends: sizes, automata, weights. *)
Definition same_machine (n ncls : nat) (p : pyblock) (b : block) : Prop :=
  p_nlit p = n /\ p_ncls p = ncls /\ b_nlit b = n /\ b_ncls b = ncls /\
  p_rows p = block_rows b /\ p_weights p = b_weights b /\
  Forall (fun c => length (cl_pos c) = n /\ length (cl_neg c) = n) (b_clauses b) /\ rows_of ncls (b_weights b).

Definition no_zero (b : block) : Prop := Forall (fun c => Forall (fun v => v <> 0) (clause_row c)) (b_clauses b).

Lemma eval_output_01 : forall x c, eval_output x c = 0 \/ eval_output x c = 1.
Proof. intros. unfold eval_output. apply eval_output_loop_01. Qed.

Lemma py_eval_ex_agrees : forall n ncls p b x, same_machine n ncls p b -> no_zero b -> length x = n -> binary x ->
  snd (py_eval_ex x p) = snd (dense_eval_ex x b) /\ same_machine n ncls (fst (py_eval_ex x p)) (fst (dense_eval_ex x b)) /\
  no_zero (fst (dense_eval_ex x b)).
Proof.
  intros n ncls p b x [M1 [M2 [M3 [M4 [M5 [M6 [M7 M8]]]]]]] Hz Hx Hb. split; [|split; [repeat split; auto|exact Hz]].
  unfold py_eval_ex, dense_eval_ex. cbn [snd].
  assert (E : p_outputs (py_eval_set x p) = b_outputs (eval_set_clause_output x b)).
  { unfold py_eval_set, py_with_outputs, eval_set_clause_output. cbn [p_outputs b_outputs].
    rewrite M1, M5. unfold block_rows. rewrite map_map. apply map_ext_in. intros c Hc.
    pose proof (proj1 (Forall_forall _ _) M7 c Hc) as K7. cbn beta in K7.
    pose proof (proj1 (Forall_forall _ _) Hz c Hc) as K8. cbn beta in K8.
    apply py_eval_agrees; tauto. }
  apply py_votes_native; auto.
  - unfold py_eval_set, eval_set_clause_output, py_with_outputs. cbn [p_ncls b_ncls]. congruence.
  - rewrite E. unfold eval_set_clause_output. cbn [b_outputs]. apply Forall_map. apply Forall_forall. intros. apply eval_output_01.
  - unfold eval_set_clause_output. cbn [b_ncls b_weights]. rewrite M4. auto.
Qed.

Lemma votes_wrapped : forall n ncls p b x, same_machine n ncls p b ->
  length (snd (dense_eval_ex x b)) = ncls /\ Forall (fun v => wrap16 v = v) (snd (dense_eval_ex x b)).
Proof.
  intros n ncls p b x [M1 [M2 [M3 [M4 [M5 [M6 [M7 M8]]]]]]].
  unfold dense_eval_ex, count_votes. cbn [snd b_votes]. unfold eval_set_clause_output. cbn [b_outputs b_weights b_ncls].
  set (outs := map (eval_output x) (b_clauses b)).
  assert (L : length (count_votes_loop outs (b_weights b) (repeat 0 (b_ncls b))) = ncls).
  { apply count_votes_loop_length; auto. rewrite repeat_length. auto. }
  split; auto. apply Forall_forall. intros v Hv. apply (In_nth _ _ 0) in Hv. destruct Hv as [k [Hk Ek]].
  rewrite L in Hk. rewrite <- Ek. rewrite (count_votes_loop_nth ncls); auto.
  - apply wrap16_wrap16.
  - rewrite repeat_length. auto.
  - rewrite nth_repeat. reflexivity.
Qed.

Lemma add_votes_zero : forall n v, length v = n -> Forall (fun v => wrap16 v = v) v -> add_votes n (repeat 0 n) v = v.
Proof.
  intros n v Hv Hw. unfold add_votes. rewrite firstn_all2, skipn_all2 by (rewrite repeat_length; lia).
  rewrite app_nil_r. subst n. induction Hw as [|a v H Hw IH]; auto. cbn [length repeat map2].
  rewrite IH. rewrite Z.add_0_l, H. reflexivity.
Qed.

Lemma py_eval_one_block : forall n ncls es t t' p b fp fb,
  same_machine n ncls p b -> no_zero b -> Forall (fun x => length x = n /\ binary x) es ->
  fb_ncls fp = ncls -> fb_ready ncls fb ->
  fst (fst (py_eval_list es [(t, p)] fp)) = fst (fst (eval_list block (list Z) dense_eval_ex es [(t', b)] fb)).
Proof.
  intros n ncls es. induction es as [|x es IH]; intros t t' p b fp fb HM Hz He Hp [Hf1 Hf2]; auto.
  pose proof (Forall_inv He) as [Hx Hbx]. pose proof (Forall_inv_tail He) as He'. subst ncls.
  pose proof (py_eval_ex_agrees n (fb_ncls fp) p b x HM Hz ltac:(auto) Hbx) as [E1 [E2 E3]].
  pose proof (votes_wrapped n (fb_ncls fp) p b x HM) as [W1 W2].
  cbn [py_eval_list eval_list py_run_examples run_examples].
  destruct (py_eval_ex x p) as [p1 vp] eqn:Ep. destruct (dense_eval_ex x b) as [b1 vb] eqn:Eb.
  cbn [fst snd] in *. subst vp.
  specialize (IH t t' p1 b1 (py_register vb (py_reset fp)) (fb_register vb (fb_reset fb)) E2 E3 He').
  assert (V : add_votes (fb_ncls fb) (repeat 0 (length (fb_votes fb))) vb = vb).
  { rewrite Hf2, Hf1. apply add_votes_zero; auto. }
  assert (Y : py_predict (py_register vb (py_reset fp)) = fb_predict (fb_register vb (fb_reset fb))).
  { unfold py_predict, fb_predict, py_register, fb_register, py_reset, fb_reset. cbn [fb_ncls fb_votes].
    rewrite V. rewrite Hf1. reflexivity. }
  specialize (IH ltac:(reflexivity)).
  assert (R : fb_ready (fb_ncls fp) (fb_register vb (fb_reset fb))).
  { unfold fb_ready, fb_register, fb_reset. cbn [fb_ncls fb_votes]. rewrite V. auto. }
  specialize (IH R).
  destruct (py_eval_list es [(t, p1)] (py_register vb (py_reset fp))) as [[ys ?] ?].
  destruct (eval_list block (list Z) dense_eval_ex es [(t', b1)] (fb_register vb (fb_reset fb))) as [[ys' ?] ?].
  cbn [fst] in *. rewrite Y, IH. reflexivity.
Qed.

(** Several blocks: only the last one is heard. *)
Lemma py_run_last : forall f e bs t p fb, let '(bs1, fb1) := py_run_examples f e (bs ++ [(t, p)]) fb in
  fb_votes fb1 = snd (f e p) /\ fb_ncls fb1 = fb_ncls fb /\
  exists bs', bs1 = bs' ++ [(t, fst (f e p))].
Proof.
  intros f e bs. induction bs as [|[t0 b0] bs IH]; intros t p fb.
  - cbn [app py_run_examples]. destruct (f e p) as [p1 v]. cbn [py_run_examples fb_votes py_register fb_ncls snd fst].
    repeat split; auto. exists []. reflexivity.
  - cbn [app py_run_examples]. destruct (f e b0) as [b1 v0].
    specialize (IH t p (py_register v0 fb)).
    destruct (py_run_examples f e (bs ++ [(t, p)]) (py_register v0 fb)) as [bs1 fb1].
    destruct IH as [I1 [I2 [bs' I3]]]. repeat split; auto. exists ((t0, b1) :: bs'). subst. reflexivity.
Qed.

Lemma py_eval_last : forall es bs t p fb fb', fb_ncls fb = fb_ncls fb' ->
  fst (fst (py_eval_list es (bs ++ [(t, p)]) fb)) = fst (fst (py_eval_list es [(t, p)] fb')).
Proof.
  induction es as [|x es IH]; intros bs t p fb fb' Hn; auto.
  cbn [py_eval_list].
  pose proof (py_run_last py_eval_ex x bs t p (py_reset fb)) as A.
  pose proof (py_run_last py_eval_ex x [] t p (py_reset fb')) as B.
  cbn [app] in B.
  destruct (py_run_examples py_eval_ex x (bs ++ [(t, p)]) (py_reset fb)) as [bs1 f1].
  destruct (py_run_examples py_eval_ex x [(t, p)] (py_reset fb')) as [bs2 f2] eqn:E2.
  destruct A as [A1 [A2 [bs' A3]]]. destruct B as [B1 [B2 [bs'' B3]]].
  assert (bs'' = []).
  { assert (L : length bs2 = 1%nat).
    { cbn [py_run_examples] in E2. destruct (py_eval_ex x p). inversion E2. reflexivity. }
    rewrite B3, app_length in L. cbn [length] in L. destruct bs''; auto. cbn [length] in L. lia. }
  subst bs'' bs1 bs2. cbn [app].
  assert (N : fb_ncls f1 = fb_ncls f2) by (rewrite A2, B2; exact Hn).
  specialize (IH bs' t (fst (py_eval_ex x p)) f1 f2 N).
  destruct (py_eval_list es (bs' ++ [(t, fst (py_eval_ex x p))]) f1) as [[y1 ?] ?].
  destruct (py_eval_list es [(t, fst (py_eval_ex x p))] f2) as [[y2 ?] ?].
  cbn [fst] in *. rewrite IH. unfold py_predict. rewrite A1, B1, N. reflexivity.
Qed.
