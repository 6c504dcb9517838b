(** Evaluation through the executor: vote totals over any list of blocks. *)
From Coq Require Import ZArith List Bool QArith Lia ZifyBool.
From Verif Require Import Base BaseProofs Spec ModelRuleSet ModelInference ModelDense ModelFeedback
  ModelExecutor ModelDenseExec ModelLayout ProofsClause ProofsInference ProofsRuleSet ProofsLayout.
Import ListNotations.
Open Scope Z_scope.

Definition clause_row (c : clause) : list Z := cl_pos c ++ cl_neg c.
Definition block_rows (b : block) : list (list Z) := map clause_row (b_clauses b).

Record block_wf (n ncls : nat) (b : block) : Prop := {
  bw_ncls : b_ncls b = ncls;
  bw_pos : Forall (fun c => length (cl_pos c) = n /\ length (cl_neg c) = n) (b_clauses b);
  bw_weights : rows_of ncls (b_weights b);
  bw_len : length (b_clauses b) = length (b_weights b)
}.

Lemma wrap16_0 : wrap16 0 = 0. Proof. reflexivity. Qed.

Lemma count_votes_loop_length : forall ncls outs ws votes, rows_of ncls ws -> length votes = ncls ->
  length (count_votes_loop outs ws votes) = ncls.
Proof.
  induction outs as [|o outs IH]; intros [|w ws] votes Hw Hv; simpl; auto.
  inversion Hw; subst. apply IH; auto. destruct (o =? 1); auto. rewrite map2_length. lia.
Qed.

Definition outs_total (outs : list Z) (ws : list (list Z)) (c : nat) : Z :=
  zsum (map2 (fun o w => if o =? 1 then nth c w 0 else 0) outs ws).

Lemma count_votes_loop_nth : forall ncls outs ws votes c, rows_of ncls ws -> length votes = ncls ->
  (c < ncls)%nat -> wrap16 (nth c votes 0) = nth c votes 0 ->
  nth c (count_votes_loop outs ws votes) 0 = wrap16 (nth c votes 0 + outs_total outs ws c).
Proof.
  unfold outs_total.
  induction outs as [|o outs IH]; intros [|w ws] votes c Hw Hv Hc Hwr; simpl; try (rewrite Z.add_0_r; auto).
  inversion Hw; subst. destruct (o =? 1) eqn:E.
  - rewrite IH; auto.
    + rewrite nth_map2 with (da := 0) (db := 0) by congruence. rewrite wrap16_add_l. f_equal. lia.
    + rewrite map2_length. lia.
    + rewrite nth_map2 with (da := 0) (db := 0) by congruence. apply wrap16_wrap16.
  - rewrite IH; auto.
Qed.

Lemma eval_outs_total : forall n x cs ws c,
  Forall (fun c => length (cl_pos c) = n /\ length (cl_neg c) = n) cs -> length x = n -> binary x ->
  outs_total (map (eval_output x) cs) ws c = clause_vote_total n x (map clause_row cs) ws c.
Proof.
  unfold outs_total. intros n x cs. induction cs as [|cl cs IH]; intros [|w ws] c H Hx Hb; simpl; auto.
  inversion H as [|? ? [H1 H2] H3]; subst. rewrite IH by auto. f_equal.
  rewrite (eval_output_fires (length x)) by auto. unfold clause_row.
  destruct (clause_fires (length x) x (cl_pos cl ++ cl_neg cl)); reflexivity.
Qed.

Lemma eval_votes_nth : forall n ncls b x c, block_wf n ncls b -> length x = n -> binary x -> (c < ncls)%nat ->
  nth c (snd (dense_eval_ex x b)) 0 = wrap16 (clause_vote_total n x (block_rows b) (b_weights b) c).
Proof.
  intros n ncls b x c [W1 W2 W3 W4] Hx Hb Hc. unfold dense_eval_ex, count_votes, eval_set_clause_output. simpl.
  rewrite (count_votes_loop_nth ncls); auto.
  - rewrite nth_repeat0. rewrite (eval_outs_total n) by auto. reflexivity.
  - rewrite repeat_length. auto.
  - rewrite nth_repeat0. reflexivity.
Qed.

Lemma eval_votes_length : forall n ncls b x, block_wf n ncls b -> length (snd (dense_eval_ex x b)) = ncls.
Proof.
  intros n ncls b x [W1 W2 W3 W4]. unfold dense_eval_ex, count_votes, eval_set_clause_output. simpl.
  apply count_votes_loop_length; auto. rewrite repeat_length. auto.
Qed.

(** ** Registering *)

Lemma add_votes_length : forall n votes v, (n <= length votes)%nat -> (n <= length v)%nat ->
  length (add_votes n votes v) = length votes.
Proof.
  intros. unfold add_votes. rewrite app_length, map2_length, firstn_length, skipn_length. lia.
Qed.

Lemma add_votes_nth : forall n votes v c, (c < n)%nat -> (n <= length votes)%nat -> (n <= length v)%nat ->
  nth c (add_votes n votes v) 0 = wrap16 (nth c votes 0 + nth c v 0).
Proof.
  intros n votes v c Hc Hn Hv. unfold add_votes.
  rewrite app_nth1 by (rewrite map2_length, firstn_length; lia).
  assert (Hl : (c < length (firstn n votes))%nat) by (rewrite firstn_length; lia).
  rewrite nth_map2 with (da := 0) (db := 0) by lia.
  rewrite nth_firstn_lt by lia. reflexivity.
Qed.

(** Feedback block of an ordinary (not multi-label) machine. *)
Definition fb_ready (ncls : nat) (f : fblock) : Prop := fb_ncls f = ncls /\ length (fb_votes f) = ncls.

Definition blocks_total (n : nat) (x : list Z) (bs : list (bool * block)) (c : nat) : Z :=
  zsum (map (fun tb => clause_vote_total n x (block_rows (snd tb)) (b_weights (snd tb)) c) bs).

Lemma run_eval_votes : forall n ncls x bs fb c, Forall (fun tb => block_wf n ncls (snd tb)) bs ->
  length x = n -> binary x -> fb_ready ncls fb -> (c < ncls)%nat ->
  wrap16 (nth c (fb_votes fb) 0) = nth c (fb_votes fb) 0 ->
  let f := snd (run_examples block (list Z) dense_eval_ex x bs fb) in
  fb_ready ncls f /\
  nth c (fb_votes f) 0 = wrap16 (nth c (fb_votes fb) 0 + blocks_total n x bs c).
Proof.
  intros n ncls x bs. induction bs as [|[t b] bs IH]; intros fb c HF Hx Hb [R1 R2] Hc Hw.
  - simpl. unfold blocks_total. simpl. rewrite Z.add_0_r. split; [split|]; auto.
  - inversion HF as [|? ? W HF']; subst. simpl in W.
    cbn [run_examples]. destruct (dense_eval_ex x b) as [b1 v] eqn:E.
    pose proof (eval_votes_nth _ _ b x c W eq_refl Hb Hc) as Ev.
    pose proof (eval_votes_length _ _ b x W) as El. rewrite E in Ev, El. simpl in Ev, El.
    assert (N : nth c (fb_votes (fb_register v fb)) 0 = wrap16 (nth c (fb_votes fb) 0 + nth c v 0)).
    { unfold fb_register. simpl. apply add_votes_nth; lia. }
    specialize (IH (fb_register v fb) c HF' eq_refl Hb).
    destruct (run_examples block (list Z) dense_eval_ex x bs (fb_register v fb)) as [bs2 fb2] eqn:E2.
    simpl in *. destruct IH as [I1 I2]; auto.
    + split; auto. unfold fb_register. simpl. rewrite add_votes_length; lia.
    + rewrite N. apply wrap16_wrap16.
    + split; auto. rewrite I2, N, Ev. rewrite wrap16_add_l. unfold blocks_total. simpl.
      rewrite <- Z.add_assoc, (Z.add_comm (wrap16 _)), Z.add_assoc, wrap16_add_r. f_equal. lia.
Qed.

(** ** Prediction *)

Lemma fb_reset_ready : forall ncls fb, fb_ready ncls fb -> fb_ready ncls (fb_reset fb).
Proof. intros ncls fb [H1 H2]. split; simpl; auto. rewrite repeat_length. auto. Qed.

Definition eval_vote_list (ncls n : nat) (x : list Z) (bs : list (bool * block)) : list Z :=
  map (fun c => wrap16 (blocks_total n x bs c)) (seq 0 ncls).

Lemma nth_map_seq : forall (f : nat -> Z) n k, (k < n)%nat -> nth k (map f (seq 0 n)) 0 = f k.
Proof.
  intros f n k H. rewrite nth_indep with (d' := f O) by (rewrite map_length, seq_length; auto).
  rewrite (map_nth f), seq_nth by auto. reflexivity.
Qed.

Lemma dense_eval_one_argmax : forall n ncls x bs fb, Forall (fun tb => block_wf n ncls (snd tb)) bs ->
  length x = n -> binary x -> fb_ready ncls fb ->
  dense_eval_one bs fb x = argmax (eval_vote_list ncls n x bs).
Proof.
  intros n ncls x bs fb HF Hx Hb R. unfold dense_eval_one, fb_predict.
  destruct ncls as [|m].
  { assert (R' : fb_ncls (snd (run_examples block (list Z) dense_eval_ex x bs (fb_reset fb))) = O).
    { clear - R. assert (G : forall l g, fb_ncls g = O ->
        fb_ncls (snd (run_examples block (list Z) dense_eval_ex x l g)) = O).
      { induction l as [|[t b] l IH]; intros g Hg; auto. cbn [run_examples].
        destruct (dense_eval_ex x b) as [b1 v]. specialize (IH (fb_register v g) Hg).
        destruct (run_examples block (list Z) dense_eval_ex x l (fb_register v g)). auto. }
      apply G. destruct R; auto. }
    rewrite R'. reflexivity. }
  pose proof (fb_reset_ready _ _ R) as R'.
  assert (Z0 : forall c, nth c (fb_votes (fb_reset fb)) 0 = 0) by (intros; simpl; apply nth_repeat0).
  set (f := snd (run_examples block (list Z) dense_eval_ex x bs (fb_reset fb))).
  assert (K : forall c, (c < S m)%nat -> fb_ready (S m) f /\ nth c (fb_votes f) 0 = wrap16 (blocks_total n x bs c)).
  { intros c Hc. destruct (run_eval_votes n (S m) x bs (fb_reset fb) c HF Hx Hb R' Hc) as [K1 K2].
    - rewrite Z0. reflexivity.
    - split; auto. unfold f. rewrite K2, Z0, Z.add_0_l. reflexivity. }
  destruct (K O) as [[K1 K2] _]; [lia|]. rewrite K1.
  rewrite firstn_all2 by lia. f_equal.
  apply list_ext0.
  - unfold eval_vote_list. rewrite map_length, seq_length. auto.
  - intros c Hc. rewrite K2 in Hc. unfold eval_vote_list. rewrite nth_map_seq by auto. apply K. auto.
Qed.

Lemma clause_vote_total_app : forall n x r1 w1 r2 w2 c, length r1 = length w1 ->
  clause_vote_total n x (r1 ++ r2) (w1 ++ w2) c = clause_vote_total n x r1 w1 c + clause_vote_total n x r2 w2 c.
Proof.
  induction r1 as [|r r1 IH]; intros [|w w1] r2 w2 c H; simpl in *; try lia. rewrite IH; lia.
Qed.

Definition all_rows (bs : list (bool * block)) : list (list Z) := concat (map (fun tb => block_rows (snd tb)) bs).
Definition all_weights (bs : list (bool * block)) : list (list Z) := concat (map (fun tb => b_weights (snd tb)) bs).

Lemma blocks_total_all : forall n ncls x bs c, Forall (fun tb => block_wf n ncls (snd tb)) bs ->
  blocks_total n x bs c = clause_vote_total n x (all_rows bs) (all_weights bs) c.
Proof.
  intros n ncls x bs c H. unfold blocks_total, all_rows, all_weights.
  induction H as [|[t b] bs W H IH]; simpl; auto.
  rewrite clause_vote_total_app.
  - simpl in IH. lia.
  - unfold block_rows. rewrite map_length. apply (bw_len _ _ _ W).
Qed.

Theorem eval_block_split : forall n ncls x bs1 bs2 fb1 fb2,
  Forall (fun tb => block_wf n ncls (snd tb)) bs1 -> Forall (fun tb => block_wf n ncls (snd tb)) bs2 ->
  all_rows bs1 = all_rows bs2 -> all_weights bs1 = all_weights bs2 ->
  length x = n -> binary x -> fb_ready ncls fb1 -> fb_ready ncls fb2 ->
  dense_eval_one bs1 fb1 x = dense_eval_one bs2 fb2 x.
Proof.
  intros. rewrite (dense_eval_one_argmax n ncls), (dense_eval_one_argmax n ncls x bs2) by auto.
  f_equal. unfold eval_vote_list. apply map_ext. intros c.
  rewrite !(blocks_total_all n ncls) by auto. congruence.
Qed.

(** ** Blocks filled from a machine state *)

(** Block [b] runs on the arrays of [f]. *)
Definition block_on (n ncls : nat) (f : flat) (b : block) : Prop :=
  b_ncls b = ncls /\ b_clauses b = view_clauses f /\ b_weights b = view_all_weights f.

Lemma split_row_row : forall n row, clause_row (split_row n row) = row.
Proof. intros. unfold clause_row, split_row. simpl. apply firstn_skipn. Qed.

Lemma map_split_rows : forall n rows, map clause_row (map (split_row n) rows) = rows.
Proof.
  intros. rewrite map_map. rewrite <- (map_id rows) at 2. apply map_ext. apply split_row_row.
Qed.

Lemma blocks_on_state : forall n ncls s cbs bs,
  Forall (flat_wf n ncls) cbs -> state_shape n (total_clauses cbs) ncls s ->
  Forall2 (fun f tb => block_on n ncls f (snd tb)) (save_state_in_backend s cbs) bs ->
  all_rows bs = ds_c s /\ all_weights bs = ds_w s /\ Forall (fun tb : bool * block => block_wf n ncls (snd tb)) bs.
Proof.
  intros n ncls s cbs bs HF [S1 [S2 [S3 [S4 [S5 S6]]]]] H2.
  destruct (save_views n ncls (ds_c s) (ds_w s) cbs 0) as [V1 [V2 V3]]; auto; try lia.
  fold (save_state_in_backend s cbs) in *. simpl in V1, V2.
  assert (V0 : Forall (flat_wf n ncls) (save_state_in_backend s cbs)).
  { apply save_loop_wf; auto.
    - rewrite (flatten_length (2 * n)) by auto. nia.
    - rewrite (flatten_length ncls) by auto. nia. }
  rewrite <- (map_split_rows n (ds_c s)), <- V1, <- V2. clear V1 V2 V3 S3 S4 S5 S6 HF.
  unfold all_rows, all_weights.
  induction H2 as [|f [t b] fs bs [B1 [B2 B3]] H2 IH]; simpl in *; auto.
  inversion V0 as [|? ? W V0']; subst. destruct (IH V0') as [I1 [I2 I3]].
  destruct (view_clauses_wf _ _ _ W) as [C1 [C2 C3]].
  rewrite map_app, I1, I2. unfold block_rows. rewrite B2, B3.
  split; [|split]; auto. constructor; auto. simpl.
  constructor; auto; rewrite ?B2, ?B3; auto.
Qed.

(** ** Predictor versus evaluation *)

Lemma included_in_range : forall row w i, length row = w -> In i (included row) -> (i < w)%nat.
Proof. intros row w i H Hi. apply included_In in Hi. lia. Qed.

Lemma compiled_wf : forall n s rs junk, dense_wf n s -> compile_from_dense_state s = Ok rs ->
  rs_nliterals rs = n /\ rs_nclasses rs = ds_nclasses s /\
  inf_wf (new_inference n (ds_nclasses s) (rs_rules rs) (rs_weights rs) junk).
Proof.
  intros n s rs junk Hwf Hc. destruct (compile_ok n s Hwf) as [m [E I]]. rewrite E in Hc.
  inversion Hc; subst; clear Hc. simpl. split; auto. split; auto.
  destruct Hwf as [H1 [H2 [H3 H4]]]. destruct I as [I1 I2 I3 I4 I5].
  unfold inf_wf. simpl. split; [|split; [|split]].
  - apply Forall_forall. intros k Hk. apply I4 in Hk. destruct Hk as [_ [i [row [w [K1 [K2 [K3 _]]]]]]].
    apply Forall_forall. intros l Hl. subst k. eapply included_in_range; eauto.
    apply (proj1 (Forall_forall _ _) H3). eapply nth_error_In; eauto.
  - now rewrite !map_length.
  - apply Forall_forall. intros v Hv. apply in_map_iff in Hv. destruct Hv as [[k u] [E' Hv]]. simpl in E'. subst.
    apply (proj1 (Forall_forall _ _) I3 (k, v) Hv).
  - rewrite repeat_length. lia.
Qed.

Lemma rule_total_no_match : forall n x rules ws c,
  Forall (fun r => conj_true n x r = false) rules -> rule_vote_total n x rules ws c = 0.
Proof.
  induction rules as [|r rules IH]; intros [|w ws] c H; simpl; auto.
  inversion H; subst. rewrite H2, IH; auto.
Qed.

Lemma map_const_seq : forall k a, map (fun _ : nat => 0) (seq a k) = repeat 0 k.
Proof. induction k; intros; simpl; auto. f_equal. auto. Qed.

Lemma predictor_class : forall s x, inf_wf s -> length x = inf_nlit s -> inf_empty s = O ->
  (forall c, (c < inf_ncls s)%nat -> is_int32 (rule_vote_total (inf_nlit s) x (inf_rules s) (inf_weights s) c)) ->
  fst (inf_predict s x) =
  argmax (map (fun c => rule_vote_total (inf_nlit s) x (inf_rules s) (inf_weights s) c) (seq 0 (inf_ncls s))).
Proof.
  intros s x W Hx He Hfit. rewrite inf_predict_fst by auto.
  assert (K : inf_votes (snd (inf_predict s x)) =
              map (fun c => rule_vote_total (inf_nlit s) x (inf_rules s) (inf_weights s) c) (seq 0 (inf_ncls s))).
  { apply list_ext0.
    - rewrite inf_predict_votes_length, map_length, seq_length; auto.
    - intros c Hc. rewrite inf_predict_votes_length in Hc by auto.
      rewrite inf_predict_votes, nth_map_seq by auto. apply wrap32_small. auto. }
  rewrite K. destruct (matching_from (inf_nlit s) x 0 (inf_rules s)) eqn:E; auto.
  apply matching_nil_iff in E.
  rewrite (map_ext_in _ (fun _ => 0)) by (intros; now apply rule_total_no_match).
  rewrite He, map_const_seq, argmax_repeat_0. reflexivity.
Qed.

(** Both vote vectors are equal as soon as the two totals fit. *)
Theorem predictor_agrees : forall n ncls s rs junk cbs bs fb x,
  Forall (flat_wf n ncls) cbs -> state_shape n (total_clauses cbs) ncls s ->
  Forall2 (fun f tb => block_on n ncls f (snd tb)) (save_state_in_backend s cbs) bs ->
  fb_ready ncls fb ->
  compile_from_dense_state s = Ok rs ->
  length x = n -> binary x ->
  (forall c, (c < ncls)%nat -> is_int16 (clause_vote_total n x (ds_c s) (ds_w s) c)) ->
  (forall c, (c < ncls)%nat -> is_int16 (rule_vote_total n x (rs_rules rs) (rs_weights rs) c)) ->
  fst (inf_predict (new_inference n ncls (rs_rules rs) (rs_weights rs) junk) x) = dense_eval_one bs fb x.
Proof.
  intros n ncls s rs junk cbs bs fb x HF HS H2 R Hc Hx Hb Hfit1 Hfit2.
  destruct (blocks_on_state n ncls s cbs bs HF HS H2) as [A1 [A2 A3]].
  destruct HS as [S1 [S2 [S3 [S4 [S5 S6]]]]].
  assert (Hwf : dense_wf n s) by (unfold dense_wf; subst ncls; repeat split; auto; lia).
  destruct (compiled_wf n s rs junk Hwf Hc) as [C1 [C2 C3]]. rewrite S2 in C3.
  rewrite predictor_class; auto.
  2:{ simpl. intros c Hcc. specialize (Hfit2 c Hcc). unfold is_int16, is_int32 in *. lia. }
  rewrite (dense_eval_one_argmax n ncls) by auto. simpl. f_equal.
  unfold eval_vote_list. apply map_ext_in. intros c Hcc. apply in_seq in Hcc.
  rewrite (blocks_total_all n ncls) by auto. rewrite A1, A2.
  rewrite wrap16_small by (apply Hfit1; lia).
  pose proof (compile_votes_mod n s rs x c Hwf Hc) as M.
  apply wrap16_eq_iff in M. rewrite !wrap16_small in M; auto; [apply Hfit1|apply Hfit2]; lia.
Qed.
