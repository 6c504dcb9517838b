(** Invariants of python trainings and the python feedback block. *)
From Coq Require Import ZArith List Bool QArith Lia ZifyBool Arith Lqa Permutation.
From Verif Require Import Base BaseProofs Spec SpecLearning ModelInference ModelDense ModelDenseExec ModelFeedback ModelExecutor
  ProofsClause ProofsLearning ProofsLayout ProofsStep ProofsEval ProofsFeedback ProofsInference ModelPy ProofsPy.
Import ListNotations.
Open Scope Z_scope.

Lemma fold_inv : forall A B (P : A -> Prop) (f : A -> B -> A), (forall a b, P a -> P (f a b)) ->
  forall l a, P a -> P (fold_left f l a).
Proof. intros A B P f H l. induction l as [|b l IH]; intros a Ha; cbn [fold_left]; auto. Qed.

Lemma Forall_set : forall (P : Z -> Prop) i v l, Forall P l -> P v -> Forall P (set_nth i v l).
Proof.
  intros P i v l H. revert i. induction H as [|a l Ha H IH]; intros [|i] Hv; cbn [set_nth]; auto.
Qed.

(** An automata row of the python state: w entries between -127 and 127. *)
Definition row_ok (w : nat) (row : list Z) : Prop := length row = w /\ Forall (in_range (-127) 127) row.

Lemma row_set_ok : forall w i v row, row_ok w row -> in_range (-127) 127 v -> row_ok w (set_nth i v row).
Proof. intros w i v row [H1 H2] Hv. split; [rewrite set_nth_length; auto|apply Forall_set; auto]. Qed.

Lemma nth_in_range : forall w row i, row_ok w row -> in_range (-127) 127 (nth i row 0).
Proof.
  intros w row i [_ H]. destruct (Nat.lt_ge_cases i (length row)) as [L|L].
  - apply (proj1 (Forall_forall _ _) H). apply nth_In. auto.
  - rewrite nth_overflow by lia. unfold in_range. lia.
Qed.

Lemma row_up_ok : forall w i row, row_ok w row -> row_ok w (row_up i row).
Proof. intros. apply row_set_ok; auto. apply inc_sat_range; [lia|]. eapply nth_in_range; eauto. Qed.
Lemma row_down_ok : forall w i row, row_ok w row -> row_ok w (row_down i row).
Proof. intros. apply row_set_ok; auto. apply dec_sat_range; [lia|]. eapply nth_in_range; eauto. Qed.
Lemma row_t2_ok : forall w i row, row_ok w row -> row_ok w (row_t2 i row).
Proof.
  intros w i row H. unfold row_t2. destruct (nth i row 0 <? 0) eqn:E; auto. apply row_set_ok; auto.
  pose proof (nth_in_range w row i H) as R. unfold in_range in *. rewrite wrap8_small; [lia|unfold is_int8; lia].
Qed.

Lemma py_t1a_ok : forall w n s lits row r, row_ok w row -> row_ok w (fst (py_t1a n s lits row r)).
Proof.
  intros. unfold py_t1a. apply (fold_inv _ _ (fun st => row_ok w (fst st))); auto.
  intros [row0 r0] k H0. cbn [fst] in H0. unfold py_t1a_step. destruct (nth k lits 0 =? 1).
  - destruct (draw_le r0 _) as [[|] r1]; destruct (draw_le r1 _) as [[|] r2]; cbn [fst]; auto using row_up_ok, row_down_ok.
  - destruct (draw_le r0 _) as [[|] r1]; destruct (draw_le r1 _) as [[|] r2]; cbn [fst]; auto using row_up_ok, row_down_ok.
Qed.
Lemma py_t1b_ok : forall w n s row r, row_ok w row -> row_ok w (fst (py_t1b n s row r)).
Proof.
  intros. unfold py_t1b. apply (fold_inv _ _ (fun st => row_ok w (fst st))); auto.
  intros [row0 r0] k H0. cbn [fst] in H0. unfold py_t1b_step.
  destruct (draw_le r0 _) as [[|] r1]; destruct (draw_le r1 _) as [[|] r2]; cbn [fst]; auto using row_down_ok.
Qed.
Lemma py_t2_ok : forall w n lits row, row_ok w row -> row_ok w (py_t2 n lits row).
Proof.
  intros. unfold py_t2. apply (fold_inv _ _ (row_ok w)); auto. intros row0 k H0. unfold py_t2_step.
  destruct (nth k lits 0 =? 0); apply row_t2_ok; auto.
Qed.

(** A weight row: one int8 per class. *)
Definition wrow_ok (ncls : nat) (ws : list Z) : Prop := length ws = ncls /\ Forall is_int8 ws.
Lemma wrow_set_ok : forall ncls i z ws, wrow_ok ncls ws -> wrow_ok ncls (set_nth i (wrap8 z) ws).
Proof. intros ncls i z ws [H1 H2]. split; [rewrite set_nth_length; auto|apply Forall_set; auto; apply wrap8_range]. Qed.

Lemma py_update_ok : forall w ncls n s row ws t lits o c r, row_ok w row -> wrow_ok ncls ws ->
  let '(row', ws', _) := py_update_clause n s row ws t lits o c r in row_ok w row' /\ wrow_ok ncls ws'.
Proof.
  intros w ncls n s row ws t lits o c r H1 H2. unfold py_update_clause.
  destruct (t * _ >? 0).
  - destruct (o =? 1).
    + pose proof (py_t1a_ok w n s lits row r H1). destruct (py_t1a n s lits row r) as [row' r']. auto using wrow_set_ok.
    + pose proof (py_t1b_ok w n s row r H1). destruct (py_t1b n s row r) as [row' r']. auto.
  - destruct ((t * _ <? 0) && (o =? 1)); auto using py_t2_ok, wrow_set_ok.
Qed.

Lemma py_train_clause_ok : forall w ncls bo bud n s lits pc pp nc np row ws o cnt r, row_ok w row -> wrow_ok ncls ws ->
  let '(row', ws', _, _) := py_train_clause bo bud n s lits pc pp nc np row ws o cnt r in row_ok w row' /\ wrow_ok ncls ws'.
Proof.
  intros w ncls bo bud n s lits pc pp nc np row ws o cnt r H1 H2. unfold py_train_clause.
  destruct (draw_lt r pp) as [d r1]. set (o' := if bo && (cnt >? bud) then 0 else o).
  assert (A : let '(row', ws', _) := (if d then py_update_clause n s row ws 1 lits o' pc r1 else (row, ws, r1)) in row_ok w row' /\ wrow_ok ncls ws').
  { destruct d; auto. apply py_update_ok; auto. }
  destruct (if d then py_update_clause n s row ws 1 lits o' pc r1 else (row, ws, r1)) as [[row1 ws1] r2].
  destruct A as [A1 A2]. destruct (draw_lt r2 np) as [d2 r3].
  assert (B : let '(row', ws', _) := (if d2 then py_update_clause n s row1 ws1 (-1) lits o' nc r3 else (row1, ws1, r3)) in row_ok w row' /\ wrow_ok ncls ws').
  { destruct d2; auto. apply py_update_ok; auto. }
  destruct (if d2 then py_update_clause n s row1 ws1 (-1) lits o' nc r3 else (row1, ws1, r3)) as [[row2 ws2] r4]. auto.
Qed.

Lemma py_train_loop_ok : forall w ncls bo bud n s lits pc pp nc np rows wss outs cnts r,
  Forall (row_ok w) rows -> Forall (wrow_ok ncls) wss ->
  let '(rows', wss', _, _) := py_train_loop bo bud n s lits pc pp nc np rows wss outs cnts r in
  Forall (row_ok w) rows' /\ Forall (wrow_ok ncls) wss' /\ length rows' = length rows /\ length wss' = length wss.
Proof.
  intros w ncls bo bud n s lits pc pp nc np rows. induction rows as [|row rows IH]; intros wss outs cnts r H1 H2; cbn [py_train_loop]; auto.
  destruct wss as [|ws wss]; auto. destruct outs as [|o outs]; auto.
  pose proof (py_train_clause_ok w ncls bo bud n s lits pc pp nc np row ws o (hd 0 cnts) r (Forall_inv H1) (Forall_inv H2)) as A.
  destruct (py_train_clause bo bud n s lits pc pp nc np row ws o (hd 0 cnts) r) as [[[row1 ws1] o1] r1]. destruct A as [A1 A2].
  specialize (IH wss outs (tl cnts) r1 (Forall_inv_tail H1) (Forall_inv_tail H2)).
  destruct (py_train_loop bo bud n s lits pc pp nc np rows wss outs (tl cnts) r1) as [[[rows2 wss2] outs2] r2].
  destruct IH as [I1 [I2 [I3 I4]]]. cbn [length]. auto.
Qed.

(** A python block with n literals, ncls classes and ncl clauses, all automata
    within -127..127 and all weights int8. *)
Definition py_ok (n ncls ncl : nat) (p : pyblock) : Prop :=
  p_nlit p = n /\ p_ncls p = ncls /\ length (p_rows p) = ncl /\ length (p_weights p) = ncl /\
  Forall (row_ok (2 * n)) (p_rows p) /\ Forall (wrow_ok ncls) (p_weights p) /\ length (p_counts p) = ncl.

Lemma py_train_update_ok : forall n ncls ncl lits pc pp nc np p, py_ok n ncls ncl p -> py_ok n ncls ncl (py_train_update lits pc pp nc np p).
Proof.
  intros n ncls ncl lits pc pp nc np p [H1 [H2 [H3 [H4 [H5 [H6 H7]]]]]]. unfold py_train_update.
  pose proof (py_train_loop_ok (2 * n) ncls (p_do_budget p) (match p_budget p with Some b => b | None => 0 end)
    (p_nlit p) (p_s p) lits pc pp nc np (p_rows p) (p_weights p) (p_outputs p) (p_counts p) (p_rng p) H5 H6) as A.
  destruct (py_train_loop _ _ _ _ _ _ _ _ _ _ _ _ _ _) as [[[rows wss] outs] r]. destruct A as [A1 [A2 [A3 A4]]].
  unfold py_ok. cbn [p_nlit p_ncls p_rows p_weights p_counts]. repeat (split; try congruence); auto.
Qed.

Lemma py_train_ex_ok : forall n ncls ncl x p, py_ok n ncls ncl p -> py_ok n ncls ncl (fst (py_train_ex x p)).
Proof.
  intros n ncls ncl x p H. pose proof H as [H1 [H2 [H3 [H4 [H5 [H6 H7]]]]]]. unfold py_train_ex, py_train_output, py_with_outputs, py_ok. cbn [fst p_nlit p_ncls p_rows p_weights p_counts].
  repeat (split; auto). destruct (p_do_budget p); [rewrite !map_length; exact H3|exact H7].
Qed.
Lemma py_eval_ex_ok : forall n ncls ncl x p, py_ok n ncls ncl p -> py_ok n ncls ncl (fst (py_eval_ex x p)).
Proof. intros. exact H. Qed.

Lemma py_run_ok : forall n ncls f, (forall ncl e p, py_ok n ncls ncl p -> py_ok n ncls ncl (fst (f e p))) ->
  forall e bs fb sizes, Forall2 (fun tb ncl => py_ok n ncls ncl (snd tb)) bs sizes ->
  Forall2 (fun tb ncl => py_ok n ncls ncl (snd tb)) (fst (py_run_examples f e bs fb)) sizes.
Proof.
  intros n ncls f Hf e bs. induction bs as [|[t p] bs IH]; intros fb sizes H; inversion H; subst; cbn [py_run_examples fst]; auto.
  match goal with A : py_ok _ _ _ _ |- _ => pose proof (Hf _ e _ A) as K end. cbn [snd] in K.
  destruct (f e p) as [p1 v]. cbn [fst] in K.
  match goal with A : Forall2 _ bs _ |- _ => specialize (IH (py_register v fb) _ A) end.
  destruct (py_run_examples f e bs (py_register v fb)). cbn [fst] in *. constructor; auto.
Qed.

Lemma py_updates_ok : forall n ncls e fb bs sizes, Forall2 (fun tb ncl => py_ok n ncls ncl (snd tb)) bs sizes ->
  Forall2 (fun tb ncl => py_ok n ncls ncl (snd tb)) (py_run_updates e fb bs) sizes.
Proof.
  intros n ncls e fb bs sizes H. unfold py_run_updates. induction H as [|[t p] ncl bs sizes Hp H IH]; cbn [map]; auto.
  constructor; auto. destruct t; cbn [snd]; auto. apply py_train_update_ok. auto.
Qed.

Lemma py_train_list_ok : forall n ncls ds bs fb sizes bs' fb', Forall2 (fun tb ncl => py_ok n ncls ncl (snd tb)) bs sizes ->
  py_train_list ds bs fb = Ok (bs', fb') -> Forall2 (fun tb ncl => py_ok n ncls ncl (snd tb)) bs' sizes.
Proof.
  intros n ncls ds. induction ds as [|d ds IH]; intros bs fb sizes bs' fb' H E; cbn [py_train_list] in E.
  - inversion E; subst; auto.
  - destruct (py_train_one d bs fb) as [[bs1 fb1]|] eqn:E1; [|discriminate].
    apply (IH bs1 fb1 sizes bs' fb'); auto. unfold py_train_one in E1.
    pose proof (py_run_ok n ncls py_train_ex (py_train_ex_ok n ncls) (fst d) bs (py_reset fb) sizes H) as R.
    destruct (py_run_examples py_train_ex (fst d) bs (py_reset fb)) as [bs2 fb2]. cbn [fst] in R.
    destruct (py_process (snd d) fb2); inversion E1; subst. apply py_updates_ok. auto.
Qed.

(** Any sequence of epochs and evaluations. *)
Inductive pycall := PyTrain (data : list (list Z * nat)) | PyEval (data : list (list Z * nat)) (out : list nat).
Fixpoint py_calls (cs : list pycall) (x : pyexec) : res pyexec :=
  match cs with
  | [] => Ok x
  | PyTrain d :: cs' => match py_train_epoch d x with Ok (_, x) => py_calls cs' x | Raise e => Raise e end
  | PyEval d out :: cs' => py_calls cs' (snd (py_eval_predict d out x))
  end.

Lemma py_eval_list_ok : forall n ncls es bs fb sizes, Forall2 (fun tb ncl => py_ok n ncls ncl (snd tb)) bs sizes ->
  Forall2 (fun tb ncl => py_ok n ncls ncl (snd tb)) (snd (fst (py_eval_list es bs fb))) sizes.
Proof.
  intros n ncls es. induction es as [|e es IH]; intros bs fb sizes H; cbn [py_eval_list]; auto.
  pose proof (py_run_ok n ncls py_eval_ex (py_eval_ex_ok n ncls) e bs (py_reset fb) sizes H) as R.
  destruct (py_run_examples py_eval_ex e bs (py_reset fb)) as [bs1 fb1]. cbn [fst] in R.
  specialize (IH bs1 fb1 sizes R). destruct (py_eval_list es bs1 fb1) as [[ys bs2] fb2]. exact IH.
Qed.

Theorem py_history_ok : forall n ncls cs x x' sizes, Forall2 (fun tb ncl => py_ok n ncls ncl (snd tb)) (px_blocks x) sizes ->
  py_calls cs x = Ok x' -> Forall2 (fun tb ncl => py_ok n ncls ncl (snd tb)) (px_blocks x') sizes.
Proof.
  intros n ncls cs. induction cs as [|c cs IH]; intros x x' sizes H E; cbn [py_calls] in E.
  { inversion E; subst; auto. }
  destruct c as [d|d out].
  - destruct (py_train_epoch d x) as [[acc x1]|] eqn:E1; [|discriminate].
    apply (IH x1 x' sizes); auto. unfold py_train_epoch in E1.
    destruct (shuffle (seq 0 (length d)) (px_rng x)) as [idx r].
    destruct (py_train_list _ _ _) as [[bs fb]|] eqn:E2; inversion E1; subst. cbn [px_blocks].
    eapply py_train_list_ok; eauto.
  - apply (IH _ x' sizes) in E; auto. unfold py_eval_predict. destruct (negb _); auto.
    pose proof (py_eval_list_ok n ncls (map fst d) (px_blocks x) (px_fb x) sizes H) as R.
    destruct (py_eval_list (map fst d) (px_blocks x) (px_fb x)) as [[ys bs] fb]. exact R.
Qed.

Lemma init_row_ok : forall w r, row_ok w (fst (init_row w r)).
Proof.
  induction w as [|w IH]; intros r; cbn [init_row]; [cbn [fst]; split; auto|].
  destruct (next_u r) as [u r1]. specialize (IH r1). destruct (init_row w r1) as [t r2]. destruct IH as [I1 I2]. cbn [fst] in *.
  split; [cbn [length]; auto|]. constructor; auto. destruct (Qle_bool u (1 # 2)); unfold in_range; lia.
Qed.
Lemma py_init_rows_ok : forall w n r, Forall (row_ok w) (fst (py_init_rows w n r)) /\ length (fst (py_init_rows w n r)) = n.
Proof.
  induction n as [|n IH]; intros r; cbn [py_init_rows]; [cbn [fst]; split; auto|].
  pose proof (init_row_ok w r) as A. destruct (init_row w r) as [row r1]. specialize (IH r1).
  destruct (py_init_rows w n r1) as [t r2]. cbn [fst] in *. destruct IH. split; auto. cbn [length]. auto.
Qed.
Lemma init_wrow_ok : forall w r, wrow_ok w (fst (init_weight_row w r)).
Proof.
  induction w as [|w IH]; intros r; cbn [init_weight_row]; [cbn [fst]; split; auto|].
  destruct (next_u r) as [u r1]. specialize (IH r1). destruct (init_weight_row w r1) as [t r2]. destruct IH as [I1 I2]. cbn [fst] in *.
  split; [cbn [length]; auto|]. constructor; auto. destruct (Qlt_bool (1 # 2) u); unfold is_int8; lia.
Qed.
Lemma init_weights_ok : forall w n r, Forall (wrow_ok w) (fst (init_weights w n r)) /\ length (fst (init_weights w n r)) = n.
Proof.
  induction n as [|n IH]; intros r; cbn [init_weights]; [cbn [fst]; split; auto|].
  pose proof (init_wrow_ok w r) as A. destruct (init_weight_row w r) as [row r1]. specialize (IH r1).
  destruct (init_weights w n r1) as [t r2]. cbn [fst] in *. destruct IH. split; auto. cbn [length]. auto.
Qed.
Lemma py_initialize_ok : forall g n ncl ncls bud db s seed, py_ok n ncls ncl (py_initialize g n ncl ncls bud db s seed).
Proof.
  intros. unfold py_initialize. pose proof (py_init_rows_ok (n * 2) ncl (g seed)) as A.
  destruct (py_init_rows (n * 2) ncl (g seed)) as [rows r]. cbn [fst] in A.
  pose proof (init_weights_ok ncls ncl r) as B. destruct (init_weights ncls ncl r) as [ws r2]. cbn [fst] in B.
  destruct A, B. unfold py_ok. cbn [p_nlit p_ncls p_rows p_weights p_counts]. rewrite repeat_length. replace (2 * n)%nat with (n * 2)%nat by lia. tauto.
Qed.

(** ** Feedback *)

Lemma py_pick_spec : forall sum u, (0 < sum)%Q -> forall ps acc i, Forall (fun p => 0 <= p)%Q ps ->
  (acc <= u)%Q -> (u < acc + qsum ps / sum)%Q ->
  exists j, py_pick sum acc u i ps = (i + j)%nat /\ (j < length ps)%nat /\ (0 < nth j ps 0)%Q.
Proof.
  intros sum u Hs ps. induction ps as [|p ps IH]; intros acc i Hp Ha Hu.
  - exfalso. cbn [qsum] in Hu. assert (E : (0 / sum == 0)%Q) by (unfold Qdiv; ring). rewrite E in Hu. lra.
  - cbn [py_pick]. destruct (Qlt_bool u (acc + p / sum)) eqn:E.
    + apply Qlt_bool_iff in E. exists 0%nat. rewrite Nat.add_0_r. cbn [length nth]. split; auto. split; [lia|].
      assert (D : (0 < p / sum)%Q) by lra.
      assert (M : (p == p / sum * sum)%Q) by (field; lra).
      rewrite M. rewrite <- (Qmult_0_l sum). apply Qmult_lt_compat_r; auto.
    + apply Qlt_bool_false in E. destruct (IH (acc + p / sum)%Q (S i)) as [j [J1 [J2 J3]]].
      * eapply Forall_inv_tail; eauto.
      * exact E.
      * cbn [qsum] in Hu. assert (S0 : ((p + qsum ps) / sum == p / sum + qsum ps / sum)%Q) by (unfold Qdiv; ring).
        rewrite S0 in Hu. lra.
      * exists (S j). cbn [length nth]. split; [rewrite J1; lia|]. split; [lia|auto].
Qed.

Lemma py_predicted_spec : forall votes i best bestv,
  (exists v, In v votes /\ (bestv < inject_Z v)%Q) ->
  exists j, py_predicted_loop i best bestv votes = (i + j)%nat /\ first_argmax votes j.
Proof.
  induction votes as [|v votes IH]; intros i best bestv [m [Hm Hlt]]; [destruct Hm|].
  cbn [py_predicted_loop]. destruct (Qlt_bool bestv (inject_Z v)) eqn:E.
  - (* v is the best so far *)
    destruct (existsb (fun w => v <? w) votes) eqn:X.
    + apply existsb_exists in X. destruct X as [w [Hw1 Hw2]].
      destruct (IH (S i) i (inject_Z v)) as [j [J1 [J2 [J3 J4]]]].
      { exists w. split; auto. rewrite <- Zlt_Qlt. lia. }
      exists (S j). split; [rewrite J1; lia|]. split; [cbn [length]; lia|].
      assert (V : v < nth j votes 0).
      { apply (In_nth _ _ 0) in Hw1. destruct Hw1 as [q [Q1 Q2]]. specialize (J3 q Q1). lia. }
      split.
      * intros [|q] Hq; cbn [nth length] in *; [lia|]. apply J3. lia.
      * intros [|q] Hq; cbn [nth length] in *; [lia|]. apply J4. lia.
    + assert (N : forall w, In w votes -> w <= v).
      { intros w Hw. destruct (v <? w) eqn:Y; [|lia]. exfalso.
        assert (existsb (fun w => v <? w) votes = true) by (apply existsb_exists; exists w; auto). congruence. }
      assert (S0 : forall i0, py_predicted_loop i0 i (inject_Z v) votes = i).
      { clear IH X Hm. revert N. induction votes as [|w votes IHv]; intros N i0; cbn [py_predicted_loop]; auto.
        assert (F : Qlt_bool (inject_Z v) (inject_Z w) = false).
        { apply Qlt_bool_false. rewrite <- Zle_Qle. apply N. left. auto. }
        rewrite F. apply IHv. intros. apply N. right. auto. }
      exists 0%nat. rewrite S0. split; [lia|]. split; [cbn [length]; lia|]. split.
      * intros [|q] Hq; cbn [nth length] in *; [lia|]. apply N, nth_In. lia.
      * intros q Hq. lia.
  - apply Qlt_bool_false in E. assert (Hm' : In m votes).
    { destruct Hm; auto. subst. lra. }
    destruct (IH (S i) best bestv) as [j [J1 [J2 [J3 J4]]]]; [exists m; auto|].
    assert (V : v < nth j votes 0).
    { apply (In_nth _ _ 0) in Hm'. destruct Hm' as [q [Q1 Q2]]. specialize (J3 q Q1).
      assert (v < m); [|lia]. rewrite Zlt_Qlt. lra. }
    exists (S j). split; [rewrite J1; lia|]. split; [cbn [length]; lia|]. split.
    * intros [|q] Hq; cbn [nth length] in *; [lia|]. apply J3. lia.
    * intros [|q] Hq; cbn [nth length] in *; [lia|]. apply J4. lia.
Qed.

Lemma py_predicted_low : forall votes i best bestv, (forall v, In v votes -> (inject_Z v <= bestv)%Q) ->
  py_predicted_loop i best bestv votes = best.
Proof.
  induction votes as [|v votes IH]; intros i best bestv H; cbn [py_predicted_loop]; auto.
  rewrite (proj2 (Qlt_bool_false _ _)) by (apply H; left; auto). apply IH. intros. apply H. right. auto.
Qed.
