(** Top-level facts about the convolutional block. *)
From Coq Require Import ZArith List Bool QArith Qround Lia ZifyBool.
From Verif Require Import Base BaseProofs Spec SpecLearning SpecConv ModelInference ModelDense ModelFeedback ModelExecutor ModelDenseExec ModelConv
  ProofsClause ProofsInference ProofsRuleSet ProofsLayout ProofsEval ProofsLearning ProofsStep ProofsHistory ProofsTopLearning ProofsAvx2Hist ProofsSparseState ProofsSparseRules
  ProofsConv ProofsConvStep.
Import ListNotations.
Open Scope Z_scope.

Lemma nil_dec : forall A (l : list A), l = [] \/ l <> [].
Proof. intros A [|a l]; [left|right]; congruence. Qed.

Theorem conv_train_output : forall bo lits v n ncls, conv_ok n ncls v -> conv_example n (cv_np v) lits ->
  let v1 := fst (conv_train_ex bo lits v) in
  forall k, (k < nclauses v)%nat ->
    (nth k (b_outputs (cv_b v1)) 0 = 1 <-> some_match n (cv_np v) lits (crow v k)) /\
    (nth k (b_outputs (cv_b v1)) 0 = 0 <-> ~ some_match n (cv_np v) lits (crow v k)) /\
    (some_match n (cv_np v) lits (crow v k) ->
       (nth k (cv_active v1) O < cv_np v)%nat /\ patch_matches n lits (crow v k) (nth k (cv_active v1) O)).
Proof.
  intros bo lits v n ncls OK HX v1 k Hk.
  destruct (conv_train_spec bo lits v n ncls OK HX) as [_ [_ [_ [_ [_ [_ [_ [_ [_ [_ T]]]]]]]]]]. fold v1 in T.
  destruct (T k Hk) as [m [ppck [_ [TE TN]]]]. pose proof (matching_some n (cv_np v) lits v k) as MS.
  destruct (nil_dec _ (matching n (cv_np v) lits (clause_at (cv_b v) k))) as [E|E].
  - destruct (TE E) as [-> _]. assert (NS : ~ some_match n (cv_np v) lits (crow v k)) by (rewrite <- MS, E; auto).
    split; [split; [lia|contradiction]|]. split; [tauto|]. contradiction.
  - destruct (TN E) as [-> [B [C _]]]. assert (SM : some_match n (cv_np v) lits (crow v k)) by (apply MS; auto).
    split; [tauto|]. split; [split; [lia|contradiction]|]. intros _. rewrite C.
    assert (I : In (nth (fst (pick_index (length (matching n (cv_np v) lits (clause_at (cv_b v) k))) (advance m (b_rng (cv_b v)))))
      (matching n (cv_np v) lits (clause_at (cv_b v) k)) O) (matching n (cv_np v) lits (clause_at (cv_b v) k))) by (apply nth_In; exact B).
    apply matching_In in I. exact I.
Qed.

Definition with_rng (r : rng) (b : block) : block :=
  mkBlock (b_nlit b) (b_ncls b) (b_clauses b) (b_weights b) (b_outputs b) (b_counts b) (b_votes b) (b_budget b) (b_s_inv b) (b_s_min1_inv b) r (b_fast b).
Definition cv_with_rng (r : rng) (v : cvblock) : cvblock := mkCv (with_rng r (cv_b v)) (cv_np v) (cv_active v) (cv_ppc v).

Lemma cv_with_rng_ok : forall n ncls r v, conv_ok n ncls v -> conv_ok n ncls (cv_with_rng r v).
Proof.
  intros n ncls r v [[[W1 W2 W3 W4] I8 I16] C1 C2 C3 C4 C5]. constructor; cbn [cv_with_rng with_rng cv_b cv_np cv_active cv_ppc b_nlit b_counts b_clauses]; auto.
  constructor; [constructor| |]; cbn [with_rng cv_b b_ncls b_clauses b_weights]; auto.
Qed.

(** Every matching patch can be chosen. *)
Theorem conv_patch_reachable : forall bo lits v n ncls k p, conv_ok n ncls v -> conv_example n (cv_np v) lits -> (k < nclauses v)%nat ->
  (p < cv_np v)%nat -> patch_matches n lits (crow v k) p ->
  exists r, (forall i, (0 <= draw r i /\ draw r i < 1)%Q) /\ nth k (cv_active (fst (conv_train_ex bo lits (cv_with_rng r v)))) O = p.
Proof.
  intros bo lits v n ncls k p OK HX Hk Hp HM.
  assert (I : In p (matching n (cv_np v) lits (clause_at (cv_b v) k))) by (apply matching_In; auto).
  destruct (In_nth _ _ O I) as [j [Hj E]].
  set (M := length (matching n (cv_np v) lits (clause_at (cv_b v) k))) in *.
  exists (mkRng (fun _ => (inject_Z (Z.of_nat j) / inject_Z (Z.of_nat M))%Q) O). split.
  - intros i. unfold draw. cbn [rng_src rng_pos].
    assert (PM : (0 < inject_Z (Z.of_nat M))%Q) by (unfold Qlt; cbn; lia).
    split.
    + apply Qle_shift_div_l; auto. rewrite Qmult_0_l. unfold Qle. cbn. lia.
    + apply Qlt_shift_div_r; auto. rewrite Qmult_1_l. unfold Qlt, inject_Z. cbn [Qnum Qden]. lia.
  - set (r := mkRng _ _). pose proof (cv_with_rng_ok n ncls r v OK) as OK'.
    destruct (conv_train_spec bo lits (cv_with_rng r v) n ncls OK' HX) as [_ [_ [_ [_ [_ [_ [_ [_ [_ [_ T]]]]]]]]]].
    destruct (T k Hk) as [m [ppck [_ [TE TN]]]]. change (clause_at (cv_b (cv_with_rng r v)) k) with (clause_at (cv_b v) k) in TN.
    change (cv_np (cv_with_rng r v)) with (cv_np v) in TN. fold M in TN.
    destruct TN as [_ [_ [C _]]]. { intros EE. rewrite EE in I. exact I. }
    rewrite C. rewrite (pick_index_reach M j); auto.
Qed.

Theorem conv_eval_output : forall lits v n ncls, conv_ok n ncls v -> conv_example n (cv_np v) lits ->
  let v1 := fst (conv_eval_ex lits v) in
  forall k, (k < nclauses v)%nat ->
    nth k (b_outputs (cv_b v1)) 0 = (if existsb (patch_fires n lits (crow v k)) (seq 0 (cv_np v)) then 1 else 0).
Proof.
  intros lits v n ncls OK HX v1 k Hk. destruct (clause_at_ok n ncls (cv_b v) k (co_block _ _ _ OK) Hk) as [P1 [P2 _]].
  unfold v1, conv_eval_ex, cv_count_votes, conv_eval_set, count_votes. cbn [fst cv_b b_outputs]. rewrite (co_nlit _ _ _ OK).
  rewrite (nth_indep _ 0 (conv_eval_patches n lits dclause (seq 0 (cv_np v)))) by (rewrite map_length; exact Hk).
  rewrite (map_nth (fun c => conv_eval_patches n lits c (seq 0 (cv_np v)))). fold (clause_at (cv_b v) k).
  rewrite (conv_eval_patches_spec n (cv_np v)) by (auto; apply seq_bound). unfold crow, row_at.
  destruct (existsb _ _); reflexivity.
Qed.

(** ** The budget *)

Lemma matches_first_seq : forall n np lits c, (forall p q, (p < q)%nat -> (q < np)%nat -> pm n lits c q = true -> pm n lits c p = true) ->
  forall j, (j < length (matching n np lits c))%nat -> pm n lits c j = true.
Proof.
  intros n np lits c H j Hj.
  destruct (pm n lits c j) eqn:E; auto. exfalso.
  assert (B : forall q, In q (matching n np lits c) -> (q < j)%nat).
  { intros q Hq. apply matching_In in Hq. destruct Hq as [Q1 Q2]. destruct (Nat.lt_trichotomy q j) as [L|[L|L]]; auto.
    - subst. congruence.
    - pose proof (H j q L Q1 Q2). congruence. }
  assert (ND : NoDup (matching n np lits c)) by (unfold matching; apply NoDup_filter, seq_NoDup).
  pose proof (NoDup_incl_length ND (l' := seq 0 j)) as NL. rewrite seq_length in NL.
  assert (length (matching n np lits c) <= j)%nat by (apply NL; intros q Hq; apply in_seq; specialize (B q Hq); lia). lia.
Qed.

Lemma conv_silent : forall bo boost lits pc pp nc np v n ncls, conv_ok n ncls v -> conv_example n (cv_np v) lits -> (pc < ncls)%nat -> (nc < ncls)%nat ->
  let v' := conv_step bo boost lits pc pp nc np v in
  forall k, (k < nclauses v)%nat ->
  (~ some_match n (cv_np v) lits (crow v k) \/ (bo = true /\ b_budget (cv_b v) < n_included (crow v k) /\ matches_first n (cv_np v) lits (crow v k))) ->
    (forall c, cweight v' k c = cweight v k c) /\
    (forall i, (i < 2 * n)%nat -> nth i (crow v k) 0 - 2 <= nth i (crow v' k) 0 <= nth i (crow v k) 0).
Proof.
  intros bo boost lits pc pp nc np v n ncls OK HX Hpc Hnc v' k Hk HS.
  destruct (conv_step_spec bo boost lits pc pp nc np v n ncls OK HX) as [OK' [_ [EN [_ [_ [_ S]]]]]]. fold v' in OK', EN, S.
  destruct (S k Hk) as [rk [cnt [x [o [A [B [TE TN]]]]]]].
  destruct (clause_at_ok n ncls (cv_b v) k (co_block _ _ _ OK) Hk) as [P1 [P2 [P3 P4]]].
  assert (IW : In (nth k (b_weights (cv_b v)) []) (b_weights (cv_b v))).
  { apply nth_In. destruct OK as [[[W1 W2 W3 W4] _ _] _ _ _ _ _]. unfold nclauses in Hk. lia. }
  destruct (weights_ok n ncls (cv_b v) _ (co_block _ _ _ OK) IW) as [WL WI].
  assert (SIL : (o =? 1) && negb (bo && (cnt >? b_budget (cv_b v))) = false).
  { destruct (nil_dec _ (matching n (cv_np v) lits (clause_at (cv_b v) k))) as [E|E].
    - rewrite (TE E). reflexivity.
    - destruct (TN E) as [-> [j [ppck [J1 [J2 J3]]]]]. destruct HS as [HS|[-> [HB HF]]].
      + exfalso. apply HS, matching_some, E.
      + rewrite J3 by auto. rewrite (matches_first_seq n (cv_np v) lits (clause_at (cv_b v) k) HF j J1).
        replace (n_included (crow v k) >? b_budget (cv_b v)) with true by lia. reflexivity. }
  split.
  - intros c. unfold cweight, weight_at. rewrite B.
    pose proof (train_update_clause_weights bo boost (b_budget (cv_b v)) (b_s_inv (cv_b v)) (b_s_min1_inv (cv_b v)) x pc pp nc np
      (clause_at (cv_b v) k) (nth k (b_weights (cv_b v)) []) o cnt rk (advance (2 * k) (b_fast (cv_b v))) c ltac:(lia) ltac:(lia) WI) as U.
    cbv zeta in U. destruct (train_update_clause _ _ _ _ _ _ _ _ _ _ _ _ _ _ _ _) as [[[[c1 ws1] o1] r1] f1]. cbn [fst snd].
    destruct U as [U _]. rewrite U, SIL. unfold bump. cbn [andb]. rewrite Z.add_0_r, Z.sub_0_r. apply wrap16_small, WI.
  - intros i Hi. unfold crow, row_at. rewrite A.
    apply (train_update_clause_silent bo boost (b_budget (cv_b v)) (b_s_inv (cv_b v)) (b_s_min1_inv (cv_b v)) x pc pp nc np
      (clause_at (cv_b v) k) (nth k (b_weights (cv_b v)) []) o cnt rk (advance (2 * k) (b_fast (cv_b v))) n SIL P1 P2 P3 P4 i Hi).
Qed.

(** ** A clause that matches *)

Theorem conv_step_dense : forall bo boost lits pc pp nc np v n ncls, conv_ok n ncls v -> conv_example n (cv_np v) lits ->
  let v' := conv_step bo boost lits pc pp nc np v in
  forall k, (k < nclauses v)%nat -> some_match n (cv_np v) lits (crow v k) ->
  exists p rk cnt, (p < cv_np v)%nat /\ patch_matches n lits (crow v k) p /\
    (bo = true -> matches_first n (cv_np v) lits (crow v k) -> cnt = n_included (crow v k)) /\
    let t := train_update_clause bo boost (b_budget (cv_b v)) (b_s_inv (cv_b v)) (b_s_min1_inv (cv_b v)) (nth_patch n lits p)
               pc pp nc np (clause_at (cv_b v) k) (nth k (b_weights (cv_b v)) []) 1 cnt rk (advance (2 * k) (b_fast (cv_b v))) in
    clause_at (cv_b v') k = fst (fst (fst (fst t))) /\ nth k (b_weights (cv_b v')) [] = snd (fst (fst (fst t))).
Proof.
  intros bo boost lits pc pp nc np v n ncls OK HX v' k Hk SM.
  destruct (conv_step_spec bo boost lits pc pp nc np v n ncls OK HX) as [_ [_ [_ [_ [_ [_ S]]]]]]. fold v' in S.
  destruct (S k Hk) as [rk [cnt [x [o [A [B [_ TN]]]]]]].
  destruct TN as [-> [j [ppck [J1 [J2 J3]]]]]; [apply matching_some; auto|]. subst x.
  assert (I : In (nth j (matching n (cv_np v) lits (clause_at (cv_b v) k)) O) (matching n (cv_np v) lits (clause_at (cv_b v) k))) by (apply nth_In; auto).
  apply matching_In in I. destruct I as [I1 I2].
  exists (nth j (matching n (cv_np v) lits (clause_at (cv_b v) k)) O), rk, cnt.
  split; [exact I1|]. split; [exact I2|]. split; [|split; [exact A|exact B]].
  intros HB HF. rewrite J3 by auto. rewrite (matches_first_seq n (cv_np v) lits (clause_at (cv_b v) k) HF j J1). reflexivity.
Qed.

Lemma row_eq_bump : forall z, is_int16 z -> wrap16 (z + 0 - 0) = z.
Proof. intros z Hz. rewrite wrap16_small; unfold is_int16 in *; lia. Qed.

(** Exact weights, when the count is not used or is the right one. *)
Theorem conv_step_weights : forall bo boost lits pc pp nc np v n ncls, conv_ok n ncls v -> conv_example n (cv_np v) lits ->
  (pc < ncls)%nat -> (nc < ncls)%nat -> pc <> nc ->
  let v' := conv_step bo boost lits pc pp nc np v in
  forall k, (k < nclauses v)%nat -> (bo = true -> matches_first n (cv_np v) lits (crow v k)) ->
    let fired := some_match n (cv_np v) lits (crow v k) /\ (bo = true -> n_included (crow v k) <= b_budget (cv_b v)) in
    (forall c, c <> pc -> c <> nc -> cweight v' k c = cweight v k c) /\
    (~ fired -> forall c, cweight v' k c = cweight v k c) /\
    (fired -> cweight v' k pc = (if Qlt_bool (draw (b_fast (cv_b v)) (2 * k)) pp then wrap16 (cweight v k pc + 1) else cweight v k pc)) /\
    (fired -> cweight v' k nc = (if Qlt_bool (draw (b_fast (cv_b v)) (2 * k + 1)) np then wrap16 (cweight v k nc - 1) else cweight v k nc)).
Proof.
  intros bo boost lits pc pp nc np v n ncls OK HX Hpc Hnc Hne v' k Hk HMF fired.
  assert (IW : In (nth k (b_weights (cv_b v)) []) (b_weights (cv_b v))).
  { apply nth_In. destruct OK as [[[W1 W2 W3 W4] _ _] _ _ _ _ _]. unfold nclauses in Hk. lia. }
  destruct (weights_ok n ncls (cv_b v) _ (co_block _ _ _ OK) IW) as [WL WI].
  assert (SMD : some_match n (cv_np v) lits (crow v k) \/ ~ some_match n (cv_np v) lits (crow v k)).
  { pose proof (matching_some n (cv_np v) lits v k) as MS. destruct (nil_dec _ (matching n (cv_np v) lits (clause_at (cv_b v) k))) as [E|E]; [right|left].
    - rewrite <- MS, E. auto.
    - apply MS, E. }
  destruct SMD as [SM|NSM].
  - destruct (conv_step_dense bo boost lits pc pp nc np v n ncls OK HX k Hk SM) as [p [rk [cnt [H1 [H2 [H3 [H4 H5]]]]]]]. fold v' in H4, H5.
    set (fb := negb (bo && (n_included (crow v k) >? b_budget (cv_b v)))).
    assert (FB : fb = true <-> fired).
    { unfold fb, fired. destruct bo; cbn [andb negb].
      - split; [intros F; split; auto; intros _; lia|intros [_ F]; specialize (F eq_refl); lia].
      - split; auto. intros _. split; auto. intros C. discriminate. }
    assert (W : forall c, cweight v' k c = wrap16 (cweight v k c + bump c pc (fb && Qlt_bool (draw (b_fast (cv_b v)) (2 * k)) pp)
                  - bump c nc (fb && Qlt_bool (draw (b_fast (cv_b v)) (2 * k + 1)) np))).
    { intros c. unfold cweight, weight_at. rewrite H5.
      pose proof (train_update_clause_weights bo boost (b_budget (cv_b v)) (b_s_inv (cv_b v)) (b_s_min1_inv (cv_b v)) (nth_patch n lits p) pc pp nc np
        (clause_at (cv_b v) k) (nth k (b_weights (cv_b v)) []) 1 cnt rk (advance (2 * k) (b_fast (cv_b v))) c ltac:(lia) ltac:(lia) WI) as U.
      cbv zeta in U. destruct (train_update_clause _ _ _ _ _ _ _ _ _ _ _ _ _ _ _ _) as [[[[c1 ws1] o1] r1] f1]. cbn [fst snd].
      destruct U as [U _]. rewrite U. rewrite !draw_advance, Nat.add_0_r.
      replace ((1 =? 1) && negb (bo && (cnt >? b_budget (cv_b v)))) with fb; [reflexivity|].
      unfold fb. destruct bo; [rewrite H3 by auto|]; reflexivity. }
    assert (WI' : forall c, is_int16 (cweight v k c)) by (intros c; apply WI).
    split; [|split; [|split]].
    + intros c C1 C2. rewrite W. unfold bump. rewrite (proj2 (Nat.eqb_neq c pc)), (proj2 (Nat.eqb_neq c nc)), !andb_false_r by auto. apply row_eq_bump, WI'.
    + intros NF c. rewrite W. assert (F : fb = false) by (destruct fb; auto; exfalso; apply NF, FB; auto). rewrite F. unfold bump. cbn [andb]. apply row_eq_bump, WI'.
    + intros F. rewrite W. rewrite (proj2 FB F). unfold bump. rewrite Nat.eqb_refl, (proj2 (Nat.eqb_neq pc nc) Hne), andb_false_r, andb_true_r. cbn [andb].
      rewrite Z.sub_0_r. destruct (Qlt_bool _ _); auto. rewrite Z.add_0_r. apply wrap16_small, WI'.
    + intros F. rewrite W. rewrite (proj2 FB F). unfold bump. rewrite Nat.eqb_refl, (proj2 (Nat.eqb_neq nc pc)), andb_false_r, andb_true_r by auto. cbn [andb].
      cbv iota. rewrite Z.add_0_r. match goal with |- context [Qlt_bool ?a ?b] => destruct (Qlt_bool a b) end; auto. rewrite Z.sub_0_r. apply wrap16_small, WI'.
  - destruct (conv_silent bo boost lits pc pp nc np v n ncls OK HX Hpc Hnc k Hk (or_introl NSM)) as [A _]. fold v' in A.
    split; [auto|]. split; [auto|]. split; intros [F _]; contradiction.
Qed.

Theorem conv_step_delta : forall bo boost lits pc pp nc np v n ncls, conv_ok n ncls v -> conv_example n (cv_np v) lits -> (pc < ncls)%nat -> (nc < ncls)%nat ->
  forall k i, (k < nclauses v)%nat -> (i < 2 * n)%nat ->
    nth i (crow v k) 0 - 2 <= nth i (crow (conv_step bo boost lits pc pp nc np v) k) 0 <= nth i (crow v k) 0 + 2.
Proof.
  intros bo boost lits pc pp nc np v n ncls OK HX Hpc Hnc k i Hk Hi. set (v' := conv_step _ _ _ _ _ _ _ _).
  destruct (nil_dec _ (matching n (cv_np v) lits (clause_at (cv_b v) k))) as [E|E].
  - destruct (conv_silent bo boost lits pc pp nc np v n ncls OK HX Hpc Hnc k Hk) as [_ A].
    { left. intros C. apply matching_some in C. contradiction. }
    specialize (A i Hi). fold v' in A. lia.
  - destruct (conv_step_dense bo boost lits pc pp nc np v n ncls OK HX k Hk) as [p [rk [cnt [H1 [H2 [H3 [H4 H5]]]]]]]; [apply matching_some; auto|].
    fold v' in H4. unfold crow, row_at. rewrite H4.
    destruct (clause_at_ok n ncls (cv_b v) k (co_block _ _ _ OK) Hk) as [P1 [P2 [P3 P4]]].
    apply (train_update_clause_delta bo boost (b_budget (cv_b v)) (b_s_inv (cv_b v)) (b_s_min1_inv (cv_b v)) (nth_patch n lits p) pc pp nc np
      (clause_at (cv_b v) k) (nth k (b_weights (cv_b v)) []) 1 cnt rk (advance (2 * k) (b_fast (cv_b v))) n); auto. apply nth_patch_len.
Qed.

(** ** One patch per example: the dense block *)

Lemma nth_patch_one : forall n lits, length lits = n -> nth_patch n lits 0 = lits.
Proof.
  intros n lits H. unfold nth_patch. cbn [Nat.mul Nat.add]. rewrite <- H. apply map_nth_seq.
Qed.

Lemma loops_agree : forall bo boost bud si sm n lits pc pp nc np x cs wss outs cnts cnts' aps r f,
  (forall k, nth k outs 0 = 0 \/ (patch n lits (nth k aps O) = x /\ (bo = true -> nth k cnts 0 = nth k cnts' 0))) ->
  conv_update_loop bo boost bud si sm n lits pc pp nc np cs wss outs cnts aps r f =
  train_update_loop bo boost bud si sm x pc pp nc np cs wss outs cnts' r f.
Proof.
  intros bo boost bud si sm n lits pc pp nc np x cs. induction cs as [|c cs IH]; intros [|ws wss] [|o outs] cnts cnts' aps r f H; try reflexivity.
  cbn [conv_update_loop train_update_loop].
  assert (E : train_update_clause bo boost bud si sm (patch n lits (hd O aps)) pc pp nc np c ws o (hd 0 cnts) r f =
              train_update_clause bo boost bud si sm x pc pp nc np c ws o (hd 0 cnts') r f).
  { destruct (H O) as [H0|[H1 H2]]; cbn [nth] in *.
    - subst o. apply train_update_clause_no_literals.
    - replace (hd O aps) with (nth 0 aps O) by (destruct aps; reflexivity). rewrite H1.
      destruct bo; [|reflexivity]. specialize (H2 eq_refl).
      replace (hd 0 cnts) with (nth 0 cnts 0) by (destruct cnts; reflexivity). rewrite H2. destruct cnts'; reflexivity. }
  rewrite E. clear E. destruct (train_update_clause _ _ _ _ _ _ _ _ _ _ _ _ _ _ _ _) as [[[[c1 ws1] o1] r1] f1].
  rewrite (IH wss outs (tl cnts) (tl cnts') (tl aps)); [reflexivity|].
  intros k. specialize (H (S k)). cbn [nth] in H. rewrite !nth_tl_any. exact H.
Qed.

Lemma matching_one : forall n lits c, matching n 1 lits c = if pm n lits c 0 then [O] else [].
Proof. intros. unfold matching. cbn [seq filter]. destruct (pm n lits c 0); reflexivity. Qed.

Theorem conv_one_patch_step : forall bo boost lits pc pp nc np v n ncls, conv_ok n ncls v -> cv_np v = 1%nat -> length lits = n -> binary lits ->
  let v' := conv_step bo boost lits pc pp nc np v in
  exists m, let b' := dense_step bo boost lits pc pp nc np (with_rng (advance m (b_rng (cv_b v))) (cv_b v)) in
    b_clauses (cv_b v') = b_clauses b' /\ b_weights (cv_b v') = b_weights b' /\ b_outputs (cv_b v') = b_outputs b' /\
    b_votes (cv_b v') = b_votes b' /\ b_rng (cv_b v') = b_rng b' /\ b_fast (cv_b v') = b_fast b'.
Proof.
  intros bo boost lits pc pp nc np v n ncls OK H1 HL HB v'.
  assert (HX : conv_example n (cv_np v) lits) by (split; auto; rewrite H1; lia).
  destruct (conv_train_spec bo lits v n ncls OK HX) as [OK1 [E1 [E2 [E3 [E4 [E5 [E6 [E7 [E8 [[m E9] T]]]]]]]]]].
  exists m. unfold v', conv_step, dense_step, dense_upd. set (v1 := fst (conv_train_ex bo lits v)) in *.
  set (b1 := fst (dense_train_ex bo lits (with_rng (advance m (b_rng (cv_b v))) (cv_b v)))).
  assert (EO : b_outputs (cv_b v1) = b_outputs b1).
  { apply list_ext0.
    - rewrite E8. unfold b1, nclauses. cbn. rewrite !map_length. reflexivity.
    - intros k Hk. rewrite E8 in Hk. destruct (T k Hk) as [mm [ppck [_ [TE TN]]]].
      destruct (clause_at_ok n ncls (cv_b v) k (co_block _ _ _ OK) Hk) as [P1 [P2 _]].
      assert (D : nth k (b_outputs b1) 0 = b2z (pm n lits (clause_at (cv_b v) k) 0)).
      { unfold b1, dense_train_ex, count_votes, train_set_clause_output, with_rng. cbn [fst b_outputs b_clauses]. rewrite map_map.
        rewrite (nth_indep _ 0 (fst (set_output bo lits dclause))) by (rewrite map_length; exact Hk).
        rewrite (map_nth (fun c => fst (set_output bo lits c))). fold (clause_at (cv_b v) k).
        rewrite (set_output_matches bo n) by auto. unfold pm. rewrite nth_patch_one by auto. reflexivity. }
      rewrite D. rewrite H1, matching_one in TE, TN. destruct (pm n lits (clause_at (cv_b v) k) 0).
      + apply TN. discriminate.
      + apply TE. reflexivity. }
  assert (EV : b_votes (cv_b v1) = b_votes b1).
  { assert (A : b_votes (cv_b v1) = count_votes_loop (b_outputs (cv_b v1)) (b_weights (cv_b v)) (repeat 0 (b_ncls (cv_b v)))).
    { unfold v1, conv_train_ex, cv_count_votes, conv_set_output. destruct (conv_output_loop _ _ _ _ _ _ _ _ _) as [[[[os aps] cnts] ppc] r]. reflexivity. }
    assert (B : b_votes b1 = count_votes_loop (b_outputs b1) (b_weights (cv_b v)) (repeat 0 (b_ncls (cv_b v)))) by reflexivity.
    rewrite A, B, EO. reflexivity. }
  unfold conv_update, train_update. rewrite E2, E3, E4, E5, E6, E7, E9.
  change (b_clauses b1) with (b_clauses (cv_b v)). change (b_weights b1) with (b_weights (cv_b v)). change (b_budget b1) with (b_budget (cv_b v)).
  change (b_s_inv b1) with (b_s_inv (cv_b v)). change (b_s_min1_inv b1) with (b_s_min1_inv (cv_b v)). change (b_fast b1) with (b_fast (cv_b v)).
  change (b_rng b1) with (advance m (b_rng (cv_b v))).
  rewrite (co_nlit _ _ _ OK1). rewrite <- EO.
  rewrite (loops_agree bo boost (b_budget (cv_b v)) (b_s_inv (cv_b v)) (b_s_min1_inv (cv_b v)) n lits pc pp nc np lits (b_clauses (cv_b v)) (b_weights (cv_b v))
    (b_outputs (cv_b v1)) (b_counts (cv_b v1)) (b_counts b1) (cv_active v1) (advance m (b_rng (cv_b v))) (b_fast (cv_b v))).
  - destruct (train_update_loop _ _ _ _ _ _ _ _ _ _ _ _ _ _ _ _) as [[[[cs wss] outs] r] f].
    cbn [cv_b b_clauses b_weights b_outputs b_votes b_rng b_fast]. repeat split; auto.
  - intros k. destruct (Nat.lt_ge_cases k (nclauses v)) as [Hk|Hk]; [|left; apply nth_overflow; lia].
    destruct (T k Hk) as [mm [ppck [_ [TE TN]]]].
    destruct (clause_at_ok n ncls (cv_b v) k (co_block _ _ _ OK) Hk) as [P1 [P2 _]].
    rewrite H1, matching_one in TE, TN. destruct (pm n lits (clause_at (cv_b v) k) 0) eqn:EP; [right|left; apply TE; reflexivity].
    destruct TN as [A [B [C D]]]; [discriminate|]. set (i := fst (pick_index _ _)) in *. cbn [length] in B.
    assert (i = O) by lia. rewrite H in C, D. cbn [nth] in C. split.
    + rewrite C. rewrite (patch_eq n 1) by lia. apply nth_patch_one; auto.
    + intros HB'. rewrite D by auto. rewrite EP.
      unfold b1, dense_train_ex, count_votes, train_set_clause_output, with_rng. rewrite HB'. cbn [fst b_counts b_clauses]. rewrite map_map.
      rewrite (nth_indep _ 0 (snd (set_output true lits dclause))) by (rewrite map_length; exact Hk).
      rewrite (map_nth (fun c => snd (set_output true lits c))). fold (clause_at (cv_b v) k). symmetry.
      apply (set_output_count n); auto. rewrite (set_output_matches true n) by auto.
      unfold pm in EP. rewrite nth_patch_one in EP by auto. unfold row_of in EP. rewrite EP. reflexivity.
Qed.

Theorem conv_one_patch_eval : forall lits v n ncls, conv_ok n ncls v -> cv_np v = 1%nat -> length lits = n ->
  snd (conv_eval_ex lits v) = snd (dense_eval_ex lits (cv_b v)).
Proof.
  intros lits v n ncls OK H1 HL.
  unfold conv_eval_ex, cv_count_votes, conv_eval_set, dense_eval_ex, count_votes, eval_set_clause_output.
  cbn [snd cv_b b_votes b_outputs b_weights b_ncls]. f_equal. apply map_ext. intros c. rewrite H1. cbn [seq conv_eval_patches].
  rewrite conv_eval_loop_eq. rewrite (co_nlit _ _ _ OK). rewrite (patch_eq n 1) by lia. rewrite nth_patch_one by auto. unfold eval_output.
  destruct (eval_output_loop_01 (cl_pos c) (cl_neg c) lits true) as [E|E]; rewrite E; reflexivity.
Qed.
