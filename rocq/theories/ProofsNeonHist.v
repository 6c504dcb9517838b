(** NEON: Type II as in the scalar block, invariants of a block, the literal
    budget, initialisation. *)
From Coq Require Import ZArith Arith List Bool QArith Qround Qabs Lqa Lia ZifyBool.
From Verif Require Import Base BaseProofs Spec SpecLearning ModelInference ModelDense ModelLayout ModelFeedback ModelExecutor ModelDenseExec ModelAvx2 ModelNeon
  SpecAvx2 SpecNeon ProofsClause ProofsLayout ProofsEval ProofsLearning ProofsStep ProofsExecutor ProofsDenseExec ProofsInput
  ProofsAvx2 ProofsAvx2Scalar ProofsAvx2Step ProofsAvx2Hist ProofsNeon ProofsNeonScalar ProofsNeonStep.
Import ListNotations.
Open Scope Z_scope.

(** ** Type II *)

Theorem neon_t2_scalar : forall n x lits row, (0 < n)%nat -> nbuffer_of n x lits -> binary x ->
  length row = (2 * nlmem_of n)%nat -> row8 row ->
  let '(ps, qs) := type2 (cl_pos (row_clause n (nlmem_of n) row)) (cl_neg (row_clause n (nlmem_of n) row)) x in
  row_clause n (nlmem_of n) (neon_t2 lits (nlmem_of n) row) = mkClause ps qs.
Proof.
  intros n x lits row Hn Hb Hx HL H8. pose proof (nlmem_of_facts n Hn) as [F1 [F2 F3]].
  pose proof (nrc_pos_len n row Hn HL) as LP. pose proof (nrc_neg_len n row Hn HL) as LN.
  assert (I8 : forall l k, (forall i, (i < k)%nat -> is_int8 (nth i l 0)) -> length l = k -> int8s l).
  { intros l k H E. apply row8_of_nth. intros j Hj. apply H. lia. }
  assert (HX : length x = n) by apply Hb.
  pose proof (type2_exact x (cl_pos (row_clause n (nlmem_of n) row)) (cl_neg (row_clause n (nlmem_of n) row)) ltac:(lia) ltac:(lia)) as T.
  destruct (type2 _ _ x) as [ps qs].
  destruct T as [T1 [T2 [T3 T4]]].
  { apply (I8 _ n); auto. intros i Hi. rewrite nrc_pos_nth by auto. apply row8_nth; auto. }
  { apply (I8 _ n); auto. intros i Hi. rewrite nrc_neg_nth by auto. apply row8_nth; auto. }
  destruct Hb as [B1 [B2 B3]].
  pose proof (neon_t2_exact lits (nlmem_of n) B2 F3 row HL H8) as [A1 [A2 A3]].
  assert (LV : forall i, (i < n)%nat -> noff0 lits i = (nth i x 0 =? 0)).
  { intros i Hi. unfold noff0. destruct (nlit_val n x lits row Hn (conj B1 (conj B2 B3)) Hx HL i Hi) as [E _]. now rewrite E. }
  rewrite HX in *. unfold row_clause. f_equal.
  - apply list_ext0.
    + rewrite firstn_length. lia.
    + intros i Hi. rewrite firstn_length in Hi. rewrite nth_firstn_lt by lia. destruct (A3 i ltac:(lia)) as [J1 _].
      rewrite J1, T3 by lia. unfold t2_lane. rewrite LV by lia. rewrite (nrc_pos_nth n row Hn HL) by lia. reflexivity.
  - unfold slice. apply list_ext0.
    + rewrite firstn_length, skipn_length. lia.
    + intros i Hi. rewrite firstn_length, skipn_length in Hi. rewrite nth_firstn_lt by lia. rewrite nth_skipn. destruct (A3 i ltac:(lia)) as [_ J1].
      rewrite J1, T4 by lia. unfold t2_lane. rewrite LV by lia. rewrite (nrc_neg_nth n row Hn HL) by lia. reflexivity.
Qed.

(** ** One clause, one block *)

Section Keep.
  Variables (lits : list Z) (lmem : nat).
  Hypothesis Hlits : (lmem <= length lits)%nat.
  Hypothesis Hdiv : lmem = (lmem / 16 * 16)%nat.

  Definition nrow_good (row : list Z) : Prop := length row = (2 * lmem)%nat /\ row8 row.

  Lemma nvrng_ok_advance : forall r k, nvrng_ok r -> nvrng_ok (vadvance k r).
  Proof. intros r k H j. apply H. Qed.

  Lemma neon_clause_update_keep : forall boost cmp row w t o r, nrow_good row -> nvrng_ok r ->
    let '(row', w', r') := neon_clause_update boost cmp lmem row w t lits o r in nrow_good row' /\ nvrng_ok r'.
  Proof.
    intros boost cmp row w t o r [G1 G2] VR. unfold neon_clause_update.
    destruct (t * (if w >=? 0 then 1 else -1) >? 0).
    - destruct (o =? 1).
      + pose proof (neon_t1a_exact cmp lits lmem Hlits Hdiv boost row r VR G1 G2) as A.
        destruct (neon_t1a boost cmp lits lmem row r) as [row' r']. destruct A as [A1 [A2 [A3 A4]]]. subst r'.
        split; [split; auto|]. apply nvrng_ok_advance; auto.
      + pose proof (neon_t1b_exact cmp lits lmem Hlits Hdiv row r VR G1 G2) as A.
        destruct (neon_t1b cmp lmem row r) as [row' r']. destruct A as [A1 [A2 [A3 A4]]]. subst r'.
        split; [split; auto|]. apply nvrng_ok_advance; auto.
    - destruct ((t * (if w >=? 0 then 1 else -1) <? 0) && (o =? 1)).
      + destruct (neon_t2_exact lits lmem Hlits Hdiv row G1 G2) as [A1 [A2 A3]]. split; [split; auto|auto].
      + split; [split; auto|auto].
  Qed.

  (** A silent clause never moves an automaton up. *)
  Lemma neon_clause_update_silent : forall boost cmp row w t o r, nrow_good row -> nvrng_ok r -> o <> 1 ->
    let '(row', w', r') := neon_clause_update boost cmp lmem row w t lits o r in
    w' = w /\ forall j, (j < 2 * lmem)%nat -> nth j row' 0 <= nth j row 0.
  Proof.
    intros boost cmp row w t o r [G1 G2] VR Ho. unfold neon_clause_update.
    replace (o =? 1) with false by lia. rewrite andb_false_r.
    destruct (t * (if w >=? 0 then 1 else -1) >? 0); [|split; auto; intros; lia].
    pose proof (neon_t1b_exact cmp lits lmem Hlits Hdiv row r VR G1 G2) as A.
    destruct (neon_t1b cmp lmem row r) as [row' r']. destruct A as [A1 [A2 [A3 A4]]]. split; [auto|].
    intros j Hj.
    assert (D : forall b v, is_int8 v -> t1b_lane b v <= v) by (intros b v H; unfold t1b_lane, down8, is_int8 in *; destruct b; lia).
    destruct (Nat.lt_ge_cases j lmem) as [B|B].
    - destruct (A4 j B) as [E _]. rewrite E. apply D, row8_nth; auto.
    - destruct (A4 (j - lmem)%nat ltac:(lia)) as [_ E]. replace (lmem + (j - lmem))%nat with j in E by lia. rewrite E. apply D, row8_nth; auto.
  Qed.

  Lemma neon_update_clause_keep : forall bo boost bud cmp pc pp nc np row ws o cnt r f, nrow_good row -> nvrng_ok r ->
    let '(row1, ws1, o1, r1, f1) := neon_update_clause bo boost bud cmp lmem lits pc pp nc np row ws o cnt r f in
    nrow_good row1 /\ nvrng_ok r1.
  Proof.
    intros bo boost bud cmp pc pp nc np row ws o cnt r f G VR. unfold neon_update_clause.
    set (out := if bo && (cnt >? bud) then 0 else o). clearbody out. destruct (draw_lt f pp) as [d1 f1].
    pose proof (neon_clause_update_keep boost cmp row (nth pc ws 0) 1 out r G VR) as A.
    destruct (neon_clause_update boost cmp lmem row (nth pc ws 0) 1 lits out r) as [[row' w'] r'].
    destruct A as [A1 A2].
    destruct d1; destruct (draw_lt f1 np) as [d2 f2];
      match goal with |- context [neon_clause_update ?a ?b ?c ?row ?w ?t ?l ?o ?r] =>
        pose proof (neon_clause_update_keep a b row w t o r ltac:(auto) ltac:(auto)) as K2;
        destruct (neon_clause_update a b c row w t l o r) as [[row2 w2] r2]; destruct K2 as [K1 K2] end;
      destruct d2; auto.
  Qed.

  Lemma neon_update_clause_silent : forall bo boost bud cmp pc pp nc np row ws o cnt r f, nrow_good row -> nvrng_ok r ->
    (if bo && (cnt >? bud) then 0 else o) <> 1 ->
    let '(row1, ws1, o1, r1, f1) := neon_update_clause bo boost bud cmp lmem lits pc pp nc np row ws o cnt r f in
    ws1 = ws /\ forall j, (j < 2 * lmem)%nat -> nth j row1 0 <= nth j row 0.
  Proof.
    intros bo boost bud cmp pc pp nc np row ws o cnt r f G VR. unfold neon_update_clause.
    set (out := if bo && (cnt >? bud) then 0 else o). clearbody out. intros Ho. destruct (draw_lt f pp) as [d1 f1].
    pose proof (neon_clause_update_keep boost cmp row (nth pc ws 0) 1 out r G VR) as A.
    pose proof (neon_clause_update_silent boost cmp row (nth pc ws 0) 1 out r G VR Ho) as S.
    destruct (neon_clause_update boost cmp lmem row (nth pc ws 0) 1 lits out r) as [[row' w'] r'].
    destruct A as [A1 A2]. destruct S as [S1 S2]. subst w'. rewrite set_nth_self.
    destruct d1; destruct (draw_lt f1 np) as [d2 f2];
      match goal with |- context [neon_clause_update ?a ?b ?c ?row ?w ?t ?l ?o ?r] =>
        pose proof (neon_clause_update_silent a b row w t o r ltac:(auto) ltac:(auto) Ho) as K2;
        destruct (neon_clause_update a b c row w t l o r) as [[row2 w2] r2]; destruct K2 as [K1 K2] end;
      subst w2; rewrite set_nth_self; destruct d2; (split; [reflexivity|]); intros j Hj; try (specialize (K2 j Hj)); try (specialize (S2 j Hj)); try lia.
  Qed.

  Lemma neon_update_loop_nth : forall bo boost bud cmp pc pp nc np rows wss outs counts r f,
    length wss = length rows -> length outs = length rows -> Forall nrow_good rows -> nvrng_ok r ->
    let '(rows2, wss2, outs2, r2, f2) := neon_update_loop bo boost bud cmp lmem lits pc pp nc np rows wss outs counts r f in
    length rows2 = length rows /\ length wss2 = length rows /\ length outs2 = length rows /\ Forall nrow_good rows2 /\ nvrng_ok r2 /\
    forall k, (k < length rows)%nat -> exists rk fk, nvrng_ok rk /\
      let t := neon_update_clause bo boost bud cmp lmem lits pc pp nc np (nth k rows []) (nth k wss []) (nth k outs 0) (nth k counts 0) rk fk in
      nth k rows2 [] = fst (fst (fst (fst t))) /\ nth k wss2 [] = snd (fst (fst (fst t))).
  Proof.
    intros bo boost bud cmp pc pp nc np rows. induction rows as [|row rows IH]; intros [|ws wss] [|o outs] counts r f H1 H2 G VR; cbn [length] in *; try lia.
    - cbn [neon_update_loop]. repeat split; auto. intros k Hk. lia.
    - cbn [neon_update_loop]. inversion G as [|? ? G1 G2]; subst.
      pose proof (neon_update_clause_keep bo boost bud cmp pc pp nc np row ws o (hd 0 counts) r f G1 VR) as A.
      destruct (neon_update_clause bo boost bud cmp lmem lits pc pp nc np row ws o (hd 0 counts) r f) as [[[[row1 ws1] o1] r1] f1] eqn:E1.
      destruct A as [A1 A2].
      specialize (IH wss outs (tl counts) r1 f1 ltac:(lia) ltac:(lia) G2 A2).
      destruct (neon_update_loop _ _ _ _ _ _ _ _ _ _ _ _ _ _ _ _) as [[[[rows2 wss2] outs2] r2] f2].
      destruct IH as [I1 [I2 [I3 [I4 [I5 I6]]]]]. cbn [length].
      split; [lia|]. split; [lia|]. split; [lia|]. split; [constructor; auto|]. split; [auto|].
      intros [|k] Hk.
      + exists r, f. split; [auto|]. cbn [nth]. replace (nth 0 counts 0) with (hd 0 counts) by (destruct counts; auto).
        rewrite E1. cbv zeta. auto.
      + destruct (I6 k ltac:(lia)) as [rk [fk [V Hrk]]]. exists rk, fk. split; [auto|]. cbn [nth]. rewrite nth_tl in Hrk. exact Hrk.
  Qed.

  (** Without any condition non the number of weights or outputs. *)
  Lemma neon_update_loop_keep : forall bo boost bud cmp pc pp nc np rows wss outs counts r f, Forall nrow_good rows -> nvrng_ok r ->
    let '(rows2, wss2, outs2, r2, f2) := neon_update_loop bo boost bud cmp lmem lits pc pp nc np rows wss outs counts r f in
    length rows2 = length rows /\ Forall nrow_good rows2 /\ nvrng_ok r2.
  Proof.
    intros bo boost bud cmp pc pp nc np rows. induction rows as [|row rows IH]; intros [|ws wss] [|o outs] counts r f G VR; cbn [neon_update_loop]; auto.
    inversion G as [|? ? G1 G2]; subst.
    pose proof (neon_update_clause_keep bo boost bud cmp pc pp nc np row ws o (hd 0 counts) r f G1 VR) as A.
    destruct (neon_update_clause bo boost bud cmp lmem lits pc pp nc np row ws o (hd 0 counts) r f) as [[[[row1 ws1] o1] r1] f1].
    destruct A as [A1 A2]. specialize (IH wss outs (tl counts) r1 f1 G2 A2).
    destruct (neon_update_loop _ _ _ _ _ _ _ _ _ _ _ _ _ _ _ _) as [[[[rows2 wss2] outs2] r2] f2].
    destruct IH as [I1 [I2 I3]]. cbn [length]. split; [lia|]. split; auto.
  Qed.
End Keep.

(** ** Blocks *)

(** Shape, every automaton (padding included) an int8, whole vectors drawn. *)
Definition neon_good (n : nat) (b : ablock) : Prop :=
  neon_ok n b /\ Forall row8 (a_rows b) /\ nvrng_ok (a_vrng b).

Lemma neon_good_rows : forall n b, neon_good n b -> Forall (nrow_good (nlmem_of n)) (a_rows b).
Proof.
  intros n b [[O1 O2 O3 O4 O5] [R8 _]]. apply Forall_forall. intros row Hr. rewrite Forall_forall in O5, R8.
  split; [apply O5|apply R8]; auto.
Qed.

Lemma neon_train_good : forall n lits b, neon_good n b -> neon_good n (fst (neon_train_ex lits b)).
Proof. intros n lits b [[O1 O2 O3 O4 O5] [H1 H2]]. split; [constructor; auto|split; auto]. Qed.

Lemma neon_eval_good : forall n lits b, neon_good n b -> neon_good n (fst (neon_eval_ex lits b)).
Proof. intros n lits b [[O1 O2 O3 O4 O5] [H1 H2]]. split; [constructor; auto|split; auto]. Qed.

Lemma neon_upd_good : forall n boost lits pc pp nc np b, (nlmem_of n <= length lits)%nat -> neon_good n b ->
  neon_good n (neon_upd boost lits pc pp nc np b).
Proof.
  intros n boost lits pc pp nc np b HL G. pose proof (neon_good_rows n b G) as GR. destruct G as [[O1 O2 O3 O4 O5] [H1 H2]].
  unfold neon_upd, neon_train_update.
  destruct (nlmem_of_facts n O1) as [F1 [F2 F3]].
  pose proof (neon_update_loop_keep lits (nlmem_of n) HL F3 true boost (a_budget b) (a_cmp b) pc pp nc np (a_rows b) (a_weights b) (a_outputs b) (a_counts b) (a_vrng b) (a_fast b) GR H2) as K.
  rewrite O3. destruct (neon_update_loop _ _ _ _ _ _ _ _ _ _ _ _ _ _ _ _) as [[[[rows2 wss2] outs2] r2] f2].
  destruct K as [K1 [K2 K3]]. split; [|split].
  - constructor; auto. cbn [a_rows]. apply Forall_forall. intros row Hr. rewrite Forall_forall in K2. apply K2. auto.
  - cbn [a_rows]. apply Forall_forall. intros row Hr. rewrite Forall_forall in K2. apply K2. auto.
  - auto.
Qed.

(** ** Over budget *)

Theorem neon_over_budget : forall n x lits b boost pc pp nc np, neon_good n b -> nbuffer_of n x lits -> binary x ->
  length (a_weights b) = length (a_rows b) ->
  let b' := neon_step boost lits pc pp nc np b in
  forall k, (k < length (a_rows b))%nat -> a_budget b < n_included (row_of (row_clause n (nlmem_of n) (nth k (a_rows b) []))) ->
    nth k (a_weights b') [] = nth k (a_weights b) [] /\
    forall j, (j < 2 * nlmem_of n)%nat -> nth j (nth k (a_rows b') []) 0 <= nth j (nth k (a_rows b) []) 0.
Proof.
  intros n x lits b boost pc pp nc np G Hb Hx HW b' k Hk Hbud.
  pose proof (neon_good_rows n b G) as GR. pose proof G as [OK [R8 VR]].
  pose proof OK as [O1 O2 O3 O4 O5]. destruct (nlmem_of_facts n O1) as [F1 [F2 F3]]. pose proof Hb as [B1 [B2 B3]].
  assert (Hrow : length (nth k (a_rows b) []) = (2 * nlmem_of n)%nat).
  { rewrite Forall_forall in O5. apply O5, nth_In; auto. }
  unfold b', neon_step, neon_upd, neon_train_update, neon_train_ex. cbn [fst].
  cbn [avx_count_votes neon_train_on a_nlit a_lmem a_mask a_ncls a_rows a_weights a_outputs a_counts a_votes a_budget a_cmp a_vrng a_fast].
  set (rs := map (neon_set_output lits (a_lmem b) (a_mask b)) (a_rows b)).
  set (cnts := map snd rs).
  assert (LR : length rs = length (a_rows b)) by (unfold rs; apply map_length).
  pose proof (neon_update_loop_nth lits (nlmem_of n) B2 F3 true boost (a_budget b) (a_cmp b) pc pp nc np (a_rows b) (a_weights b) (map fst rs) cnts (a_vrng b) (a_fast b)
    HW ltac:(rewrite map_length; auto) GR VR) as U.
  rewrite O3. destruct (neon_update_loop _ _ _ _ _ _ _ _ _ _ _ _ _ _ _ _) as [[[[rows2 wss2] outs2] r2] f2].
  destruct U as [U1 [U2 [U3 [U4 [U5 U6]]]]]. destruct (U6 k Hk) as [rk [fk [VK T]]]. cbv zeta in T.
  cbn [a_weights a_rows].
  assert (ER : nth k rs (0, 0) = neon_set_output lits (nlmem_of n) (nmask_of n) (nth k (a_rows b) [])).
  { unfold rs. rewrite O3, O4. rewrite (nth_indep _ (0, 0) (neon_set_output lits (nlmem_of n) (nmask_of n) [])) by (rewrite map_length; auto).
    apply (map_nth (neon_set_output lits (nlmem_of n) (nmask_of n))). }
  assert (EO : nth k (map fst rs) 0 = fst (nth k rs (0, 0))) by (apply (map_nth fst rs (0, 0))).
  assert (EC : nth k cnts 0 = snd (nth k rs (0, 0))).
  { apply (map_nth snd rs (0, 0)). }
  destruct (neon_set_output_scalar n x lits (nth k (a_rows b) []) O1 Hb Hx Hrow true) as [A1 A2]. rewrite <- ER in A1, A2.
  assert (Silent : (if true && (nth k cnts 0 >? a_budget b) then 0 else nth k (map fst rs) 0) <> 1).
  { cbn [andb]. rewrite EC, EO.
    destruct (Z.eq_dec (fst (nth k rs (0, 0))) 1) as [Ef|Ef].
    - rewrite A2 by congruence. rewrite A1 in Ef.
      assert (CN : snd (set_output true x (row_clause n (nlmem_of n) (nth k (a_rows b) []))) =
                   n_included (row_of (row_clause n (nlmem_of n) (nth k (a_rows b) [])))).
      { unfold n_included, row_of. apply (set_output_count n); auto; [apply nrc_pos_len|apply nrc_neg_len]; auto. }
      rewrite CN. replace (_ >? a_budget b) with true by lia. lia.
    - destruct (_ >? a_budget b); [lia|exact Ef]. }
  pose proof (neon_update_clause_silent lits (nlmem_of n) B2 F3 true boost (a_budget b) (a_cmp b) pc pp nc np (nth k (a_rows b) []) (nth k (a_weights b) [])
     (nth k (map fst rs) 0) (nth k cnts 0) rk fk) as S.
  destruct (neon_update_clause _ _ _ _ _ _ _ _ _ _ _ _ _ _ _ _) as [[[[row1 ws1] o1] r1] f1]. cbn [fst snd] in T.
  destruct T as [T1 T2]. destruct S as [S1 S2]; auto.
  { rewrite Forall_forall in GR. apply GR, nth_In; auto. }
  rewrite T1, T2. auto.
Qed.

Lemma neon_clause_update_delta : forall lits lmem boost cmp row w t o r, (lmem <= length lits)%nat -> lmem = (lmem / 16 * 16)%nat ->
  nrow_good lmem row -> nvrng_ok r ->
  within 1 row (fst (fst (neon_clause_update boost cmp lmem row w t lits o r))).
Proof.
  intros lits lmem boost cmp row w t o r Hlits Hdiv [G1 G2] VR. unfold neon_clause_update.
  destruct (t * (if w >=? 0 then 1 else -1) >? 0).
  - destruct (o =? 1).
    + pose proof (neon_t1a_exact cmp lits lmem Hlits Hdiv boost row r VR G1 G2) as A.
      destruct (neon_t1a boost cmp lits lmem row r) as [row' r']. destruct A as [A1 [A2 [A3 A4]]]. cbn [fst].
      apply (within_halves 1 lmem); auto; try lia. intros j Hj. destruct (A4 j Hj) as [E1 E2]. rewrite E1, E2.
      assert (D : forall b0 b1 b2 v, is_int8 v -> v - 1 <= t1a_lane b0 b1 b2 v <= v + 1)
        by (intros b0 b1 b2 v H; unfold t1a_lane, up8, down8, is_int8 in *; destruct b1, b2, b0; cbn [orb negb]; lia).
      split; apply D; apply row8_nth; auto.
    + pose proof (neon_t1b_exact cmp lits lmem Hlits Hdiv row r VR G1 G2) as A.
      destruct (neon_t1b cmp lmem row r) as [row' r']. destruct A as [A1 [A2 [A3 A4]]]. cbn [fst].
      apply (within_halves 1 lmem); auto; try lia. intros j Hj. destruct (A4 j Hj) as [E1 E2]. rewrite E1, E2.
      assert (D : forall b v, is_int8 v -> v - 1 <= t1b_lane b v <= v + 1)
        by (intros b v H; unfold t1b_lane, down8, is_int8 in *; destruct b; lia).
      split; apply D; apply row8_nth; auto.
  - destruct ((t * (if w >=? 0 then 1 else -1) <? 0) && (o =? 1)).
    + destruct (neon_t2_exact lits lmem Hlits Hdiv row G1 G2) as [A1 [A2 A3]]. cbn [fst].
      apply (within_halves 1 lmem); auto; try lia. intros j Hj. destruct (A3 j Hj) as [E1 E2]. rewrite E1, E2.
      assert (D : forall b v, v - 1 <= t2_lane b v <= v + 1) by (intros b v; unfold t2_lane; destruct (b && (v <? 0)); lia).
      split; apply D.
    + cbn [fst]. intros j. lia.
Qed.

Lemma neon_update_clause_delta : forall lits lmem bo boost bud cmp pc pp nc np row ws o cnt r f, (lmem <= length lits)%nat ->
  lmem = (lmem / 16 * 16)%nat -> nrow_good lmem row -> nvrng_ok r ->
  within 2 row (fst (fst (fst (fst (neon_update_clause bo boost bud cmp lmem lits pc pp nc np row ws o cnt r f))))).
Proof.
  intros lits lmem bo boost bud cmp pc pp nc np row ws o cnt r f HL HD G VR. unfold neon_update_clause.
  set (out := if bo && (cnt >? bud) then 0 else o). clearbody out. destruct (draw_lt f pp) as [d1 f1].
  pose proof (neon_clause_update_keep lits lmem HL HD boost cmp row (nth pc ws 0) 1 out r G VR) as A.
  pose proof (neon_clause_update_delta lits lmem boost cmp row (nth pc ws 0) 1 out r HL HD G VR) as S.
  destruct (neon_clause_update boost cmp lmem row (nth pc ws 0) 1 lits out r) as [[row' w'] r'].
  destruct A as [A1 A2]. cbn [fst] in S.
  destruct d1; destruct (draw_lt f1 np) as [d2 f2];
    match goal with |- context [neon_clause_update ?a ?b ?c ?row ?w ?t ?l ?o ?r] =>
      pose proof (neon_clause_update_delta l c a b row w t o r HL HD ltac:(auto) ltac:(auto)) as K2;
      destruct (neon_clause_update a b c row w t l o r) as [[row2 w2] r2]; cbn [fst] in K2 end;
    destruct d2; cbn [fst]; intros j; specialize (S j); specialize (K2 j); lia.
Qed.

Theorem neon_step_delta : forall n lits b boost pc pp nc np, neon_good n b -> (nlmem_of n <= length lits)%nat ->
  length (a_weights b) = length (a_rows b) ->
  let b' := neon_step boost lits pc pp nc np b in
  forall k, (k < length (a_rows b))%nat -> within 2 (nth k (a_rows b) []) (nth k (a_rows b') []).
Proof.
  intros n lits b boost pc pp nc np G HL HW b' k Hk.
  pose proof (neon_good_rows n b G) as GR. pose proof G as [OK [R8 VR]].
  pose proof OK as [O1 O2 O3 O4 O5]. destruct (nlmem_of_facts n O1) as [F1 [F2 F3]].
  unfold b', neon_step, neon_upd, neon_train_update, neon_train_ex. cbn [fst].
  cbn [avx_count_votes neon_train_on a_nlit a_lmem a_mask a_ncls a_rows a_weights a_outputs a_counts a_votes a_budget a_cmp a_vrng a_fast].
  set (rs := map (neon_set_output lits (a_lmem b) (a_mask b)) (a_rows b)).
  set (cnts := map snd rs).
  assert (LR : length rs = length (a_rows b)) by (unfold rs; apply map_length).
  pose proof (neon_update_loop_nth lits (nlmem_of n) HL F3 true boost (a_budget b) (a_cmp b) pc pp nc np (a_rows b) (a_weights b) (map fst rs) cnts (a_vrng b) (a_fast b)
    HW ltac:(rewrite map_length; auto) GR VR) as U.
  rewrite O3. destruct (neon_update_loop _ _ _ _ _ _ _ _ _ _ _ _ _ _ _ _) as [[[[rows2 wss2] outs2] r2] f2].
  destruct U as [U1 [U2 [U3 [U4 [U5 U6]]]]]. destruct (U6 k Hk) as [rk [fk [VK T]]]. cbv zeta in T. cbn [a_rows].
  destruct T as [T1 _]. rewrite T1. apply neon_update_clause_delta; auto.
  rewrite Forall_forall in GR. apply GR, nth_In; auto.
Qed.

(** ** Initialisation *)

Lemma neon_init_lits_good : forall n r, let '(p, q, _) := neon_init_lits n r in
  length p = n /\ length q = n /\ Forall (fun v => v = 0 \/ v = -1) p /\ Forall (fun v => v = 0 \/ v = -1) q.
Proof.
  induction n as [|n IH]; intros r; cbn [neon_init_lits]; [repeat split; constructor|].
  destruct (next_u r) as [u r1]. destruct (next_u r1) as [v r2]. specialize (IH r2).
  destruct (neon_init_lits n r2) as [[p q] r3]. destruct IH as [I1 [I2 [I3 I4]]]. cbn [length].
  split; [lia|]. split; [lia|]. split; constructor; auto.
  - destruct (Qle_bool u (1#2)); auto.
  - destruct (Qle_bool v (1#2)); auto.
Qed.

Lemma neon_init_rows_good : forall n ncl r, (0 < n)%nat -> Forall (nrow_good (nlmem_of n)) (fst (neon_init_rows n ncl r)) /\
  length (fst (neon_init_rows n ncl r)) = ncl.
Proof.
  intros n ncl. induction ncl as [|k IH]; intros r Hn; cbn [neon_init_rows]; [split; [constructor|reflexivity]|].
  unfold neon_init_row. pose proof (neon_init_lits_good n r) as A. destruct (neon_init_lits n r) as [[p q] r1].
  destruct A as [A1 [A2 [A3 A4]]]. specialize (IH r1 Hn). destruct (neon_init_rows n k r1) as [t r2]. cbn [fst length] in *.
  destruct IH as [I1 I2]. split; [|lia]. constructor; auto. pose proof (nlmem_of_facts n Hn) as [F1 [F2 F3]]. split.
  - rewrite !app_length, !repeat_length. lia.
  - unfold row8, is_int8.
    assert (Z1 : forall l, Forall (fun v => v = 0 \/ v = -1) l -> Forall (fun v => -128 <= v <= 127) l)
      by (intros l; apply Forall_impl; intros; lia).
    assert (Z2 : forall z m, -128 <= z <= 127 -> Forall (fun v => -128 <= v <= 127) (repeat z m))
      by (intros z m Hz; apply Forall_forall; intros v Hv; apply repeat_spec in Hv; lia).
    repeat (apply Forall_app; split); auto; apply Z2; lia.
Qed.

Theorem neon_initialize_good : forall vec_of std_of fast_of junk n ncl ncls budget s seed b, (0 < n)%nat -> (forall z, nvrng_ok (vec_of z)) ->
  neon_initialize vec_of std_of fast_of junk n ncl ncls budget s seed = Some b -> neon_good n b /\ length (a_rows b) = ncl.
Proof.
  intros vec_of std_of fast_of junk n ncl ncls budget s seed b Hn HV. unfold neon_initialize. destruct (seed =? 0); [discriminate|].
  pose proof (neon_init_rows_good n ncl (std_of seed) Hn) as A. destruct (neon_init_rows n ncl (std_of seed)) as [rows f].
  destruct A as [A1 A2]. cbn [fst] in *. destruct (init_weights ncls ncl f) as [ws f2]. intros H. injection H as <-.
  cbn [a_rows]. split; [|auto]. split; [|split].
  - constructor; auto. cbn [a_rows]. apply Forall_forall. intros row Hr. rewrite Forall_forall in A1. apply A1; auto.
  - cbn [a_rows]. apply Forall_forall. intros row Hr. rewrite Forall_forall in A1. apply A1; auto.
  - apply HV.
Qed.

