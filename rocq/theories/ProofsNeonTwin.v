(** NEON: literals eight places apart share their random bytes. *)
From Coq Require Import ZArith Arith List Bool QArith Lia ZifyBool.
From Verif Require Import Base BaseProofs Spec SpecLearning ModelInference ModelDense ModelLayout ModelFeedback ModelExecutor ModelDenseExec ModelAvx2 ModelNeon
  SpecAvx2 SpecNeon ProofsClause ProofsLayout ProofsEval ProofsLearning ProofsStep ProofsExecutor
  ProofsAvx2 ProofsAvx2Scalar ProofsAvx2Step ProofsAvx2Hist ProofsNeon ProofsNeonScalar ProofsNeonStep ProofsNeonHist.
Import ListNotations.
Open Scope Z_scope.

Lemma twin_divmod : forall j, (j mod 16 < 8)%nat -> ((j + 8) / 16 = j / 16)%nat /\ ((j + 8) mod 16 = j mod 16 + 8)%nat.
Proof.
  intros j H. pose proof (Nat.div_mod j 16 ltac:(lia)) as D. set (q := (j / 16)%nat) in *. set (m := (j mod 16)%nat) in *.
  replace (j + 8)%nat with (q * 16 + (m + 8))%nat by lia. split.
  - rewrite Nat.div_add_l by lia. rewrite (Nat.div_small (m + 8)) by lia. lia.
  - rewrite Nat.add_comm, Nat.mod_add by lia. apply Nat.mod_small. lia.
Qed.

Lemma twin_hit : forall cmp r half j, twin_rng r -> (j mod 16 < 8)%nat -> nhit cmp r half (j + 8) = nhit cmp r half j.
Proof.
  intros cmp r half j T H. unfold nhit, vdraw. destruct (twin_divmod j H) as [E1 E2]. rewrite E1, E2, T by lia. reflexivity.
Qed.

Section Twin.
  Variables (n : nat) (lits : list Z).
  Hypothesis Hn : (0 < n)%nat.
  Notation lmem := (nlmem_of n).
  Hypothesis Hlits : (lmem <= length lits)%nat.
  Hypothesis Htw : forall j, twins n j -> nth j lits 0 = nth (j + 8) lits 0.

  Definition twin_row (row : list Z) : Prop :=
    forall j, twins n j -> nth j row 0 = nth (j + 8) row 0 /\ nth (lmem + j) row 0 = nth (lmem + (j + 8)) row 0.

  Lemma twin_in : forall j, twins n j -> (j < lmem)%nat /\ (j + 8 < lmem)%nat.
  Proof. intros j [_ H]. destruct (nlmem_of_facts n Hn) as [_ [F _]]. lia. Qed.

  Lemma neon_clause_update_twin : forall boost cmp row w t o r, nrow_good lmem row -> nvrng_ok r -> twin_rng r -> twin_row row ->
    let '(row', w', r') := neon_clause_update boost cmp lmem row w t lits o r in twin_row row' /\ twin_rng r'.
  Proof.
    intros boost cmp row w t o r [G1 G2] VR TR TW. destruct (nlmem_of_facts n Hn) as [F1 [F2 F3]]. unfold neon_clause_update.
    assert (EV : forall j, twins n j -> non lits (j + 8) = non lits j /\ noff0 lits (j + 8) = noff0 lits j).
    { intros j J. unfold non, noff0. rewrite <- (Htw j J). auto. }
    destruct (t * (if w >=? 0 then 1 else -1) >? 0).
    - destruct (o =? 1).
      + pose proof (neon_t1a_exact cmp lits lmem Hlits F3 boost row r VR G1 G2) as A.
        destruct (neon_t1a boost cmp lits lmem row r) as [row' r']. destruct A as [A1 [A2 [A3 A4]]]. subst r'.
        split; [|intros k i Hi; apply TR; auto]. intros j J. destruct (twin_in j J) as [I1 I2].
        destruct (A4 j I1) as [E1 E2]. destruct (A4 (j + 8)%nat I2) as [E3 E4]. rewrite E1, E2, E3, E4.
        destruct (EV j J) as [V _]. rewrite V, !twin_hit by (auto; apply J). destruct (TW j J) as [W1 W2]. rewrite W1, W2. auto.
      + pose proof (neon_t1b_exact cmp lits lmem Hlits F3 row r VR G1 G2) as A.
        destruct (neon_t1b cmp lmem row r) as [row' r']. destruct A as [A1 [A2 [A3 A4]]]. subst r'.
        split; [|intros k i Hi; apply TR; auto]. intros j J. destruct (twin_in j J) as [I1 I2].
        destruct (A4 j I1) as [E1 E2]. destruct (A4 (j + 8)%nat I2) as [E3 E4]. rewrite E1, E2, E3, E4.
        rewrite !twin_hit by (auto; apply J). destruct (TW j J) as [W1 W2]. rewrite W1, W2. auto.
    - destruct ((t * (if w >=? 0 then 1 else -1) <? 0) && (o =? 1)); [|auto].
      destruct (neon_t2_exact lits lmem Hlits F3 row G1 G2) as [A1 [A2 A4]]. split; [|auto].
      intros j J. destruct (twin_in j J) as [I1 I2].
      destruct (A4 j I1) as [E1 E2]. destruct (A4 (j + 8)%nat I2) as [E3 E4]. rewrite E1, E2, E3, E4.
      destruct (EV j J) as [_ V]. rewrite V. destruct (TW j J) as [W1 W2]. rewrite W1, W2. auto.
  Qed.

  Lemma neon_update_clause_twin : forall bo boost bud cmp pc pp nc np row ws o cnt r f, nrow_good lmem row -> nvrng_ok r -> twin_rng r -> twin_row row ->
    let '(row1, ws1, o1, r1, f1) := neon_update_clause bo boost bud cmp lmem lits pc pp nc np row ws o cnt r f in
    twin_row row1 /\ twin_rng r1.
  Proof.
    intros bo boost bud cmp pc pp nc np row ws o cnt r f G VR TR TW. destruct (nlmem_of_facts n Hn) as [F1 [F2 F3]].
    unfold neon_update_clause.
    set (out := if bo && (cnt >? bud) then 0 else o). clearbody out. destruct (draw_lt f pp) as [d1 f1].
    pose proof (neon_clause_update_keep lits lmem Hlits F3 boost cmp row (nth pc ws 0) 1 out r G VR) as A.
    pose proof (neon_clause_update_twin boost cmp row (nth pc ws 0) 1 out r G VR TR TW) as S.
    destruct (neon_clause_update boost cmp lmem row (nth pc ws 0) 1 lits out r) as [[row' w'] r'].
    destruct A as [A1 A2]. destruct S as [S1 S2].
    destruct d1; destruct (draw_lt f1 np) as [d2 f2];
      match goal with |- context [neon_clause_update ?a ?b ?c ?row ?w ?t ?l ?o ?r] =>
        pose proof (neon_clause_update_twin a b row w t o r ltac:(auto) ltac:(auto) ltac:(auto) ltac:(auto)) as K2;
        destruct (neon_clause_update a b c row w t l o r) as [[row2 w2] r2]; destruct K2 as [K1 K2] end;
      destruct d2; auto.
  Qed.

  Lemma neon_update_loop_twin : forall bo boost bud cmp pc pp nc np rows wss outs counts r f,
    Forall (nrow_good lmem) rows -> nvrng_ok r -> twin_rng r -> Forall twin_row rows ->
    let '(rows2, wss2, outs2, r2, f2) := neon_update_loop bo boost bud cmp lmem lits pc pp nc np rows wss outs counts r f in
    Forall twin_row rows2 /\ twin_rng r2.
  Proof.
    intros bo boost bud cmp pc pp nc np rows. destruct (nlmem_of_facts n Hn) as [F1 [F2 F3]].
    induction rows as [|row rows IH]; intros [|ws wss] [|o outs] counts r f G VR TR TW; cbn [neon_update_loop]; auto.
    inversion G as [|? ? G1 G2]; subst. inversion TW as [|? ? T1 T2]; subst.
    pose proof (neon_update_clause_keep lits lmem Hlits F3 bo boost bud cmp pc pp nc np row ws o (hd 0 counts) r f G1 VR) as A.
    pose proof (neon_update_clause_twin bo boost bud cmp pc pp nc np row ws o (hd 0 counts) r f G1 VR TR T1) as S.
    destruct (neon_update_clause bo boost bud cmp lmem lits pc pp nc np row ws o (hd 0 counts) r f) as [[[[row1 ws1] o1] r1] f1].
    destruct A as [A1 A2]. destruct S as [S1 S2]. specialize (IH wss outs (tl counts) r1 f1 G2 A2 S2 T2).
    destruct (neon_update_loop _ _ _ _ _ _ _ _ _ _ _ _ _ _ _ _) as [[[[rows2 wss2] outs2] r2] f2].
    destruct IH as [I1 I2]. split; auto.
  Qed.
End Twin.

(** A block of twins. *)
Definition twin_block (n : nat) (b : ablock) : Prop :=
  neon_good n b /\ twin_rng (a_vrng b) /\ Forall (twin_row n) (a_rows b).

Lemma neon_train_twin : forall n lits b, twin_block n b -> twin_block n (fst (neon_train_ex lits b)).
Proof. intros n lits b [G [T1 T2]]. split; [apply neon_train_good; auto|split; auto]. Qed.

Lemma neon_eval_twin : forall n lits b, twin_block n b -> twin_block n (fst (neon_eval_ex lits b)).
Proof. intros n lits b [G [T1 T2]]. split; [apply neon_eval_good; auto|split; auto]. Qed.

Lemma neon_upd_twin : forall n boost lits pc pp nc np b, (nlmem_of n <= length lits)%nat ->
  (forall j, twins n j -> nth j lits 0 = nth (j + 8) lits 0) -> twin_block n b ->
  twin_block n (neon_upd boost lits pc pp nc np b).
Proof.
  intros n boost lits pc pp nc np b HL HT [G [T1 T2]]. split; [apply neon_upd_good; auto|].
  pose proof (neon_good_rows n b G) as GR. destruct G as [[O1 O2 O3 O4 O5] [H1 H2]].
  unfold neon_upd, neon_train_update.
  pose proof (neon_update_loop_twin n lits O1 HL HT true boost (a_budget b) (a_cmp b) pc pp nc np (a_rows b) (a_weights b) (a_outputs b) (a_counts b) (a_vrng b) (a_fast b) GR H2 T1 T2) as K.
  rewrite O3. destruct (neon_update_loop _ _ _ _ _ _ _ _ _ _ _ _ _ _ _ _) as [[[[rows2 wss2] outs2] r2] f2].
  destruct K as [K1 K2]. split; auto.
Qed.

(** In terms of the clauses. *)
Lemma twin_row_clause : forall n row, (0 < n)%nat -> length row = (2 * nlmem_of n)%nat ->
  (twin_row n row <-> twin_clause n (row_clause n (nlmem_of n) row)).
Proof.
  intros n row Hn HL. unfold twin_row, twin_clause.
  assert (E : forall j, twins n j -> nth j (cl_pos (row_clause n (nlmem_of n) row)) 0 = nth j row 0 /\
    nth (j + 8) (cl_pos (row_clause n (nlmem_of n) row)) 0 = nth (j + 8) row 0 /\
    nth j (cl_neg (row_clause n (nlmem_of n) row)) 0 = nth (nlmem_of n + j) row 0 /\
    nth (j + 8) (cl_neg (row_clause n (nlmem_of n) row)) 0 = nth (nlmem_of n + (j + 8)) row 0).
  { intros j [_ J]. rewrite !(nrc_pos_nth n row Hn HL), !(nrc_neg_nth n row Hn HL) by lia. auto. }
  split; intros H j J; destruct (E j J) as [E1 [E2 [E3 E4]]]; specialize (H j J).
  - rewrite E1, E2, E3, E4. exact H.
  - rewrite E1, E2, E3, E4 in H. exact H.
Qed.
