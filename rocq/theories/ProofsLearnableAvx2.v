(** Without boosting the AVX2 block can make every step of the scalar block. *)
From Coq Require Import ZArith List Bool QArith Lia ZifyBool.
From Verif Require Import Base BaseProofs Spec SpecLearning SpecLearnable SpecAvx2 SpecLearnableAvx2 ModelInference ModelDense ModelDenseExec ModelAvx2
  ProofsInput ProofsLayout ProofsExecutor ProofsDenseExec ProofsLayout ProofsClause ProofsEval ProofsLearning ProofsStep ProofsLearnable ProofsAvx2 ProofsAvx2Scalar ProofsAvx2Step ProofsAvx2Hist.
Import ListNotations.
Open Scope Z_scope.

(** The vectors that make exactly the wanted lanes hit. *)
Definition hits (hp hn : nat -> bool) (k : nat) : vec :=
  map (fun i => if (if Nat.even k then hp else hn) (k / 2 * 32 + i)%nat then -128 else 127) (seq 0 32).
Lemma hits_length : forall hp hn k, length (hits hp hn k) = 32%nat.
Proof. intros. unfold hits. rewrite map_length. apply seq_length. Qed.
Lemma hits_hit : forall hp hn cmp src pos m j, -127 <= cmp <= 127 -> (forall i, (i < 2 * m)%nat -> src (pos + i)%nat = hits hp hn i) -> (j < m * 32)%nat ->
  hit cmp (mkVrng src pos) 0 j = hp j /\ hit cmp (mkVrng src pos) 1 j = hn j.
Proof.
  intros hp hn cmp src pos m j Hc H Hj. pose proof (Nat.div_mod j 32 ltac:(lia)) as D. pose proof (Nat.mod_upper_bound j 32 ltac:(lia)) as M.
  assert (B : (j / 32 < m)%nat) by (apply Nat.div_lt_upper_bound; lia).
  unfold hit, vdraw. cbn [vr_src vr_pos]. rewrite !H by lia. unfold hits. rewrite !nth_map_seq by lia. rewrite Nat.add_0_r.
  replace (Nat.even (2 * (j / 32))) with true by (symmetry; apply Nat.even_spec; exists (j / 32)%nat; reflexivity).
  replace (Nat.even (2 * (j / 32) + 1)) with false by (rewrite Nat.even_add, Nat.even_mul; reflexivity).
  replace (2 * (j / 32) / 2)%nat with (j / 32)%nat by (rewrite Nat.mul_comm, Nat.div_mul; lia).
  replace ((2 * (j / 32) + 1) / 2)%nat with (j / 32)%nat by (rewrite Nat.mul_comm, Nat.div_add_l by lia; cbn; lia).
  replace (j / 32 * 32 + j mod 32)%nat with j by lia.
  destruct (hp j), (hn j); split; lia.
Qed.

Section Sim.
  Variables (n : nat) (x lits : list Z) (si sm : Q) (cmp : Z).
  Hypothesis Hn : (0 < n)%nat.
  Hypothesis Hbuf : buffer_of n x lits.
  Hypothesis Hbin : binary x.
  Hypothesis Hcmp : -127 <= cmp <= 127.
  Variable boost : bool.
  Hypothesis Hrates : boost = true -> (0 <= si)%Q /\ (0 <= sm)%Q.
  Notation lmem := (lmem_of n).
  Notation cl := (row_clause n lmem).

  Lemma row_clause_ext : forall row ps qs, length row = (2 * lmem)%nat -> length ps = n -> length qs = n ->
    (forall j, (j < n)%nat -> nth j row 0 = nth j ps 0 /\ nth (lmem + j) row 0 = nth j qs 0) -> cl row = mkClause ps qs.
  Proof.
    intros row ps qs L1 L2 L3 H. pose proof (rc_pos_len n row Hn L1) as P1. pose proof (rc_neg_len n row Hn L1) as P2.
    assert (E1 : cl_pos (cl row) = ps).
    { apply (nth_ext _ _ 0 0); [congruence|]. intros j Hj. rewrite P1 in Hj. rewrite (rc_pos_nth n row Hn L1) by auto. apply H; auto. }
    assert (E2 : cl_neg (cl row) = qs).
    { apply (nth_ext _ _ 0 0); [congruence|]. intros j Hj. rewrite P2 in Hj. rewrite (rc_neg_nth n row Hn L1) by auto. apply H; auto. }
    unfold row_clause in *. cbn [cl_pos cl_neg] in *. congruence.
  Qed.
  Lemma lits_on : forall j, (j < n)%nat -> on lits j = (nth j x 0 =? 1) /\ off0 lits j = (nth j x 0 =? 0) /\ (nth j x 0 = 0 \/ nth j x 0 = 1).
  Proof.
    intros j Hj. destruct Hbuf as [B1 [B2 B3]].
    assert (E : nth j lits 0 = nth j x 0) by (rewrite <- B3; now rewrite nth_firstn_lt by lia).
    assert (K : nth j x 0 = 0 \/ nth j x 0 = 1) by (apply nth_binary; [auto|lia]).
    unfold on, off0. rewrite E. destruct K as [K|K]; rewrite K; auto.
  Qed.
  Lemma halves_eq : forall r1 r2, length r1 = (2 * lmem)%nat -> length r2 = (2 * lmem)%nat ->
    (forall j, (j < lmem)%nat -> nth j r1 0 = nth j r2 0 /\ nth (lmem + j) r1 0 = nth (lmem + j) r2 0) -> r1 = r2.
  Proof.
    intros r1 r2 L1 L2 H. apply (nth_ext _ _ 0 0); [congruence|]. intros j Hj. destruct (Nat.lt_ge_cases j lmem) as [B|B]; [apply H; auto|].
    replace j with (lmem + (j - lmem))%nat by lia. apply H. lia.
  Qed.
  Lemma t1a_same : forall row hp hn src pos, row_good lmem row -> vrng_ok (mkVrng src pos) -> (forall i, (i < 2 * (lmem / 32))%nat -> src (pos + i)%nat = hits hp hn i) ->
    avx_t1a boost cmp lits lmem row (mkVrng src pos) = (fst (avx_t1a boost cmp lits lmem row (mkVrng (hits hp hn) 0)), mkVrng src (pos + 2 * (lmem / 32))).
  Proof.
    intros row hp hn src pos [G1 G2] VR HV. destruct (lmem_of_facts n Hn) as [F1 [F2 F3]]. destruct Hbuf as [B1 [B2 B3]].
    pose proof (avx_t1a_exact cmp lits lmem B2 F3 boost row (mkVrng src pos) VR G1 G2) as A.
    pose proof (avx_t1a_exact cmp lits lmem B2 F3 boost row (mkVrng (hits hp hn) 0) (fun k => hits_length hp hn k) G1 G2) as B.
    destruct (avx_t1a boost cmp lits lmem row (mkVrng src pos)) as [r1 v1]. destruct (avx_t1a boost cmp lits lmem row (mkVrng (hits hp hn) 0)) as [r2 v2].
    destruct A as [A1 [A2 [A3 A4]]], B as [C1 [C2 [C3 C4]]]. cbn [fst]. f_equal; [|exact A3]. apply halves_eq; auto.
    intros j Hj. destruct (A4 j Hj) as [E1 E2]. destruct (C4 j Hj) as [E3 E4]. rewrite E1, E2, E3, E4.
    destruct (hits_hit hp hn cmp src pos (lmem / 32) j Hcmp HV ltac:(lia)) as [H1 H2].
    destruct (hits_hit hp hn cmp (hits hp hn) 0 (lmem / 32) j Hcmp ltac:(intros; reflexivity) ltac:(lia)) as [H3 H4]. rewrite H1, H2, H3, H4. auto.
  Qed.
  Lemma t1b_same : forall row hp hn src pos, row_good lmem row -> vrng_ok (mkVrng src pos) -> (forall i, (i < 2 * (lmem / 32))%nat -> src (pos + i)%nat = hits hp hn i) ->
    avx_t1b cmp lmem row (mkVrng src pos) = (fst (avx_t1b cmp lmem row (mkVrng (hits hp hn) 0)), mkVrng src (pos + 2 * (lmem / 32))).
  Proof.
    intros row hp hn src pos [G1 G2] VR HV. destruct (lmem_of_facts n Hn) as [F1 [F2 F3]]. destruct Hbuf as [B1 [B2 B3]].
    pose proof (avx_t1b_exact cmp lits lmem B2 F3 row (mkVrng src pos) VR G1 G2) as A.
    pose proof (avx_t1b_exact cmp lits lmem B2 F3 row (mkVrng (hits hp hn) 0) (fun k => hits_length hp hn k) G1 G2) as B.
    destruct (avx_t1b cmp lmem row (mkVrng src pos)) as [r1 v1]. destruct (avx_t1b cmp lmem row (mkVrng (hits hp hn) 0)) as [r2 v2].
    destruct A as [A1 [A2 [A3 A4]]], B as [C1 [C2 [C3 C4]]]. cbn [fst]. f_equal; [|exact A3]. apply halves_eq; auto.
    intros j Hj. destruct (A4 j Hj) as [E1 E2]. destruct (C4 j Hj) as [E3 E4]. rewrite E1, E2, E3, E4.
    destruct (hits_hit hp hn cmp src pos (lmem / 32) j Hcmp HV ltac:(lia)) as [H1 H2].
    destruct (hits_hit hp hn cmp (hits hp hn) 0 (lmem / 32) j Hcmp ltac:(intros; reflexivity) ltac:(lia)) as [H3 H4]. rewrite H1, H2, H3, H4. auto.
  Qed.

  Definition follows (src : nat -> vec) (pos m : nat) (V : nat -> vec) : Prop :=
    vrng_ok (mkVrng src pos) /\ forall i, (i < m)%nat -> src (pos + i)%nat = V i.

  Lemma zero_pos : forall r k, zero_draws r -> zero_draws (advance k r).
  Proof. intros r k H i. apply H. Qed.
  Lemma zero_low : forall r k q, zero_draws r -> (0 <= q)%Q -> Qle_bool (draw r k) q = true.
  Proof. intros r k q H Hq. apply Qle_bool_iff. unfold draw. rewrite H. exact Hq. Qed.

  Lemma sim_update : forall row w t o r, row_good lmem row -> (boost = true -> zero_draws r) ->
    let '(c', w', r') := clause_update boost si sm (cl row) w t x o r in
    (boost = true -> zero_draws r') /\ exists m V row', (forall i, length (V i) = 32%nat) /\ cl row' = c' /\ row_good lmem row' /\ forall src pos, follows src pos m V ->
      avx_clause_update boost cmp lmem row w t lits o (mkVrng src pos) = (row', w', mkVrng src (pos + m)).
  Proof.
    intros row w t o r [G1 G2] HZ. destruct (lmem_of_facts n Hn) as [F1 [F2 F3]]. pose proof Hbuf as [B1 [B2 B3]].
    pose proof (rc_pos_len n row Hn G1) as LP. pose proof (rc_neg_len n row Hn G1) as LN.
    assert (NP : forall j, (j < n)%nat -> nth j (cl_pos (cl row)) 0 = nth j row 0) by (intros; apply (rc_pos_nth n row Hn G1); auto).
    assert (NN : forall j, (j < n)%nat -> nth j (cl_neg (cl row)) 0 = nth (lmem + j) row 0) by (intros; apply (rc_neg_nth n row Hn G1); auto).
    assert (I8 : forall j, is_int8 (nth j row 0)) by (intros; apply row8_nth; auto).
    assert (IP : int8s (cl_pos (cl row))).
    { apply Forall_forall. intros v Hv. apply (In_nth _ _ 0) in Hv. destruct Hv as [j [Hj <-]]. rewrite NP by lia. apply I8. }
    assert (IN : int8s (cl_neg (cl row))).
    { apply Forall_forall. intros v Hv. apply (In_nth _ _ 0) in Hv. destruct Hv as [j [Hj <-]]. rewrite NN by lia. apply I8. }
    unfold clause_update, avx_clause_update. destruct (t * (if w >=? 0 then 1 else -1) >? 0).
    - destruct (o =? 1).
      + pose proof (type1a_exact boost si sm x (cl_pos (cl row)) (cl_neg (cl row)) r ltac:(lia) ltac:(lia) IP IN) as X.
        destruct (type1a _ _ _ _ _ _ _) as [[ps qs] r']. destruct X as [X1 [X2 [X3 [X4 X5]]]]. split; [intros E; rewrite X5; apply zero_pos; auto|].
        set (hp := fun j => if on lits j then nth j ps 0 =? nth j row 0 else negb (nth j ps 0 =? nth j row 0)).
        set (hn := fun j => if on lits j then negb (nth j qs 0 =? nth (lmem + j) row 0) else nth j qs 0 =? nth (lmem + j) row 0).
        exists (2 * (lmem / 32))%nat, (hits hp hn), (fst (avx_t1a boost cmp lits lmem row (mkVrng (hits hp hn) 0))).
        split; [intros; apply hits_length|].
        assert (T : cl (fst (avx_t1a boost cmp lits lmem row (mkVrng (hits hp hn) 0))) = mkClause ps qs /\ row_good lmem (fst (avx_t1a boost cmp lits lmem row (mkVrng (hits hp hn) 0)))).
        { pose proof (avx_t1a_exact cmp lits lmem B2 F3 boost row (mkVrng (hits hp hn) 0) (fun k => hits_length hp hn k) G1 G2) as A.
          destruct (avx_t1a _ _ _ _ _ _) as [row' vr']. destruct A as [A1 [A2 [A3 A4]]]. cbn [fst]. split; [|split; auto].
          apply row_clause_ext; auto; try lia. intros j Hj. destruct (A4 j ltac:(lia)) as [E1 E2]. rewrite E1, E2.
          destruct (hits_hit hp hn cmp (hits hp hn) 0 (lmem / 32) j Hcmp ltac:(intros; reflexivity) ltac:(lia)) as [H1 H2]. rewrite H1, H2. unfold hp, hn.
          destruct (lits_on j Hj) as [O1 [_ O2]]. rewrite O1. rewrite X3, X4, NP, NN by lia. unfold t1a_new_pos, t1a_new_neg. cbv zeta.
          pose proof (I8 j) as J1. pose proof (I8 (lmem + j)%nat) as J2.
          assert (Low : boost = true -> forall d, Qle_bool (draw r d) si = true /\ Qle_bool (draw r d) sm = true) by (intros E d; destruct (Hrates E); split; apply zero_low; auto).
          clear - J1 J2 O2 Low. destruct boost; [specialize (Low eq_refl)|clear Low]; [rewrite ?(fun d => proj1 (Low d)), ?(fun d => proj2 (Low d)); clear Low|]; generalize dependent (nth j row 0); generalize dependent (nth (lmem + j) row 0); intros q Jq p Jp;
          destruct O2 as [-> | ->]; cbn [Z.eqb Pos.eqb orb];
            repeat match goal with |- context [Qle_bool ?a ?b] => destruct (Qle_bool a b) end;
            unfold t1a_lane, up8, down8, step_up, step_down, is_int8 in *; cbn [orb negb];
            split; repeat match goal with |- context [if ?c then _ else _] => destruct c eqn:?; cbn [negb orb] in * end; lia. }
        destruct T as [T1 T2]. split; [exact T1|]. split; [exact T2|]. intros src pos [VR HV].
        rewrite (t1a_same row hp hn src pos (conj G1 G2) VR HV). reflexivity.
      + pose proof (type1b_exact si (cl_pos (cl row)) (cl_neg (cl row)) r ltac:(lia) IP IN) as X.
        destruct (type1b _ _ _ _) as [[ps qs] r']. destruct X as [X1 [X2 [X3 [X4 X5]]]]. split; [intros E; rewrite X5; apply zero_pos; auto|].
        set (hp := fun j => negb (nth j ps 0 =? nth j row 0)). set (hn := fun j => negb (nth j qs 0 =? nth (lmem + j) row 0)).
        exists (2 * (lmem / 32))%nat, (hits hp hn), (fst (avx_t1b cmp lmem row (mkVrng (hits hp hn) 0))).
        split; [intros; apply hits_length|].
        assert (T : cl (fst (avx_t1b cmp lmem row (mkVrng (hits hp hn) 0))) = mkClause ps qs /\ row_good lmem (fst (avx_t1b cmp lmem row (mkVrng (hits hp hn) 0)))).
        { pose proof (avx_t1b_exact cmp lits lmem B2 F3 row (mkVrng (hits hp hn) 0) (fun k => hits_length hp hn k) G1 G2) as A.
          destruct (avx_t1b _ _ _ _) as [row' vr']. destruct A as [A1 [A2 [A3 A4]]]. cbn [fst]. split; [|split; auto].
          apply row_clause_ext; auto; try lia. intros j Hj. destruct (A4 j ltac:(lia)) as [E1 E2]. rewrite E1, E2.
          destruct (hits_hit hp hn cmp (hits hp hn) 0 (lmem / 32) j Hcmp ltac:(intros; reflexivity) ltac:(lia)) as [H1 H2]. rewrite H1, H2. unfold hp, hn.
          rewrite X3, X4, NP, NN by lia. pose proof (I8 j) as J1. pose proof (I8 (lmem + j)%nat) as J2.
          clear - J1 J2. generalize dependent (nth j row 0). generalize dependent (nth (lmem + j) row 0). intros q Jq p Jp.
          repeat match goal with |- context [Qle_bool ?a ?b] => destruct (Qle_bool a b) end;
            unfold t1b_lane, down8, step_down, is_int8 in *; split;
            repeat match goal with |- context [if ?c then _ else _] => destruct c eqn:?; cbn [negb] in * end; lia. }
        destruct T as [T1 T2]. split; [exact T1|]. split; [exact T2|]. intros src pos [VR HV].
        rewrite (t1b_same row hp hn src pos (conj G1 G2) VR HV). reflexivity.
    - destruct ((t * (if w >=? 0 then 1 else -1) <? 0) && (o =? 1)).
      + pose proof (type2_exact x (cl_pos (cl row)) (cl_neg (cl row)) ltac:(lia) ltac:(lia) IP IN) as X.
        destruct (type2 _ _ _) as [ps qs]. destruct X as [X1 [X2 [X3 X4]]].
        split; [exact HZ|]. exists O, (fun _ => repeat 0 32), (avx_t2 lits lmem row). split; [intros; apply repeat_length|].
        destruct (avx_t2_exact lits lmem B2 F3 row G1 G2) as [A1 [A2 A3]]. split; [|split; [split; auto|]].
        * apply row_clause_ext; auto; try lia. intros j Hj. destruct (A3 j ltac:(lia)) as [E1 E2]. rewrite E1, E2.
          destruct (lits_on j Hj) as [_ [O1 _]]. rewrite O1, X3, X4, NP, NN by lia. split; reflexivity.
        * intros src pos _. rewrite Nat.add_0_r. reflexivity.
      + split; [exact HZ|]. exists O, (fun _ => repeat 0 32), row. split; [intros; apply repeat_length|]. split; [reflexivity|]. split; [split; auto|].
        intros src pos _. rewrite Nat.add_0_r. reflexivity.
  Qed.

  Definition glue (m : nat) (V1 V2 : nat -> vec) (i : nat) : vec := if (i <? m)%nat then V1 i else V2 (i - m)%nat.
  Lemma glue_length : forall m V1 V2, (forall i, length (V1 i) = 32%nat) -> (forall i, length (V2 i) = 32%nat) -> forall i, length (glue m V1 V2 i) = 32%nat.
  Proof. intros m V1 V2 H1 H2 i. unfold glue. destruct (i <? m)%nat; auto. Qed.
  Lemma follows_glue : forall src pos m1 m2 V1 V2, follows src pos (m1 + m2) (glue m1 V1 V2) -> follows src pos m1 V1 /\ follows src (pos + m1) m2 V2.
  Proof.
    intros src pos m1 m2 V1 V2 [VR H]. split; (split; [exact VR|]); intros i Hi.
    - rewrite H by lia. unfold glue. replace (i <? m1)%nat with true by (symmetry; apply Nat.ltb_lt; auto). reflexivity.
    - rewrite <- Nat.add_assoc. rewrite H by lia. unfold glue. replace (m1 + i <? m1)%nat with false by (symmetry; apply Nat.ltb_ge; lia). f_equal. lia.
  Qed.

  Lemma sim_clause : forall bo bud pc pp nc np row ws o ca cb r f, row_good lmem row -> (bo = true -> o = 0 \/ ca = cb) -> (boost = true -> zero_draws r) ->
    let '(c', ws', o', r', f') := train_update_clause bo boost bud si sm x pc pp nc np (cl row) ws o cb r f in
    (boost = true -> zero_draws r') /\ exists m V row', (forall i, length (V i) = 32%nat) /\ cl row' = c' /\ row_good lmem row' /\ forall src pos, follows src pos m V ->
      avx_update_clause bo boost bud cmp lmem lits pc pp nc np row ws o ca (mkVrng src pos) f = (row', ws', o', mkVrng src (pos + m), f').
  Proof.
    intros bo bud pc pp nc np row ws o ca cb r f G HC HZ. unfold train_update_clause, avx_update_clause.
    assert (OE : (if bo && (ca >? bud) then 0 else o) = (if bo && (cb >? bud) then 0 else o)).
    { destruct bo; [|reflexivity]. destruct (HC eq_refl) as [-> | ->]; [destruct (true && (ca >? bud)), (true && (cb >? bud)); reflexivity|reflexivity]. }
    rewrite OE. set (out := if bo && (cb >? bud) then 0 else o). clearbody out. clear OE HC.
    destruct (draw_lt f pp) as [d1 f1].
    assert (S1 : let '(c1, ws1, r1) := (if d1 then let '(c', w', r') := clause_update boost si sm (cl row) (nth pc ws 0) 1 x out r in (c', set_nth pc w' ws, r') else (cl row, ws, r)) in
      (boost = true -> zero_draws r1) /\ exists m V row1, (forall i, length (V i) = 32%nat) /\ cl row1 = c1 /\ row_good lmem row1 /\ forall src pos, follows src pos m V ->
        (if d1 then let '(row', w', r') := avx_clause_update boost cmp lmem row (nth pc ws 0) 1 lits out (mkVrng src pos) in (row', set_nth pc w' ws, r') else (row, ws, mkVrng src pos))
        = (row1, ws1, mkVrng src (pos + m))).
    { destruct d1.
      - pose proof (sim_update row (nth pc ws 0) 1 out r G HZ) as T. destruct (clause_update _ _ _ _ _ _ _ _ _) as [[c1 w1] r1]. destruct T as [T0 T]. split; [exact T0|]. destruct T as [m [V [row1 [T1 [T2 [T3 T4]]]]]].
        exists m, V, row1. do 3 (split; [assumption|]). intros src pos FW. rewrite (T4 src pos FW). reflexivity.
      - split; [exact HZ|]. exists O, (fun _ => repeat 0 32), row. split; [intros; apply repeat_length|]. split; [reflexivity|]. split; [exact G|]. intros src pos _. rewrite Nat.add_0_r. reflexivity. }
    destruct (if d1 then _ else _) as [[c1 ws1] r1]. destruct S1 as [Z1 [m1 [V1 [row1 [L1 [C1 [G1 S1]]]]]]]. subst c1.
    destruct (draw_lt f1 np) as [d2 f2].
    assert (S2 : let '(c2, ws2, r2) := (if d2 then let '(c', w', r') := clause_update boost si sm (cl row1) (nth nc ws1 0) (-1) x out r1 in (c', set_nth nc w' ws1, r') else (cl row1, ws1, r1)) in
      (boost = true -> zero_draws r2) /\ exists m V row2, (forall i, length (V i) = 32%nat) /\ cl row2 = c2 /\ row_good lmem row2 /\ forall src pos, follows src pos m V ->
        (if d2 then let '(row', w', r') := avx_clause_update boost cmp lmem row1 (nth nc ws1 0) (-1) lits out (mkVrng src pos) in (row', set_nth nc w' ws1, r') else (row1, ws1, mkVrng src pos))
        = (row2, ws2, mkVrng src (pos + m))).
    { destruct d2.
      - pose proof (sim_update row1 (nth nc ws1 0) (-1) out r1 G1 Z1) as T. destruct (clause_update _ _ _ _ _ _ _ _ _) as [[c2 w2] r2]. destruct T as [T0 T]. split; [exact T0|]. destruct T as [m [V [row2 [T1 [T2 [T3 T4]]]]]].
        exists m, V, row2. do 3 (split; [assumption|]). intros src pos FW. rewrite (T4 src pos FW). reflexivity.
      - split; [exact Z1|]. exists O, (fun _ => repeat 0 32), row1. split; [intros; apply repeat_length|]. split; [reflexivity|]. split; [exact G1|]. intros src pos _. rewrite Nat.add_0_r. reflexivity. }
    destruct (if d2 then _ else _) as [[c2 ws2] r2]. destruct S2 as [Z2 [m2 [V2 [row2 [L2 [C2 [G2 S2]]]]]]].
    split; [exact Z2|]. exists (m1 + m2)%nat, (glue m1 V1 V2), row2. split; [apply glue_length; auto|]. split; [exact C2|]. split; [exact G2|].
    intros src pos FW. destruct (follows_glue _ _ _ _ _ _ FW) as [W1 W2]. rewrite (S1 src pos W1). rewrite (S2 src _ W2). rewrite Nat.add_assoc. reflexivity.
  Qed.

  Lemma sim_loop : forall bo bud pc pp nc np rows wss outs ca cb r f, Forall (row_good lmem) rows -> (bo = true -> forall k, nth k outs 0 = 0 \/ nth k ca 0 = nth k cb 0) -> (boost = true -> zero_draws r) ->
    let '(cs', wss', outs', r', f') := train_update_loop bo boost bud si sm x pc pp nc np (map cl rows) wss outs cb r f in
    exists m V rows', (forall i, length (V i) = 32%nat) /\ map cl rows' = cs' /\ Forall (row_good lmem) rows' /\ forall src pos, follows src pos m V ->
      avx_update_loop bo boost bud cmp lmem lits pc pp nc np rows wss outs ca (mkVrng src pos) f = (rows', wss', outs', mkVrng src (pos + m), f').
  Proof.
    intros bo bud pc pp nc np. induction rows as [|row rows IH]; intros wss outs ca cb r f FG HC HZ; cbn [map train_update_loop avx_update_loop].
    - exists O, (fun _ => repeat 0 32), []. split; [intros; apply repeat_length|]. split; [reflexivity|]. split; [constructor|]. intros src pos _. rewrite Nat.add_0_r. reflexivity.
    - inversion FG as [|? ? G1 G2]; subst.
      assert (Nop : forall (wss' : list (list Z)) (outs' : list Z), exists m V rows', (forall i, length (V i) = 32%nat) /\ map cl rows' = cl row :: map cl rows /\ Forall (row_good lmem) rows' /\ forall src pos, follows src pos m V ->
        (row :: rows, wss', outs', mkVrng src pos, f) = (rows', wss', outs', mkVrng src (pos + m), f)).
      { intros wss' outs'. exists O, (fun _ => repeat 0 32), (row :: rows). split; [intros; apply repeat_length|]. split; [reflexivity|]. split; [exact FG|]. intros src pos _. rewrite Nat.add_0_r. reflexivity. }
      destruct wss as [|ws wss]; [apply Nop|]. destruct outs as [|o outs]; [apply Nop|]. clear Nop.
      assert (HC0 : bo = true -> o = 0 \/ hd 0 ca = hd 0 cb) by (intros E; specialize (HC E O); destruct ca, cb; cbn [nth hd] in *; exact HC).
      pose proof (sim_clause bo bud pc pp nc np row ws o (hd 0 ca) (hd 0 cb) r f G1 HC0 HZ) as SC.
      destruct (train_update_clause _ _ _ _ _ _ _ _ _ _ _ _ _ _ _ _) as [[[[c1 ws1] o1] r1] f1]. destruct SC as [Z1 [m1 [V1 [row1 [L1 [C1 [K1 SC]]]]]]].
      specialize (IH wss outs (tl ca) (tl cb) r1 f1 G2). 
      assert (HC1 : bo = true -> forall k, nth k outs 0 = 0 \/ nth k (tl ca) 0 = nth k (tl cb) 0) by (intros E k; specialize (HC E (S k)); cbn [nth] in HC; rewrite !nth_tl; exact HC).
      specialize (IH HC1 Z1). destruct (train_update_loop _ _ _ _ _ _ _ _ _ _ _ _ _ _ _ _) as [[[[cs2 wss2] outs2] r2] f2]. destruct IH as [m2 [V2 [rows2 [L2 [C2 [K2 IH]]]]]].
      exists (m1 + m2)%nat, (glue m1 V1 V2), (row1 :: rows2). split; [apply glue_length; auto|]. split; [cbn [map]; congruence|]. split; [constructor; auto|].
      intros src pos FW. destruct (follows_glue _ _ _ _ _ _ FW) as [W1 W2]. rewrite (SC src pos W1), (IH src _ W2). rewrite Nat.add_assoc. reflexivity.
  Qed.
End Sim.

(** ** Steps and runs *)

(** The scalar block [b] holds the clauses and weights of [a]. *)
Definition agrees (a : ablock) (b : block) : Prop :=
  b_clauses b = avx_clauses a /\ b_weights b = a_weights a /\ b_budget b = a_budget a /\ b_ncls b = a_ncls a.
Definition avx_ready (n : nat) (a : ablock) : Prop :=
  avx_good n a /\ length (a_counts a) = length (a_rows a) /\ -127 <= a_cmp a <= 127.

Lemma sim_step : forall n bo boost x lits pc pp nc np a b r f, avx_ready n a -> agrees a b -> buffer_of n x lits -> binary x ->
  (boost = true -> zero_draws r /\ (0 <= b_s_inv b)%Q /\ (0 <= b_s_min1_inv b)%Q) ->
  exists vr, vrng_ok vr /\ avx_ready n (avx_step bo boost lits pc pp nc np (avx_gens vr f a)) /\
    agrees (avx_step bo boost lits pc pp nc np (avx_gens vr f a)) (dense_step bo boost x pc pp nc np (with_gens r f b)).
Proof.
  intros n bo boost x lits pc pp nc np a b r f [G [HL HC]] [A1 [A2 [A3 A4]]] Hbuf Hb HZ.
  pose proof G as [OK [R8 VR0]]. pose proof OK as [O1 O2 O3 O4 O5]. pose proof (avx_good_rows n a G) as RG.
  set (outs := map fst (map (set_output bo x) (avx_clauses a))).
  set (ca := a_counts (avx_train_output bo lits a)). set (cb := if bo then map snd (map (set_output bo x) (avx_clauses a)) else b_counts b).
  assert (EO : a_outputs (avx_train_output bo lits a) = outs).
  { rewrite (avx_train_outputs n x lits a bo 0 0 (mkRng (fun _ => 0%Q) 0) OK Hbuf Hb). reflexivity. }
  assert (EC : bo = true -> forall k, nth k outs 0 = 0 \/ nth k ca 0 = nth k cb 0).
  { intros -> k. destruct (Z.eq_dec (nth k outs 0) 1) as [E|E].
    - right. unfold ca, cb. rewrite (avx_train_counts n x lits a 0 0 (mkRng (fun _ => 0%Q) 0) k OK Hbuf Hb HL) by (rewrite EO; exact E). reflexivity.
    - left. unfold outs in *. rewrite map_map in *. destruct (Nat.lt_ge_cases k (length (avx_clauses a))) as [Hk|Hk].
      + rewrite (nth_indep _ 0 ((fun c => fst (set_output true x c)) dclause)) in * by (rewrite map_length; auto).
        rewrite (map_nth (fun c => fst (set_output true x c))) in *.
        destruct (set_output_loop_01 true (cl_pos (nth k (avx_clauses a) dclause)) (cl_neg (nth k (avx_clauses a) dclause)) x 0 0) as [K|K];
          unfold set_output in *; [exact K|contradiction].
      + rewrite nth_overflow; auto. rewrite map_length. auto. }
  pose proof (sim_loop n x lits (b_s_inv b) (b_s_min1_inv b) (a_cmp a) O1 Hbuf Hb HC boost (fun E => proj2 (HZ E)) bo (a_budget a) pc pp nc np (a_rows a) (a_weights a) outs ca cb r f RG EC (fun E => proj1 (HZ E))) as S.
  destruct (train_update_loop bo boost (a_budget a) (b_s_inv b) (b_s_min1_inv b) x pc pp nc np (map (row_clause n (lmem_of n)) (a_rows a)) (a_weights a) outs cb r f)
    as [[[[cs' wss'] outs'] r'] f'] eqn:EL.
  destruct S as [m [V [rows' [S1 [S2 [S3 S4]]]]]].
  assert (FW : follows V 0 m V) by (split; [intros k; apply S1|intros i _; reflexivity]).
  specialize (S4 V O FW). exists (mkVrng V 0). split; [intros k; apply S1|].
  assert (E1 : avx_step bo boost lits pc pp nc np (avx_gens (mkVrng V 0) f a) =
    mkABlock (a_nlit a) (a_lmem a) (a_mask a) (a_ncls a) rows' wss' outs' ca (a_votes (fst (avx_train_ex bo lits (avx_gens (mkVrng V 0) f a)))) (a_budget a) (a_cmp a) (mkVrng V (0 + m)) f').
  { unfold avx_step, avx_upd, avx_train_update, avx_train_ex.
    cbn [fst avx_count_votes a_nlit a_lmem a_mask a_ncls a_rows a_weights a_outputs a_counts a_votes a_budget a_cmp a_vrng a_fast].
    change (a_outputs (avx_train_output bo lits (avx_gens (mkVrng V 0) f a))) with (a_outputs (avx_train_output bo lits a)). rewrite EO.
    change (a_counts (avx_train_output bo lits (avx_gens (mkVrng V 0) f a))) with ca.
    cbn [avx_train_output avx_gens a_nlit a_lmem a_mask a_ncls a_rows a_weights a_outputs a_counts a_votes a_budget a_cmp a_vrng a_fast].
    rewrite O3. rewrite S4. reflexivity. }
  assert (E2 : b_clauses (dense_step bo boost x pc pp nc np (with_gens r f b)) = cs' /\ b_weights (dense_step bo boost x pc pp nc np (with_gens r f b)) = wss' /\
    b_budget (dense_step bo boost x pc pp nc np (with_gens r f b)) = b_budget b /\ b_ncls (dense_step bo boost x pc pp nc np (with_gens r f b)) = b_ncls b).
  { unfold dense_step, dense_upd, train_update, dense_train_ex, count_votes, train_set_clause_output.
    cbn [fst with_gens b_nlit b_ncls b_clauses b_weights b_outputs b_counts b_votes b_budget b_s_inv b_s_min1_inv b_rng b_fast].
    rewrite A1, A2, A3. fold outs. fold cb. unfold avx_clauses in EL |- *. rewrite O2, O3. rewrite EL. auto. }
  destruct E2 as [E2 [E3 [E4 E5]]].
  assert (LR : length rows' = length (a_rows a)).
  { pose proof (avx_update_loop_keep lits (lmem_of n) ltac:(apply Hbuf) ltac:(apply (lmem_of_facts n O1)) bo boost (a_budget a) (a_cmp a) pc pp nc np (a_rows a) (a_weights a) outs ca (mkVrng V 0) f RG
      ltac:(intros k; apply S1)) as K. rewrite S4 in K. apply K. }
  rewrite E1. split.
  - split; [split; [constructor; cbn; auto|split; cbn; auto]|split; cbn; auto].
    + apply Forall_forall. intros row Hr. rewrite Forall_forall in S3. apply S3. exact Hr.
    + apply Forall_forall. intros row Hr. rewrite Forall_forall in S3. apply S3. exact Hr.
    + rewrite LR. unfold ca, avx_train_output. cbn [a_counts]. destruct bo; [|exact HL].
      rewrite map2_length. rewrite map_length. lia.
  - unfold agrees. rewrite E2, E3, E4, E5. unfold avx_clauses. cbn [a_nlit a_lmem a_rows a_weights a_budget a_ncls]. rewrite O2, O3. auto.
Qed.

Lemma step_rates : forall bo boost x pc pp nc np r f b,
  b_s_inv (dense_step bo boost x pc pp nc np (with_gens r f b)) = b_s_inv b /\ b_s_min1_inv (dense_step bo boost x pc pp nc np (with_gens r f b)) = b_s_min1_inv b.
Proof.
  intros. unfold dense_step, dense_upd, train_update. destruct (train_update_loop _ _ _ _ _ _ _ _ _ _ _ _ _ _ _ _) as [[[[? ?] ?] ?] ?]. split; reflexivity.
Qed.

Theorem avx_simulates_with : forall (draws : rng -> Prop) n ncls bo boost p b b', trains_with draws n ncls bo boost (scalar_probs p) b b' ->
  (boost = true -> (forall r, draws r -> zero_draws r) /\ (0 <= b_s_inv b)%Q /\ (0 <= b_s_min1_inv b)%Q) ->
  forall a, avx_ready n a -> agrees a b -> exists a', avx_trains n ncls bo boost p a a' /\ avx_ready n a' /\ agrees a' b'.
Proof.
  intros draws n ncls bo boost p b b' T. induction T as [b|b x pc nc r f b' Hx Hb Hpc Hnc N Ur Uf _ IH]; intros HZ a RD AG.
  - exists a. split; [apply avx_trained|]. auto.
  - set (lits := x ++ repeat 0 (lmem_of n)).
    assert (Hbuf : buffer_of n x lits).
    { unfold lits. split; [exact Hx|]. split; [rewrite app_length, repeat_length; lia|]. rewrite firstn_app, Hx, Nat.sub_diag. cbn [firstn]. rewrite app_nil_r. apply firstn_all2. lia. }
    assert (EP : scalar_probs p b x pc nc = p (avx_clauses a) (a_weights a) x pc nc) by (unfold scalar_probs; destruct AG as [A1 [A2 _]]; rewrite A1, A2; reflexivity).
    rewrite EP in IH.
    destruct (sim_step n bo boost x lits pc (fst (p (avx_clauses a) (a_weights a) x pc nc)) nc (snd (p (avx_clauses a) (a_weights a) x pc nc)) a b r f RD AG Hbuf Hb) as [vr [V1 [V2 V3]]].
    { intros E. destruct (HZ E) as [H1 H2]. auto. }
    destruct (IH ltac:(intros E; destruct (step_rates bo boost x pc (fst (p (avx_clauses a) (a_weights a) x pc nc)) nc (snd (p (avx_clauses a) (a_weights a) x pc nc)) r f b) as [-> ->]; auto) _ V2 V3) as [a' [T1 [T2 T3]]].
    exists a'. split; [|auto].
    apply (avx_train_more _ _ _ _ _ a x lits pc nc vr f); auto.
Qed.
Theorem avx_simulates : forall n ncls bo p b b', trains n ncls bo false (scalar_probs p) b b' ->
  forall a, avx_ready n a -> agrees a b -> exists a', avx_trains n ncls bo false p a a' /\ avx_ready n a' /\ agrees a' b'.
Proof. intros n ncls bo p b b' T. apply (avx_simulates_with unit_draws n ncls bo false p b b' T). discriminate. Qed.
