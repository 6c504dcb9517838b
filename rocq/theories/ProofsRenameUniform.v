(** Renaming the classes, with uniform feedback, for any kind of clause block. *)
From Coq Require Import ZArith List Bool QArith Lia Lqa ZifyBool.
From Verif Require Import Base BaseProofs Spec SpecLearning SpecRename SpecRenameMore SpecRenameUniform ModelInference ModelFeedback ModelExecutor ModelTrainerFeedback ProofsInference ProofsFeedback ProofsRename ProofsRenameGen.
Import ListNotations.
Open Scope Z_scope.

Lemma chooses_class : forall n u c k, chooses n u c -> Qnum u * Z.of_nat n / Zpos (Qden u) = k -> Z.to_nat (Z.min (Z.of_nat n - 1) (Z.max 0 k)) = c.
Proof.
  intros n [a d] c k [Hc [H1 H2]] <-. unfold Qle, Qlt, inject_Z, Qmult in H1, H2. cbn [Qnum Qden] in *. rewrite Pos.mul_1_r in H1, H2.
  assert (E : a * Z.of_nat n / Z.pos d = Z.of_nat c). { symmetry. apply (Z.div_unique _ _ _ (a * Z.of_nat n - Z.pos d * Z.of_nat c)); [left; nia|lia]. }
  rewrite E. lia.
Qed.
Lemma chooses_draw : forall n r c, chooses n (rng_src r (rng_pos r)) c -> draw_class n r = (c, mkRng (rng_src r) (S (rng_pos r))).
Proof. intros n r c H. unfold draw_class, next_u. f_equal. eapply chooses_class; [exact H|reflexivity]. Qed.
Lemma chooses_fun : forall n u c d, chooses n u c -> chooses n u d -> c = d.
Proof. intros n u c d H1 H2. pose proof (chooses_class n u c _ H1 eq_refl). pose proof (chooses_class n u d _ H2 eq_refl). congruence. Qed.
(** Every draw in [0, 1) chooses a class. *)
Lemma chooses_some : forall n u, (1 <= n)%nat -> (0 <= u < 1)%Q -> exists c, chooses n u c.
Proof.
  intros n [a d] Hn [H1 H2]. unfold Qle, Qlt in H1, H2. cbn [Qnum Qden] in *.
  exists (Z.to_nat (a * Z.of_nat n / Z.pos d)).
  assert (D : 0 <= a * Z.of_nat n / Z.pos d < Z.of_nat n) by (split; [apply Z.div_pos; nia|apply Z.div_lt_upper_bound; nia]).
  pose proof (Z.mul_div_le (a * Z.of_nat n) (Z.pos d) ltac:(lia)). pose proof (Z.mul_succ_div_gt (a * Z.of_nat n) (Z.pos d) ltac:(lia)).
  split; [lia|]. unfold Qle, Qlt, inject_Z, Qmult. cbn [Qnum Qden]. rewrite Pos.mul_1_r, Z2Nat.id by lia. split; nia.
Qed.
(** Moving a draw from its part to another one. *)
Definition moved (n c d : nat) (u : Q) : Q := (u + (inject_Z (Z.of_nat d) - inject_Z (Z.of_nat c)) / inject_Z (Z.of_nat n))%Q.
Lemma moved_chooses : forall n c d u, (c < n)%nat -> (d < n)%nat -> (chooses n u c <-> chooses n (moved n c d u) d).
Proof.
  intros n c d u Hc Hd. unfold chooses, moved. rewrite !inject_Z_plus.
  assert (N : ~ inject_Z (Z.of_nat n) == 0) by (unfold Qeq, inject_Z; cbn [Qnum Qden]; lia).
  assert (E : ((u + (inject_Z (Z.of_nat d) - inject_Z (Z.of_nat c)) / inject_Z (Z.of_nat n)) * inject_Z (Z.of_nat n) == u * inject_Z (Z.of_nat n) + inject_Z (Z.of_nat d) - inject_Z (Z.of_nat c))%Q) by (field; exact N).
  rewrite E. split; intros [_ H]; (split; [assumption|]); lra.
Qed.
Lemma chooses_unit : forall n u c, chooses n u c -> (0 <= u < 1)%Q.
Proof.
  intros n [a d] c [Hc [H1 H2]]. unfold Qle, Qlt, inject_Z, Qmult in *. cbn [Qnum Qden] in *. rewrite Pos.mul_1_r in H1, H2. split; nia.
Qed.

Section RenameUniform.
  Variables (n : nat) (p : nat -> nat).
  Hypothesis Hp : renaming n p.

  Lemma draws_next : forall r r2, draws_renamed n p r r2 -> draws_renamed n p (mkRng (rng_src r) (S (rng_pos r))) (mkRng (rng_src r2) (S (rng_pos r2))).
  Proof. intros r r2 H i. cbn [rng_src rng_pos]. specialize (H (S i)). rewrite !Nat.add_succ_r in H. exact H. Qed.
  Lemma draw_other_ren : forall fuel l r r2, (l < n)%nat -> draws_renamed n p r r2 ->
    match draw_other fuel n l r with
    | Some (c, r') => exists r2', draw_other fuel n (p l) r2 = Some (p c, r2') /\ (c < n)%nat /\ draws_renamed n p r' r2'
    | None => draw_other fuel n (p l) r2 = None
    end.
  Proof.
    induction fuel as [|k IH]; intros l r r2 Hl H; cbn [draw_other]; [reflexivity|].
    destruct (H O) as [c [C1 C2]]. rewrite Nat.add_0_r in C1, C2. rewrite (chooses_draw _ _ _ C1), (chooses_draw _ _ _ C2). pose proof (proj1 C1) as Hc.
    destruct (Nat.eqb_spec c l) as [->|N].
    - rewrite Nat.eqb_refl. apply IH; [exact Hl|]. apply draws_next. exact H.
    - replace (Nat.eqb (p c) (p l)) with false by (symmetry; apply Nat.eqb_neq; intros E; apply N; apply (proj2 Hp); auto).
      eexists. split; [reflexivity|]. split; [exact Hc|]. apply draws_next. exact H.
  Qed.
  Lemma uni_process_ren : forall T fuel l f f2, feedback_for n T f -> feedback_for n T f2 -> renamed n p (fb_votes f) (fb_votes f2) -> (l < n)%nat -> draws_renamed n p (fb_rng f) (fb_rng f2) ->
    match fbu_process fuel l f with
    | Some g => exists g2, fbu_process fuel (p l) f2 = Some g2 /\ (fb_neg g < n)%nat /\ fb_pos g = l /\ same_feedback p g g2 /\ feedback_for n T g /\ feedback_for n T g2 /\
        renamed n p (fb_votes g) (fb_votes g2) /\ draws_renamed n p (fb_rng g) (fb_rng g2)
    | None => fbu_process fuel (p l) f2 = None
    end.
  Proof.
    intros T fuel l f f2 [F1 [F2 F3]] [G1 [G2 G3]] R Hl D. unfold fbu_process. rewrite F1, G1. pose proof (draw_other_ren fuel l _ _ Hl D) as O.
    destruct (draw_other fuel n l (fb_rng f)) as [[c r]|]; [|rewrite O; reflexivity]. destruct O as [r2 [-> [Hc D2]]].
    eexists. split; [reflexivity|]. cbn [fb_neg fb_pos fb_votes fb_rng]. rewrite (proj2 (proj2 R) l Hl), (proj2 (proj2 R) c Hc), F2, G2.
    split; [exact Hc|]. split; [reflexivity|]. split; [repeat split|]. split; [repeat split; auto|]. split; [repeat split; auto|]. auto.
  Qed.

  Variables (X Bk : Type) (ex : X -> Bk -> Bk * list Z) (upd : X -> nat -> Q -> nat -> Q -> Bk -> Bk) (RB RB2 : Bk -> Bk -> Prop).
  Hypothesis HX1 : forall x b b2, RB b b2 -> RB2 (fst (ex x b)) (fst (ex x b2)) /\ renamed n p (snd (ex x b)) (snd (ex x b2)).
  Hypothesis HX2 : forall x pc pp nc np b b2, (pc < n)%nat -> (nc < n)%nat -> RB2 b b2 -> RB (upd x pc pp nc np b) (upd x (p pc) pp (p nc) np b2).
  Hypothesis HX3 : forall b b2, RB2 b b2 -> RB b b2.
  Notation BR := (Forall2 (fun a b : bool * Bk => fst b = fst a /\ RB (snd a) (snd b))).

  Lemma uni_one : forall T fuel x l bs bs2 f f2, (l < n)%nat -> BR bs bs2 -> feedback_for n T f -> feedback_for n T f2 -> draws_renamed n p (fb_rng f) (fb_rng f2) ->
    let s := train_one Bk X ex upd nat (fb_step no_feedback fuel FUniform) (x, l) bs f in
    let s2 := train_one Bk X ex upd nat (fb_step no_feedback fuel FUniform) (x, p l) bs2 f2 in
    BR (fst s) (fst s2) /\ feedback_for n T (snd s) /\ feedback_for n T (snd s2) /\ draws_renamed n p (fb_rng (snd s)) (fb_rng (snd s2)) /\ same_feedback p (snd s) (snd s2).
  Proof.
    intros T fuel x l bs bs2 f f2 Hl B F G D s s2.
    assert (RF : forall g, feedback_for n T g -> feedback_for n T (fb_reset g)).
    { intros g [G1 [G2 G3]]. unfold feedback_for, fb_reset. cbn [fb_ncls fb_thr fb_votes]. rewrite repeat_length. auto. }
    assert (RZ : renamed n p (fb_votes (fb_reset f)) (fb_votes (fb_reset f2))).
    { unfold fb_reset. cbn [fb_votes]. destruct F as [_ [_ F3]], G as [_ [_ G3]]. rewrite F3, G3. apply (ren_zero n p). }
    pose proof (gren_run n p Hp X Bk RB ex x T RB2 (HX1 x) bs bs2 (fb_reset f) (fb_reset f2) B (RF f F) (RF f2 G) RZ) as RR.
    unfold s, s2, train_one. cbn [fst snd]. destruct (run_examples Bk X ex x bs (fb_reset f)) as [cs g]. destruct (run_examples Bk X ex x bs2 (fb_reset f2)) as [cs2 g2].
    cbn [fst snd] in *. destruct RR as [R1 [R2 [R3 [R4 [R5 R6]]]]]. cbn [fb_reset fb_rng] in R4, R5. rewrite <- R4, <- R5 in D.
    assert (P : exists h h2, fb_step no_feedback fuel FUniform l g = h /\ fb_step no_feedback fuel FUniform (p l) g2 = h2 /\ (fb_neg h < n)%nat /\ fb_pos h = l /\ same_feedback p h h2 /\
      feedback_for n T h /\ feedback_for n T h2 /\ draws_renamed n p (fb_rng h) (fb_rng h2)).
    { pose proof (uni_process_ren T fuel l g g2 R2 R3 R6 Hl D) as U. cbn [fb_step]. destruct (fbu_process fuel l g) as [h|].
      - destruct U as [h2 [-> [U1 [U2 [U3 [U4 [U5 [U6 U7]]]]]]]]. exists h, h2. auto 10.
      - rewrite U. do 2 eexists. split; [reflexivity|]. split; [reflexivity|]. cbn [no_feedback fb_neg fb_pos fb_rng]. repeat split; auto; try apply R2; try apply R3. }
    destruct P as [h [h2 [-> [-> [P1 [P2 [P3 [P4 [P5 P6]]]]]]]]]. cbn [snd].
    split; [|auto]. pose proof P3 as [Q1 [Q2 [Q3 Q4]]]. unfold run_updates. rewrite Q1, Q2, Q3, Q4, P2. clear -R1 Hl P1 HX2 HX3.
    revert R1. generalize cs2. induction cs as [|[t b] cs IH]; intros c2 R1; inversion R1 as [|? [t2 b2] ? c2' [E1 E2] E4]; subst; cbn [map fst fst]; [constructor|].
    cbn [fst snd] in *. subst t2. constructor; [|apply IH; exact E4]. destruct t; cbn [fst snd]; split; auto.
  Qed.

  Lemma uni_all : forall T fuel ds bs bs2 f f2, BR bs bs2 -> feedback_for n T f -> feedback_for n T f2 -> Forall (fun d => (snd d < n)%nat) ds -> draws_renamed n p (fb_rng f) (fb_rng f2) ->
    let s := uni_trained_on ex upd fuel ds bs f in let s2 := uni_trained_on ex upd fuel (relabelled p ds) bs2 f2 in
    BR (fst s) (fst s2) /\ feedback_for n T (snd s) /\ feedback_for n T (snd s2) /\ (ds <> [] -> same_feedback p (snd s) (snd s2)).
  Proof.
    intros T fuel. induction ds as [|[x l] ds IH]; intros bs bs2 f f2 B F G HL D s s2.
    - unfold s, s2, uni_trained_on. cbn [relabelled map train_list fst snd]. split; [exact B|]. split; [exact F|]. split; [exact G|]. intros N. congruence.
    - inversion HL as [|? ? L1 L2]; subst. cbn [snd] in L1. pose proof (uni_one T fuel x l bs bs2 f f2 L1 B F G D) as A. cbv zeta in A.
      unfold s, s2, uni_trained_on in *. cbn [relabelled map fst snd train_list].
      destruct (train_one Bk X ex upd nat (fb_step no_feedback fuel FUniform) (x, l) bs f) as [cs g].
      destruct (train_one Bk X ex upd nat (fb_step no_feedback fuel FUniform) (x, p l) bs2 f2) as [cs2 g2]. cbn [fst snd] in A. destruct A as [A1 [A2 [A3 [A4 A5]]]].
      destruct (IH cs cs2 g g2 A1 A2 A3 L2 A4) as [I1 [I2 [I3 I4]]]. split; [exact I1|]. split; [exact I2|]. split; [exact I3|]. intros _.
      destruct ds as [|d ds]; [exact A5|]. apply I4. discriminate.
  Qed.
End RenameUniform.
