(** What uninitialised memory can change: nothing without a literal budget or
    with one patch per example. *)
From Coq Require Import ZArith List Bool QArith Lia ZifyBool.
From Verif Require Import Base ModelHeap ModelDense ModelFeedback ModelExecutor ModelConv ModelTMHeap ModelConvHeap SpecHeap SpecConvHeap.
From Verif Require Import ProofsHeap ProofsTMHeapG.
Import ListNotations.
Open Scope Z_scope.

Fixpoint agree (bo : bool) (os : list Z) (a1 a2 : list nat) (n1 n2 : list Z) : Prop :=
  match os, a1, a2, n1, n2 with
  | [], [], [], [], [] => True
  | o :: os, x1 :: a1, x2 :: a2, y1 :: n1, y2 :: n2 =>
      (o = 0 \/ o = 1) /\ (o = 1 -> x1 = x2 /\ (bo = true -> y1 = y2)) /\ agree bo os a1 a2 n1 n2
  | _, _, _, _, _ => False
  end.

Lemma agree_len : forall bo os a1 a2 n1 n2, agree bo os a1 a2 n1 n2 ->
  length a1 = length os /\ length a2 = length os /\ length n1 = length os /\ length n2 = length os.
Proof.
  intros bo. induction os; intros [|? ?] [|? ?] [|? ?] [|? ?]; cbn [agree length]; intros H; try contradiction; auto.
  destruct H as (_ & _ & H). destruct (IHos _ _ _ _ H) as (A & B & C & D). lia.
Qed.

(** The patches found do not depend on the old counts. *)
Lemma steps_same : forall bo nlit lits c ks st p1 p2 s1 q1 s2 q2,
  fold_left (conv_patch_step bo nlit lits c) ks (st, p1) = (s1, q1) ->
  fold_left (conv_patch_step bo nlit lits c) ks (st, p2) = (s2, q2) ->
  s1 = s2 /\ length q1 = length p1 /\ length q2 = length p2.
Proof.
  intros bo nlit lits c. induction ks as [|k ks IH]; intros st p1 p2 s1 q1 s2 q2 E1 E2.
  - cbn in E1, E2. inversion E1; inversion E2; subst. auto.
  - cbn [fold_left] in E1, E2. unfold conv_patch_step in E1 at 2, E2 at 2.
    destruct (conv_patch_loop bo (cl_pos c) (cl_neg c) (patch nlit lits k) 0) as [n|].
    + destruct (IH _ _ _ _ _ _ _ E1 E2) as (A & B & C). rewrite hset_length in B, C. auto.
    + eapply IH; eauto.
Qed.

Lemma clause_same : forall bo nlit np lits c a1 a2 y1 y2 p1 p2 r o1 x1 n1 q1 r1 o2 x2 n2 q2 r2,
  bo = false \/ np = 1%nat -> length p1 = np -> length p2 = np ->
  conv_clause_output bo nlit np lits c a1 y1 p1 r = (o1, x1, n1, q1, r1) ->
  conv_clause_output bo nlit np lits c a2 y2 p2 r = (o2, x2, n2, q2, r2) ->
  o1 = o2 /\ r1 = r2 /\ (o1 = 0 \/ o1 = 1) /\ (o1 = 1 -> x1 = x2 /\ (bo = true -> n1 = n2)) /\ length q1 = np /\ length q2 = np.
Proof.
  intros bo nlit np lits c a1 a2 y1 y2 p1 p2 r o1 x1 n1 q1 r1 o2 x2 n2 q2 r2 B L1 L2 E1 E2.
  unfold conv_clause_output, conv_patches in *.
  destruct (fold_left (conv_patch_step bo nlit lits c) (seq 0 np) ([], p1)) as [s1 t1] eqn:F1.
  destruct (fold_left (conv_patch_step bo nlit lits c) (seq 0 np) ([], p2)) as [s2 t2] eqn:F2.
  destruct (steps_same _ _ _ _ _ _ _ _ _ _ _ _ F1 F2) as (<- & A1 & A2).
  destruct s1 as [|k s1].
  - inversion E1; inversion E2; subst. split; [auto|]. split; [auto|]. split; [auto|]. split; [discriminate|]. lia.
  - destruct (pick_index (length (k :: s1)) r) as [m r'] eqn:PK. inversion E1; inversion E2; subst.
    split; [auto|]. split; [auto|]. split; [auto|]. split; [|lia]. intros _. split; [auto|]. intros ->.
    destruct B as [B|B]; [discriminate|]. rewrite B in F1, F2. cbn [seq fold_left] in F1, F2. unfold conv_patch_step in F1, F2.
    destruct (conv_patch_loop _ _ _ _ _) as [n|]; [|discriminate]. cbn [app] in F1, F2.
    injection F1 as X1 X2 X3. injection F2 as Y1 Y2. subst.
    unfold pick_index in PK. destruct (next_u r) as [u r0]. injection PK as PK1 _. cbn [length pred] in PK1.
    assert (m = O) by lia. subst m.
    destruct p1 as [|z1 p1]; [cbn in *; lia|]. destruct p2 as [|z2 p2]; [cbn in *; lia|]. reflexivity.
Qed.

Lemma outputs_same : forall bo nlit np lits cs a1 a2 y1 y2 p1 p2 r o1 x1 n1 q1 r1 o2 x2 n2 q2 r2,
  bo = false \/ np = 1%nat -> length p1 = np -> length p2 = np ->
  length a1 = length cs -> length a2 = length cs -> length y1 = length cs -> length y2 = length cs ->
  conv_output_loop bo nlit np lits cs a1 y1 p1 r = (o1, x1, n1, q1, r1) ->
  conv_output_loop bo nlit np lits cs a2 y2 p2 r = (o2, x2, n2, q2, r2) ->
  o1 = o2 /\ r1 = r2 /\ agree bo o1 x1 x2 n1 n2 /\ length q1 = np /\ length q2 = np /\ length o1 = length cs.
Proof.
  intros bo nlit np lits. induction cs as [|c cs IH]; intros a1 a2 y1 y2 p1 p2 r o1 x1 n1 q1 r1 o2 x2 n2 q2 r2 B L1 L2 LA1 LA2 LY1 LY2 E1 E2.
  - destruct a1; [|discriminate]. destruct a2; [|discriminate]. destruct y1; [|discriminate]. destruct y2; [|discriminate].
    cbn in E1, E2. inversion E1; inversion E2; subst. cbn. auto 12.
  - destruct a1 as [|u1 a1]; [discriminate|]. destruct a2 as [|u2 a2]; [discriminate|].
    destruct y1 as [|w1 y1]; [discriminate|]. destruct y2 as [|w2 y2]; [discriminate|].
    cbn [conv_output_loop] in E1, E2.
    destruct (conv_clause_output bo nlit np lits c u1 w1 p1 r) as [[[[oo1 xx1] nn1] pp1] rr1] eqn:C1.
    destruct (conv_clause_output bo nlit np lits c u2 w2 p2 r) as [[[[oo2 xx2] nn2] pp2] rr2] eqn:C2.
    destruct (clause_same _ _ _ _ _ _ _ _ _ _ _ _ _ _ _ _ _ _ _ _ _ _ B L1 L2 C1 C2) as (<- & <- & D1 & D2 & D3 & D4).
    destruct (conv_output_loop bo nlit np lits cs a1 y1 pp1 rr1) as [[[[os1 as1] ns1] ps1] rs1] eqn:R1.
    destruct (conv_output_loop bo nlit np lits cs a2 y2 pp2 rr1) as [[[[os2 as2] ns2] ps2] rs2] eqn:R2.
    cbn [length] in *.
    destruct (IH a1 a2 y1 y2 _ _ _ _ _ _ _ _ _ _ _ _ _ B D3 D4 ltac:(lia) ltac:(lia) ltac:(lia) ltac:(lia) R1 R2) as (<- & <- & G1 & G2 & G3 & G4).
    inversion E1; inversion E2; subst. cbn [agree length]. auto 10.
Qed.

Lemma update_silent : forall boost si sm c w t l1 l2 r, clause_update boost si sm c w t l1 0 r = clause_update boost si sm c w t l2 0 r.
Proof. intros. unfold clause_update. cbn [Z.eqb]. now rewrite !andb_false_r. Qed.

Lemma updates_same : forall bo boost budget si sm nlit lits pc pp nc np cs wss os a1 a2 n1 n2 r f, agree bo os a1 a2 n1 n2 ->
  conv_update_loop bo boost budget si sm nlit lits pc pp nc np cs wss os n1 a1 r f =
  conv_update_loop bo boost budget si sm nlit lits pc pp nc np cs wss os n2 a2 r f.
Proof.
  intros bo boost budget si sm nlit lits pc pp nc np. induction cs as [|c cs IH]; intros wss os a1 a2 n1 n2 r f A; [reflexivity|].
  destruct wss as [|ws wss]; [reflexivity|]. destruct os as [|o os]; [reflexivity|].
  destruct a1 as [|x1 a1], a2 as [|x2 a2], n1 as [|y1 n1], n2 as [|y2 n2]; cbn [agree] in A; try contradiction.
  destruct A as (A1 & A2 & A3). cbn [conv_update_loop hd tl].
  assert (E : train_update_clause bo boost budget si sm (patch nlit lits x1) pc pp nc np c ws o y1 r f =
              train_update_clause bo boost budget si sm (patch nlit lits x2) pc pp nc np c ws o y2 r f).
  { destruct A1 as [-> | ->].
    - unfold train_update_clause.
      replace (if bo && (y1 >? budget) then 0 else 0) with 0 by (destruct (bo && (y1 >? budget)); reflexivity).
      replace (if bo && (y2 >? budget) then 0 else 0) with 0 by (destruct (bo && (y2 >? budget)); reflexivity).
      destruct (draw_lt f pp) as [d f1].
      rewrite (update_silent boost si sm c (nth pc ws 0) 1 (patch nlit lits x1) (patch nlit lits x2) r).
      destruct (if d then _ else _) as [[c1 ws1] r1]. destruct (draw_lt f1 np) as [d2 f2].
      rewrite (update_silent boost si sm c1 (nth nc ws1 0) (-1) (patch nlit lits x1) (patch nlit lits x2) r1). reflexivity.
    - destruct (A2 eq_refl) as [<- A22]. destruct bo; [now rewrite (A22 eq_refl)|reflexivity]. }
  rewrite E. destruct (train_update_clause bo boost budget si sm (patch nlit lits x2) pc pp nc np c ws o y2 r f) as [[[[c1 ws1] o1] r1] f1].
  now rewrite (IH wss os a1 a2 n1 n2 r1 f1 A3).
Qed.

(** Sizes of the arrays. *)
Definition csized (v : cvblock) : Prop :=
  length (cv_active v) = length (b_clauses (cv_b v)) /\ length (b_counts (cv_b v)) = length (b_clauses (cv_b v)) /\
  length (cv_ppc v) = cv_np v /\ length (b_weights (cv_b v)) = length (b_clauses (cv_b v)) /\
  length (b_outputs (cv_b v)) = length (b_clauses (cv_b v)).

Lemma update_len : forall bo boost budget si sm nlit lits pc pp nc np cs wss os ns aps r f cs' wss' os' r' f',
  length wss = length cs -> length os = length cs ->
  conv_update_loop bo boost budget si sm nlit lits pc pp nc np cs wss os ns aps r f = (cs', wss', os', r', f') ->
  length cs' = length cs /\ length wss' = length cs /\ length os' = length cs.
Proof.
  intros bo boost budget si sm nlit lits pc pp nc np. induction cs as [|c cs IH]; intros wss os ns aps r f cs' wss' os' r' f' LW LO E.
  - destruct wss; [|discriminate]. destruct os; [|discriminate]. cbn in E. inversion E; subst. auto.
  - destruct wss as [|ws wss]; [discriminate|]. destruct os as [|o os]; [discriminate|]. cbn [conv_update_loop] in E.
    destruct (train_update_clause _ _ _ _ _ _ _ _ _ _ _ _ _ _ _ _) as [[[[c1 ws1] o1] r1] f1].
    destruct (conv_update_loop _ _ _ _ _ _ _ _ _ _ _ cs _ _ _ _ _ _) as [[[[cs2 wss2] os2] r2] f2] eqn:R.
    cbn [length] in *. destruct (IH _ os _ _ _ _ _ _ _ _ _ (eq_add_S _ _ LW) (eq_add_S _ _ LO) R) as (A & B & C).
    inversion E; subst. cbn [length]. lia.
Qed.

Lemma c_call_same : forall bo boost data v w x, same_block v w -> csized v -> csized w -> bo = false \/ cv_np v = 1%nat ->
  same_block (c_call bo boost data v x) (c_call bo boost data w x) /\
  csized (c_call bo boost data v x) /\ csized (c_call bo boost data w x) /\ cv_np (c_call bo boost data v x) = cv_np v.
Proof.
  intros bo boost data v w x SB SV SW B.
  destruct v as [[nl1 nk1 cs1 ws1 os1 ns1 vs1 bu1 si1 sm1 r1 f1] np1 ap1 pp1].
  destruct w as [[nl2 nk2 cs2 ws2 os2 ns2 vs2 bu2 si2 sm2 r2 f2] np2 ap2 pp2].
  unfold same_block in SB. cbn in SB. destruct SB as (-> & -> & -> & -> & -> & -> & -> & -> & -> & -> & -> & ->).
  unfold csized in SV, SW. cbn in SV, SW. destruct SV as (V1 & V2 & V3 & V4 & V5). destruct SW as (W1 & W2 & W3 & W4 & W5). cbn in B.
  destruct x as [k pc pp nc np|k]; cbn [c_call].
  - unfold conv_train_ex, conv_set_output.
    cbn [cv_b cv_np cv_active cv_ppc b_nlit b_ncls b_clauses b_weights b_outputs b_counts b_votes b_budget b_s_inv b_s_min1_inv b_rng b_fast].
    set (lits := fst (nth k data ([], 0%nat))).
    destruct (conv_output_loop bo nl2 np2 lits cs2 ap1 ns1 pp1 r2) as [[[[o1 x1] n1] q1] rr1] eqn:R1.
    destruct (conv_output_loop bo nl2 np2 lits cs2 ap2 ns2 pp2 r2) as [[[[o2 x2] n2] q2] rr2] eqn:R2.
    destruct (outputs_same _ _ _ _ _ _ _ _ _ _ _ _ _ _ _ _ _ _ _ _ _ _ B V3 W3 V1 W1 V2 W2 R1 R2) as (<- & <- & AG & L1 & L2 & LO).
    destruct (agree_len _ _ _ _ _ _ AG) as (M1 & M2 & M3 & M4).
    unfold cv_count_votes, count_votes. cbn [fst]. unfold conv_update.
    cbn [cv_b cv_np cv_active cv_ppc b_nlit b_ncls b_clauses b_weights b_outputs b_counts b_votes b_budget b_s_inv b_s_min1_inv b_rng b_fast].
    rewrite (updates_same _ _ _ _ _ _ _ _ _ _ _ _ _ _ _ _ _ _ _ _ AG).
    destruct (conv_update_loop _ _ _ _ _ _ _ _ _ _ _ cs2 _ _ _ _ _ _) as [[[[cs3 wss3] os3] r3] f3] eqn:R.
    apply update_len in R; [|lia|lia]. destruct R as (N1 & N2 & N3).
    unfold same_block, csized.
    cbn [cv_b cv_np cv_active cv_ppc b_nlit b_ncls b_clauses b_weights b_outputs b_counts b_votes b_budget b_s_inv b_s_min1_inv b_rng b_fast].
    split; [auto 15|]. split; [lia|]. split; [lia|reflexivity].
  - unfold conv_eval_ex, conv_eval_set, cv_count_votes, count_votes. cbn [fst]. unfold same_block, csized.
    cbn [cv_b cv_np cv_active cv_ppc b_nlit b_ncls b_clauses b_weights b_outputs b_counts b_votes b_budget b_s_inv b_s_min1_inv b_rng b_fast].
    rewrite !map_length. split; [auto 15|]. split; [lia|]. split; [lia|reflexivity].
Qed.

Lemma calls_same : forall bo boost data xs v w, same_block v w -> csized v -> csized w -> bo = false \/ cv_np v = 1%nat ->
  same_block (fold_left (c_call bo boost data) xs v) (fold_left (c_call bo boost data) xs w).
Proof.
  intros bo boost data. induction xs as [|x xs IH]; intros v w SB SV SW B; [exact SB|].
  destruct (c_call_same bo boost data v w x SB SV SW B) as (A1 & A2 & A3 & A4). cbn [fold_left]. apply IH; auto. rewrite A4. exact B.
Qed.

Lemma init_sized : forall std_of fast_of jn ja jp np nlit ncl ncls budget si sm seed v,
  conv_initialize std_of fast_of jn ja jp np nlit ncl ncls budget si sm seed = Some v ->
  length jn = ncl -> length ja = ncl -> length jp = Z.to_nat np -> csized v.
Proof.
  intros std_of fast_of jn ja jp np nlit ncl ncls budget si sm seed v E L1 L2 L3. unfold conv_initialize, initialize in E.
  destruct (seed =? 0); [discriminate|]. destruct (init_clauses nlit ncl (std_of seed)) as [cs r] eqn:EC.
  destruct (init_weights ncls ncl (fast_of seed)) as [ws f] eqn:EW. destruct (np >? 0); [|discriminate]. injection E as <-.
  apply init_clauses_flat in EC. apply init_weights_flat in EW. destruct EC as (_ & EC & _). destruct EW as (_ & EW & _).
  unfold csized. cbn [cv_b cv_np cv_active cv_ppc b_clauses b_weights b_outputs b_counts]. rewrite repeat_length. lia.
Qed.
Lemma init_same : forall std_of fast_of jn ja jp jn' ja' jp' np nlit ncl ncls budget si sm seed v,
  conv_initialize std_of fast_of jn ja jp np nlit ncl ncls budget si sm seed = Some v ->
  exists w, conv_initialize std_of fast_of jn' ja' jp' np nlit ncl ncls budget si sm seed = Some w /\ same_block v w /\ cv_np v = Z.to_nat np.
Proof.
  intros std_of fast_of jn ja jp jn' ja' jp' np nlit ncl ncls budget si sm seed v E. unfold conv_initialize, initialize in *.
  destruct (seed =? 0); [discriminate|]. destruct (init_clauses nlit ncl (std_of seed)) as [cs r].
  destruct (init_weights ncls ncl (fast_of seed)) as [ws f]. destruct (np >? 0); [|discriminate]. injection E as <-.
  eexists. split; [reflexivity|]. split; [|reflexivity]. unfold same_block.
  cbn [cv_b cv_np cv_active cv_ppc b_nlit b_ncls b_clauses b_weights b_outputs b_counts b_votes b_budget b_s_inv b_s_min1_inv b_rng b_fast]. auto 15.
Qed.
