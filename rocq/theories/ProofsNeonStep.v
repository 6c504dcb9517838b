(** Training steps of the NEON block: weights as in the scalar block, feedback
    lane by lane, ranges. *)
From Coq Require Import ZArith Arith List Bool QArith Lia ZifyBool.
From Verif Require Import Base BaseProofs Spec SpecLearning ModelInference ModelDense ModelLayout ModelFeedback ModelExecutor ModelDenseExec ModelAvx2 ModelNeon
  SpecAvx2 SpecNeon ProofsClause ProofsLayout ProofsEval ProofsLearning ProofsStep ProofsExecutor ProofsDenseExec ProofsInput
  ProofsAvx2 ProofsAvx2Scalar ProofsAvx2Step ProofsNeon ProofsNeonScalar.
Import ListNotations.
Open Scope Z_scope.

Lemma neon_clause_update_w : forall boost cmp lmem row w t x o r, snd (fst (neon_clause_update boost cmp lmem row w t x o r)) = weight_after w t o.
Proof.
  intros. unfold neon_clause_update, weight_after. destruct (t * (if w >=? 0 then 1 else -1) >? 0).
  - destruct (o =? 1).
    + destruct (neon_t1a _ _ _ _ _ _) as [p r1]. reflexivity.
    + destruct (neon_t1b _ _ _ _) as [p r1]. reflexivity.
  - destruct ((t * (if w >=? 0 then 1 else -1) <? 0) && (o =? 1)); reflexivity.
Qed.

Lemma neon_clause_effect : forall bo boost bud cmp lmem x pc pp nc np row ws o cnt r f,
  let '(row1, ws1, o1, r1, f1) := neon_update_clause bo boost bud cmp lmem x pc pp nc np row ws o cnt r f in
  (ws1, o1, f1) = clause_effect bo bud pc pp nc np ws o cnt f.
Proof.
  intros. unfold neon_update_clause, clause_effect. set (out := if bo && (cnt >? bud) then 0 else o). clearbody out.
  pose proof (neon_clause_update_w boost cmp lmem row (nth pc ws 0) 1 x out r) as W1.
  destruct (neon_clause_update boost cmp lmem row (nth pc ws 0) 1 x out r) as [[c1 w1] r1]. cbn [fst snd] in W1. subst w1.
  destruct (draw_lt f pp) as [d1 f1].
  destruct d1; destruct (draw_lt f1 np) as [d2 f2];
    match goal with |- context [neon_clause_update ?a ?b ?c ?d ?e ?f ?g ?h ?i] =>
      pose proof (neon_clause_update_w a b c d e f g h i) as W2;
      destruct (neon_clause_update a b c d e f g h i) as [[c2 w2] r2]; cbn [fst snd] in W2; subst w2 end;
    destruct d2; reflexivity.
Qed.

Lemma nupdate_loops_effect : forall bo boost bud si sm cmp lmem x lits pc pp nc np rows cs wss outs ca cb r vr f,
  length rows = length cs ->
  (forall k, nth k outs 0 = 0 \/ nth k ca 0 = nth k cb 0) ->
  let '(cs2, wss2, outs2, r2, f2) := train_update_loop bo boost bud si sm x pc pp nc np cs wss outs cb r f in
  let '(rows2, wss3, outs3, r3, f3) := neon_update_loop bo boost bud cmp lmem lits pc pp nc np rows wss outs ca vr f in
  wss3 = wss2 /\ outs3 = outs2 /\ f3 = f2.
Proof.
  intros bo boost bud si sm cmp lmem x lits pc pp nc np rows. induction rows as [|row rows IH];
    intros [|c cs] [|ws wss] [|o outs] ca cb r vr f HL HC; cbn [length] in HL; try lia; cbn [train_update_loop neon_update_loop]; auto.
  pose proof (scalar_clause_effect bo boost bud si sm x pc pp nc np c ws o (hd 0 cb) r f) as E1.
  destruct (train_update_clause _ _ _ _ _ _ _ _ _ _ _ _ _ _ _ _) as [[[[c1 ws1] o1] r1] f1].
  pose proof (neon_clause_effect bo boost bud cmp lmem lits pc pp nc np row ws o (hd 0 ca) vr f) as E2.
  destruct (neon_update_clause _ _ _ _ _ _ _ _ _ _ _ _ _ _ _ _) as [[[[row1 ws2] o2] vr1] f2].
  assert (E : (ws1, o1, f1) = (ws2, o2, f2)).
  { rewrite E1, E2. apply effect_count. specialize (HC O). destruct ca, cb; cbn [nth hd] in *; destruct HC; auto. }
  assert (T1 : ws1 = ws2) by congruence. assert (T2 : o1 = o2) by congruence. assert (T3 : f1 = f2) by congruence. subst ws2 o2 f2.
  specialize (IH cs wss outs (tl ca) (tl cb) r1 vr1 f1 ltac:(lia)).
  destruct (train_update_loop _ _ _ _ _ _ _ _ _ _ _ _ _ _ _ _) as [[[[cs2 wss2] outs2] r2] f2].
  destruct (neon_update_loop _ _ _ _ _ _ _ _ _ _ _ _ _ _ _ _) as [[[[rows2 wss3] outs3] r3] f3].
  destruct IH as [I1 [I2 I3]].
  { intros k. specialize (HC (S k)). cbn [nth] in HC. rewrite !nth_tl. exact HC. }
  subst. auto.
Qed.

(** One training example non one AVX2 block. *)
Definition neon_step (boost : bool) (lits : list Z) (pc : nat) (pp : Q) (nc : nat) (np : Q) (b : ablock) : ablock :=
  neon_upd boost lits pc pp nc np (fst (neon_train_ex lits b)).

Theorem neon_step_weights : forall n x lits b boost pc pp nc np si sm r, neon_ok n b -> nbuffer_of n x lits -> binary x ->
  let b' := neon_step boost lits pc pp nc np b in
  let s' := dense_step true boost x pc pp nc np (scalar_view si sm r b) in
  a_weights b' = b_weights s' /\ a_outputs b' = b_outputs s' /\ a_votes b' = b_votes s' /\ a_fast b' = b_fast s' /\
  a_budget b' = b_budget s' /\ a_nlit b' = b_nlit s' /\ a_ncls b' = b_ncls s'.
Proof.
  intros n x lits b boost pc pp nc np si sm r OK Hb Hx b' s'.
  pose proof (neon_train_outputs n x lits b true si sm r OK Hb Hx) as AO.
  assert (AC : forall k, nth k (a_outputs (neon_train_on lits b)) 0 = 0 \/
     nth k (a_counts (neon_train_on lits b)) 0 = nth k (b_counts (train_set_clause_output true x (scalar_view si sm r b))) 0).
  { intros k. destruct (Z.eq_dec (nth k (a_outputs (neon_train_on lits b)) 0) 1) as [E|E].
    - right. apply (neon_train_counts n); auto.
    - left. rewrite AO in *. unfold train_set_clause_output in *. cbn [b_outputs] in *. rewrite map_map in *.
      destruct (Nat.lt_ge_cases k (length (b_clauses (scalar_view si sm r b)))) as [Hk|Hk].
      + rewrite (nth_indep _ 0 ((fun c => fst (set_output true x c)) dclause)) in * by (rewrite map_length; auto).
        rewrite (map_nth (fun c => fst (set_output true x c))) in *.
        destruct (set_output_loop_01 true (cl_pos (nth k (b_clauses (scalar_view si sm r b)) dclause)) (cl_neg (nth k (b_clauses (scalar_view si sm r b)) dclause)) x 0 0) as [K|K];
          unfold set_output in *; [exact K|contradiction].
      + rewrite nth_overflow; auto. rewrite map_length. auto. }
  unfold b', s', neon_step, dense_step, neon_upd, dense_upd, neon_train_ex, dense_train_ex. cbn [fst].
  unfold neon_train_update, train_update.
  pose proof AC as EC.
  cbn [avx_count_votes neon_train_on count_votes train_set_clause_output scalar_view a_nlit a_lmem a_mask a_ncls a_rows a_weights a_outputs a_counts a_votes a_budget a_cmp a_vrng a_fast
       b_nlit b_ncls b_clauses b_weights b_outputs b_counts b_votes b_budget b_s_inv b_s_min1_inv b_rng b_fast] in *.
  rewrite <- AO.
  pose proof (nupdate_loops_effect true boost (a_budget b) si sm (a_cmp b) (a_lmem b) x lits pc pp nc np (a_rows b)
     (map (row_clause (a_nlit b) (a_lmem b)) (a_rows b)) (a_weights b) _ _ _ r (a_vrng b) (a_fast b) ltac:(now rewrite map_length) EC) as U.
  destruct (train_update_loop _ _ _ _ _ _ _ _ _ _ _ _ _ _ _ _) as [[[[cs2 wss2] outs2] r2] f2].
  destruct (neon_update_loop _ _ _ _ _ _ _ _ _ _ _ _ _ _ _ _) as [[[[rows2 wss3] outs3] r3] f3].
  destruct U as [U1 [U2 U3]]. subst.
  cbn [a_nlit a_lmem a_mask a_ncls a_rows a_weights a_outputs a_counts a_votes a_budget a_cmp a_vrng a_fast
       b_nlit b_ncls b_clauses b_weights b_outputs b_counts b_votes b_budget b_s_inv b_s_min1_inv b_rng b_fast].
  rewrite <- ?AO. repeat split; reflexivity.
Qed.

(** ** Feedback, lane by lane *)

Lemma nv_store_nth : forall mem off v j, (off + 16 <= length mem)%nat -> length v = 16%nat ->
  nth j (nv_store mem off v) 0 = if (off <=? j)%nat && (j <? off + 16)%nat then nth (j - off) v 0 else nth j mem 0.
Proof.
  intros mem off v j H1 H2. unfold nv_store, memcpy. cbn [skipn].
  rewrite (firstn_all2 v) by lia.
  destruct (Nat.leb_spec off j) as [A|A]; cbn [andb].
  - rewrite app_nth2 by (rewrite firstn_length; lia). rewrite firstn_length. replace (Nat.min off (length mem)) with off by lia.
    destruct (Nat.ltb_spec j (off + 16)) as [B|B].
    + rewrite app_nth1 by lia. reflexivity.
    + rewrite app_nth2 by lia. rewrite nth_skipn. f_equal. lia.
  - rewrite app_nth1 by (rewrite firstn_length; lia). rewrite nth_firstn_lt by lia. reflexivity.
Qed.

Lemma nv_store_length : forall mem off v, (off + 16 <= length mem)%nat -> length v = 16%nat -> length (nv_store mem off v) = length mem.
Proof. intros. unfold nv_store, memcpy. cbn [skipn]. rewrite !app_length, !firstn_length, skipn_length. lia. Qed.

Lemma nvec_lanes : forall v, length v = 16%nat -> v = map (fun i => nth i v 0) (seq 0 16).
Proof. intros v H. apply list_eq_seq; auto. Qed.

Lemma nlanes_length : forall (f : nat -> Z), length (map f (seq 0 16)) = 16%nat.
Proof. intros. now rewrite map_length, seq_length. Qed.

(** The effect of one chunk non both halves of a row. *)
Definition nchunk_effect (lmem c : nat) (F G : nat -> Z -> Z) (row row' : list Z) : Prop :=
  length row' = length row /\
  forall j, (j < 2 * lmem)%nat -> nth j row' 0 =
    if (c * 16 <=? j)%nat && (j <? c * 16 + 16)%nat then F j (nth j row 0)
    else if (lmem + c * 16 <=? j)%nat && (j <? lmem + c * 16 + 16)%nat then G (j - lmem)%nat (nth j row 0)
    else nth j row 0.

Lemma ntwo_stores : forall lmem c F G row, length row = (2 * lmem)%nat -> (c * 16 + 16 <= lmem)%nat ->
  nchunk_effect lmem c F G row
    (nv_store (nv_store row (c * 16) (map (fun i => F (c * 16 + i)%nat (nth (c * 16 + i) row 0)) (seq 0 16))) (lmem + c * 16)
             (map (fun i => G (c * 16 + i)%nat (nth (lmem + c * 16 + i) row 0)) (seq 0 16))).
Proof.
  intros lmem c F G row HL HC.
  pose proof (nv_store_length row (c * 16) (map (fun i => F (c * 16 + i)%nat (nth (c * 16 + i) row 0)) (seq 0 16)) ltac:(lia) (nlanes_length _)) as L1.
  split.
  - rewrite nv_store_length; [exact L1|lia|apply nlanes_length].
  - intros j Hj. rewrite nv_store_nth; [|lia|apply nlanes_length]. rewrite nv_store_nth; [|lia|apply nlanes_length].
    destruct ((lmem + c * 16 <=? j)%nat && (j <? lmem + c * 16 + 16)%nat) eqn:E1.
    + apply andb_true_iff in E1. destruct E1 as [E1 E2]. apply Nat.leb_le in E1. apply Nat.ltb_lt in E2.
      replace ((c * 16 <=? j)%nat && (j <? c * 16 + 16)%nat) with false by (symmetry; apply andb_false_iff; right; apply Nat.ltb_ge; lia).
      rewrite (nth_map_seq (fun i => G (c * 16 + i)%nat (nth (lmem + c * 16 + i) row 0))) by lia. f_equal; [lia|f_equal; lia].
    + destruct ((c * 16 <=? j)%nat && (j <? c * 16 + 16)%nat) eqn:E2; [|reflexivity].
      apply andb_true_iff in E2. destruct E2 as [E2 E3]. apply Nat.leb_le in E2. apply Nat.ltb_lt in E3.
      rewrite (nth_map_seq (fun i => F (c * 16 + i)%nat (nth (c * 16 + i) row 0))) by lia. f_equal; [lia|f_equal; lia].
Qed.

(** Loading the second half after storing to the first. *)
Lemma nload_after_store : forall lmem c row v, length row = (2 * lmem)%nat -> (c * 16 + 16 <= lmem)%nat -> length v = 16%nat ->
  nv_load (nv_store row (c * 16) v) (lmem + c * 16) = map (fun i => nth (lmem + c * 16 + i) row 0) (seq 0 16).
Proof.
  intros lmem c row v HL HC Hv. rewrite nload_lanes by (rewrite nv_store_length; auto; lia).
  apply map_ext_in. intros i Hi. apply in_seq in Hi. rewrite nv_store_nth by (auto; lia).
  replace ((c * 16 <=? lmem + c * 16 + i)%nat && (lmem + c * 16 + i <? c * 16 + 16)%nat) with false
    by (symmetry; apply andb_false_iff; right; apply Nat.ltb_ge; lia). reflexivity.
Qed.

(** A whole loop of chunks. *)
Lemma nchunk_loop : forall (A : Type) (rowof : A -> list Z) (inv : nat -> A -> Prop) (step : nat -> A -> A) lmem F G K,
  (K * 16 <= lmem)%nat ->
  (forall c a, (c < K)%nat -> length (rowof a) = (2 * lmem)%nat -> inv c a ->
     inv (S c) (step c a) /\ nchunk_effect lmem c F G (rowof a) (rowof (step c a))) ->
  forall a, length (rowof a) = (2 * lmem)%nat -> inv O a ->
  let a' := for_loop K step a in
  inv K a' /\ length (rowof a') = (2 * lmem)%nat /\
  (forall j, (j < K * 16)%nat -> nth j (rowof a') 0 = F j (nth j (rowof a) 0) /\ nth (lmem + j) (rowof a') 0 = G j (nth (lmem + j) (rowof a) 0)) /\
  (forall j, (K * 16 <= j < lmem)%nat -> nth j (rowof a') 0 = nth j (rowof a) 0 /\ nth (lmem + j) (rowof a') 0 = nth (lmem + j) (rowof a) 0).
Proof.
  intros A rowof inv step lmem F G K. induction K as [|K IH]; intros HK Hs a HL HI; cbn [for_loop].
  - split; [exact HI|]. split; [exact HL|]. split; intros j Hj; [lia|auto].
  - destruct (IH ltac:(lia) (fun c a (H : (c < K)%nat) => Hs c a (Nat.lt_lt_succ_r _ _ H)) a HL HI) as [I1 [I2 [I3 I4]]].
    destruct (Hs K (for_loop K step a) ltac:(lia) I2 I1) as [S1 [S2 S3]].
    split; [exact S1|]. split; [congruence|]. split; intros j Hj.
    + rewrite (S3 j ltac:(lia)), (S3 (lmem + j)%nat ltac:(lia)).
      destruct (Nat.lt_ge_cases j (K * 16)) as [B|B].
      * destruct (I3 j B) as [J1 J2].
        replace ((K * 16 <=? j)%nat && (j <? K * 16 + 16)%nat) with false by (symmetry; apply andb_false_iff; left; apply Nat.leb_gt; lia).
        replace ((lmem + K * 16 <=? j)%nat && (j <? lmem + K * 16 + 16)%nat) with false by (symmetry; apply andb_false_iff; left; apply Nat.leb_gt; lia).
        replace ((K * 16 <=? lmem + j)%nat && (lmem + j <? K * 16 + 16)%nat) with false by (symmetry; apply andb_false_iff; right; apply Nat.ltb_ge; lia).
        replace ((lmem + K * 16 <=? lmem + j)%nat && (lmem + j <? lmem + K * 16 + 16)%nat) with false by (symmetry; apply andb_false_iff; left; apply Nat.leb_gt; lia).
        auto.
      * destruct (I4 j ltac:(lia)) as [J1 J2].
        replace ((K * 16 <=? j)%nat && (j <? K * 16 + 16)%nat) with true by (symmetry; apply andb_true_iff; split; [apply Nat.leb_le|apply Nat.ltb_lt]; lia).
        replace ((K * 16 <=? lmem + j)%nat && (lmem + j <? K * 16 + 16)%nat) with false by (symmetry; apply andb_false_iff; right; apply Nat.ltb_ge; lia).
        replace ((lmem + K * 16 <=? lmem + j)%nat && (lmem + j <? lmem + K * 16 + 16)%nat) with true by (symmetry; apply andb_true_iff; split; [apply Nat.leb_le|apply Nat.ltb_lt]; lia).
        replace (lmem + j - lmem)%nat with j by lia. rewrite J1, J2. auto.
    + rewrite (S3 j ltac:(lia)), (S3 (lmem + j)%nat ltac:(lia)). destruct (I4 j ltac:(lia)) as [J1 J2].
      replace ((K * 16 <=? j)%nat && (j <? K * 16 + 16)%nat) with false by (symmetry; apply andb_false_iff; right; apply Nat.ltb_ge; lia).
      replace ((lmem + K * 16 <=? j)%nat && (j <? lmem + K * 16 + 16)%nat) with false by (symmetry; apply andb_false_iff; left; apply Nat.leb_gt; lia).
      replace ((K * 16 <=? lmem + j)%nat && (lmem + j <? K * 16 + 16)%nat) with false by (symmetry; apply andb_false_iff; right; apply Nat.ltb_ge; lia).
      replace ((lmem + K * 16 <=? lmem + j)%nat && (lmem + j <? lmem + K * 16 + 16)%nat) with false by (symmetry; apply andb_false_iff; right; apply Nat.ltb_ge; lia).
      auto.
Qed.

Lemma ndiv_mod_chunk : forall c i, (i < 16)%nat -> ((c * 16 + i) / 16 = c)%nat /\ ((c * 16 + i) mod 16 = i)%nat.
Proof.
  intros c i H. split.
  - rewrite Nat.div_add_l by lia. rewrite Nat.div_small by lia. lia.
  - rewrite Nat.add_comm, Nat.mod_add by lia. apply Nat.mod_small. lia.
Qed.

Definition nhit (cmp : Z) (r : vrng) (half j : nat) : bool := vdraw r (2 * (j / 16) + half) (j mod 16) <? cmp.

Lemma nt1a_lane_pos : forall (boost a b : bool) v, is_int8 v ->
  sat8 (v + Z.lor (Z.land (Z.lnot (if (a : bool) then -1 else 0)) (if (b : bool) then -1 else 0))
                 (if boost then Z.land (if a then -1 else 0) 1
                  else Z.land 1 (Z.land (if a then -1 else 0) (Z.lnot (if b then -1 else 0))))) = t1a_lane boost a b v.
Proof.
  intros boost a b v H. unfold is_int8 in H. unfold t1a_lane, up8, down8, sat8.
  destruct a, b, boost; cbn [orb negb]; match goal with |- context [v + ?z] => let z' := eval vm_compute in z in change z with z' end; lia.
Qed.

Lemma nt1a_lane_neg : forall (a b : bool) v, is_int8 v ->
  sat8 (v + Z.lor (Z.land (if (a : bool) then -1 else 0) (if (b : bool) then -1 else 0))
                 (Z.land 1 (Z.land (Z.lnot (if a then -1 else 0)) (Z.lnot (if b then -1 else 0))))) = t1a_lane false (negb a) b v.
Proof.
  intros a b v H. unfold is_int8 in H. unfold t1a_lane, up8, down8, sat8.
  destruct a, b; cbn [orb negb]; match goal with |- context [v + ?z] => let z' := eval vm_compute in z in change z with z' end; lia.
Qed.

Lemma neffect_row8 : forall lmem c F G row row', (forall j v, is_int8 v -> is_int8 (F j v)) -> (forall j v, is_int8 v -> is_int8 (G j v)) ->
  length row = (2 * lmem)%nat -> row8 row -> nchunk_effect lmem c F G row row' -> row8 row'.
Proof.
  intros lmem c F G row row' HF HG HL H8 [E1 E2]. apply row8_of_nth. intros j Hj. rewrite E2 by lia.
  pose proof (row8_nth row j H8). destruct (_ && _); [auto|]. destruct (_ && _); auto.
Qed.

Section Feedback.
  Variables (cmp : Z) (lits : list Z) (lmem : nat).
  Hypothesis Hlits : (lmem <= length lits)%nat.
  Hypothesis Hdiv : lmem = (lmem / 16 * 16)%nat.
  Definition non (j : nat) : bool := wrap8 (nth j lits 0) =? 1.
  Definition noff0 (j : nat) : bool := wrap8 (nth j lits 0) =? 0.

  Definition nat_draw (r : vrng) (c : nat) (st : list Z * vrng) : Prop := snd st = vadvance (2 * c) r /\ row8 (fst st).

  Lemma nt1a_chunk_effect : forall boost r, nvrng_ok r -> forall c st, (c < lmem / 16)%nat -> length (fst st) = (2 * lmem)%nat -> nat_draw r c st ->
    nat_draw r (S c) (neon_t1a_chunk boost cmp lits lmem c st) /\
    nchunk_effect lmem c (fun j v => t1a_lane boost (non j) (nhit cmp r 0 j) v) (fun j v => t1a_lane false (negb (non j)) (nhit cmp r 1 j) v)
      (fst st) (fst (neon_t1a_chunk boost cmp lits lmem c st)).
  Proof.
    intros boost r VR c [row r0] Hc HL [HA H8]. cbn [fst snd] in *. subst r0.
    assert (HC : (c * 16 + 16 <= lmem)%nat) by lia.
    assert (E : fst (neon_t1a_chunk boost cmp lits lmem c (row, vadvance (2 * c) r)) =
      nv_store (nv_store row (c * 16) (map (fun i => (fun j v => t1a_lane boost (non j) (nhit cmp r 0 j) v) (c * 16 + i)%nat (nth (c * 16 + i) row 0)) (seq 0 16))) (lmem + c * 16)
             (map (fun i => (fun j v => t1a_lane false (negb (non j)) (nhit cmp r 1 j) v) (c * 16 + i)%nat (nth (lmem + c * 16 + i) row 0)) (seq 0 16))).
    { unfold neon_t1a_chunk, next_v, vadvance. cbn [vr_src vr_pos fst].
      rewrite (nvec_lanes (vr_src r (vr_pos r + 2 * c))) by apply VR.
      rewrite (nvec_lanes (vr_src r (S (vr_pos r + 2 * c)))) by apply VR.
      rewrite nload_u_lanes by lia. rewrite (nload_lanes row (c * 16)) by lia.
      assert (P : v_adds (map (fun i => nth (c * 16 + i) row 0) (seq 0 16))
          (v_or (v_and (v_not (v_cmpeq (map (fun i => wrap8 (nth (c * 16 + i) lits 0)) (seq 0 16)) (nv_set1 1)))
                   (v_cmpgt (nv_set1 cmp) (map (fun i => nth i (vr_src r (vr_pos r + 2 * c)) 0) (seq 0 16))))
                (if boost then v_and (v_cmpeq (map (fun i => wrap8 (nth (c * 16 + i) lits 0)) (seq 0 16)) (nv_set1 1)) (nv_set1 1)
                 else v_and (nv_set1 1) (v_and (v_cmpeq (map (fun i => wrap8 (nth (c * 16 + i) lits 0)) (seq 0 16)) (nv_set1 1))
                        (v_not (v_cmpgt (nv_set1 cmp) (map (fun i => nth i (vr_src r (vr_pos r + 2 * c)) 0) (seq 0 16)))))))
        = map (fun i => (fun j v => t1a_lane boost (non j) (nhit cmp r 0 j) v) (c * 16 + i)%nat (nth (c * 16 + i) row 0)) (seq 0 16)).
      { destruct boost; nvlanes; apply map_ext_in; intros i Hi; apply in_seq in Hi;
          destruct (ndiv_mod_chunk c i ltac:(lia)) as [D1 D2]; unfold non, nhit, vdraw; rewrite D1, D2, Nat.add_0_r;
          rewrite <- nt1a_lane_pos by (apply row8_nth; auto); reflexivity. }
      rewrite P. rewrite nload_after_store by (auto; apply nlanes_length).
      assert (N : v_adds (map (fun i => nth (lmem + c * 16 + i) row 0) (seq 0 16))
          (v_or (v_and (v_cmpeq (map (fun i => wrap8 (nth (c * 16 + i) lits 0)) (seq 0 16)) (nv_set1 1))
                   (v_cmpgt (nv_set1 cmp) (map (fun i => nth i (vr_src r (S (vr_pos r + 2 * c))) 0) (seq 0 16))))
                (v_and (nv_set1 1) (v_and (v_not (v_cmpeq (map (fun i => wrap8 (nth (c * 16 + i) lits 0)) (seq 0 16)) (nv_set1 1)))
                        (v_not (v_cmpgt (nv_set1 cmp) (map (fun i => nth i (vr_src r (S (vr_pos r + 2 * c))) 0) (seq 0 16)))))))
        = map (fun i => (fun j v => t1a_lane false (negb (non j)) (nhit cmp r 1 j) v) (c * 16 + i)%nat (nth (lmem + c * 16 + i) row 0)) (seq 0 16)).
      { nvlanes; apply map_ext_in; intros i Hi; apply in_seq in Hi;
          destruct (ndiv_mod_chunk c i ltac:(lia)) as [D1 D2]; unfold non, nhit, vdraw; rewrite D1, D2;
          replace (vr_pos r + (2 * c + 1))%nat with (S (vr_pos r + 2 * c)) by lia;
          rewrite <- nt1a_lane_neg by (apply row8_nth; auto); reflexivity. }
      rewrite N. reflexivity. }
    assert (CE : nchunk_effect lmem c (fun j v => t1a_lane boost (non j) (nhit cmp r 0 j) v) (fun j v => t1a_lane false (negb (non j)) (nhit cmp r 1 j) v)
      row (fst (neon_t1a_chunk boost cmp lits lmem c (row, vadvance (2 * c) r)))).
    { rewrite E. apply ntwo_stores; auto. }
    split; [|exact CE]. split.
    - unfold neon_t1a_chunk, next_v, vadvance. cbn [vr_src vr_pos snd]. f_equal. lia.
    - eapply neffect_row8; [| |exact HL|exact H8|exact CE]; intros; apply ProofsAvx2Step.t1a_lane_8; auto.
  Qed.

  Lemma nt1b_chunk_effect : forall r, nvrng_ok r -> forall c st, (c < lmem / 16)%nat -> length (fst st) = (2 * lmem)%nat -> nat_draw r c st ->
    nat_draw r (S c) (neon_t1b_chunk cmp lmem c st) /\
    nchunk_effect lmem c (fun j v => t1b_lane (nhit cmp r 0 j) v) (fun j v => t1b_lane (nhit cmp r 1 j) v)
      (fst st) (fst (neon_t1b_chunk cmp lmem c st)).
  Proof.
    intros r VR c [row r0] Hc HL [HA H8]. cbn [fst snd] in *. subst r0.
    assert (HC : (c * 16 + 16 <= lmem)%nat) by lia.
    assert (LB : forall b v, is_int8 v -> sat8 (v + Z.land (-1) (if (b : bool) then -1 else 0)) = t1b_lane b v).
    { intros b v H. unfold is_int8, t1b_lane, down8, sat8 in *. destruct b; [change (Z.land (-1) (-1)) with (-1)|change (Z.land (-1) 0) with 0]; lia. }
    assert (E : fst (neon_t1b_chunk cmp lmem c (row, vadvance (2 * c) r)) =
      nv_store (nv_store row (c * 16) (map (fun i => (fun j v => t1b_lane (nhit cmp r 0 j) v) (c * 16 + i)%nat (nth (c * 16 + i) row 0)) (seq 0 16))) (lmem + c * 16)
             (map (fun i => (fun j v => t1b_lane (nhit cmp r 1 j) v) (c * 16 + i)%nat (nth (lmem + c * 16 + i) row 0)) (seq 0 16))).
    { unfold neon_t1b_chunk, next_v, vadvance. cbn [vr_src vr_pos fst].
      rewrite (nvec_lanes (vr_src r (vr_pos r + 2 * c))) by apply VR.
      rewrite (nvec_lanes (vr_src r (S (vr_pos r + 2 * c)))) by apply VR.
      rewrite (nload_lanes row (c * 16)) by lia.
      assert (P : v_adds (map (fun i => nth (c * 16 + i) row 0) (seq 0 16))
          (v_and (nv_set1 (-1)) (v_cmpgt (nv_set1 cmp) (map (fun i => nth i (vr_src r (vr_pos r + 2 * c)) 0) (seq 0 16))))
        = map (fun i => (fun j v => t1b_lane (nhit cmp r 0 j) v) (c * 16 + i)%nat (nth (c * 16 + i) row 0)) (seq 0 16)).
      { nvlanes; apply map_ext_in; intros i Hi; apply in_seq in Hi;
          destruct (ndiv_mod_chunk c i ltac:(lia)) as [D1 D2]; unfold nhit, vdraw; rewrite D1, D2, Nat.add_0_r;
          rewrite <- LB by (apply row8_nth; auto); reflexivity. }
      rewrite P. rewrite nload_after_store by (auto; apply nlanes_length).
      assert (N : v_adds (map (fun i => nth (lmem + c * 16 + i) row 0) (seq 0 16))
          (v_and (nv_set1 (-1)) (v_cmpgt (nv_set1 cmp) (map (fun i => nth i (vr_src r (S (vr_pos r + 2 * c))) 0) (seq 0 16))))
        = map (fun i => (fun j v => t1b_lane (nhit cmp r 1 j) v) (c * 16 + i)%nat (nth (lmem + c * 16 + i) row 0)) (seq 0 16)).
      { nvlanes; apply map_ext_in; intros i Hi; apply in_seq in Hi;
          destruct (ndiv_mod_chunk c i ltac:(lia)) as [D1 D2]; unfold nhit, vdraw; rewrite D1, D2;
          replace (vr_pos r + (2 * c + 1))%nat with (S (vr_pos r + 2 * c)) by lia;
          rewrite <- LB by (apply row8_nth; auto); reflexivity. }
      rewrite N. reflexivity. }
    assert (CE : nchunk_effect lmem c (fun j v => t1b_lane (nhit cmp r 0 j) v) (fun j v => t1b_lane (nhit cmp r 1 j) v)
      row (fst (neon_t1b_chunk cmp lmem c (row, vadvance (2 * c) r)))).
    { rewrite E. apply ntwo_stores; auto. }
    split; [|exact CE]. split.
    - unfold neon_t1b_chunk, next_v, vadvance. cbn [vr_src vr_pos snd]. f_equal. lia.
    - eapply neffect_row8; [| |exact HL|exact H8|exact CE]; intros; apply ProofsAvx2Step.t1b_lane_8; auto.
  Qed.

  Lemma nt2_chunk_effect : forall c row, (c < lmem / 16)%nat -> length row = (2 * lmem)%nat -> row8 row ->
    row8 (neon_t2_chunk lits lmem c row) /\
    nchunk_effect lmem c (fun j v => t2_lane (noff0 j) v) (fun j v => t2_lane (negb (noff0 j)) v) row (neon_t2_chunk lits lmem c row).
  Proof.
    intros c row Hc HL H8.
    assert (HC : (c * 16 + 16 <= lmem)%nat) by lia.
    assert (LP : forall b v, is_int8 v -> sat8 (v + Z.land (Z.land (if (b : bool) then -1 else 0) (if v <? 0 then -1 else 0)) 1) = t2_lane b v).
    { intros b v H. unfold is_int8, t2_lane, sat8 in *. destruct b, (v <? 0) eqn:Ev; cbn [andb]; match goal with |- context [v + ?z] => let z' := eval vm_compute in z in change z with z' end; lia. }
    assert (LN : forall b v, is_int8 v -> sat8 (v + Z.land (Z.land (Z.lnot (if (b : bool) then -1 else 0)) (if v <? 0 then -1 else 0)) 1) = t2_lane (negb b) v).
    { intros b v H. rewrite <- LP by auto. destruct b; reflexivity. }
    assert (E : neon_t2_chunk lits lmem c row =
      nv_store (nv_store row (c * 16) (map (fun i => (fun j v => t2_lane (noff0 j) v) (c * 16 + i)%nat (nth (c * 16 + i) row 0)) (seq 0 16))) (lmem + c * 16)
             (map (fun i => (fun j v => t2_lane (negb (noff0 j)) v) (c * 16 + i)%nat (nth (lmem + c * 16 + i) row 0)) (seq 0 16))).
    { unfold neon_t2_chunk. rewrite nload_u_lanes by lia. rewrite (nload_lanes row (c * 16)) by lia.
      assert (P : v_adds (map (fun i => nth (c * 16 + i) row 0) (seq 0 16))
          (v_and (v_and (v_cmpeq (map (fun i => wrap8 (nth (c * 16 + i) lits 0)) (seq 0 16)) (nv_set1 0))
                        (v_cmpgt (nv_set1 0) (map (fun i => nth (c * 16 + i) row 0) (seq 0 16)))) (nv_set1 1))
        = map (fun i => (fun j v => t2_lane (noff0 j) v) (c * 16 + i)%nat (nth (c * 16 + i) row 0)) (seq 0 16)).
      { nvlanes; apply map_ext_in; intros i Hi; unfold noff0; rewrite <- LP by (apply row8_nth; auto); reflexivity. }
      rewrite P. rewrite nload_after_store by (auto; apply nlanes_length).
      assert (N : v_adds (map (fun i => nth (lmem + c * 16 + i) row 0) (seq 0 16))
          (v_and (v_and (v_not (v_cmpeq (map (fun i => wrap8 (nth (c * 16 + i) lits 0)) (seq 0 16)) (nv_set1 0)))
                        (v_cmpgt (nv_set1 0) (map (fun i => nth (lmem + c * 16 + i) row 0) (seq 0 16)))) (nv_set1 1))
        = map (fun i => (fun j v => t2_lane (negb (noff0 j)) v) (c * 16 + i)%nat (nth (lmem + c * 16 + i) row 0)) (seq 0 16)).
      { nvlanes; apply map_ext_in; intros i Hi; unfold noff0; rewrite <- LN by (apply row8_nth; auto); reflexivity. }
      rewrite N. reflexivity. }
    assert (CE : nchunk_effect lmem c (fun j v => t2_lane (noff0 j) v) (fun j v => t2_lane (negb (noff0 j)) v) row (neon_t2_chunk lits lmem c row)).
    { rewrite E. apply ntwo_stores; auto. }
    split; [|exact CE]. eapply neffect_row8; [| |exact HL|exact H8|exact CE]; intros; apply ProofsAvx2Step.t2_lane_8; auto.
  Qed.

  Theorem neon_t1a_exact : forall boost row r, nvrng_ok r -> length row = (2 * lmem)%nat -> row8 row ->
    let '(row', r') := neon_t1a boost cmp lits lmem row r in
    length row' = (2 * lmem)%nat /\ row8 row' /\ r' = vadvance (2 * (lmem / 16)) r /\
    forall j, (j < lmem)%nat ->
      nth j row' 0 = t1a_lane boost (non j) (nhit cmp r 0 j) (nth j row 0) /\
      nth (lmem + j) row' 0 = t1a_lane false (negb (non j)) (nhit cmp r 1 j) (nth (lmem + j) row 0).
  Proof.
    intros boost row r VR HL H8. unfold neon_t1a.
    pose proof (nchunk_loop _ fst (nat_draw r) (neon_t1a_chunk boost cmp lits lmem) lmem _ _ (lmem / 16) ltac:(lia)
       (nt1a_chunk_effect boost r VR) (row, r)) as [A1 [A2 [A3 _]]]; auto.
    { split; [|auto]. destruct r as [src0 pos0]. unfold vadvance. cbn [snd vr_src vr_pos]. f_equal. lia. }
    destruct (for_loop (lmem / 16) (neon_t1a_chunk boost cmp lits lmem) (row, r)) as [row' r']. destruct A1 as [A1 A1'].
    cbn [fst snd] in *. repeat split; auto; apply A3; lia.
  Qed.

  Theorem neon_t1b_exact : forall row r, nvrng_ok r -> length row = (2 * lmem)%nat -> row8 row ->
    let '(row', r') := neon_t1b cmp lmem row r in
    length row' = (2 * lmem)%nat /\ row8 row' /\ r' = vadvance (2 * (lmem / 16)) r /\
    forall j, (j < lmem)%nat ->
      nth j row' 0 = t1b_lane (nhit cmp r 0 j) (nth j row 0) /\
      nth (lmem + j) row' 0 = t1b_lane (nhit cmp r 1 j) (nth (lmem + j) row 0).
  Proof.
    intros row r VR HL H8. unfold neon_t1b.
    pose proof (nchunk_loop _ fst (nat_draw r) (neon_t1b_chunk cmp lmem) lmem _ _ (lmem / 16) ltac:(lia)
       (nt1b_chunk_effect r VR) (row, r)) as [A1 [A2 [A3 _]]]; auto.
    { split; [|auto]. destruct r as [src0 pos0]. unfold vadvance. cbn [snd vr_src vr_pos]. f_equal. lia. }
    destruct (for_loop (lmem / 16) (neon_t1b_chunk cmp lmem) (row, r)) as [row' r']. destruct A1 as [A1 A1'].
    cbn [fst snd] in *. repeat split; auto; apply A3; lia.
  Qed.

  Theorem neon_t2_exact : forall row, length row = (2 * lmem)%nat -> row8 row ->
    let row' := neon_t2 lits lmem row in
    length row' = (2 * lmem)%nat /\ row8 row' /\
    forall j, (j < lmem)%nat ->
      nth j row' 0 = t2_lane (noff0 j) (nth j row 0) /\
      nth (lmem + j) row' 0 = t2_lane (negb (noff0 j)) (nth (lmem + j) row 0).
  Proof.
    intros row HL H8. unfold neon_t2.
    pose proof (nchunk_loop _ (fun r => r) (fun _ r => row8 r) (neon_t2_chunk lits lmem) lmem _ _ (lmem / 16) ltac:(lia)
       (fun c a H1 H2 H3 => nt2_chunk_effect c a H1 H2 H3) row HL H8) as [A1 [A2 [A3 _]]].
    cbv zeta in *. repeat split; auto; apply A3; lia.
  Qed.
End Feedback.
