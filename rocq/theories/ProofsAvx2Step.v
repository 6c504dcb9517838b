(** Training steps of the AVX2 block: weights as in the scalar block, feedback
    lane by lane, ranges. *)
From Coq Require Import ZArith Arith List Bool QArith Lia ZifyBool.
From Verif Require Import Base BaseProofs Spec SpecLearning ModelInference ModelDense ModelLayout ModelFeedback ModelExecutor ModelDenseExec ModelAvx2
  SpecAvx2 ProofsClause ProofsLayout ProofsEval ProofsLearning ProofsStep ProofsExecutor ProofsDenseExec ProofsInput ProofsAvx2 ProofsAvx2Scalar.
Import ListNotations.
Open Scope Z_scope.

(** ** Weights *)

Definition weight_after (w target output : Z) : Z :=
  let sign := if w >=? 0 then 1 else -1 in
  if target * sign >? 0 then (if output =? 1 then wrap16 (w + sign) else w)
  else if (target * sign <? 0) && (output =? 1) then wrap16 (w - sign) else w.

Lemma clause_update_w : forall boost si sm c w t x o r, snd (fst (clause_update boost si sm c w t x o r)) = weight_after w t o.
Proof.
  intros. unfold clause_update, weight_after. destruct (t * (if w >=? 0 then 1 else -1) >? 0).
  - destruct (o =? 1).
    + destruct (type1a _ _ _ _ _ _ _) as [[p q] r1]. reflexivity.
    + destruct (type1b _ _ _ _) as [[p q] r1]. reflexivity.
  - destruct ((t * (if w >=? 0 then 1 else -1) <? 0) && (o =? 1)); [|reflexivity].
    destruct (type2 _ _ _) as [p q]. reflexivity.
Qed.

Lemma avx_clause_update_w : forall boost cmp lmem row w t x o r, snd (fst (avx_clause_update boost cmp lmem row w t x o r)) = weight_after w t o.
Proof.
  intros. unfold avx_clause_update, weight_after. destruct (t * (if w >=? 0 then 1 else -1) >? 0).
  - destruct (o =? 1).
    + destruct (avx_t1a _ _ _ _ _ _) as [p r1]. reflexivity.
    + destruct (avx_t1b _ _ _ _) as [p r1]. reflexivity.
  - destruct ((t * (if w >=? 0 then 1 else -1) <? 0) && (o =? 1)); reflexivity.
Qed.

(** Weights row, output and fast generator after one clause of a step. *)
Definition clause_effect (bo : bool) (budget : Z) (pc : nat) (pp : Q) (nc : nat) (np : Q) (ws : list Z) (out count : Z) (fast : rng)
  : list Z * Z * rng :=
  let out := if bo && (count >? budget) then 0 else out in
  let '(d, fast) := draw_lt fast pp in
  let ws := if d then set_nth pc (weight_after (nth pc ws 0) 1 out) ws else ws in
  let '(d, fast) := draw_lt fast np in
  let ws := if d then set_nth nc (weight_after (nth nc ws 0) (-1) out) ws else ws in
  (ws, out, fast).

Lemma scalar_clause_effect : forall bo boost bud si sm x pc pp nc np c ws o cnt r f,
  let '(c1, ws1, o1, r1, f1) := train_update_clause bo boost bud si sm x pc pp nc np c ws o cnt r f in
  (ws1, o1, f1) = clause_effect bo bud pc pp nc np ws o cnt f.
Proof.
  intros. unfold train_update_clause, clause_effect. set (out := if bo && (cnt >? bud) then 0 else o). clearbody out.
  pose proof (clause_update_w boost si sm c (nth pc ws 0) 1 x out r) as W1.
  destruct (clause_update boost si sm c (nth pc ws 0) 1 x out r) as [[c1 w1] r1]. cbn [fst snd] in W1. subst w1.
  destruct (draw_lt f pp) as [d1 f1].
  destruct d1; destruct (draw_lt f1 np) as [d2 f2];
    match goal with |- context [clause_update ?a ?b ?c ?d ?e ?f ?g ?h ?i] =>
      pose proof (clause_update_w a b c d e f g h i) as W2;
      destruct (clause_update a b c d e f g h i) as [[c2 w2] r2]; cbn [fst snd] in W2; subst w2 end;
    destruct d2; reflexivity.
Qed.

Lemma avx_clause_effect : forall bo boost bud cmp lmem x pc pp nc np row ws o cnt r f,
  let '(row1, ws1, o1, r1, f1) := avx_update_clause bo boost bud cmp lmem x pc pp nc np row ws o cnt r f in
  (ws1, o1, f1) = clause_effect bo bud pc pp nc np ws o cnt f.
Proof.
  intros. unfold avx_update_clause, clause_effect. set (out := if bo && (cnt >? bud) then 0 else o). clearbody out.
  pose proof (avx_clause_update_w boost cmp lmem row (nth pc ws 0) 1 x out r) as W1.
  destruct (avx_clause_update boost cmp lmem row (nth pc ws 0) 1 x out r) as [[c1 w1] r1]. cbn [fst snd] in W1. subst w1.
  destruct (draw_lt f pp) as [d1 f1].
  destruct d1; destruct (draw_lt f1 np) as [d2 f2];
    match goal with |- context [avx_clause_update ?a ?b ?c ?d ?e ?f ?g ?h ?i] =>
      pose proof (avx_clause_update_w a b c d e f g h i) as W2;
      destruct (avx_clause_update a b c d e f g h i) as [[c2 w2] r2]; cbn [fst snd] in W2; subst w2 end;
    destruct d2; reflexivity.
Qed.

(** A count only matters for a firing clause. *)
Lemma effect_count : forall bo bud pc pp nc np ws o c1 c2 f, (o = 0 \/ c1 = c2) ->
  clause_effect bo bud pc pp nc np ws o c1 f = clause_effect bo bud pc pp nc np ws o c2 f.
Proof.
  intros bo bud pc pp nc np ws o c1 c2 f H. unfold clause_effect.
  replace (if bo && (c2 >? bud) then 0 else o) with (if bo && (c1 >? bud) then 0 else o); [reflexivity|].
  destruct H as [H|H]; subst; [|reflexivity]. destruct (bo && (c1 >? bud)), (bo && (c2 >? bud)); reflexivity.
Qed.

Lemma update_loops_effect : forall bo boost bud si sm cmp lmem x lits pc pp nc np rows cs wss outs ca cb r vr f,
  length rows = length cs ->
  (forall k, nth k outs 0 = 0 \/ nth k ca 0 = nth k cb 0) ->
  let '(cs2, wss2, outs2, r2, f2) := train_update_loop bo boost bud si sm x pc pp nc np cs wss outs cb r f in
  let '(rows2, wss3, outs3, r3, f3) := avx_update_loop bo boost bud cmp lmem lits pc pp nc np rows wss outs ca vr f in
  wss3 = wss2 /\ outs3 = outs2 /\ f3 = f2.
Proof.
  intros bo boost bud si sm cmp lmem x lits pc pp nc np rows. induction rows as [|row rows IH];
    intros [|c cs] [|ws wss] [|o outs] ca cb r vr f HL HC; cbn [length] in HL; try lia; cbn [train_update_loop avx_update_loop]; auto.
  pose proof (scalar_clause_effect bo boost bud si sm x pc pp nc np c ws o (hd 0 cb) r f) as E1.
  destruct (train_update_clause _ _ _ _ _ _ _ _ _ _ _ _ _ _ _ _) as [[[[c1 ws1] o1] r1] f1].
  pose proof (avx_clause_effect bo boost bud cmp lmem lits pc pp nc np row ws o (hd 0 ca) vr f) as E2.
  destruct (avx_update_clause _ _ _ _ _ _ _ _ _ _ _ _ _ _ _ _) as [[[[row1 ws2] o2] vr1] f2].
  assert (E : (ws1, o1, f1) = (ws2, o2, f2)).
  { rewrite E1, E2. apply effect_count. specialize (HC O). destruct ca, cb; cbn [nth hd] in *; destruct HC; auto. }
  assert (T1 : ws1 = ws2) by congruence. assert (T2 : o1 = o2) by congruence. assert (T3 : f1 = f2) by congruence. subst ws2 o2 f2.
  specialize (IH cs wss outs (tl ca) (tl cb) r1 vr1 f1 ltac:(lia)).
  destruct (train_update_loop _ _ _ _ _ _ _ _ _ _ _ _ _ _ _ _) as [[[[cs2 wss2] outs2] r2] f2].
  destruct (avx_update_loop _ _ _ _ _ _ _ _ _ _ _ _ _ _ _ _) as [[[[rows2 wss3] outs3] r3] f3].
  destruct IH as [I1 [I2 I3]].
  { intros k. specialize (HC (S k)). cbn [nth] in HC. rewrite !nth_tl. exact HC. }
  subst. auto.
Qed.

(** One training example on one AVX2 block. *)
Definition avx_step (bo boost : bool) (lits : list Z) (pc : nat) (pp : Q) (nc : nat) (np : Q) (b : ablock) : ablock :=
  avx_upd bo boost lits pc pp nc np (fst (avx_train_ex bo lits b)).

Theorem avx_step_weights : forall n x lits b bo boost pc pp nc np si sm r, avx_ok n b -> buffer_of n x lits -> binary x ->
  length (a_counts b) = length (a_rows b) ->
  let b' := avx_step bo boost lits pc pp nc np b in
  let s' := dense_step bo boost x pc pp nc np (scalar_view si sm r b) in
  a_weights b' = b_weights s' /\ a_outputs b' = b_outputs s' /\ a_votes b' = b_votes s' /\ a_fast b' = b_fast s' /\
  a_budget b' = b_budget s' /\ a_nlit b' = b_nlit s' /\ a_ncls b' = b_ncls s'.
Proof.
  intros n x lits b bo boost pc pp nc np si sm r OK Hb Hx HL b' s'.
  pose proof (avx_train_outputs n x lits b bo si sm r OK Hb Hx) as AO.
  assert (AC : bo = true -> forall k, nth k (a_outputs (avx_train_output bo lits b)) 0 = 0 \/
     nth k (a_counts (avx_train_output bo lits b)) 0 = nth k (b_counts (train_set_clause_output bo x (scalar_view si sm r b))) 0).
  { intros -> k. destruct (Z.eq_dec (nth k (a_outputs (avx_train_output true lits b)) 0) 1) as [E|E].
    - right. apply (avx_train_counts n); auto.
    - left. rewrite AO in *. unfold train_set_clause_output in *. cbn [b_outputs] in *. rewrite map_map in *.
      destruct (Nat.lt_ge_cases k (length (b_clauses (scalar_view si sm r b)))) as [Hk|Hk].
      + rewrite (nth_indep _ 0 ((fun c => fst (set_output true x c)) dclause)) in * by (rewrite map_length; auto).
        rewrite (map_nth (fun c => fst (set_output true x c))) in *.
        destruct (set_output_loop_01 true (cl_pos (nth k (b_clauses (scalar_view si sm r b)) dclause)) (cl_neg (nth k (b_clauses (scalar_view si sm r b)) dclause)) x 0 0) as [K|K];
          unfold set_output in *; [exact K|contradiction].
      + rewrite nth_overflow; auto. rewrite map_length. auto. }
  unfold b', s', avx_step, dense_step, avx_upd, dense_upd, avx_train_ex, dense_train_ex. cbn [fst].
  unfold avx_train_update, train_update.
  assert (EC : forall bo0, (bo0 = true -> forall k, nth k (a_outputs (avx_train_output bo lits b)) 0 = 0 \/
     nth k (a_counts (avx_train_output bo lits b)) 0 = nth k (b_counts (train_set_clause_output bo x (scalar_view si sm r b))) 0) ->
     bo0 = bo -> forall k, nth k (a_outputs (avx_train_output bo lits b)) 0 = 0 \/
       nth k (a_counts (avx_train_output bo lits b)) 0 = nth k (b_counts (train_set_clause_output bo x (scalar_view si sm r b))) 0).
  { intros bo0 H E k. subst bo0. destruct bo; [auto|]. right. reflexivity. }
  specialize (EC bo AC eq_refl).
  cbn [avx_count_votes avx_train_output count_votes train_set_clause_output scalar_view a_nlit a_lmem a_mask a_ncls a_rows a_weights a_outputs a_counts a_votes a_budget a_cmp a_vrng a_fast
       b_nlit b_ncls b_clauses b_weights b_outputs b_counts b_votes b_budget b_s_inv b_s_min1_inv b_rng b_fast] in *.
  rewrite <- AO.
  pose proof (update_loops_effect bo boost (a_budget b) si sm (a_cmp b) (a_lmem b) x lits pc pp nc np (a_rows b)
     (map (row_clause (a_nlit b) (a_lmem b)) (a_rows b)) (a_weights b) _ _ _ r (a_vrng b) (a_fast b) ltac:(now rewrite map_length) EC) as U.
  destruct (train_update_loop _ _ _ _ _ _ _ _ _ _ _ _ _ _ _ _) as [[[[cs2 wss2] outs2] r2] f2].
  destruct (avx_update_loop _ _ _ _ _ _ _ _ _ _ _ _ _ _ _ _) as [[[[rows2 wss3] outs3] r3] f3].
  destruct U as [U1 [U2 U3]]. subst.
  cbn [a_nlit a_lmem a_mask a_ncls a_rows a_weights a_outputs a_counts a_votes a_budget a_cmp a_vrng a_fast
       b_nlit b_ncls b_clauses b_weights b_outputs b_counts b_votes b_budget b_s_inv b_s_min1_inv b_rng b_fast].
  rewrite <- ?AO. repeat split; reflexivity.
Qed.

(** ** Feedback, lane by lane *)

Lemma v_store_nth : forall mem off v j, (off + 32 <= length mem)%nat -> length v = 32%nat ->
  nth j (v_store mem off v) 0 = if (off <=? j)%nat && (j <? off + 32)%nat then nth (j - off) v 0 else nth j mem 0.
Proof.
  intros mem off v j H1 H2. unfold v_store, memcpy. cbn [skipn].
  rewrite (firstn_all2 v) by lia.
  destruct (Nat.leb_spec off j) as [A|A]; cbn [andb].
  - rewrite app_nth2 by (rewrite firstn_length; lia). rewrite firstn_length. replace (Nat.min off (length mem)) with off by lia.
    destruct (Nat.ltb_spec j (off + 32)) as [B|B].
    + rewrite app_nth1 by lia. reflexivity.
    + rewrite app_nth2 by lia. rewrite nth_skipn. f_equal. lia.
  - rewrite app_nth1 by (rewrite firstn_length; lia). rewrite nth_firstn_lt by lia. reflexivity.
Qed.

Lemma v_store_length : forall mem off v, (off + 32 <= length mem)%nat -> length v = 32%nat -> length (v_store mem off v) = length mem.
Proof. intros. unfold v_store, memcpy. cbn [skipn]. rewrite !app_length, !firstn_length, skipn_length. lia. Qed.

Lemma vec_lanes : forall v, length v = 32%nat -> v = map (fun i => nth i v 0) (seq 0 32).
Proof. intros v H. apply list_eq_seq; auto. Qed.

Lemma lanes_length : forall (f : nat -> Z), length (map f (seq 0 32)) = 32%nat.
Proof. intros. now rewrite map_length, seq_length. Qed.

(** The effect of one chunk on both halves of a row. *)
Definition chunk_effect (lmem c : nat) (F G : nat -> Z -> Z) (row row' : list Z) : Prop :=
  length row' = length row /\
  forall j, (j < 2 * lmem)%nat -> nth j row' 0 =
    if (c * 32 <=? j)%nat && (j <? c * 32 + 32)%nat then F j (nth j row 0)
    else if (lmem + c * 32 <=? j)%nat && (j <? lmem + c * 32 + 32)%nat then G (j - lmem)%nat (nth j row 0)
    else nth j row 0.

Lemma two_stores : forall lmem c F G row, length row = (2 * lmem)%nat -> (c * 32 + 32 <= lmem)%nat ->
  chunk_effect lmem c F G row
    (v_store (v_store row (c * 32) (map (fun i => F (c * 32 + i)%nat (nth (c * 32 + i) row 0)) (seq 0 32))) (lmem + c * 32)
             (map (fun i => G (c * 32 + i)%nat (nth (lmem + c * 32 + i) row 0)) (seq 0 32))).
Proof.
  intros lmem c F G row HL HC.
  pose proof (v_store_length row (c * 32) (map (fun i => F (c * 32 + i)%nat (nth (c * 32 + i) row 0)) (seq 0 32)) ltac:(lia) (lanes_length _)) as L1.
  split.
  - rewrite v_store_length; [exact L1|lia|apply lanes_length].
  - intros j Hj. rewrite v_store_nth; [|lia|apply lanes_length]. rewrite v_store_nth; [|lia|apply lanes_length].
    destruct ((lmem + c * 32 <=? j)%nat && (j <? lmem + c * 32 + 32)%nat) eqn:E1.
    + apply andb_true_iff in E1. destruct E1 as [E1 E2]. apply Nat.leb_le in E1. apply Nat.ltb_lt in E2.
      replace ((c * 32 <=? j)%nat && (j <? c * 32 + 32)%nat) with false by (symmetry; apply andb_false_iff; right; apply Nat.ltb_ge; lia).
      rewrite (nth_map_seq (fun i => G (c * 32 + i)%nat (nth (lmem + c * 32 + i) row 0))) by lia. f_equal; [lia|f_equal; lia].
    + destruct ((c * 32 <=? j)%nat && (j <? c * 32 + 32)%nat) eqn:E2; [|reflexivity].
      apply andb_true_iff in E2. destruct E2 as [E2 E3]. apply Nat.leb_le in E2. apply Nat.ltb_lt in E3.
      rewrite (nth_map_seq (fun i => F (c * 32 + i)%nat (nth (c * 32 + i) row 0))) by lia. f_equal; [lia|f_equal; lia].
Qed.

(** Loading the second half after storing to the first. *)
Lemma load_after_store : forall lmem c row v, length row = (2 * lmem)%nat -> (c * 32 + 32 <= lmem)%nat -> length v = 32%nat ->
  v_load (v_store row (c * 32) v) (lmem + c * 32) = map (fun i => nth (lmem + c * 32 + i) row 0) (seq 0 32).
Proof.
  intros lmem c row v HL HC Hv. rewrite load_lanes by (rewrite v_store_length; auto; lia).
  apply map_ext_in. intros i Hi. apply in_seq in Hi. rewrite v_store_nth by (auto; lia).
  replace ((c * 32 <=? lmem + c * 32 + i)%nat && (lmem + c * 32 + i <? c * 32 + 32)%nat) with false
    by (symmetry; apply andb_false_iff; right; apply Nat.ltb_ge; lia). reflexivity.
Qed.

(** A whole loop of chunks. *)
Lemma chunk_loop : forall (A : Type) (rowof : A -> list Z) (inv : nat -> A -> Prop) (step : nat -> A -> A) lmem F G K,
  (K * 32 <= lmem)%nat ->
  (forall c a, (c < K)%nat -> length (rowof a) = (2 * lmem)%nat -> inv c a ->
     inv (S c) (step c a) /\ chunk_effect lmem c F G (rowof a) (rowof (step c a))) ->
  forall a, length (rowof a) = (2 * lmem)%nat -> inv O a ->
  let a' := for_loop K step a in
  inv K a' /\ length (rowof a') = (2 * lmem)%nat /\
  (forall j, (j < K * 32)%nat -> nth j (rowof a') 0 = F j (nth j (rowof a) 0) /\ nth (lmem + j) (rowof a') 0 = G j (nth (lmem + j) (rowof a) 0)) /\
  (forall j, (K * 32 <= j < lmem)%nat -> nth j (rowof a') 0 = nth j (rowof a) 0 /\ nth (lmem + j) (rowof a') 0 = nth (lmem + j) (rowof a) 0).
Proof.
  intros A rowof inv step lmem F G K. induction K as [|K IH]; intros HK Hs a HL HI; cbn [for_loop].
  - split; [exact HI|]. split; [exact HL|]. split; intros j Hj; [lia|auto].
  - destruct (IH ltac:(lia) (fun c a (H : (c < K)%nat) => Hs c a (Nat.lt_lt_succ_r _ _ H)) a HL HI) as [I1 [I2 [I3 I4]]].
    destruct (Hs K (for_loop K step a) ltac:(lia) I2 I1) as [S1 [S2 S3]].
    split; [exact S1|]. split; [congruence|]. split; intros j Hj.
    + rewrite (S3 j ltac:(lia)), (S3 (lmem + j)%nat ltac:(lia)).
      destruct (Nat.lt_ge_cases j (K * 32)) as [B|B].
      * destruct (I3 j B) as [J1 J2].
        replace ((K * 32 <=? j)%nat && (j <? K * 32 + 32)%nat) with false by (symmetry; apply andb_false_iff; left; apply Nat.leb_gt; lia).
        replace ((lmem + K * 32 <=? j)%nat && (j <? lmem + K * 32 + 32)%nat) with false by (symmetry; apply andb_false_iff; left; apply Nat.leb_gt; lia).
        replace ((K * 32 <=? lmem + j)%nat && (lmem + j <? K * 32 + 32)%nat) with false by (symmetry; apply andb_false_iff; right; apply Nat.ltb_ge; lia).
        replace ((lmem + K * 32 <=? lmem + j)%nat && (lmem + j <? lmem + K * 32 + 32)%nat) with false by (symmetry; apply andb_false_iff; left; apply Nat.leb_gt; lia).
        auto.
      * destruct (I4 j ltac:(lia)) as [J1 J2].
        replace ((K * 32 <=? j)%nat && (j <? K * 32 + 32)%nat) with true by (symmetry; apply andb_true_iff; split; [apply Nat.leb_le|apply Nat.ltb_lt]; lia).
        replace ((K * 32 <=? lmem + j)%nat && (lmem + j <? K * 32 + 32)%nat) with false by (symmetry; apply andb_false_iff; right; apply Nat.ltb_ge; lia).
        replace ((lmem + K * 32 <=? lmem + j)%nat && (lmem + j <? lmem + K * 32 + 32)%nat) with true by (symmetry; apply andb_true_iff; split; [apply Nat.leb_le|apply Nat.ltb_lt]; lia).
        replace (lmem + j - lmem)%nat with j by lia. rewrite J1, J2. auto.
    + rewrite (S3 j ltac:(lia)), (S3 (lmem + j)%nat ltac:(lia)). destruct (I4 j ltac:(lia)) as [J1 J2].
      replace ((K * 32 <=? j)%nat && (j <? K * 32 + 32)%nat) with false by (symmetry; apply andb_false_iff; right; apply Nat.ltb_ge; lia).
      replace ((lmem + K * 32 <=? j)%nat && (j <? lmem + K * 32 + 32)%nat) with false by (symmetry; apply andb_false_iff; left; apply Nat.leb_gt; lia).
      replace ((K * 32 <=? lmem + j)%nat && (lmem + j <? K * 32 + 32)%nat) with false by (symmetry; apply andb_false_iff; right; apply Nat.ltb_ge; lia).
      replace ((lmem + K * 32 <=? lmem + j)%nat && (lmem + j <? lmem + K * 32 + 32)%nat) with false by (symmetry; apply andb_false_iff; right; apply Nat.ltb_ge; lia).
      auto.
Qed.

Lemma div_mod_chunk : forall c i, (i < 32)%nat -> ((c * 32 + i) / 32 = c)%nat /\ ((c * 32 + i) mod 32 = i)%nat.
Proof.
  intros c i H. split.
  - rewrite Nat.div_add_l by lia. rewrite Nat.div_small by lia. lia.
  - rewrite Nat.add_comm, Nat.mod_add by lia. apply Nat.mod_small. lia.
Qed.

(** The new value of a literal's automaton under Type Ia. *)
Definition t1a_lane (boost lit_on hit : bool) (v : Z) : Z :=
  if lit_on then (if boost || negb hit then up8 v else v) else (if hit then down8 v else v).
Definition t1b_lane (hit : bool) (v : Z) : Z := if hit then down8 v else v.
Definition t2_lane (lit_false : bool) (v : Z) : Z := if lit_false && (v <? 0) then v + 1 else v.

Definition hit (cmp : Z) (r : vrng) (half j : nat) : bool := vdraw r (2 * (j / 32) + half) (j mod 32) <? cmp.

Lemma t1a_lane_pos : forall (boost a b : bool) v, is_int8 v ->
  sat8 (v + Z.lor (Z.land (-1) (Z.land (Z.lnot (if (a : bool) then -1 else 0)) (if (b : bool) then -1 else 0)))
                 (if boost then Z.land (if a then -1 else 0) 1
                  else Z.land 1 (Z.land (if a then -1 else 0) (Z.lnot (if b then -1 else 0))))) = t1a_lane boost a b v.
Proof.
  intros boost a b v H. unfold is_int8 in H. unfold t1a_lane, up8, down8, sat8.
  destruct a, b, boost; cbn [orb negb]; match goal with |- context [v + ?z] => let z' := eval vm_compute in z in change z with z' end; lia.
Qed.

Lemma t1a_lane_neg : forall (boost a b : bool) v, is_int8 v ->
  sat8 (v + Z.lor (Z.land (-1) (Z.land (if (a : bool) then -1 else 0) (if (b : bool) then -1 else 0)))
                 (if boost then Z.land (Z.lnot (if a then -1 else 0)) 1
                  else Z.land 1 (Z.land (Z.lnot (if a then -1 else 0)) (Z.lnot (if b then -1 else 0))))) = t1a_lane boost (negb a) b v.
Proof.
  intros boost a b v H. unfold is_int8 in H. unfold t1a_lane, up8, down8, sat8.
  destruct a, b, boost; cbn [orb negb]; match goal with |- context [v + ?z] => let z' := eval vm_compute in z in change z with z' end; lia.
Qed.

Definition row8 (row : list Z) : Prop := Forall is_int8 row.

Lemma row8_nth : forall row j, row8 row -> is_int8 (nth j row 0).
Proof.
  intros row j H. destruct (Nat.lt_ge_cases j (length row)).
  - unfold row8 in H; rewrite Forall_forall in H. apply H, nth_In. auto.
  - rewrite nth_overflow by auto. unfold is_int8. lia.
Qed.

Lemma row8_of_nth : forall row, (forall j, (j < length row)%nat -> is_int8 (nth j row 0)) -> row8 row.
Proof. intros row H. apply Forall_forall. intros v Hv. destruct (In_nth _ _ 0 Hv) as [j [J1 J2]]. subst. auto. Qed.

Lemma t1a_lane_8 : forall boost a b v, is_int8 v -> is_int8 (t1a_lane boost a b v).
Proof. intros. unfold is_int8, t1a_lane, up8, down8 in *. destruct a, b, boost; cbn [orb negb]; lia. Qed.
Lemma t1b_lane_8 : forall b v, is_int8 v -> is_int8 (t1b_lane b v).
Proof. intros. unfold is_int8, t1b_lane, down8 in *. destruct b; lia. Qed.
Lemma t2_lane_8 : forall b v, is_int8 v -> is_int8 (t2_lane b v).
Proof. intros. unfold is_int8, t2_lane in *. destruct b; cbn [andb]; [|lia]. destruct (v <? 0) eqn:E; lia. Qed.

Lemma effect_row8 : forall lmem c F G row row', (forall j v, is_int8 v -> is_int8 (F j v)) -> (forall j v, is_int8 v -> is_int8 (G j v)) ->
  length row = (2 * lmem)%nat -> row8 row -> chunk_effect lmem c F G row row' -> row8 row'.
Proof.
  intros lmem c F G row row' HF HG HL H8 [E1 E2]. apply row8_of_nth. intros j Hj. rewrite E2 by lia.
  pose proof (row8_nth row j H8). destruct (_ && _); [auto|]. destruct (_ && _); auto.
Qed.

Section Feedback.
  Variables (cmp : Z) (lits : list Z) (lmem : nat).
  Hypothesis Hlits : (lmem <= length lits)%nat.
  Hypothesis Hdiv : lmem = (lmem / 32 * 32)%nat.
  Definition on (j : nat) : bool := wrap8 (nth j lits 0) =? 1.
  Definition off0 (j : nat) : bool := wrap8 (nth j lits 0) =? 0.

  Definition at_draw (r : vrng) (c : nat) (st : list Z * vrng) : Prop := snd st = vadvance (2 * c) r /\ row8 (fst st).

  Lemma t1a_chunk_effect : forall boost r, vrng_ok r -> forall c st, (c < lmem / 32)%nat -> length (fst st) = (2 * lmem)%nat -> at_draw r c st ->
    at_draw r (S c) (avx_t1a_chunk boost cmp lits lmem c st) /\
    chunk_effect lmem c (fun j v => t1a_lane boost (on j) (hit cmp r 0 j) v) (fun j v => t1a_lane boost (negb (on j)) (hit cmp r 1 j) v)
      (fst st) (fst (avx_t1a_chunk boost cmp lits lmem c st)).
  Proof.
    intros boost r VR c [row r0] Hc HL [HA H8]. cbn [fst snd] in *. subst r0.
    assert (HC : (c * 32 + 32 <= lmem)%nat) by lia.
    assert (E : fst (avx_t1a_chunk boost cmp lits lmem c (row, vadvance (2 * c) r)) =
      v_store (v_store row (c * 32) (map (fun i => (fun j v => t1a_lane boost (on j) (hit cmp r 0 j) v) (c * 32 + i)%nat (nth (c * 32 + i) row 0)) (seq 0 32))) (lmem + c * 32)
             (map (fun i => (fun j v => t1a_lane boost (negb (on j)) (hit cmp r 1 j) v) (c * 32 + i)%nat (nth (lmem + c * 32 + i) row 0)) (seq 0 32))).
    { unfold avx_t1a_chunk, next_v, vadvance. cbn [vr_src vr_pos fst].
      rewrite (vec_lanes (vr_src r (vr_pos r + 2 * c))) by apply VR.
      rewrite (vec_lanes (vr_src r (S (vr_pos r + 2 * c)))) by apply VR.
      rewrite load_u_lanes by lia. rewrite (load_lanes row (c * 32)) by lia.
      assert (P : v_adds (map (fun i => nth (c * 32 + i) row 0) (seq 0 32))
          (v_or (v_and (v_set1 (-1)) (v_and (v_not (v_cmpeq (map (fun i => wrap8 (nth (c * 32 + i) lits 0)) (seq 0 32)) (v_set1 1)))
                   (v_cmpgt (v_set1 cmp) (map (fun i => nth i (vr_src r (vr_pos r + 2 * c)) 0) (seq 0 32)))))
                (if boost then v_and (v_cmpeq (map (fun i => wrap8 (nth (c * 32 + i) lits 0)) (seq 0 32)) (v_set1 1)) (v_set1 1)
                 else v_and (v_set1 1) (v_and (v_cmpeq (map (fun i => wrap8 (nth (c * 32 + i) lits 0)) (seq 0 32)) (v_set1 1))
                        (v_not (v_cmpgt (v_set1 cmp) (map (fun i => nth i (vr_src r (vr_pos r + 2 * c)) 0) (seq 0 32)))))))
        = map (fun i => (fun j v => t1a_lane boost (on j) (hit cmp r 0 j) v) (c * 32 + i)%nat (nth (c * 32 + i) row 0)) (seq 0 32)).
      { destruct boost; vlanes; apply map_ext_in; intros i Hi; apply in_seq in Hi;
          destruct (div_mod_chunk c i ltac:(lia)) as [D1 D2]; unfold on, hit, vdraw; rewrite D1, D2, Nat.add_0_r;
          rewrite <- t1a_lane_pos by (apply row8_nth; auto); reflexivity. }
      rewrite P. rewrite load_after_store by (auto; apply lanes_length).
      assert (N : v_adds (map (fun i => nth (lmem + c * 32 + i) row 0) (seq 0 32))
          (v_or (v_and (v_set1 (-1)) (v_and (v_cmpeq (map (fun i => wrap8 (nth (c * 32 + i) lits 0)) (seq 0 32)) (v_set1 1))
                   (v_cmpgt (v_set1 cmp) (map (fun i => nth i (vr_src r (S (vr_pos r + 2 * c))) 0) (seq 0 32)))))
                (if boost then v_and (v_not (v_cmpeq (map (fun i => wrap8 (nth (c * 32 + i) lits 0)) (seq 0 32)) (v_set1 1))) (v_set1 1)
                 else v_and (v_set1 1) (v_and (v_not (v_cmpeq (map (fun i => wrap8 (nth (c * 32 + i) lits 0)) (seq 0 32)) (v_set1 1)))
                        (v_not (v_cmpgt (v_set1 cmp) (map (fun i => nth i (vr_src r (S (vr_pos r + 2 * c))) 0) (seq 0 32)))))))
        = map (fun i => (fun j v => t1a_lane boost (negb (on j)) (hit cmp r 1 j) v) (c * 32 + i)%nat (nth (lmem + c * 32 + i) row 0)) (seq 0 32)).
      { destruct boost; vlanes; apply map_ext_in; intros i Hi; apply in_seq in Hi;
          destruct (div_mod_chunk c i ltac:(lia)) as [D1 D2]; unfold on, hit, vdraw; rewrite D1, D2;
          replace (vr_pos r + (2 * c + 1))%nat with (S (vr_pos r + 2 * c)) by lia;
          rewrite <- t1a_lane_neg by (apply row8_nth; auto); reflexivity. }
      rewrite N. reflexivity. }
    assert (CE : chunk_effect lmem c (fun j v => t1a_lane boost (on j) (hit cmp r 0 j) v) (fun j v => t1a_lane boost (negb (on j)) (hit cmp r 1 j) v)
      row (fst (avx_t1a_chunk boost cmp lits lmem c (row, vadvance (2 * c) r)))).
    { rewrite E. apply two_stores; auto. }
    split; [|exact CE]. split.
    - unfold avx_t1a_chunk, next_v, vadvance. cbn [vr_src vr_pos snd]. f_equal. lia.
    - eapply effect_row8; [| |exact HL|exact H8|exact CE]; intros; apply t1a_lane_8; auto.
  Qed.

  Lemma t1b_chunk_effect : forall r, vrng_ok r -> forall c st, (c < lmem / 32)%nat -> length (fst st) = (2 * lmem)%nat -> at_draw r c st ->
    at_draw r (S c) (avx_t1b_chunk cmp lmem c st) /\
    chunk_effect lmem c (fun j v => t1b_lane (hit cmp r 0 j) v) (fun j v => t1b_lane (hit cmp r 1 j) v)
      (fst st) (fst (avx_t1b_chunk cmp lmem c st)).
  Proof.
    intros r VR c [row r0] Hc HL [HA H8]. cbn [fst snd] in *. subst r0.
    assert (HC : (c * 32 + 32 <= lmem)%nat) by lia.
    assert (LB : forall b v, is_int8 v -> sat8 (v + Z.land (-1) (if (b : bool) then -1 else 0)) = t1b_lane b v).
    { intros b v H. unfold is_int8, t1b_lane, down8, sat8 in *. destruct b; [change (Z.land (-1) (-1)) with (-1)|change (Z.land (-1) 0) with 0]; lia. }
    assert (E : fst (avx_t1b_chunk cmp lmem c (row, vadvance (2 * c) r)) =
      v_store (v_store row (c * 32) (map (fun i => (fun j v => t1b_lane (hit cmp r 0 j) v) (c * 32 + i)%nat (nth (c * 32 + i) row 0)) (seq 0 32))) (lmem + c * 32)
             (map (fun i => (fun j v => t1b_lane (hit cmp r 1 j) v) (c * 32 + i)%nat (nth (lmem + c * 32 + i) row 0)) (seq 0 32))).
    { unfold avx_t1b_chunk, next_v, vadvance. cbn [vr_src vr_pos fst].
      rewrite (vec_lanes (vr_src r (vr_pos r + 2 * c))) by apply VR.
      rewrite (vec_lanes (vr_src r (S (vr_pos r + 2 * c)))) by apply VR.
      rewrite (load_lanes row (c * 32)) by lia.
      assert (P : v_adds (map (fun i => nth (c * 32 + i) row 0) (seq 0 32))
          (v_and (v_set1 (-1)) (v_cmpgt (v_set1 cmp) (map (fun i => nth i (vr_src r (vr_pos r + 2 * c)) 0) (seq 0 32))))
        = map (fun i => (fun j v => t1b_lane (hit cmp r 0 j) v) (c * 32 + i)%nat (nth (c * 32 + i) row 0)) (seq 0 32)).
      { vlanes; apply map_ext_in; intros i Hi; apply in_seq in Hi;
          destruct (div_mod_chunk c i ltac:(lia)) as [D1 D2]; unfold hit, vdraw; rewrite D1, D2, Nat.add_0_r;
          rewrite <- LB by (apply row8_nth; auto); reflexivity. }
      rewrite P. rewrite load_after_store by (auto; apply lanes_length).
      assert (N : v_adds (map (fun i => nth (lmem + c * 32 + i) row 0) (seq 0 32))
          (v_and (v_set1 (-1)) (v_cmpgt (v_set1 cmp) (map (fun i => nth i (vr_src r (S (vr_pos r + 2 * c))) 0) (seq 0 32))))
        = map (fun i => (fun j v => t1b_lane (hit cmp r 1 j) v) (c * 32 + i)%nat (nth (lmem + c * 32 + i) row 0)) (seq 0 32)).
      { vlanes; apply map_ext_in; intros i Hi; apply in_seq in Hi;
          destruct (div_mod_chunk c i ltac:(lia)) as [D1 D2]; unfold hit, vdraw; rewrite D1, D2;
          replace (vr_pos r + (2 * c + 1))%nat with (S (vr_pos r + 2 * c)) by lia;
          rewrite <- LB by (apply row8_nth; auto); reflexivity. }
      rewrite N. reflexivity. }
    assert (CE : chunk_effect lmem c (fun j v => t1b_lane (hit cmp r 0 j) v) (fun j v => t1b_lane (hit cmp r 1 j) v)
      row (fst (avx_t1b_chunk cmp lmem c (row, vadvance (2 * c) r)))).
    { rewrite E. apply two_stores; auto. }
    split; [|exact CE]. split.
    - unfold avx_t1b_chunk, next_v, vadvance. cbn [vr_src vr_pos snd]. f_equal. lia.
    - eapply effect_row8; [| |exact HL|exact H8|exact CE]; intros; apply t1b_lane_8; auto.
  Qed.

  Lemma t2_chunk_effect : forall c row, (c < lmem / 32)%nat -> length row = (2 * lmem)%nat -> row8 row ->
    row8 (avx_t2_chunk lits lmem c row) /\
    chunk_effect lmem c (fun j v => t2_lane (off0 j) v) (fun j v => t2_lane (negb (off0 j)) v) row (avx_t2_chunk lits lmem c row).
  Proof.
    intros c row Hc HL H8.
    assert (HC : (c * 32 + 32 <= lmem)%nat) by lia.
    assert (LP : forall b v, is_int8 v -> sat8 (v + Z.land (Z.land (if (b : bool) then -1 else 0) (if v <? 0 then -1 else 0)) 1) = t2_lane b v).
    { intros b v H. unfold is_int8, t2_lane, sat8 in *. destruct b, (v <? 0) eqn:Ev; cbn [andb]; match goal with |- context [v + ?z] => let z' := eval vm_compute in z in change z with z' end; lia. }
    assert (LN : forall b v, is_int8 v -> sat8 (v + Z.land (Z.land (Z.lnot (if (b : bool) then -1 else 0)) (if v <? 0 then -1 else 0)) 1) = t2_lane (negb b) v).
    { intros b v H. rewrite <- LP by auto. destruct b; reflexivity. }
    assert (E : avx_t2_chunk lits lmem c row =
      v_store (v_store row (c * 32) (map (fun i => (fun j v => t2_lane (off0 j) v) (c * 32 + i)%nat (nth (c * 32 + i) row 0)) (seq 0 32))) (lmem + c * 32)
             (map (fun i => (fun j v => t2_lane (negb (off0 j)) v) (c * 32 + i)%nat (nth (lmem + c * 32 + i) row 0)) (seq 0 32))).
    { unfold avx_t2_chunk. rewrite load_u_lanes by lia. rewrite (load_lanes row (c * 32)) by lia.
      assert (P : v_adds (map (fun i => nth (c * 32 + i) row 0) (seq 0 32))
          (v_and (v_and (v_cmpeq (map (fun i => wrap8 (nth (c * 32 + i) lits 0)) (seq 0 32)) (v_set1 0))
                        (v_cmpgt (v_set1 0) (map (fun i => nth (c * 32 + i) row 0) (seq 0 32)))) (v_set1 1))
        = map (fun i => (fun j v => t2_lane (off0 j) v) (c * 32 + i)%nat (nth (c * 32 + i) row 0)) (seq 0 32)).
      { vlanes; apply map_ext_in; intros i Hi; unfold off0; rewrite <- LP by (apply row8_nth; auto); reflexivity. }
      rewrite P. rewrite load_after_store by (auto; apply lanes_length).
      assert (N : v_adds (map (fun i => nth (lmem + c * 32 + i) row 0) (seq 0 32))
          (v_and (v_and (v_not (v_cmpeq (map (fun i => wrap8 (nth (c * 32 + i) lits 0)) (seq 0 32)) (v_set1 0)))
                        (v_cmpgt (v_set1 0) (map (fun i => nth (lmem + c * 32 + i) row 0) (seq 0 32)))) (v_set1 1))
        = map (fun i => (fun j v => t2_lane (negb (off0 j)) v) (c * 32 + i)%nat (nth (lmem + c * 32 + i) row 0)) (seq 0 32)).
      { vlanes; apply map_ext_in; intros i Hi; unfold off0; rewrite <- LN by (apply row8_nth; auto); reflexivity. }
      rewrite N. reflexivity. }
    assert (CE : chunk_effect lmem c (fun j v => t2_lane (off0 j) v) (fun j v => t2_lane (negb (off0 j)) v) row (avx_t2_chunk lits lmem c row)).
    { rewrite E. apply two_stores; auto. }
    split; [|exact CE]. eapply effect_row8; [| |exact HL|exact H8|exact CE]; intros; apply t2_lane_8; auto.
  Qed.

  Theorem avx_t1a_exact : forall boost row r, vrng_ok r -> length row = (2 * lmem)%nat -> row8 row ->
    let '(row', r') := avx_t1a boost cmp lits lmem row r in
    length row' = (2 * lmem)%nat /\ row8 row' /\ r' = vadvance (2 * (lmem / 32)) r /\
    forall j, (j < lmem)%nat ->
      nth j row' 0 = t1a_lane boost (on j) (hit cmp r 0 j) (nth j row 0) /\
      nth (lmem + j) row' 0 = t1a_lane boost (negb (on j)) (hit cmp r 1 j) (nth (lmem + j) row 0).
  Proof.
    intros boost row r VR HL H8. unfold avx_t1a.
    pose proof (chunk_loop _ fst (at_draw r) (avx_t1a_chunk boost cmp lits lmem) lmem _ _ (lmem / 32) ltac:(lia)
       (t1a_chunk_effect boost r VR) (row, r)) as [A1 [A2 [A3 _]]]; auto.
    { split; [|auto]. destruct r as [src0 pos0]. unfold vadvance. cbn [snd vr_src vr_pos]. f_equal. lia. }
    destruct (for_loop (lmem / 32) (avx_t1a_chunk boost cmp lits lmem) (row, r)) as [row' r']. destruct A1 as [A1 A1'].
    cbn [fst snd] in *. repeat split; auto; apply A3; lia.
  Qed.

  Theorem avx_t1b_exact : forall row r, vrng_ok r -> length row = (2 * lmem)%nat -> row8 row ->
    let '(row', r') := avx_t1b cmp lmem row r in
    length row' = (2 * lmem)%nat /\ row8 row' /\ r' = vadvance (2 * (lmem / 32)) r /\
    forall j, (j < lmem)%nat ->
      nth j row' 0 = t1b_lane (hit cmp r 0 j) (nth j row 0) /\
      nth (lmem + j) row' 0 = t1b_lane (hit cmp r 1 j) (nth (lmem + j) row 0).
  Proof.
    intros row r VR HL H8. unfold avx_t1b.
    pose proof (chunk_loop _ fst (at_draw r) (avx_t1b_chunk cmp lmem) lmem _ _ (lmem / 32) ltac:(lia)
       (t1b_chunk_effect r VR) (row, r)) as [A1 [A2 [A3 _]]]; auto.
    { split; [|auto]. destruct r as [src0 pos0]. unfold vadvance. cbn [snd vr_src vr_pos]. f_equal. lia. }
    destruct (for_loop (lmem / 32) (avx_t1b_chunk cmp lmem) (row, r)) as [row' r']. destruct A1 as [A1 A1'].
    cbn [fst snd] in *. repeat split; auto; apply A3; lia.
  Qed.

  Theorem avx_t2_exact : forall row, length row = (2 * lmem)%nat -> row8 row ->
    let row' := avx_t2 lits lmem row in
    length row' = (2 * lmem)%nat /\ row8 row' /\
    forall j, (j < lmem)%nat ->
      nth j row' 0 = t2_lane (off0 j) (nth j row 0) /\
      nth (lmem + j) row' 0 = t2_lane (negb (off0 j)) (nth (lmem + j) row 0).
  Proof.
    intros row HL H8. unfold avx_t2.
    pose proof (chunk_loop _ (fun r => r) (fun _ r => row8 r) (avx_t2_chunk lits lmem) lmem _ _ (lmem / 32) ltac:(lia)
       (fun c a H1 H2 H3 => t2_chunk_effect c a H1 H2 H3) row HL H8) as [A1 [A2 [A3 _]]].
    cbv zeta in *. repeat split; auto; apply A3; lia.
  Qed.
End Feedback.
