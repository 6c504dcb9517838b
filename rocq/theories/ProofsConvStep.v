(** One training step of a convolutional block, evaluation, histories. *)
From Coq Require Import ZArith List Bool QArith Qround Lia ZifyBool.
From Verif Require Import Base BaseProofs Spec SpecLearning SpecConv ModelInference ModelDense ModelFeedback ModelExecutor ModelDenseExec ModelConv
  ProofsClause ProofsRuleSet ProofsLayout ProofsEval ProofsLearning ProofsStep ProofsHistory ProofsTopLearning ProofsAvx2Hist ProofsSparseState ProofsSparseRules ProofsConv.
Import ListNotations.
Open Scope Z_scope.

Lemma Forall_set_nth : forall A (P : A -> Prop) i v l, Forall P l -> P v -> Forall P (set_nth i v l).
Proof.
  intros A P i v l H. revert i. induction H as [|a l Ha H IH]; intros [|i] Hv; cbn [set_nth]; constructor; auto.
Qed.

Lemma nth_int16 : forall j ws, Forall is_int16 ws -> is_int16 (nth j ws 0).
Proof.
  intros j ws H. destruct (Nat.lt_ge_cases j (length ws)) as [L|L].
  - rewrite Forall_forall in H. apply H, nth_In; auto.
  - rewrite nth_overflow by auto. unfold is_int16. lia.
Qed.

(** Shape of the weights and of the fast generator, for any class numbers. *)
Lemma train_update_clause_shape : forall bo boost bud si sm x pc pp nc np c ws o cnt r f,
  let t := train_update_clause bo boost bud si sm x pc pp nc np c ws o cnt r f in
  snd t = advance 2 f /\ length (snd (fst (fst (fst t)))) = length ws /\
  (Forall is_int16 ws -> Forall is_int16 (snd (fst (fst (fst t))))).
Proof.
  intros bo boost bud si sm x pc pp nc np c ws o cnt r f. cbv zeta.
  unfold train_update_clause. rewrite draw_lt_eq. set (o' := if bo && (cnt >? bud) then 0 else o).
  assert (I16 : forall z t, is_int16 z -> is_int16 (if o' =? 1 then wrap16 (z + t) else z)).
  { intros z t Hz. destruct (o' =? 1); auto. apply wrap16_range. }
  pose proof (clause_update_weight boost si sm c (nth pc ws 0) 1 x o' r ltac:(auto)) as W1.
  destruct (clause_update boost si sm c (nth pc ws 0) 1 x o' r) as [[c1 w1] r1]. cbn [fst snd] in W1.
  destruct (Qlt_bool (draw f 0) pp); rewrite draw_lt_eq, advance_advance; cbn [Nat.add].
  - pose proof (clause_update_weight boost si sm c1 (nth nc (set_nth pc w1 ws) 0) (-1) x o' r1 ltac:(auto)) as W2.
    destruct (clause_update _ _ _ c1 _ _ _ _ _) as [[c2 w2] r2]. cbn [fst snd] in W2.
    destruct (Qlt_bool (draw (advance 1 f) 0) np); cbn [fst snd]; rewrite ?set_nth_length; split; auto; split; auto; intros H.
    + assert (Forall is_int16 (set_nth pc w1 ws)) by (apply Forall_set_nth; auto; subst w1; apply I16, nth_int16; auto).
      apply Forall_set_nth; auto. subst w2. apply I16, nth_int16; auto.
    + apply Forall_set_nth; auto. subst w1. apply I16, nth_int16; auto.
  - pose proof (clause_update_weight boost si sm c (nth nc ws 0) (-1) x o' r ltac:(auto)) as W2.
    destruct (clause_update _ _ _ c (nth nc ws 0) _ _ _ _) as [[c2 w2] r2]. cbn [fst snd] in W2.
    destruct (Qlt_bool (draw (advance 1 f) 0) np); cbn [fst snd]; rewrite ?set_nth_length; split; auto; split; auto; intros H.
    apply Forall_set_nth; auto. subst w2. apply I16, nth_int16; auto.
Qed.

Lemma nth_tl_any : forall A (d : A) k (l : list A), nth k (tl l) d = nth (S k) l d.
Proof. intros A d k [|h t]; cbn [tl nth]; auto. destruct k; auto. Qed.

Lemma conv_update_loop_nth : forall bo boost bud si sm n lits pc pp nc np cs wss outs counts aps r f,
  length wss = length cs -> length outs = length cs ->
  let '(cs', wss', outs', r', f') := conv_update_loop bo boost bud si sm n lits pc pp nc np cs wss outs counts aps r f in
  length cs' = length cs /\ length wss' = length cs /\ length outs' = length cs /\ f' = advance (2 * length cs) f /\
  forall k, (k < length cs)%nat -> exists rk,
    let t := train_update_clause bo boost bud si sm (patch n lits (nth k aps O)) pc pp nc np (nth k cs dclause) (nth k wss []) (nth k outs 0)
               (nth k counts 0) rk (advance (2 * k) f) in
    nth k cs' dclause = fst (fst (fst (fst t))) /\ nth k wss' [] = snd (fst (fst (fst t))) /\ nth k outs' 0 = snd (fst (fst t)).
Proof.
  intros bo boost bud si sm n lits pc pp nc np cs. induction cs as [|c cs IH]; intros [|ws wss] [|o outs] counts aps r f H1 H2; cbn [length] in H1, H2; try lia.
  - cbn [conv_update_loop]. cbn [length]. rewrite Nat.mul_0_r, advance_0. repeat split; auto. intros k Hk. lia.
  - cbn [conv_update_loop].
    pose proof (train_update_clause_shape bo boost bud si sm (patch n lits (hd O aps)) pc pp nc np c ws o (hd 0 counts) r f) as W. cbv zeta in W.
    destruct (train_update_clause bo boost bud si sm (patch n lits (hd O aps)) pc pp nc np c ws o (hd 0 counts) r f) as [[[[c1 ws1] o1] r1] f1] eqn:E1.
    destruct W as [W _]. cbn [snd] in W. subst f1.
    specialize (IH wss outs (tl counts) (tl aps) r1 (advance 2 f) ltac:(lia) ltac:(lia)).
    destruct (conv_update_loop _ _ _ _ _ _ _ _ _ _ _ _ _ _ _ _ _ _) as [[[[cs2 wss2] outs2] r2] f2].
    destruct IH as [I1 [I2 [I3 [I4 I5]]]]. cbn [length].
    split; [lia|]. split; [lia|]. split; [lia|]. split.
    + rewrite I4, advance_advance. f_equal; lia.
    + intros [|k] Hk.
      * exists r. cbn [nth Nat.mul Nat.add]. rewrite advance_0.
        replace (nth 0 counts 0) with (hd 0 counts) by (destruct counts; auto).
        replace (nth 0 aps O) with (hd O aps) by (destruct aps; auto).
        rewrite E1. cbv zeta. auto.
      * destruct (I5 k ltac:(lia)) as [rk Hrk]. exists rk. cbn [nth]. rewrite advance_advance, !nth_tl_any in Hrk.
        replace (2 * S k)%nat with (2 + 2 * k)%nat by lia. exact Hrk.
Qed.

Definition conv_step (bo boost : bool) (lits : list Z) (pc : nat) (pp : Q) (nc : nat) (np : Q) (v : cvblock) : cvblock :=
  conv_update bo boost lits pc pp nc np (fst (conv_train_ex bo lits v)).

(** The executor's update of any well-formed block keeps it well-formed. *)
Lemma conv_update_ok : forall bo boost lits pc pp nc np v n ncls, conv_ok n ncls v -> length (b_outputs (cv_b v)) = nclauses v ->
  let v' := conv_update bo boost lits pc pp nc np v in
  conv_ok n ncls v' /\ cv_np v' = cv_np v /\ nclauses v' = nclauses v /\ b_budget (cv_b v') = b_budget (cv_b v) /\
  b_fast (cv_b v') = advance (2 * nclauses v) (b_fast (cv_b v)) /\ length (b_outputs (cv_b v')) = nclauses v /\
  (forall lo, -128 <= lo <= -127 -> automata_in lo (cv_b v) -> automata_in lo (cv_b v')) /\
  forall k, (k < nclauses v)%nat -> exists rk,
    let t := train_update_clause bo boost (b_budget (cv_b v)) (b_s_inv (cv_b v)) (b_s_min1_inv (cv_b v)) (patch n lits (nth k (cv_active v) O))
               pc pp nc np (clause_at (cv_b v) k) (nth k (b_weights (cv_b v)) []) (nth k (b_outputs (cv_b v)) 0)
               (nth k (b_counts (cv_b v)) 0) rk (advance (2 * k) (b_fast (cv_b v))) in
    clause_at (cv_b v') k = fst (fst (fst (fst t))) /\ nth k (b_weights (cv_b v')) [] = snd (fst (fst (fst t))).
Proof.
  intros bo boost lits pc pp nc np v n ncls OK HO. pose proof OK as [[WF I8 I16] C1 C2 C3 C4 C5]. pose proof WF as [W1 W2 W3 W4].
  unfold nclauses in *. unfold conv_update. rewrite C1.
  pose proof (conv_update_loop_nth bo boost (b_budget (cv_b v)) (b_s_inv (cv_b v)) (b_s_min1_inv (cv_b v)) n lits pc pp nc np
    (b_clauses (cv_b v)) (b_weights (cv_b v)) (b_outputs (cv_b v)) (b_counts (cv_b v)) (cv_active v) (b_rng (cv_b v)) (b_fast (cv_b v))
    ltac:(lia) HO) as T.
  destruct (conv_update_loop _ _ _ _ _ _ _ _ _ _ _ _ _ _ _ _ _ _) as [[[[cs wss] outs] r] f]. destruct T as [T1 [T2 [T3 [T4 T5]]]].
  cbn [cv_b cv_np cv_active cv_ppc b_nlit b_ncls b_clauses b_weights b_outputs b_counts b_budget b_fast].
  assert (RG : forall lo, -128 <= lo <= -127 -> Forall (clause_in lo) (b_clauses (cv_b v)) -> Forall (clause_in lo) cs).
  { intros lo Hlo HI. apply Forall_forall. intros c Hc. apply (In_nth _ _ dclause) in Hc. destruct Hc as [k [Hk E]].
    rewrite T1 in Hk. destruct (T5 k Hk) as [rk [T _]]. rewrite E in T. subst c. rewrite T.
    apply train_update_clause_range; auto. rewrite Forall_forall in HI. apply HI, nth_In. auto. }
  split; [|split; [reflexivity|split; [exact T1|split; [reflexivity|split; [exact T4|split; [exact T3|split]]]]]].
  - constructor; cbn [cv_b cv_np cv_active cv_ppc b_nlit b_counts b_clauses]; auto; try lia.
    constructor; [constructor| |]; cbn [b_ncls b_clauses b_weights]; auto; try lia.
    + apply Forall_forall. intros c Hc. apply (In_nth _ _ dclause) in Hc. destruct Hc as [k [Hk E]].
      rewrite T1 in Hk. destruct (T5 k Hk) as [rk [T _]]. rewrite E in T. subst c. rewrite T.
      pose proof (train_update_clause_len bo boost (b_budget (cv_b v)) (b_s_inv (cv_b v)) (b_s_min1_inv (cv_b v)) (patch n lits (nth k (cv_active v) O))
        pc pp nc np (nth k (b_clauses (cv_b v)) dclause) (nth k (b_weights (cv_b v)) []) (nth k (b_outputs (cv_b v)) 0) (nth k (b_counts (cv_b v)) 0)
        rk (advance (2 * k) (b_fast (cv_b v)))) as U. cbv zeta in U. destruct U as [-> ->].
      destruct (clause_at_ok n ncls (cv_b v) k (co_block _ _ _ OK) Hk) as [P1 [P2 _]]. split; [exact P1|exact P2].
    + apply Forall_forall. intros ws Hw. apply (In_nth _ _ []) in Hw. destruct Hw as [k [Hk E]].
      rewrite T2 in Hk. subst ws. destruct (T5 k Hk) as [rk [_ [T _]]]. rewrite T.
      pose proof (train_update_clause_shape bo boost (b_budget (cv_b v)) (b_s_inv (cv_b v)) (b_s_min1_inv (cv_b v)) (patch n lits (nth k (cv_active v) O))
        pc pp nc np (nth k (b_clauses (cv_b v)) dclause) (nth k (b_weights (cv_b v)) []) (nth k (b_outputs (cv_b v)) 0) (nth k (b_counts (cv_b v)) 0)
        rk (advance (2 * k) (b_fast (cv_b v)))) as U. cbv zeta in U. destruct U as [_ [-> _]].
      unfold rows_of in W3. rewrite Forall_forall in W3. apply W3, nth_In. lia.
    + apply (RG (-128)); [lia|exact I8].
    + apply Forall_forall. intros ws Hw. apply (In_nth _ _ []) in Hw. destruct Hw as [k [Hk E]].
      rewrite T2 in Hk. subst ws. destruct (T5 k Hk) as [rk [_ [T _]]]. rewrite T.
      apply (train_update_clause_shape bo boost (b_budget (cv_b v)) (b_s_inv (cv_b v)) (b_s_min1_inv (cv_b v)) (patch n lits (nth k (cv_active v) O))
        pc pp nc np (nth k (b_clauses (cv_b v)) dclause) (nth k (b_weights (cv_b v)) []) (nth k (b_outputs (cv_b v)) 0) (nth k (b_counts (cv_b v)) 0)
        rk (advance (2 * k) (b_fast (cv_b v)))).
      rewrite Forall_forall in I16. apply I16, nth_In. lia.
  - exact RG.
  - intros k Hk. destruct (T5 k Hk) as [rk [A [B _]]]. exists rk. split; [exact A|exact B].
Qed.

(** A clause whose stored output is not 1 ignores the literals. *)
Lemma clause_update_no_literals : forall boost si sm c w t x x' o r, o <> 1 ->
  clause_update boost si sm c w t x o r = clause_update boost si sm c w t x' o r.
Proof. intros. unfold clause_update. rewrite (proj2 (Z.eqb_neq o 1)) by auto. rewrite andb_false_r. reflexivity. Qed.

Lemma train_update_clause_no_literals : forall bo boost bud si sm x x' pc pp nc np c ws cnt cnt' r f,
  train_update_clause bo boost bud si sm x pc pp nc np c ws 0 cnt r f = train_update_clause bo boost bud si sm x' pc pp nc np c ws 0 cnt' r f.
Proof.
  intros. unfold train_update_clause.
  replace (if bo && (cnt >? bud) then 0 else 0) with 0 by (destruct (bo && (cnt >? bud)); reflexivity).
  replace (if bo && (cnt' >? bud) then 0 else 0) with 0 by (destruct (bo && (cnt' >? bud)); reflexivity).
  destruct (draw_lt f pp) as [d f1]. rewrite (clause_update_no_literals boost si sm c (nth pc ws 0) 1 x x') by lia.
  destruct d.
  - destruct (clause_update boost si sm c (nth pc ws 0) 1 x' 0 r) as [[c1 w1] r1]. destruct (draw_lt f1 np) as [d2 f2].
    rewrite (clause_update_no_literals boost si sm c1 _ (-1) x x') by lia. reflexivity.
  - destruct (draw_lt f1 np) as [d2 f2]. rewrite (clause_update_no_literals boost si sm c _ (-1) x x') by lia. reflexivity.
Qed.

(** What a whole step does to clause [k]: the feedback of a dense clause on one
    of the matching patches. [j] is the number under which the literal count is
    looked up. *)
Theorem conv_step_spec : forall bo boost lits pc pp nc np v n ncls, conv_ok n ncls v -> conv_example n (cv_np v) lits ->
  let v' := conv_step bo boost lits pc pp nc np v in
  conv_ok n ncls v' /\ cv_np v' = cv_np v /\ nclauses v' = nclauses v /\ b_budget (cv_b v') = b_budget (cv_b v) /\
  b_fast (cv_b v') = advance (2 * nclauses v) (b_fast (cv_b v)) /\
  (forall lo, -128 <= lo <= -127 -> automata_in lo (cv_b v) -> automata_in lo (cv_b v')) /\
  forall k, (k < nclauses v)%nat -> exists rk cnt x o,
    let t := train_update_clause bo boost (b_budget (cv_b v)) (b_s_inv (cv_b v)) (b_s_min1_inv (cv_b v)) x
               pc pp nc np (clause_at (cv_b v) k) (nth k (b_weights (cv_b v)) []) o cnt rk (advance (2 * k) (b_fast (cv_b v))) in
    clause_at (cv_b v') k = fst (fst (fst (fst t))) /\ nth k (b_weights (cv_b v')) [] = snd (fst (fst (fst t))) /\
    let ms := matching n (cv_np v) lits (clause_at (cv_b v) k) in
    (ms = [] -> o = 0) /\
    (ms <> [] -> o = 1 /\ exists j ppck, (j < length ms)%nat /\ x = nth_patch n lits (nth j ms O) /\
       (bo = true -> cnt = (if pm n lits (clause_at (cv_b v) k) j then n_included (crow v k) else nth j ppck 0))).
Proof.
  intros bo boost lits pc pp nc np v n ncls OK HX. unfold conv_step.
  destruct (conv_train_spec bo lits v n ncls OK HX) as [OK1 [E1 [E2 [E3 [E4 [E5 [E6 [E7 [E8 [_ T]]]]]]]]]].
  set (v1 := fst (conv_train_ex bo lits v)) in *.
  assert (EN : nclauses v1 = nclauses v) by (unfold nclauses; rewrite E2; reflexivity).
  destruct (conv_update_ok bo boost lits pc pp nc np v1 n ncls OK1 ltac:(lia)) as [U1 [U2 [U3 [U4 [U5 [_ [U6 U7]]]]]]].
  cbv zeta. split; [exact U1|]. split; [congruence|]. split; [congruence|]. split; [congruence|]. split; [congruence|]. split.
  { intros lo Hlo HA. apply U6; auto. unfold automata_in in *. rewrite E2. exact HA. }
  intros k Hk. destruct (U7 k ltac:(lia)) as [rk UK]. cbv zeta in UK. change (clause_at (cv_b v1) k) with (nth k (b_clauses (cv_b v1)) dclause) in UK. rewrite E2, E3, E4, E5, E6, E7 in UK.
  fold (clause_at (cv_b v) k) in UK. destruct (T k Hk) as [m [ppck [LP [TE TN]]]].
  exists rk, (nth k (b_counts (cv_b v1)) 0), (patch n lits (nth k (cv_active v1) O)), (nth k (b_outputs (cv_b v1)) 0).
  split; [apply UK|]. split; [apply UK|]. split.
  - intros E. apply (TE E).
  - intros E. destruct (TN E) as [A [B [C D]]]. split; [exact A|].
    exists (fst (pick_index (length (matching n (cv_np v) lits (clause_at (cv_b v) k))) (advance m (b_rng (cv_b v))))), ppck.
    split; [exact B|]. split; [|exact D]. rewrite C. apply (patch_eq n (cv_np v)); [apply HX|].
    apply (matching_In n (cv_np v) lits (clause_at (cv_b v) k)). apply nth_In. exact B.
Qed.

(** ** Evaluation *)

Lemma conv_eval_loop_eq : forall pos neg lits e, conv_eval_loop pos neg lits e = (eval_output_loop pos neg lits e =? 1).
Proof.
  induction pos as [|p pos IH]; intros [|q neg] [|l lits] e; cbn [conv_eval_loop eval_output_loop]; try (destruct e; reflexivity).
  destruct ((p >=? 0) && (l =? 0)); [reflexivity|]. destruct ((q >=? 0) && (l =? 1)); [reflexivity|]. apply IH.
Qed.

Lemma conv_eval_patches_spec : forall n np lits c ks, length (cl_pos c) = n -> length (cl_neg c) = n -> conv_example n np lits ->
  Forall (fun k => (k < np)%nat) ks -> conv_eval_patches n lits c ks = b2z (existsb (patch_fires n lits (row_of c)) ks).
Proof.
  intros n np lits c ks H1 H2 HX HF. induction HF as [|k ks Hk HF IH]; cbn [conv_eval_patches existsb]; [reflexivity|].
  rewrite conv_eval_loop_eq. rewrite (patch_eq n np) by (auto; apply HX).
  pose proof (eval_output_fires n (nth_patch n lits k) c H1 H2 (nth_patch_len _ _ _) (nth_patch_binary _ _ _ _ HX Hk)) as E.
  unfold eval_output in E. rewrite E. unfold patch_fires at 1, row_of.
  destruct (clause_fires n (nth_patch n lits k) (cl_pos c ++ cl_neg c)); cbn [b2z Z.eqb Pos.eqb orb]; auto.
Qed.

Lemma conv_eval_outs_total : forall n np lits cs ws c, Forall (fun c => length (cl_pos c) = n /\ length (cl_neg c) = n) cs -> conv_example n np lits ->
  outs_total (map (fun c => conv_eval_patches n lits c (seq 0 np)) cs) ws c = conv_vote_total n np lits (map row_of cs) ws c.
Proof.
  unfold outs_total. intros n np lits cs. induction cs as [|cl cs IH]; intros [|w ws] c H HX; try reflexivity.
  inversion H as [|? ? [H1 H2] H3]; subst. cbn [map map2 zsum conv_vote_total]. rewrite IH by auto. f_equal.
  rewrite (conv_eval_patches_spec (length (cl_pos cl)) np) by (auto; apply seq_bound).
  destruct (existsb (patch_fires (length (cl_pos cl)) lits (row_of cl)) (seq 0 np)); reflexivity.
Qed.

Lemma conv_eval_votes : forall n ncls v lits c, conv_ok n ncls v -> conv_example n (cv_np v) lits -> (c < ncls)%nat ->
  nth c (snd (conv_eval_ex lits v)) 0 = wrap16 (conv_vote_total n (cv_np v) lits (map row_of (b_clauses (cv_b v))) (b_weights (cv_b v)) c).
Proof.
  intros n ncls v lits c [[[W1 W2 W3 W4] I8 I16] C1 C2 C3 C4 C5] HX Hc.
  unfold conv_eval_ex, cv_count_votes, conv_eval_set, count_votes. cbn [snd cv_b b_votes b_outputs b_weights b_ncls]. rewrite C1.
  rewrite (count_votes_loop_nth ncls); auto.
  - rewrite nth_repeat0. rewrite (conv_eval_outs_total n (cv_np v)) by auto. reflexivity.
  - rewrite repeat_length. auto.
  - rewrite nth_repeat0. reflexivity.
Qed.

Lemma conv_eval_len : forall n ncls v lits, conv_ok n ncls v -> length (snd (conv_eval_ex lits v)) = ncls.
Proof.
  intros n ncls v lits [[[W1 W2 W3 W4] I8 I16] C1 C2 C3 C4 C5].
  unfold conv_eval_ex, cv_count_votes, conv_eval_set, count_votes. cbn [snd cv_b b_votes b_outputs b_weights b_ncls].
  apply count_votes_loop_length; auto. rewrite repeat_length. auto.
Qed.

Lemma conv_eval_keep : forall n ncls lits v, conv_ok n ncls v -> conv_ok n ncls (fst (conv_eval_ex lits v)).
Proof.
  intros n ncls lits v [[[W1 W2 W3 W4] I8 I16] C1 C2 C3 C4 C5].
  unfold conv_eval_ex, cv_count_votes, conv_eval_set, count_votes. cbn [fst].
  constructor; cbn [cv_b cv_np cv_active cv_ppc b_nlit b_counts b_clauses]; auto.
  constructor; [constructor| |]; cbn [b_ncls b_clauses b_weights]; auto.
Qed.

Lemma conv_eval_stable : forall lits lits' v, snd (conv_eval_ex lits (fst (conv_eval_ex lits' v))) = snd (conv_eval_ex lits v).
Proof. reflexivity. Qed.

Definition conv_total (n np : nat) (lits : list Z) (bs : list (bool * cvblock)) (c : nat) : Z :=
  zsum (map (fun tb => conv_vote_total n np lits (map row_of (b_clauses (cv_b (snd tb)))) (b_weights (cv_b (snd tb))) c) bs).

Lemma conv_votes_sum : forall n ncls np lits bs c, Forall (fun tb => conv_ok n ncls (snd tb) /\ cv_np (snd tb) = np) bs -> conv_example n np lits -> (c < ncls)%nat ->
  wrap16 (votes_sum cvblock (list Z) conv_eval_ex lits bs c) = wrap16 (conv_total n np lits bs c).
Proof.
  intros n ncls np lits bs c HF HX Hc. unfold votes_sum, conv_total. induction HF as [|tb bs [H1 H2] HF IH]; [reflexivity|].
  cbn [map zsum]. rewrite (conv_eval_votes n ncls) by (auto; rewrite H2; auto). rewrite H2. rewrite wrap16_add_l.
  rewrite Z.add_comm. rewrite <- wrap16_add_l. rewrite IH. rewrite wrap16_add_l. f_equal. lia.
Qed.

(** What the executor predicts. *)
Theorem conv_predict : forall L n ncls np (data : list (list Z * L)) out (x : exec cvblock),
  Forall (fun tb => conv_ok n ncls (snd tb) /\ cv_np (snd tb) = np) (x_blocks x) -> fb_ready ncls (x_fb x) ->
  Forall (fun d => conv_example n np (fst d)) data -> length out = length data ->
  exists x', eval_predict cvblock (list Z) conv_eval_ex L data out x =
    (true, map (fun d => argmax (map (fun c => wrap16 (conv_total n np (fst d) (x_blocks x) c)) (seq 0 ncls))) data, x').
Proof.
  intros L n ncls np data out x HF HR HX HL.
  destruct (eval_predict_gen cvblock (list Z) conv_eval_ex ncls (conv_ok n ncls)) with (L := L) (data := data) (out := out) (x := x) as [x' Ev]; auto.
  - intros. apply conv_eval_keep; auto.
  - intros. eapply conv_eval_len; eauto.
  - eapply Forall_impl; [|exact HF]. intros a [A _]. exact A.
  - exists x'. rewrite Ev. f_equal. f_equal. apply map_ext_in. intros d Hd. f_equal. apply map_ext_in. intros c Hc. apply in_seq in Hc.
    apply (conv_votes_sum n ncls np); auto; [|lia]. rewrite Forall_forall in HX. auto.
Qed.

(** ** Histories *)

Definition conv_good (n ncls np : nat) (lo : Z) (v : cvblock) : Prop :=
  conv_ok n ncls v /\ cv_np v = np /\ automata_in lo (cv_b v) /\ length (b_outputs (cv_b v)) = nclauses v.

Theorem conv_history : forall (L : Type) (process : L -> fblock -> fblock) bo boost n ncls np lo cs (x : exec cvblock), -128 <= lo <= -127 ->
  Forall (fun c => Forall (fun d => conv_example n np (fst d)) (gdata (list Z) L c)) cs ->
  Forall (fun tb => conv_good n ncls np lo (snd tb)) (x_blocks x) ->
  Forall (fun tb => conv_good n ncls np lo (snd tb))
    (x_blocks (grun cvblock (list Z) (conv_train_ex bo) conv_eval_ex (conv_update bo boost) L process cs x)).
Proof.
  intros L process bo boost n ncls np lo cs x Hlo HC H.
  apply (grun_P cvblock (list Z) (conv_train_ex bo) conv_eval_ex (conv_update bo boost) L process (conv_good n ncls np lo) (conv_example n np)); auto.
  - intros e v He [G1 [G2 [G3 G4]]]. subst np.
    destruct (conv_train_spec bo e v n ncls G1 He) as [OK1 [E1 [E2 [E3 [E4 [E5 [E6 [E7 [E8 _]]]]]]]]].
    split; [exact OK1|]. split; [exact E1|]. split; [unfold automata_in; rewrite E2; exact G3|]. unfold nclauses in *. rewrite E2. exact E8.
  - intros e v He [G1 [G2 [G3 G4]]]. split; [apply conv_eval_keep; auto|]. split; [exact G2|]. split; [exact G3|].
    unfold conv_eval_ex, cv_count_votes, conv_eval_set, count_votes, nclauses. cbn [fst cv_b b_outputs b_clauses]. apply map_length.
  - intros e pc pp nc npr v He [G1 [G2 [G3 G4]]].
    destruct (conv_update_ok bo boost e pc pp nc npr v n ncls G1 G4) as [U1 [U2 [U3 [U4 [U5 [U8 [U6 U7]]]]]]].
    split; [exact U1|]. split; [congruence|]. split; [apply U6; auto|]. congruence.
Qed.
