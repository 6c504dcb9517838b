(** Training histories: what any program of epochs and evaluations does to a
    block is a sequence of training steps. *)
From Coq Require Import ZArith List Bool QArith Lia ZifyBool Permutation.
From Verif Require Import Base BaseProofs Spec SpecLearning ModelInference ModelDense ModelFeedback ModelExecutor ModelDenseExec
  ProofsClause ProofsEval ProofsExecutor ProofsDenseExec ProofsLearning ProofsStep.
Import ListNotations.
Open Scope Z_scope.

(** One update as a block sees it: example, true class and probability,
    negative class and probability. *)
Record upd := mkUpd { u_x : list Z; u_pc : nat; u_pp : Q; u_nc : nat; u_np : Q }.

Definition step1 (bo boost : bool) (u : upd) (b : block) : block :=
  dense_step bo boost (u_x u) (u_pc u) (u_pp u) (u_nc u) (u_np u) b.
Fixpoint run_steps (bo boost : bool) (h : list upd) (b : block) : block :=
  match h with [] => b | u :: h' => run_steps bo boost h' (step1 bo boost u b) end.

Lemma run_steps_app : forall bo boost h1 h2 b, run_steps bo boost (h1 ++ h2) b = run_steps bo boost h2 (run_steps bo boost h1 b).
Proof. induction h1 as [|u h1 IH]; intros; simpl; auto. Qed.

Lemma learned_step : forall bo boost u b1 b2, learned b1 = learned b2 -> step1 bo boost u b1 = step1 bo boost u b2.
Proof. intros. unfold step1, dense_step. rewrite (learned_train bo _ b1 b2); auto. Qed.

Lemma learned_run : forall bo boost h b1 b2, learned b1 = learned b2 ->
  learned (run_steps bo boost h b1) = learned (run_steps bo boost h b2).
Proof. intros bo boost [|u h] b1 b2 H; simpl; auto. rewrite (learned_step bo boost u b1 b2); auto. Qed.

Definition valid_upd (n ncls : nat) (u : upd) : Prop :=
  length (u_x u) = n /\ binary (u_x u) /\ (u_pc u < ncls)%nat /\ (u_nc u < ncls)%nat.

Lemma run_steps_ok : forall bo boost n ncls h b, block_ok n ncls b -> Forall (valid_upd n ncls) h ->
  block_ok n ncls (run_steps bo boost h b) /\
  length (b_clauses (run_steps bo boost h b)) = length (b_clauses b) /\
  b_budget (run_steps bo boost h b) = b_budget b.
Proof.
  intros bo boost n ncls h. induction h as [|u h IH]; intros b OK V; simpl; auto.
  inversion V as [|? ? [V1 [V2 [V3 V4]]] V']; subst.
  destruct (dense_step_spec bo boost (u_x u) (u_pc u) (u_pp u) (u_nc u) (u_np u) b (length (u_x u)) ncls OK eq_refl V2 V3 V4) as [S1 [S2 [S3 _]]].
  destruct (IH (step1 bo boost u b) S1 V') as [I1 [I2 I3]]. split; [|split]; auto; [rewrite I2|rewrite I3]; auto.
Qed.

(** ** The executor's effect on the blocks *)

(** Same block up to scratch arrays and counts: what a block that is not
    trainable may look like afterwards. *)
Definition frozen (b b' : block) : Prop :=
  b_clauses b' = b_clauses b /\ b_weights b' = b_weights b /\ b_nlit b' = b_nlit b /\ b_ncls b' = b_ncls b /\
  b_budget b' = b_budget b /\ b_rng b' = b_rng b /\ b_fast b' = b_fast b /\ b_s_inv b' = b_s_inv b /\ b_s_min1_inv b' = b_s_min1_inv b.

Definition evolved (bo boost : bool) (h : list upd) (tb tb' : bool * block) : Prop :=
  fst tb' = fst tb /\
  if fst tb then learned (snd tb') = learned (run_steps bo boost h (snd tb)) else frozen (snd tb) (snd tb').

Lemma frozen_refl : forall b, frozen b b.
Proof. unfold frozen. tauto. Qed.
Lemma frozen_trans : forall a b c, frozen a b -> frozen b c -> frozen a c.
Proof. unfold frozen. intros. intuition congruence. Qed.

Lemma learned_frozen : forall b b', learned b' = learned b -> frozen b b'.
Proof. intros b b' H. unfold learned in H. inversion H. unfold frozen. tauto. Qed.

Lemma evolved_trans : forall bo boost h1 h2 a b c, evolved bo boost h1 a b -> evolved bo boost h2 b c -> evolved bo boost (h1 ++ h2) a c.
Proof.
  intros bo boost h1 h2 [ta a] [tb b] [tc c] [H1 H2] [H3 H4]. unfold evolved. cbn [fst snd] in *. subst tb tc.
  split; auto. destruct ta; [|eapply frozen_trans; eauto].
  rewrite H4, run_steps_app. apply learned_run. auto.
Qed.

Lemma Forall2_trans : forall A (R1 R2 R3 : A -> A -> Prop) l1 l2 l3,
  (forall a b c, R1 a b -> R2 b c -> R3 a c) -> Forall2 R1 l1 l2 -> Forall2 R2 l2 l3 -> Forall2 R3 l1 l3.
Proof.
  intros A R1 R2 R3 l1 l2 l3 H H1. revert l3. induction H1; intros l3 H2; inversion H2; subst; constructor; eauto.
Qed.

Lemma Forall2_same : forall A (R : A -> A -> Prop) l, (forall a, R a a) -> Forall2 R l l.
Proof. induction l; constructor; auto. Qed.

Section Run.
  Variables (ncls : nat) (bo boost : bool) (L : Type) (process : L -> fblock -> fblock).
  Variable Lok : L -> Prop.
  Variable n : nat.
  Hypothesis process_good : forall l f, fb_ok ncls f -> fb_ok ncls (process l f).
  Hypothesis process_valid : forall l f, Lok l -> fb_ok ncls f ->
    (fb_pos (process l f) < ncls)%nat /\ (fb_neg (process l f) < ncls)%nat.

  Notation d_train_one := (train_one block (list Z) (dense_train_ex bo) (dense_upd bo boost) L process).
  Notation d_train_list := (train_list block (list Z) (dense_train_ex bo) (dense_upd bo boost) L process).
  Notation d_train_epoch := (train_epoch block (list Z) (dense_train_ex bo) (dense_upd bo boost) L process).

  Definition data_ok (d : list Z * L) : Prop := length (fst d) = n /\ binary (fst d) /\ Lok (snd d).

  Lemma train_one_evolved : forall d bs fb, blocks_inv ncls bs -> fb_ok ncls fb ->
    exists u, (data_ok d -> valid_upd n ncls u) /\ u_x u = fst d /\
      Forall2 (evolved bo boost [u]) bs (fst (d_train_one d bs fb)).
  Proof.
    intros d bs fb I Hok. unfold train_one. rewrite run_examples_closed.
    pose proof (run_examples_inv block (list Z) ncls (dense_inv ncls) (dense_train_ex bo) (fst d) bs (fb_reset fb)
                  (dense_train_good bo ncls) I (reset_ok ncls _ Hok)) as [_ O1].
    rewrite run_examples_closed in O1. cbn [snd] in O1.
    set (fb1 := process (snd d) _). exists (mkUpd (fst d) (fb_pos fb1) (fb_pp fb1) (fb_neg fb1) (fb_np fb1)).
    split; [|split]; auto.
    - intros [D1 [D2 D3]]. unfold valid_upd. simpl. destruct (process_valid (snd d) _ D3 O1). auto.
    - cbn [fst]. unfold run_updates. rewrite map_map. clearbody fb1. clear O1.
      induction bs as [|[t b] bs IH]; cbn [map]; constructor.
      + unfold evolved. cbn [fst snd]. destruct t; cbn [fst snd]; split; auto.
        unfold frozen. simpl. tauto.
      + inversion I; subst. apply IH. auto.
  Qed.

  Lemma train_list_evolved : forall ds bs fb, blocks_inv ncls bs -> fb_ok ncls fb ->
    exists h, map u_x h = map fst ds /\ (Forall data_ok ds -> Forall (valid_upd n ncls) h) /\
      Forall2 (evolved bo boost h) bs (fst (d_train_list ds bs fb)).
  Proof.
    induction ds as [|d ds IH]; intros bs fb I Hok; cbn [train_list].
    - exists []. split; [|split]; auto. cbn [fst]. apply Forall2_same. intros [t b]. unfold evolved. cbn [fst snd].
      destruct t; auto using frozen_refl.
    - destruct (train_one_evolved d bs fb I Hok) as [u [U1 [U2 U3]]].
      pose proof (train_one_inv block (list Z) ncls (dense_inv ncls) (dense_train_ex bo) (dense_upd bo boost) L process
                    (dense_train_good bo ncls) (fun e p pp n np b => dense_upd_good bo boost ncls e p pp n np b)
                    process_good d bs fb I Hok) as [I1 O1].
      destruct (d_train_one d bs fb) as [bs1 fb1]. cbn [fst snd] in *.
      destruct (IH bs1 fb1 I1 O1) as [h [H1 [H2 H3]]].
      exists (u :: h). split; [|split].
      + cbn [map]. congruence.
      + intros D. inversion D; subst. constructor; auto.
      + eapply Forall2_trans; [|apply U3|apply H3]. intros a b c K1 K2. apply (evolved_trans bo boost [u] h a b c); auto.
  Qed.

  Lemma select_ok : forall data idx, Forall data_ok data -> Forall data_ok (select (list Z) L data idx).
  Proof.
    intros data idx H. unfold select. apply Forall_forall. intros d Hd. apply in_flat_map in Hd.
    destruct Hd as [i [_ Hi]]. destruct (nth_error data i) eqn:E; [|easy]. destruct Hi as [Hi|[]]. subst.
    rewrite Forall_forall in H. apply H. eapply nth_error_In; eauto.
  Qed.

  Lemma train_epoch_evolved : forall data x, exec_inv ncls x ->
    exists h, map u_x h = map fst (epoch_order data x) /\ (Forall data_ok data -> Forall (valid_upd n ncls) h) /\
      Forall2 (evolved bo boost h) (x_blocks x) (x_blocks (snd (d_train_epoch data x))).
  Proof.
    intros data x [I Hok]. unfold train_epoch, train_slice, epoch_order. cbn [x_blocks x_fb x_index x_rng Nat.eqb].
    destruct (shuffle (seq 0 (length data)) (x_rng x)) as [idx r] eqn:ES. cbn [fst skipn].
    rewrite Nat.sub_0_r.
    assert (EF : firstn (length data) idx = idx).
    { pose proof (shuffle_perm (seq 0 (length data)) (x_rng x)) as P. rewrite ES in P. cbn [fst] in P.
      apply Permutation_length in P. rewrite seq_length in P. apply firstn_all2. lia. }
    rewrite EF.
    destruct (train_list_evolved (select (list Z) L data idx) (x_blocks x) (fb_reset_counter (x_fb x)) I Hok) as [h [H1 [H2 H3]]].
    destruct (d_train_list _ (x_blocks x) _) as [bs fb]. cbn [fst snd x_blocks] in *. exists h. split; [|split]; auto. intros D. apply H2. apply select_ok. auto.
  Qed.

  Fixpoint call_data (cs : list (xcall L)) : list (list Z * L) :=
    match cs with
    | [] => []
    | XTrain _ data :: cs' => data ++ call_data cs'
    | XEval _ _ _ :: cs' => call_data cs'
    end.

  (** Any program of epochs and evaluations acts on the blocks as one history of
      steps whose examples are a permutation of all the training data passed. *)
  Theorem xrun_history : forall cs x, exec_inv ncls x ->
    exists h, Permutation (map u_x h) (map fst (call_data cs)) /\ (Forall data_ok (call_data cs) -> Forall (valid_upd n ncls) h) /\
      Forall2 (evolved bo boost h) (x_blocks x) (x_blocks (snd (xrun bo boost L process cs x))).
  Proof.
    induction cs as [|c cs IH]; intros x I; cbn [xrun call_data].
    - exists []. split; [|split]; auto. cbn [snd]. apply Forall2_same. intros [t b]. unfold evolved. cbn [fst snd].
      destruct t; auto using frozen_refl.
    - destruct c as [data|data out]; cbn [call_data].
      + destruct (train_epoch_evolved data x I) as [h1 [A1 [A2 A3]]].
        pose proof (train_epoch_inv ncls bo boost L process process_good data x I) as I1.
        destruct (d_train_epoch data x) as [a x1]. cbn [snd] in *.
        destruct (IH x1 I1) as [h2 [B1 [B2 B3]]].
        destruct (xrun bo boost L process cs x1) as [qs x2]. cbn [snd] in *.
        exists (h1 ++ h2). split; [|split].
        * rewrite !map_app. apply Permutation_app; auto. rewrite A1. apply Permutation_map. apply epoch_order_perm.
        * intros D. apply Forall_app in D. apply Forall_app. tauto.
        * eapply Forall2_trans; [|apply A3|apply B3]. intros a0 b0 c0. apply evolved_trans.
      + pose proof (eval_predict_same ncls L data out x I) as [E1 E2].
        destruct (IH (snd (eval_predict block (list Z) dense_eval_ex L data out x)) E2) as [h [B1 [B2 B3]]].
        exists h. split; [|split]; auto.
        destruct E1 as [E1 _]. unfold same_blocks in E1.
        assert (K : Forall2 (evolved bo boost []) (x_blocks x) (x_blocks (snd (eval_predict block (list Z) dense_eval_ex L data out x)))).
        { revert E1. generalize (x_blocks (snd (eval_predict block (list Z) dense_eval_ex L data out x))) (x_blocks x).
          induction l as [|[t b] l IHl]; intros [|[t2 b2] l2] E; cbn [map fst snd] in E; try discriminate; constructor.
          - assert (Et : t = t2) by congruence. assert (Eb : learned b = learned b2) by congruence.
            subst t2. unfold evolved. cbn [fst snd run_steps].
            split; auto. destruct t; auto. apply learned_frozen. auto.
          - apply IHl. congruence. }
        change h with ([] ++ h). eapply Forall2_trans; [|apply K|apply B3]. intros a0 b0 c0. apply evolved_trans.
  Qed.
End Run.

(** ** Ranges over histories (no assumption on data or blocks) *)

Definition automata_in (lo : Z) (b : block) : Prop := Forall (clause_in lo) (b_clauses b).

Lemma step1_range : forall lo bo boost u b, -128 <= lo <= -127 -> automata_in lo b -> automata_in lo (step1 bo boost u b).
Proof. intros. unfold step1, dense_step, dense_upd, automata_in. apply train_update_range; auto. Qed.

Lemma run_steps_range : forall lo bo boost h b, -128 <= lo <= -127 -> automata_in lo b -> automata_in lo (run_steps bo boost h b).
Proof. intros lo bo boost h. induction h as [|u h IH]; intros b Hl H; simpl; auto. apply IH; auto. apply step1_range; auto. Qed.

Lemma evolved_range : forall lo bo boost h tb tb', -128 <= lo <= -127 -> evolved bo boost h tb tb' ->
  automata_in lo (snd tb) -> automata_in lo (snd tb').
Proof.
  intros lo bo boost h [t b] [t' b'] Hl [E1 E2] H. cbn [fst snd] in *. unfold automata_in. destruct t.
  - assert (K : b_clauses b' = b_clauses (run_steps bo boost h b)) by (unfold learned in E2; congruence).
    rewrite K. apply (run_steps_range lo bo boost h b); auto.
  - destruct E2 as [E2 _]. rewrite E2. auto.
Qed.

(** ** Weights over histories *)

(** How often the weight of clause k for class c was raised / lowered. *)
Fixpoint raises (bo boost : bool) (n k c : nat) (h : list upd) (b : block) : Z :=
  match h with
  | [] => 0
  | u :: h' =>
      bump c (u_pc u) (active bo n (u_x u) (b_budget b) (row_at b k) && Qlt_bool (draw (b_fast b) (2 * k)) (u_pp u))
      + raises bo boost n k c h' (step1 bo boost u b)
  end.
Fixpoint lowers (bo boost : bool) (n k c : nat) (h : list upd) (b : block) : Z :=
  match h with
  | [] => 0
  | u :: h' =>
      bump c (u_nc u) (active bo n (u_x u) (b_budget b) (row_at b k) && Qlt_bool (draw (b_fast b) (2 * k + 1)) (u_np u))
      + lowers bo boost n k c h' (step1 bo boost u b)
  end.

Lemma bump_01 : forall c k b, 0 <= bump c k b <= 1.
Proof. intros. unfold bump. destruct (b && Nat.eqb c k); lia. Qed.

Lemma raises_bounds : forall bo boost n k c h b, 0 <= raises bo boost n k c h b <= Z.of_nat (length h).
Proof.
  induction h as [|u h IH]; intros b; cbn [raises length]; [lia|].
  specialize (IH (step1 bo boost u b)). pose proof (bump_01 c (u_pc u) (active bo n (u_x u) (b_budget b) (row_at b k) && Qlt_bool (draw (b_fast b) (2 * k)) (u_pp u))). lia.
Qed.
Lemma lowers_bounds : forall bo boost n k c h b, 0 <= lowers bo boost n k c h b <= Z.of_nat (length h).
Proof.
  induction h as [|u h IH]; intros b; cbn [lowers length]; [lia|].
  specialize (IH (step1 bo boost u b)). pose proof (bump_01 c (u_nc u) (active bo n (u_x u) (b_budget b) (row_at b k) && Qlt_bool (draw (b_fast b) (2 * k + 1)) (u_np u))). lia.
Qed.

Theorem weight_history : forall bo boost n ncls k c h b, block_ok n ncls b -> Forall (valid_upd n ncls) h ->
  (k < length (b_clauses b))%nat ->
  weight_at (run_steps bo boost h b) k c =
  wrap16 (weight_at b k c + raises bo boost n k c h b - lowers bo boost n k c h b).
Proof.
  intros bo boost n ncls k c h. induction h as [|u h IH]; intros b OK V Hk; cbn [run_steps raises lowers].
  - rewrite Z.add_0_r, Z.sub_0_r. symmetry. apply wrap16_small. unfold weight_at.
    apply (weights_ok n ncls b); auto. apply nth_In. destruct OK as [[W1 W2 W3 W4] _ _]. lia.
  - inversion V as [|? ? [V1 [V2 [V3 V4]]] V']; subst.
    destruct (dense_step_spec bo boost (u_x u) (u_pc u) (u_pp u) (u_nc u) (u_np u) b _ ncls OK eq_refl V2 V3 V4) as [S1 [S2 [S3 [S4 [S5 _]]]]].
    fold (step1 bo boost u b) in *. rewrite (IH (step1 bo boost u b)) by (auto; lia).
    rewrite S5 by auto. cbv zeta.
    set (p := bump c (u_pc u) _). set (q := bump c (u_nc u) _).
    set (P := raises _ _ _ _ _ _ _). set (N := lowers _ _ _ _ _ _ _).
    replace (wrap16 (weight_at b k c + p - q) + P - N) with (wrap16 (weight_at b k c + p - q) + (P - N)) by lia.
    rewrite wrap16_add_l. f_equal; lia.
Qed.

Theorem weight_history_exact : forall bo boost n ncls k c h b, block_ok n ncls b -> Forall (valid_upd n ncls) h ->
  (k < length (b_clauses b))%nat ->
  Z.of_nat (length h) < 32768 - Z.abs (weight_at b k c) ->
  weight_at (run_steps bo boost h b) k c =
  weight_at b k c + raises bo boost n k c h b - lowers bo boost n k c h b.
Proof.
  intros bo boost n ncls k c h b OK V Hk Hl. rewrite (weight_history bo boost n ncls) by auto.
  apply wrap16_small. pose proof (raises_bounds bo boost n k c h b). pose proof (lowers_bounds bo boost n k c h b).
  unfold is_int16. lia.
Qed.

(** ** Initialisation *)

Lemma init_row_spec : forall m r, let '(l, r') := init_row m r in
  length l = m /\ r' = advance m r /\
  forall i, (i < m)%nat -> nth i l 7 = (if Qle_bool (draw r i) (1#2) then -1 else 0).
Proof.
  induction m as [|m IH]; intros r; cbn [init_row].
  - rewrite advance_0. repeat split; auto. intros i Hi. lia.
  - unfold next_u. specialize (IH (mkRng (rng_src r) (S (rng_pos r)))).
    destruct (init_row m _) as [t r']. destruct IH as [H1 [H2 H3]]. split; [simpl; lia|]. split.
    + subst r'. unfold advance. simpl. f_equal; lia.
    + intros [|i] Hi; cbn [nth].
      * unfold draw. rewrite Nat.add_0_r. auto.
      * rewrite H3 by lia. unfold draw. simpl. replace (S (rng_pos r + i)) with (rng_pos r + S i)%nat by lia. auto.
Qed.

Lemma init_clauses_spec : forall n m r, let '(l, r') := init_clauses n m r in
  length l = m /\ r' = advance (m * (2 * n)) r /\
  forall k, (k < m)%nat ->
    length (cl_pos (nth k l dclause)) = n /\ length (cl_neg (nth k l dclause)) = n /\
    forall i, (i < 2 * n)%nat -> nth i (row_of (nth k l dclause)) 7 = (if Qle_bool (draw r (k * (2 * n) + i)) (1#2) then -1 else 0).
Proof.
  intros n m. induction m as [|m IH]; intros r; cbn [init_clauses].
  - rewrite Nat.mul_0_l, advance_0. repeat split; auto; intros; lia.
  - pose proof (init_row_spec n r) as P. destruct (init_row n r) as [p r1]. destruct P as [P1 [P2 P3]].
    pose proof (init_row_spec n r1) as Q. destruct (init_row n r1) as [q r2]. destruct Q as [Q1 [Q2 Q3]].
    specialize (IH r2). destruct (init_clauses n m r2) as [t r3]. destruct IH as [H1 [H2 H3]].
    assert (R2 : r2 = advance (2 * n) r) by (subst; rewrite advance_advance; f_equal; lia).
    split; [simpl; lia|]. split.
    + rewrite H2, R2, advance_advance. f_equal; lia.
    + intros [|k] Hk; cbn [nth].
      * cbn [cl_pos cl_neg]. split; auto. split; auto. intros i Hi. unfold row_of. cbn [cl_pos cl_neg].
        destruct (Nat.lt_ge_cases i n) as [Hn|Hn].
        -- rewrite app_nth1 by lia. rewrite P3 by auto. auto.
        -- rewrite app_nth2 by lia. rewrite Q3 by lia. subst r1. rewrite draw_advance. simpl. replace (n + (i - length p))%nat with i by lia. auto.
      * destruct (H3 k ltac:(lia)) as [A1 [A2 A3]]. split; auto. split; auto. intros i Hi. rewrite A3 by auto.
        rewrite R2, draw_advance. replace (2 * n + (k * (2 * n) + i))%nat with (S k * (2 * n) + i)%nat by lia. auto.
Qed.

Lemma init_weight_row_spec : forall m r, let '(l, r') := init_weight_row m r in
  length l = m /\ r' = advance m r /\
  forall i, (i < m)%nat -> nth i l 7 = (if Qlt_bool (1#2) (draw r i) then 1 else -1).
Proof.
  induction m as [|m IH]; intros r; cbn [init_weight_row].
  - rewrite advance_0. repeat split; auto. intros i Hi. lia.
  - unfold next_u. specialize (IH (mkRng (rng_src r) (S (rng_pos r)))).
    destruct (init_weight_row m _) as [t r']. destruct IH as [H1 [H2 H3]]. split; [simpl; lia|]. split.
    + subst r'. unfold advance. simpl. f_equal; lia.
    + intros [|i] Hi; cbn [nth].
      * unfold draw. rewrite Nat.add_0_r. auto.
      * rewrite H3 by lia. unfold draw. simpl. replace (S (rng_pos r + i)) with (rng_pos r + S i)%nat by lia. auto.
Qed.

Lemma init_weights_spec : forall n m r, let '(l, r') := init_weights n m r in
  length l = m /\ r' = advance (m * n) r /\
  forall k, (k < m)%nat -> length (nth k l []) = n /\
    forall i, (i < n)%nat -> nth i (nth k l []) 7 = (if Qlt_bool (1#2) (draw r (k * n + i)) then 1 else -1).
Proof.
  intros n m. induction m as [|m IH]; intros r; cbn [init_weights].
  - rewrite Nat.mul_0_l, advance_0. repeat split; auto; intros; lia.
  - pose proof (init_weight_row_spec n r) as P. destruct (init_weight_row n r) as [p r1]. destruct P as [P1 [P2 P3]].
    specialize (IH r1). destruct (init_weights n m r1) as [t r3]. destruct IH as [H1 [H2 H3]].
    split; [simpl; lia|]. split.
    + rewrite H2, P2, advance_advance. f_equal.
    + intros [|k] Hk; cbn [nth].
      * split; auto.
      * destruct (H3 k ltac:(lia)) as [A1 A2]. split; auto. intros i Hi. rewrite A2 by auto.
        rewrite P2, draw_advance. simpl. rewrite Nat.add_assoc. auto.
Qed.

Theorem initialize_spec : forall std_of fast_of junk nlit ncl ncls budget si sm seed b,
  initialize std_of fast_of junk nlit ncl ncls budget si sm seed = Some b ->
  seed <> 0 /\ block_ok nlit ncls b /\ length (b_clauses b) = ncl /\
  (forall k i, (k < ncl)%nat -> (i < 2 * nlit)%nat ->
     nth i (row_at b k) 7 = (if Qle_bool (draw (std_of seed) (k * (2 * nlit) + i)) (1#2) then -1 else 0)) /\
  (forall k c, (k < ncl)%nat -> (c < ncls)%nat ->
     weight_at b k c = (if Qlt_bool (1#2) (draw (fast_of seed) (k * ncls + c)) then 1 else -1)) /\
  b_rng b = advance (ncl * (2 * nlit)) (std_of seed) /\ b_fast b = advance (ncl * ncls) (fast_of seed).
Proof.
  intros std_of fast_of junk nlit ncl ncls budget si sm seed b. unfold initialize.
  destruct (seed =? 0) eqn:E; [discriminate|].
  pose proof (init_clauses_spec nlit ncl (std_of seed)) as C. destruct (init_clauses nlit ncl (std_of seed)) as [cs r].
  pose proof (init_weights_spec ncls ncl (fast_of seed)) as W. destruct (init_weights ncls ncl (fast_of seed)) as [ws f].
  destruct C as [C1 [C2 C3]]. destruct W as [W1 [W2 W3]].
  intros H. inversion H; subst b. clear H. cbn [b_clauses b_rng b_fast].
  assert (RN : forall k i, (k < ncl)%nat -> (i < 2 * nlit)%nat -> nth i (row_of (nth k cs dclause)) 7 = -1 \/ nth i (row_of (nth k cs dclause)) 7 = 0).
  { intros k i Hk Hi. destruct (C3 k Hk) as [_ [_ R]]. rewrite R by auto. destruct (Qle_bool _ _); auto. }
  split; [lia|]. split; [|split; [|split; [|split]]]; auto.
  - constructor; [constructor| |]; cbn [b_clauses b_weights b_ncls]; auto; try lia.
    + apply Forall_forall. intros c Hc. apply (In_nth _ _ dclause) in Hc. destruct Hc as [k [Hk Ec]]. subst c.
      destruct (C3 k ltac:(lia)) as [A1 [A2 _]]. auto.
    + apply Forall_forall. intros c Hc. apply (In_nth _ _ []) in Hc. destruct Hc as [k [Hk Ec]]. subst c.
      destruct (W3 k ltac:(lia)) as [A1 _]. auto.
    + apply Forall_forall. intros c Hc. apply (In_nth _ _ dclause) in Hc. destruct Hc as [k [Hk Ec]]. subst c.
      destruct (C3 k ltac:(lia)) as [A1 [A2 _]].
      assert (F : Forall is_int8 (row_of (nth k cs dclause))).
      { apply Forall_forall. intros v Hv. apply (In_nth _ _ 7) in Hv. destruct Hv as [i [Hi Ev]]. subst v.
        unfold row_of in Hi. rewrite app_length in Hi. destruct (RN k i ltac:(lia) ltac:(lia)) as [K|K]; rewrite K; unfold is_int8; lia. }
      unfold row_of in F. apply Forall_app in F. exact F.
    + apply Forall_forall. intros c Hc. apply (In_nth _ _ []) in Hc. destruct Hc as [k [Hk Ec]]. subst c.
      destruct (W3 k ltac:(lia)) as [A1 A2]. apply Forall_forall. intros v Hv. apply (In_nth _ _ 7) in Hv.
      destruct Hv as [i [Hi Ev]]. subst v. rewrite A2 by lia. destruct (Qlt_bool _ _); unfold is_int16; lia.
  - intros k i Hk Hi. unfold row_at, clause_at. cbn [b_clauses]. destruct (C3 k Hk) as [_ [_ R]]. auto.
  - intros k c Hk Hc. unfold weight_at. cbn [b_weights]. destruct (W3 k Hk) as [A1 A2].
    rewrite (nth_indep _ 0 7) by lia. auto.
Qed.

Theorem initialize_fails : forall std_of fast_of junk nlit ncl ncls budget si sm seed,
  initialize std_of fast_of junk nlit ncl ncls budget si sm seed = None <-> seed = 0.
Proof.
  intros. unfold initialize. destruct (seed =? 0) eqn:E.
  - split; auto. intros _. lia.
  - destruct (init_clauses _ _ _), (init_weights _ _ _). split; [discriminate|lia].
Qed.

(** ** Uninitialised literal counts *)

(** Equal up to scratch arrays and literal counts. *)
Definition sim_counts (b1 b2 : block) : Prop :=
  mkBlock (b_nlit b1) (b_ncls b1) (b_clauses b1) (b_weights b1) [] [] [] (b_budget b1) (b_s_inv b1) (b_s_min1_inv b1) (b_rng b1) (b_fast b1) =
  mkBlock (b_nlit b2) (b_ncls b2) (b_clauses b2) (b_weights b2) [] [] [] (b_budget b2) (b_s_inv b2) (b_s_min1_inv b2) (b_rng b2) (b_fast b2).

Lemma update_loop_no_budget : forall boost bud si sm x pc pp nc np cs wss outs c1 c2 r f,
  train_update_loop false boost bud si sm x pc pp nc np cs wss outs c1 r f =
  train_update_loop false boost bud si sm x pc pp nc np cs wss outs c2 r f.
Proof.
  intros boost bud si sm x pc pp nc np cs. induction cs as [|c cs IH]; intros [|ws wss] [|o outs] c1 c2 r f; cbn [train_update_loop]; auto.
  assert (E : train_update_clause false boost bud si sm x pc pp nc np c ws o (hd 0 c1) r f =
              train_update_clause false boost bud si sm x pc pp nc np c ws o (hd 0 c2) r f) by reflexivity.
  rewrite E. destruct (train_update_clause _ _ _ _ _ _ _ _ _ _ _ _ _ _ _ _) as [[[[? ?] ?] r1] f1].
  rewrite (IH wss outs (tl c1) (tl c2)). auto.
Qed.

Lemma step1_sim : forall bo boost u b1 b2, sim_counts b1 b2 -> sim_counts (step1 bo boost u b1) (step1 bo boost u b2) /\
  snd (dense_train_ex bo (u_x u) b1) = snd (dense_train_ex bo (u_x u) b2).
Proof.
  intros bo boost u [n1 k1 cs1 ws1 o1 ct1 v1 bu1 si1 sm1 r1 f1] [n2 k2 cs2 ws2 o2 ct2 v2 bu2 si2 sm2 r2 f2] H.
  unfold sim_counts in H. cbn in H. inversion H; subst. split; [|reflexivity].
  unfold sim_counts, step1, dense_step, dense_upd, train_update, dense_train_ex, count_votes, train_set_clause_output.
  cbn [fst b_nlit b_ncls b_clauses b_weights b_outputs b_counts b_votes b_budget b_s_inv b_s_min1_inv b_rng b_fast].
  destruct bo.
  - reflexivity.
  - rewrite (update_loop_no_budget boost bu2 si2 sm2 (u_x u) (u_pc u) (u_pp u) (u_nc u) (u_np u) cs2 ws2 _ ct1 ct2 r2 f2).
    destruct (train_update_loop _ _ _ _ _ _ _ _ _ _ _ _ _ _ _ _) as [[[[? ?] ?] ?] ?]. reflexivity.
Qed.

Theorem run_steps_sim : forall bo boost h b1 b2, sim_counts b1 b2 ->
  sim_counts (run_steps bo boost h b1) (run_steps bo boost h b2).
Proof. intros bo boost h. induction h as [|u h IH]; intros b1 b2 H; simpl; auto. apply IH. apply step1_sim. auto. Qed.
