(** Every machine and every function can be learnt. *)
From Coq Require Import ZArith List Bool QArith Lia Lqa ZifyBool FinFun.
From Verif Require Import Base BaseProofs Spec SpecLearning SpecLearnable ModelDense ModelDenseExec ProofsClause ProofsEval ProofsLearning ProofsStep ProofsLearnable.
Import ListNotations.
Open Scope Z_scope.

Section Weigh.
  Variables n ncls : nat.
  Variables bo boost : bool.
  Variable prob : block -> list Z -> nat -> nat -> Q * Q.
  Hypothesis Hprob : open_probs prob.
  Hypothesis Hncls : (2 <= ncls)%nat.
  Variable draws : rng -> Prop.
  Hypothesis Hzero : draws (mkRng (fun _ => 0%Q) 0).
  Notation reach := (trains_with draws n ncls bo boost prob).

  Definition ready (k : nat) (b : block) : Prop :=
    block_ok n ncls b /\ (k < length (b_clauses b))%nat /\ (0 <= b_s_inv b)%Q /\ (0 <= b_s_min1_inv b < 1)%Q /\ (bo = true -> 0 <= b_budget b).
  Lemma ready_frame : forall k b b', ready k b -> frame n ncls k b b' -> ready k b'.
  Proof.
    intros k b b' [A1 [A2 [A3 [A4 A5]]]] [F1 F2 F3 F4 F5 _ _]. unfold ready. rewrite F2, F3, F4, F5. auto.
  Qed.
  Definition another (d : nat) : nat := if Nat.eqb d 0 then 1%nat else O.
  Lemma another_ok : forall d, (another d < ncls)%nat /\ d <> another d.
  Proof. intros d. unfold another. destruct (Nat.eqb d 0) eqn:E; [apply Nat.eqb_eq in E|apply Nat.eqb_neq in E]; lia. Qed.
  Lemma weight_int16 : forall k b d, ready k b -> is_int16 (weight_at b k d).
  Proof.
    intros k b d [OK [Hk _]]. destruct (weights_ok n ncls b (nth k (b_weights b) []) OK) as [_ LL]; [apply nth_In; rewrite <- (bw_len _ _ _ (bo_wf _ _ _ OK)); auto|]. apply LL.
  Qed.

  (** One weight one step up or down; the row is lost. *)
  Lemma nudge : forall b k d (up : bool), ready k b -> (d < ncls)%nat ->
    exists b', reach b b' /\ frame n ncls k b b' /\ (forall e, e <> d -> weight_at b' k e = weight_at b k e) /\
      weight_at b' k d = wrap16 (weight_at b k d + if up then 1 else -1).
  Proof.
    intros b k d up RD Hd. destruct (another_ok d) as [A1 A2].
    destruct RD as [OK [Hk [Hsi [Hsm HB]]]].
    destruct (forget n ncls bo boost prob Hprob d (another d) Hd A1 A2 draws Hzero 128 b k OK Hk Hsi) as [b1 [R1 [F1 [W1 D1]]]].
    { intros j Hj. destruct (clause_at_ok n ncls b k OK Hk) as [Q1 [Q2 [Q3 Q4]]]. unfold row_at, row_of.
      assert (FF : Forall is_int8 (cl_pos (clause_at b k) ++ cl_neg (clause_at b k))) by (apply Forall_app; auto).
      rewrite Forall_forall in FF. assert (V : is_int8 (nth j (cl_pos (clause_at b k) ++ cl_neg (clause_at b k)) 0)) by (apply FF, nth_In; rewrite app_length; lia).
      unfold is_int8 in V. lia. }
    assert (RD1 : ready k b1) by (eapply ready_frame; [|exact F1]; unfold ready; auto).
    destruct RD1 as [OK1 [Hk1 [Hsi1 [Hsm1 HB1]]]].
    set (x := repeat 0 n). assert (Hx : length x = n) by apply repeat_length. assert (Hb : binary x) by (apply Forall_forall; intros v Hv; apply repeat_spec in Hv; auto).
    set (pc := if up then d else another d). set (nc := if up then another d else d).
    destruct (Hprob b1 x pc nc) as [[P1 P2] [P3 P4]]. set (pp := fst (prob b1 x pc nc)) in *. set (np := snd (prob b1 x pc nc)) in *.
    assert (Hpc : (pc < ncls)%nat) by (unfold pc; destruct up; auto). assert (Hnc : (nc < ncls)%nat) by (unfold nc; destruct up; auto).
    pose proof (aimed_step n ncls bo boost x pc nc pp np b1 k up (fun _ => 0%Q) OK1 Hx Hb Hpc Hnc Hk1 P1 P3) as T. cbv zeta in T.
    replace (if up then pc else nc) with d in T by (unfold pc, nc; destruct up; reflexivity). destruct T as [T1 [_ T3]].
    assert (INC : included (row_at b1 k) = []).
    { destruct (included (row_at b1 k)) as [|i l] eqn:E; [reflexivity|]. assert (I : In i (included (row_at b1 k))) by (rewrite E; left; reflexivity).
      apply included_In in I. destruct I as [I1 I2]. assert (RL : length (row_at b1 k) = (2 * n)%nat) by (destruct (clause_at_ok n ncls b1 k OK1 Hk1) as [P5 [P6 _]]; unfold row_at, row_of; rewrite app_length; lia). rewrite RL in I1. rewrite (nth_indep _ (-1) 0) in I2 by lia. specialize (D1 i I1). lia. }
    assert (AC : active bo n x (b_budget b1) (row_at b1 k) = true).
    { unfold active, clause_matches, n_included. rewrite INC. cbn. destruct bo; [|reflexivity]. cbn. apply Z.leb_le. auto. }
    rewrite AC in T3.
    exists (dense_step bo boost x pc pp nc np (with_gens (mkRng (fun _ => 0%Q) 0) (aim k up (qmax pp np)) b1)).
    split; [|split; [eapply frame_trans; eauto|split]].
    - eapply trains_trans; [exact R1|]. apply (train_more _ _ _ _ _ _ b1 x pc nc (mkRng (fun _ => 0%Q) 0) (aim k up (qmax pp np))); auto.
      + unfold pc, nc. destruct up; auto.
      + apply aim_unit. destruct (qmax_le pp np) as [M1 M2]. split; [lra|apply qmax_lt; auto].
      + apply trained.
    - intros e He. rewrite T3. apply Nat.eqb_neq in He. rewrite He. apply W1.
    - rewrite T3, Nat.eqb_refl. rewrite clause_update_weight by (destruct up; auto). cbn [Z.eqb Pos.eqb]. rewrite W1. reflexivity.
  Qed.

  Lemma weigh_by : forall m b k d v, ready k b -> (d < ncls)%nat -> is_int16 v -> Z.abs (v - weight_at b k d) = Z.of_nat m ->
    exists b', reach b b' /\ frame n ncls k b b' /\ (forall e, e <> d -> weight_at b' k e = weight_at b k e) /\ weight_at b' k d = v.
  Proof.
    induction m as [|m IH]; intros b k d v RD Hd Hv E.
    - exists b. split; [apply trained|]. split; [apply frame_refl; apply RD|]. split; [reflexivity|lia].
    - pose proof (weight_int16 k b d RD) as IW.
      destruct (nudge b k d (weight_at b k d <? v) RD Hd) as [b1 [R1 [F1 [W1 V1]]]].
      rewrite wrap16_small in V1 by (unfold is_int16 in *; destruct (weight_at b k d <? v) eqn:L; lia).
      destruct (IH b1 k d v) as [b2 [R2 [F2 [W2 V2]]]]; auto.
      + eapply ready_frame; eauto.
      + rewrite V1. destruct (weight_at b k d <? v) eqn:L; lia.
      + exists b2. split; [eapply trains_trans; eauto|]. split; [eapply frame_trans; eauto|]. split; [|exact V2]. intros e He. rewrite W2, W1; auto.
  Qed.
  Lemma weigh_all : forall m b k (W : nat -> Z), ready k b -> (m <= ncls)%nat -> (forall d, is_int16 (W d)) ->
    exists b', reach b b' /\ frame n ncls k b b' /\ forall d, (d < m)%nat -> weight_at b' k d = W d.
  Proof.
    induction m as [|m IH]; intros b k W RD Hm HW.
    - exists b. split; [apply trained|]. split; [apply frame_refl; apply RD|]. intros; lia.
    - destruct (IH b k W RD ltac:(lia) HW) as [b1 [R1 [F1 V1]]].
      destruct (weigh_by (Z.to_nat (Z.abs (W m - weight_at b1 k m))) b1 k m (W m)) as [b2 [R2 [F2 [W2 V2]]]]; auto; try lia.
      + eapply ready_frame; eauto.
      + exists b2. split; [eapply trains_trans; eauto|]. split; [eapply frame_trans; eauto|]. intros d Hd.
        destruct (Nat.eq_dec d m) as [->|N]; [exact V2|]. rewrite W2 by auto. apply V1. lia.
  Qed.

  (** One clause: conjunction and weights. *)
  Lemma clause_learnable : forall b k R c (W : nat -> Z), ready k b -> conjunction n R -> (forall m, (0 <= m < 1)%Q -> draws (mkRng (guide n boost R m) 0)) -> (bo = true -> Z.of_nat (length R) <= b_budget b) ->
    (c < ncls)%nat -> 128 <= W c \/ W c <= -129 -> (forall d, is_int16 (W d)) ->
    exists b', reach b b' /\ frame n ncls k b b' /\ (forall i, In i (included (row_at b' k)) <-> In i R) /\ (forall d, (d < ncls)%nat -> weight_at b' k d = W d).
  Proof.
    intros b k R c W RD HR HG HB Hc HW HI. destruct (another_ok c) as [A1 A2].
    set (W0 := fun d => if Nat.eqb d c then (if W c >=? 0 then W c - 128 else W c + 128) else W d).
    destruct (weigh_all ncls b k W0 RD (le_n _)) as [b1 [R1 [F1 V1]]].
    { intros d. unfold W0. destruct (Nat.eqb d c); [|apply HI]. specialize (HI c). unfold is_int16 in *. destruct (W c >=? 0) eqn:E; lia. }
    pose proof (ready_frame k b b1 RD F1) as [OK1 [Hk1 [S1 [S2 S3]]]].
    destruct (learnable n ncls bo boost prob Hprob c (another c) Hc A1 A2 draws Hzero R HR HG b1 k OK1 Hk1 S1 S2) as [b2 [R2 [F2 [I2 [W2 V2]]]]].
    { rewrite (fr_budget _ _ _ _ _ F1). exact HB. }
    exists b2. split; [eapply trains_trans; eauto|]. split; [eapply frame_trans; eauto|]. split; [exact I2|].
    intros d Hd. destruct (Nat.eq_dec d c) as [->|N].
    - rewrite (V1 c Hc) in V2. unfold W0, pushed in V2. rewrite Nat.eqb_refl in V2. specialize (HI c). unfold is_int16 in *.
      destruct (W c >=? 0) eqn:E.
      + replace (W c - 128 >=? 0) with true in V2 by lia. rewrite V2; lia.
      + replace (W c + 128 >=? 0) with false in V2 by lia. rewrite V2; lia.
    - rewrite W2 by auto. rewrite V1 by auto. unfold W0. apply Nat.eqb_neq in N. rewrite N. reflexivity.
  Qed.

  (** All clauses; the conjunctions of those in [use]. *)
  Lemma machine_learnable : forall (use : nat -> bool) (R : nat -> list nat) (c : nat -> nat) (W : nat -> nat -> Z) m b,
    block_ok n ncls b -> (0 <= b_s_inv b)%Q -> (0 <= b_s_min1_inv b < 1)%Q -> (bo = true -> 0 <= b_budget b) -> (m <= length (b_clauses b))%nat ->
    (forall k, (k < m)%nat -> forall d, is_int16 (W k d)) ->
    (forall k, (k < m)%nat -> use k = true -> conjunction n (R k) /\ (forall m, (0 <= m < 1)%Q -> draws (mkRng (guide n boost (R k) m) 0)) /\
       (bo = true -> Z.of_nat (length (R k)) <= b_budget b) /\ (c k < ncls)%nat /\
       (128 <= W k (c k) \/ W k (c k) <= -129)) ->
    exists b', reach b b' /\ block_ok n ncls b' /\ length (b_clauses b') = length (b_clauses b) /\
      b_budget b' = b_budget b /\ b_s_inv b' = b_s_inv b /\ b_s_min1_inv b' = b_s_min1_inv b /\
      forall k, (k < m)%nat -> (use k = true -> forall i, In i (included (row_at b' k)) <-> In i (R k)) /\ (forall d, (d < ncls)%nat -> weight_at b' k d = W k d).
  Proof.
    intros use R c W. induction m as [|m IH]; intros b OK Hsi Hsm Hbud Hm HW H.
    - exists b. split; [apply trained|]. do 5 (split; [auto|]). intros; lia.
    - destruct (IH b OK Hsi Hsm Hbud ltac:(lia)) as [b1 [R1 [OK1 [L1 [B1 [S1 [S2 D1]]]]]]]; [intros k Hk; apply HW; lia|intros k Hk; apply H; lia|].
      assert (RD : ready m b1).
      { split; [exact OK1|]. rewrite L1, S1, S2, B1. split; [lia|]. split; [exact Hsi|]. split; [exact Hsm|]. exact Hbud. }
      assert (X : exists b', reach b1 b' /\ frame n ncls m b1 b' /\ (use m = true -> forall i, In i (included (row_at b' m)) <-> In i (R m)) /\ (forall d, (d < ncls)%nat -> weight_at b' m d = W m d)).
      { destruct (use m) eqn:EU.
        - destruct (H m ltac:(lia) EU) as [H1 [H2 [H3 [H4 H5]]]].
          destruct (clause_learnable b1 m (R m) (c m) (W m) RD H1 H2) as [b2 [R2 [F2 [I2 W2]]]]; auto; [rewrite B1; exact H3|].
          exists b2. auto.
        - destruct (weigh_all ncls b1 m (W m) RD (le_n _)) as [b2 [R2 [F2 W2]]]; [intros d; apply HW; lia|]. exists b2. split; [exact R2|]. split; [exact F2|]. split; [discriminate|exact W2]. }
      destruct X as [b2 [R2 [F2 [I2 W2]]]].
      exists b2. destruct F2 as [G1 G2 G3 G4 G5 G6 G7]. split; [eapply trains_trans; eauto|]. split; [exact G1|]. split; [congruence|]. split; [congruence|].
        split; [congruence|]. split; [congruence|]. intros k Hk. destruct (Nat.eq_dec k m) as [->|N]; [auto|].
        destruct (D1 k ltac:(lia)) as [E1 E2]. split.
        * intros U i. rewrite G6 by auto. apply E1. exact U.
        * intros d Hd. rewrite G7 by auto. now apply E2.
  Qed.
End Weigh.

(** ** Functions *)

Fixpoint cube (n : nat) : list (list Z) :=
  match n with O => [[]] | S m => map (cons 0) (cube m) ++ map (cons 1) (cube m) end.
Lemma cube_length : forall n, length (cube n) = (2 ^ n)%nat.
Proof. induction n as [|n IH]; [reflexivity|]. cbn [cube Nat.pow]. rewrite app_length, !map_length. lia. Qed.
Lemma cube_In : forall n x, length x = n -> binary x -> In x (cube n).
Proof.
  induction n as [|n IH]; intros [|v x] L B; cbn [length cube] in *; try lia; [left; reflexivity|].
  inversion B as [|? ? B1 B2]; subst. apply in_or_app. destruct B1 as [-> | ->]; [left|right]; apply in_map, IH; auto.
Qed.
Lemma cube_ok : forall n x, In x (cube n) -> length x = n /\ binary x.
Proof.
  induction n as [|n IH]; intros x H; cbn [cube] in H; [destruct H as [<-|[]]; split; [reflexivity|constructor]|].
  apply in_app_or in H. destruct H as [H|H]; apply in_map_iff in H; destruct H as [y [<- Hy]]; destruct (IH y Hy) as [L B]; (split; [cbn; lia|constructor; auto]).
Qed.
Lemma cube_NoDup : forall n, NoDup (cube n).
Proof.
  induction n as [|n IH]; cbn [cube]; [constructor; [intros []|constructor]|].
  assert (M : forall v : Z, NoDup (map (cons v) (cube n))).
  { intros v. apply FinFun.Injective_map_NoDup; [|exact IH]. intros a b E. congruence. }
  assert (G : forall l1 l2 : list (list Z), NoDup l1 -> NoDup l2 -> (forall a, In a l1 -> ~ In a l2) -> NoDup (l1 ++ l2)).
  { induction l1 as [|h t IHt]; intros l2 N1 N2 D; [exact N2|]. inversion N1; subst. cbn [app]. constructor.
    - intros I. apply in_app_or in I. destruct I as [I|I]; [contradiction|]. apply (D h); [left; reflexivity|exact I].
    - apply IHt; auto. intros a Ia. apply D. right. exact Ia. }
  apply G; auto. intros a I J. apply in_map_iff in I. apply in_map_iff in J. destruct I as [y [<- _]]. destruct J as [z [E _]]. discriminate.
Qed.

(** The conjunction that only [x] satisfies. *)
Definition minterm (n : nat) (x : list Z) : list nat := map (fun i => if nth i x 0 =? 1 then i else (n + i)%nat) (seq 0 n).
Lemma minterm_In : forall n x j, In j (minterm n x) <-> exists i, (i < n)%nat /\ j = (if nth i x 0 =? 1 then i else (n + i)%nat).
Proof.
  intros n x j. unfold minterm. rewrite in_map_iff. split.
  - intros [i [E H]]. apply in_seq in H. exists i. split; [lia|auto].
  - intros [i [H E]]. exists i. split; [auto|]. apply in_seq. lia.
Qed.
Lemma minterm_conj : forall n x, conjunction n (minterm n x).
Proof.
  intros n x. constructor.
  - intros j H. apply minterm_In in H. destruct H as [i [Hi ->]]. destruct (nth i x 0 =? 1); lia.
  - intros j [H1 H2]. apply minterm_In in H1. apply minterm_In in H2. destruct H1 as [a [A1 A2]], H2 as [b [B1 B2]].
    destruct (nth a x 0 =? 1) eqn:EA; destruct (nth b x 0 =? 1) eqn:EB; try lia. assert (a = b) by lia. subst. congruence.
  - unfold minterm.
    assert (G : forall l, NoDup l -> (forall i, In i l -> (i < n)%nat) -> NoDup (map (fun i => if nth i x 0 =? 1 then i else (n + i)%nat) l)).
    { induction l as [|h t IH]; intros N B; cbn [map]; constructor.
      - intros I. apply in_map_iff in I. destruct I as [j [E J]]. inversion N; subst. assert (j = h); [|congruence].
        pose proof (B j (or_intror J)). pose proof (B h (or_introl eq_refl)). destruct (nth j x 0 =? 1) eqn:EJ; destruct (nth h x 0 =? 1) eqn:EH; lia.
      - inversion N; subst. apply IH; auto. intros i I. apply B. right. exact I. }
    apply G; [apply seq_NoDup|]. intros i I. apply in_seq in I. lia.
Qed.
Lemma minterm_length : forall n x, length (minterm n x) = n.
Proof. intros. unfold minterm. rewrite map_length. apply seq_length. Qed.
Lemma minterm_true : forall n x y, length x = n -> binary x -> length y = n -> binary y -> (conj_true n y (minterm n x) = true <-> y = x).
Proof.
  intros n x y Lx Bx Ly By. unfold conj_true. rewrite forallb_forall. split.
  - intros H. apply (nth_ext _ _ 0 0); [congruence|]. intros i Hi. rewrite Ly in Hi.
    specialize (H (if nth i x 0 =? 1 then i else (n + i)%nat) (proj2 (minterm_In n x _) (ex_intro _ i (conj Hi eq_refl)))).
    destruct (nth_binary x i Bx ltac:(lia)) as [Ex|Ex]; rewrite Ex in *; cbn [Z.eqb Pos.eqb] in H.
    + rewrite lit_true_neg in H by auto. destruct (nth_binary y i By ltac:(lia)) as [E|E]; rewrite E in *; [reflexivity|discriminate].
    + rewrite lit_true_pos in H by auto. destruct (nth_binary y i By ltac:(lia)) as [E|E]; rewrite E in *; [discriminate|reflexivity].
  - intros -> j H. apply minterm_In in H. destruct H as [i [Hi ->]]. destruct (nth i x 0 =? 1) eqn:E.
    + rewrite lit_true_pos by auto. exact E.
    + rewrite lit_true_neg by auto. rewrite E. reflexivity.
Qed.

Lemma vote_total_one : forall n x c rows ws k, length rows = length ws -> (k < length rows)%nat -> clause_fires n x (nth k rows []) = true ->
  (forall j, (j < length rows)%nat -> j <> k -> clause_fires n x (nth j rows []) = false \/ nth c (nth j ws []) 0 = 0) ->
  clause_vote_total n x rows ws c = nth c (nth k ws []) 0.
Proof.
  intros n x c. assert (Zero : forall rows ws, length rows = length ws -> (forall j, (j < length rows)%nat -> clause_fires n x (nth j rows []) = false \/ nth c (nth j ws []) 0 = 0) -> clause_vote_total n x rows ws c = 0).
  { induction rows as [|r rows IH]; intros [|w ws] L H; cbn [length clause_vote_total] in *; try lia.
    rewrite IH; [|lia|intros j Hj; apply (H (S j)); lia]. destruct (H O ltac:(lia)) as [E|E]; cbn [nth] in E; rewrite E; [reflexivity|]. destruct (clause_fires n x r); reflexivity. }
  induction rows as [|r rows IH]; intros [|w ws] k L Hk F H; cbn [length clause_vote_total] in *; try lia. destruct k as [|k].
  - cbn [nth] in *. rewrite F. rewrite Zero; [lia|lia|]. intros j Hj. apply (H (S j)); lia.
  - cbn [nth] in F |- *. rewrite (IH ws k); auto; try lia; [|intros j Hj N; apply (H (S j)); lia]. destruct (H O ltac:(lia) ltac:(lia)) as [E|E]; cbn [nth] in E; rewrite E; [reflexivity|]. destruct (clause_fires n x r); reflexivity.
Qed.

Lemma fires_same : forall n x row R, (forall i, In i (included row) <-> In i R) -> (clause_fires n x row = true <-> R <> [] /\ conj_true n x R = true).
Proof.
  intros n x row R H. unfold clause_fires. destruct (included row) as [|i l] eqn:E.
  - split; [discriminate|]. intros [N _]. destruct R as [|j R]; [contradiction|]. exfalso. apply (proj2 (H j)). left. reflexivity.
  - split.
    + intros T. split; [intros ->; apply (proj1 (H i)); left; reflexivity|]. unfold conj_true in *. rewrite forallb_forall in *. intros j J. apply T, H, J.
    + intros [_ T]. unfold conj_true in *. rewrite forallb_forall in *. intros j J. apply T, H, J.
Qed.

Lemma function_learnable_with : forall (draws : rng -> Prop) n ncls bo boost prob (f : list Z -> nat) b, (0 < n)%nat -> (2 <= ncls)%nat -> open_probs prob ->
  block_ok n ncls b -> (0 <= b_s_inv b)%Q -> (0 <= b_s_min1_inv b < 1)%Q -> (2 ^ n <= length (b_clauses b))%nat -> (bo = true -> Z.of_nat n <= b_budget b) ->
  (forall x, length x = n -> binary x -> (f x < ncls)%nat) ->
  draws (mkRng (fun _ => 0%Q) 0) -> (forall x m, (0 <= m < 1)%Q -> draws (mkRng (guide n boost (minterm n x) m) 0)) ->
  exists b', trains_with draws n ncls bo boost prob b b' /\ block_ok n ncls b' /\
    forall x c, length x = n -> binary x -> (c < ncls)%nat -> nth c (snd (dense_eval_ex x b')) 0 = if Nat.eqb c (f x) then 128 else 0.
Proof.
  intros draws n ncls bo boost prob f b Hn Hncls HP OK Hsi Hsm HL HB Hf HZ HG.
  set (pt := fun k => nth k (cube n) []). set (full := length (b_clauses b)).
  set (R := fun k => minterm n (pt k)). set (use := fun k => Nat.ltb k (2 ^ n)).
  set (c := fun k => if Nat.ltb k (2 ^ n) then f (pt k) else O).
  set (W := fun k d => if use k && Nat.eqb d (c k) then 128 else 0).
  destruct (machine_learnable n ncls bo boost prob HP Hncls draws HZ use R c W full b OK Hsi Hsm) as [b' [T [OK' [L' [_ [_ [_ D]]]]]]]; [intros E; specialize (HB E); lia|apply le_n| | |].
  { intros k Hk d. unfold W, is_int16. destruct (use k && Nat.eqb d (c k)); lia. }
  { intros k Hk U. assert (PT : length (pt k) = n /\ binary (pt k)) by (apply cube_ok, nth_In; rewrite cube_length; apply Nat.ltb_lt; exact U).
    split; [apply minterm_conj|]. split; [intros m Hm; apply HG; exact Hm|]. split; [|split].
    - intros E. specialize (HB E). unfold R. rewrite minterm_length. exact HB.
    - unfold c. unfold use in U. rewrite U. apply Hf; apply PT.
    - left. unfold W. rewrite U, Nat.eqb_refl. cbn. lia. }
  exists b'. split; [exact T|]. split; [exact OK'|]. intros x d Lx Bx Hd.
  rewrite (eval_votes_nth n ncls) by (try apply (bo_wf _ _ _ OK'); auto).
  destruct (In_nth _ _ [] (cube_In n x Lx Bx)) as [k [K1 K2]]. rewrite cube_length in K1.
  assert (RW : forall j, (j < full)%nat -> nth j (block_rows b') [] = row_at b' j).
  { intros j Hj. unfold block_rows, row_at, clause_at, row_of. rewrite (nth_indep _ [] (clause_row dclause)) by (rewrite map_length; unfold full in Hj; lia).
    rewrite (map_nth clause_row). reflexivity. }
  assert (LR : length (block_rows b') = full) by (unfold block_rows; rewrite map_length; exact L').
  rewrite (vote_total_one n x d (block_rows b') (b_weights b') k).
  - destruct (D k ltac:(unfold full; lia)) as [_ D2]. specialize (D2 d Hd). unfold weight_at in D2. rewrite D2. unfold W, c, use. apply Nat.ltb_lt in K1. rewrite K1. cbn [andb].
    unfold pt. rewrite K2. destruct (Nat.eqb d (f x)); reflexivity.
  - rewrite LR. unfold full. rewrite <- L'. apply (bw_len _ _ _ (bo_wf _ _ _ OK')).
  - rewrite LR. unfold full. lia.
  - rewrite RW by (unfold full; lia). apply (fires_same n x _ (R k)); [apply (proj1 (D k ltac:(unfold full; lia))); apply Nat.ltb_lt; exact K1|]. unfold R, pt. rewrite K2.
    split; [intros E; apply (f_equal (@length nat)) in E; rewrite minterm_length in E; cbn in E; lia|]. now apply minterm_true.
  - intros j Hj N. rewrite LR in Hj. rewrite RW by auto. destruct (use j) eqn:EJ.
    2:{ right. destruct (D j Hj) as [_ D2]. specialize (D2 d Hd). unfold weight_at in D2. rewrite D2. unfold W. rewrite EJ. reflexivity. }
    left. destruct (clause_fires n x (row_at b' j)) eqn:E; [|reflexivity]. exfalso.
    apply (fires_same n x _ (R j)) in E; [|apply (proj1 (D j Hj)); exact EJ]. destruct E as [E1 E2]. unfold R in *.
    apply Nat.ltb_lt in EJ. assert (PT : length (pt j) = n /\ binary (pt j)) by (apply cube_ok, nth_In; rewrite cube_length; exact EJ).
    apply minterm_true in E2; try apply PT; auto. apply N. pose proof (cube_NoDup n) as ND. apply (proj1 (NoDup_nth (cube n) []) ND); try (rewrite cube_length; lia).
    unfold pt in E2. rewrite K2, <- E2. reflexivity.
Qed.

Lemma function_learnable : forall n ncls bo boost prob (f : list Z -> nat) b, (0 < n)%nat -> (2 <= ncls)%nat -> open_probs prob ->
  block_ok n ncls b -> (0 <= b_s_inv b)%Q -> (0 <= b_s_min1_inv b < 1)%Q -> (2 ^ n <= length (b_clauses b))%nat -> (bo = true -> Z.of_nat n <= b_budget b) ->
  (forall x, length x = n -> binary x -> (f x < ncls)%nat) ->
  exists b', trains n ncls bo boost prob b b' /\ block_ok n ncls b' /\
    forall x c, length x = n -> binary x -> (c < ncls)%nat -> nth c (snd (dense_eval_ex x b')) 0 = if Nat.eqb c (f x) then 128 else 0.
Proof.
  intros. apply function_learnable_with; auto; [apply zeros_unit|]. intros x m Hm. now apply guide_unit.
Qed.
(** A conjunction over all inputs needs no draws but zeros. *)
Lemma guide_minterm : forall n boost x m, zero_draws (mkRng (guide n boost (minterm n x) m) 0).
Proof.
  intros n boost x m i. cbn [rng_src]. unfold guide. destruct (existsb _ _) eqn:E; [|reflexivity]. exfalso. apply existsb_exists in E. destruct E as [j [J1 J2]].
  apply in_seq in J1. apply andb_prop in J2. destruct J2 as [J2 _]. apply andb_prop in J2. destruct J2 as [J2 J3].
  apply negb_true_iff in J2. apply negb_true_iff in J3.
  assert (I : In (if nth j x 0 =? 1 then j else (n + j)%nat) (minterm n x)) by (apply minterm_In; exists j; split; [lia|reflexivity]).
  apply inb_In in I. destruct (nth j x 0 =? 1); congruence.
Qed.
Lemma function_learnable_zero : forall n ncls bo boost prob (f : list Z -> nat) b, (0 < n)%nat -> (2 <= ncls)%nat -> open_probs prob ->
  block_ok n ncls b -> (0 <= b_s_inv b)%Q -> (0 <= b_s_min1_inv b < 1)%Q -> (2 ^ n <= length (b_clauses b))%nat -> (bo = true -> Z.of_nat n <= b_budget b) ->
  (forall x, length x = n -> binary x -> (f x < ncls)%nat) ->
  exists b', trains_with zero_draws n ncls bo boost prob b b' /\ block_ok n ncls b' /\
    forall x c, length x = n -> binary x -> (c < ncls)%nat -> nth c (snd (dense_eval_ex x b')) 0 = if Nat.eqb c (f x) then 128 else 0.
Proof.
  intros. apply function_learnable_with; auto; [intros i; reflexivity|]. intros x m Hm. apply guide_minterm.
Qed.

(** ** No update probability, no learning *)

Lemma loop_closed : forall bo boost bud si sm lits pc nc cs wss outs counts r fast, unit_draws fast ->
  exists outs' fast', train_update_loop bo boost bud si sm lits pc 0 nc 0 cs wss outs counts r fast = (cs, wss, outs', r, fast').
Proof.
  intros bo boost bud si sm lits pc nc. induction cs as [|c cs IH]; intros wss outs counts r fast U; cbn [train_update_loop]; [eauto|].
  destruct wss as [|ws wss]; [eauto|]. destruct outs as [|o outs]; [eauto|]. unfold train_update_clause, draw_lt, next_u.
  rewrite (qlt_false _ 0) by apply U. rewrite (qlt_false _ 0) by apply U.
  destruct (IH wss outs (tl counts) r (mkRng (rng_src fast) (S (S (rng_pos fast))))) as [outs' [f' E]]; [exact U|]. cbn [rng_src rng_pos] in *. rewrite E. eauto.
Qed.
Lemma closed_probs : forall n ncls bo boost b b', trains n ncls bo boost (fun _ _ _ _ => (0, 0)%Q) b b' ->
  b_clauses b' = b_clauses b /\ b_weights b' = b_weights b.
Proof.
  intros n ncls bo boost b b' T. induction T as [b|b x pc nc r f b' _ _ _ _ _ _ U _ IH]; [auto|]. cbn [fst snd] in IH.
  destruct IH as [I1 I2]. rewrite I1, I2. unfold dense_step, dense_upd, train_update, dense_train_ex, count_votes, train_set_clause_output.
  cbn [fst with_gens b_clauses b_weights b_outputs b_counts b_rng b_fast b_budget b_s_inv b_s_min1_inv].
  match goal with |- context [train_update_loop ?bo ?boost ?bud ?si ?sm ?l ?pc 0 ?nc 0 ?cs ?w ?o ?ct ?r ?fa] =>
    destruct (loop_closed bo boost bud si sm l pc nc cs w o ct r fa U) as [o' [f' E]]; rewrite E end.
  auto.
Qed.
