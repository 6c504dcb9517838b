(** Update probabilities and class selection of the feedback blocks. *)
From Coq Require Import ZArith List Bool QArith Lia Lqa ZifyBool.
From Verif Require Import Base BaseProofs Spec SpecLearning ModelInference ModelFeedback ProofsInference ProofsExecutor ProofsLearning.
Import ListNotations.
Open Scope Z_scope.

Lemma Qle_bool_false : forall a b, Qle_bool a b = false <-> (b < a)%Q.
Proof.
  intros. split.
  - intros H. apply Qnot_le_lt. intros K. apply Qle_bool_iff in K. congruence.
  - intros H. destruct (Qle_bool a b) eqn:E; auto. apply Qle_bool_iff in E. apply Qle_not_lt in E. contradiction.
Qed.
Lemma Qlt_bool_iff : forall a b, Qlt_bool a b = true <-> (a < b)%Q.
Proof. intros. unfold Qlt_bool. rewrite negb_true_iff. apply Qle_bool_false. Qed.
Lemma Qlt_bool_false : forall a b, Qlt_bool a b = false <-> (b <= a)%Q.
Proof. intros. unfold Qlt_bool. rewrite negb_false_iff. apply Qle_bool_iff. Qed.

Lemma clampQ_range : forall v T, (0 < T)%Q -> (- T <= clampQ v T <= T)%Q.
Proof.
  intros v T HT. unfold clampQ. destruct (Qlt_bool v (- T)) eqn:E1; [split; lra|].
  destruct (Qlt_bool T v) eqn:E2; [split; lra|]. apply Qlt_bool_false in E1, E2. split; lra.
Qed.
Lemma clampQ_mono : forall v w T, (0 < T)%Q -> (v <= w)%Q -> (clampQ v T <= clampQ w T)%Q.
Proof.
  intros v w T HT H. pose proof (clampQ_range w T HT). pose proof (clampQ_range v T HT). unfold clampQ in *.
  destruct (Qlt_bool v (- T)) eqn:E1; [lra|]. apply Qlt_bool_false in E1.
  destruct (Qlt_bool w (- T)) eqn:E2; [apply Qlt_bool_iff in E2; lra|]. apply Qlt_bool_false in E2.
  destruct (Qlt_bool T v) eqn:E3; destruct (Qlt_bool T w) eqn:E4; try lra.
  apply Qlt_bool_iff in E3. apply Qlt_bool_false in E4. lra.
Qed.
Lemma clampQ_top : forall v T, (0 < T)%Q -> (T <= v)%Q -> clampQ v T == T.
Proof.
  intros v T HT H. unfold clampQ. destruct (Qlt_bool v (- T)) eqn:E1; [apply Qlt_bool_iff in E1; lra|].
  destruct (Qlt_bool T v) eqn:E2; [lra|]. apply Qlt_bool_false in E2. lra.
Qed.
Lemma clampQ_bot : forall v T, (0 < T)%Q -> (v <= - T)%Q -> (clampQ v T == - T)%Q.
Proof.
  intros v T HT H. unfold clampQ. destruct (Qlt_bool v (- T)) eqn:E1; [lra|]. apply Qlt_bool_false in E1.
  destruct (Qlt_bool T v) eqn:E2; [apply Qlt_bool_iff in E2; lra|]. lra.
Qed.
Lemma clampQ_mid : forall v T, (- T <= v <= T)%Q -> clampQ v T = v.
Proof.
  intros v T [H1 H2]. unfold clampQ. apply Qlt_bool_false in H1, H2. rewrite H1, H2. auto.
Qed.

Local Open Scope Q_scope.

Section Prob.
  Variable T : Q.
  Hypothesis HT : 0 < T.

  Lemma T2 : 0 < 2 * T. Proof. lra. Qed.

  Theorem pos_prob_unit : forall v, 0 <= pos_prob T v <= 1.
  Proof.
    intros v. unfold pos_prob. pose proof (clampQ_range (inject_Z v) T HT). pose proof T2. split.
    - apply Qle_shift_div_l; lra.
    - apply Qle_shift_div_r; lra.
  Qed.
  Theorem pos_prob_mono : forall v w, (v <= w)%Z -> pos_prob T w <= pos_prob T v.
  Proof.
    intros v w H. unfold pos_prob. apply Qmult_le_compat_r.
    - pose proof (clampQ_mono (inject_Z v) (inject_Z w) T HT). rewrite <- Zle_Qle in H0. specialize (H0 H). lra.
    - apply Qlt_le_weak, Qinv_lt_0_compat, T2.
  Qed.
  Theorem pos_prob_top : forall v, T <= inject_Z v -> pos_prob T v == 0.
  Proof. intros v H. unfold pos_prob. rewrite (clampQ_top _ _ HT H). field. intro. lra. Qed.
  Theorem pos_prob_bot : forall v, inject_Z v <= - T -> pos_prob T v == 1.
  Proof. intros v H. unfold pos_prob. rewrite (clampQ_bot _ _ HT H). field. intro. lra. Qed.
  Theorem pos_prob_mid : forall v, - T <= inject_Z v <= T -> pos_prob T v == (T - inject_Z v) / (2 * T).
  Proof. intros v H. unfold pos_prob. rewrite clampQ_mid by auto. reflexivity. Qed.
  (** Strictly inside the thresholds the probability is strictly inside (0,1). *)
  Theorem pos_prob_strict : forall v w, - T <= inject_Z v -> inject_Z w <= T -> (v < w)%Z -> pos_prob T w < pos_prob T v.
  Proof.
    intros v w H1 H2 H. rewrite Zlt_Qlt in H.
    rewrite (pos_prob_mid v), (pos_prob_mid w) by lra.
    apply Qmult_lt_compat_r; [apply Qinv_lt_0_compat, T2|lra].
  Qed.
  Theorem neg_prob_mirror : forall v, neg_prob T v == 1 - pos_prob T v + eps.
  Proof. intros v. unfold neg_prob, pos_prob. field. intro. lra. Qed.
  Theorem neg_prob_pos : forall v, 0 < neg_prob T v.
  Proof. intros v. rewrite neg_prob_mirror. pose proof (pos_prob_unit v). assert (0 < eps) by reflexivity. lra. Qed.
End Prob.

(** ** The same in floating point

    [rnd] is any monotone rounding that keeps 0 and 1 (IEEE round-to-nearest and
    the directed modes do); every arithmetic operation is rounded. *)
Definition pos_prob_fp (rnd : Q -> Q) (T : Q) (v : Z) : Q :=
  rnd (rnd (T - clampQ (inject_Z v) T) / rnd (2 * T)).
Definition neg_prob_fp (rnd : Q -> Q) (T : Q) (v : Z) : Q :=
  rnd (rnd (rnd (T + clampQ (inject_Z v) T) / rnd (2 * T)) + eps).

Section Rnd.
  Variable rnd : Q -> Q.
  Hypothesis rnd_mono : forall a b, a <= b -> rnd a <= rnd b.
  Hypothesis rnd_0 : rnd 0 == 0.
  Hypothesis rnd_1 : rnd 1 == 1.
  Variable T : Q.
  Hypothesis HT : 0 < T.
  Hypothesis rnd_2T : 0 < rnd (2 * T).

  Lemma rnd_ext : forall a b, a == b -> rnd a == rnd b.
  Proof. intros a b H. apply Qle_antisym; apply rnd_mono; lra. Qed.

  Lemma quot_unit : forall a, 0 <= a <= 2 * T -> 0 <= rnd (rnd a / rnd (2 * T)) <= 1.
  Proof.
    intros a [H1 H2]. apply rnd_mono in H1. apply rnd_mono in H2. rewrite rnd_0 in H1. split.
    - rewrite <- rnd_0 at 1. apply rnd_mono. apply Qle_shift_div_l; lra.
    - rewrite <- rnd_1. apply rnd_mono. apply Qle_shift_div_r; lra.
  Qed.

  Theorem pos_prob_fp_unit : forall v, 0 <= pos_prob_fp rnd T v <= 1.
  Proof. intros v. apply quot_unit. pose proof (clampQ_range (inject_Z v) T HT). lra. Qed.
  Theorem pos_prob_fp_mono : forall v w, (v <= w)%Z -> pos_prob_fp rnd T w <= pos_prob_fp rnd T v.
  Proof.
    intros v w H. apply rnd_mono. apply Qmult_le_compat_r.
    - apply rnd_mono. pose proof (clampQ_mono (inject_Z v) (inject_Z w) T HT). rewrite <- Zle_Qle in H0. specialize (H0 H). lra.
    - apply Qlt_le_weak, Qinv_lt_0_compat; auto.
  Qed.
  Theorem pos_prob_fp_top : forall v, T <= inject_Z v -> pos_prob_fp rnd T v == 0.
  Proof.
    intros v H. unfold pos_prob_fp. assert (E : rnd (T - clampQ (inject_Z v) T) == 0).
    { rewrite <- rnd_0. apply rnd_ext. rewrite (clampQ_top _ _ HT H). lra. }
    etransitivity; [|apply rnd_0]. apply rnd_ext. rewrite E. unfold Qdiv. lra.
  Qed.
  Theorem pos_prob_fp_bot : forall v, inject_Z v <= - T -> pos_prob_fp rnd T v == 1.
  Proof.
    intros v H. unfold pos_prob_fp. assert (E : rnd (T - clampQ (inject_Z v) T) == rnd (2 * T)).
    { apply rnd_ext. rewrite (clampQ_bot _ _ HT H). lra. }
    rewrite <- rnd_1. apply rnd_ext. rewrite E. field. intro. lra.
  Qed.
  Theorem neg_prob_fp_range : forall v, rnd eps <= neg_prob_fp rnd T v <= rnd (1 + eps).
  Proof.
    intros v. pose proof (clampQ_range (inject_Z v) T HT).
    pose proof (quot_unit (T + clampQ (inject_Z v) T) ltac:(lra)).
    unfold neg_prob_fp. split; apply rnd_mono; lra.
  Qed.
  Theorem neg_prob_fp_mono : forall v w, (v <= w)%Z -> neg_prob_fp rnd T v <= neg_prob_fp rnd T w.
  Proof.
    intros v w H. apply rnd_mono. apply Qplus_le_compat; [|lra]. apply rnd_mono. apply Qmult_le_compat_r.
    - apply rnd_mono. pose proof (clampQ_mono (inject_Z v) (inject_Z w) T HT). rewrite <- Zle_Qle in H0. specialize (H0 H). lra.
    - apply Qlt_le_weak, Qinv_lt_0_compat; auto.
  Qed.
End Rnd.

(** ** Sampling the negative class *)

Local Close Scope Q_scope.

Lemma pick_loop_range : forall sum ps acc u i, ps <> [] -> (i <= pick_loop sum acc u i ps < i + length ps)%nat.
Proof.
  intros sum ps. induction ps as [|p ps IH]; intros acc u i H; [congruence|].
  destruct ps as [|p2 ps]; [simpl; lia|].
  change (pick_loop sum acc u i (p :: p2 :: ps)) with
    (if Qle_bool u (acc + p / sum)%Q then i else pick_loop sum (acc + p / sum) u (S i) (p2 :: ps)).
  destruct (Qle_bool u _); [cbn [length]; lia|].
  specialize (IH (acc + p / sum)%Q u (S i) ltac:(discriminate)). cbn [length] in *. lia.
Qed.

(** Sum of the first k normalised weights. *)
Definition qprefix (sum : Q) (k : nat) (ps : list Q) : Q := (qsum (firstn k ps) / sum)%Q.

Lemma qsum_firstn_S : forall ps k, (k < length ps)%nat -> (qsum (firstn (S k) ps) == qsum (firstn k ps) + nth k ps 0)%Q.
Proof.
  induction ps as [|p ps IH]; intros [|k] H; cbn [length] in H; try lia.
  - simpl. lra.
  - change (firstn (S (S k)) (p :: ps)) with (p :: firstn (S k) ps). change (firstn (S k) (p :: ps)) with (p :: firstn k ps).
    cbn [qsum nth]. rewrite IH by lia. lra.
Qed.

Lemma pick_loop_spec : forall sum ps acc u i, (0 < sum)%Q -> (2 <= length ps)%nat \/ (acc < u)%Q -> ps <> [] ->
  let k := (pick_loop sum acc u i ps - i)%nat in
  ((S k < length ps)%nat -> (u <= acc + qprefix sum (S k) ps)%Q) /\
  (forall j, (j < k)%nat -> (acc + qprefix sum (S j) ps < u)%Q).
Proof.
  intros sum ps. induction ps as [|p ps IH]; intros acc u i Hs H Hne k; [congruence|].
  destruct ps as [|p2 ps].
  - unfold k. simpl. rewrite Nat.sub_diag. split; intros; lia.
  - unfold k. clear k.
    change (pick_loop sum acc u i (p :: p2 :: ps)) with
      (if Qle_bool u (acc + p / sum)%Q then i else pick_loop sum (acc + p / sum) u (S i) (p2 :: ps)).
    destruct (Qle_bool u (acc + p / sum)) eqn:E.
    + rewrite Nat.sub_diag. split; [|intros; lia]. intros _. apply Qle_bool_iff in E.
      unfold qprefix. simpl. eapply Qle_trans; [apply E|]. apply Qle_lteq. right. field. intro. lra.
    + apply Qle_bool_false in E.
      specialize (IH (acc + p / sum)%Q u (S i) Hs (or_intror E) ltac:(discriminate)). cbv zeta in IH.
      pose proof (pick_loop_range sum (p2 :: ps) (acc + p / sum)%Q u (S i) ltac:(discriminate)) as R.
      set (m := pick_loop sum (acc + p / sum) u (S i) (p2 :: ps)) in *.
      replace (m - i)%nat with (S (m - S i)) by lia. destruct IH as [I1 I2].
      assert (PF : forall j, (acc + p / sum + qprefix sum (S j) (p2 :: ps) == acc + qprefix sum (S (S j)) (p :: p2 :: ps))%Q).
      { intros j. unfold qprefix. change (firstn (S (S j)) (p :: p2 :: ps)) with (p :: firstn (S j) (p2 :: ps)).
        cbn [qsum]. field. intro. lra. }
      split.
      * intros L. cbn [length] in L, I1. rewrite <- PF. apply I1. lia.
      * intros [|j] Hj.
        -- unfold qprefix. cbn [firstn qsum]. assert (Z : (acc + p / sum == acc + (p + 0) / sum)%Q) by (field; intro; lra). rewrite <- Z. auto.
        -- rewrite <- PF. apply I2. lia.
Qed.

Lemma qsum_nonneg : forall l, Forall (fun p => 0 <= p)%Q l -> (0 <= qsum l)%Q.
Proof. induction l; intros H; simpl; [lra|]. inversion H; subst. specialize (IHl H3). lra. Qed.

Lemma qsum_app : forall a b, (qsum (a ++ b) == qsum a + qsum b)%Q.
Proof. induction a; intros; simpl; [lra|]. rewrite IHa. lra. Qed.

Lemma qsum_in_le : forall l k, Forall (fun p => 0 <= p)%Q l -> (nth k l 0 <= qsum l)%Q.
Proof.
  induction l as [|a l IH]; intros [|k] H; simpl; try lra; inversion H; subst.
  - pose proof (qsum_nonneg l H3). lra.
  - specialize (IH k H3). lra.
Qed.

(** A class of weight zero is never sampled by a draw u with 0 < u <= 1; every
    class of positive weight is sampled for an interval of draws. *)
Theorem pick_not_zero : forall ps u lab,
  Forall (fun p => 0 <= p)%Q ps -> (0 < qsum ps)%Q -> (2 <= length ps)%nat -> (lab < length ps)%nat ->
  (nth lab ps 0 == 0)%Q -> (0 < u <= 1)%Q ->
  pick_loop (qsum ps) 0 u 0 ps <> lab.
Proof.
  intros ps u lab HN HS HL Hlab HZ [Hu Hu1] Heq.
  assert (Hne : ps <> []) by (destruct ps; [simpl in HL; lia|discriminate]).
  pose proof (pick_loop_spec (qsum ps) ps 0 u 0 HS (or_introl HL) Hne) as P. cbv zeta in P.
  rewrite Heq, Nat.sub_0_r in P. destruct P as [P1 P2].
  assert (SI : (0 < / qsum ps)%Q) by (apply Qinv_lt_0_compat; auto).
  destruct lab as [|lab].
  - specialize (P1 ltac:(lia)). unfold qprefix in P1.
    pose proof (qsum_firstn_S ps 0 ltac:(lia)) as F. rewrite HZ in F. cbn [firstn qsum] in F. rewrite F in P1.
    unfold Qdiv in P1. lra.
  - specialize (P2 lab ltac:(lia)).
    destruct (Nat.lt_ge_cases (S (S lab)) (length ps)) as [L|L].
    + specialize (P1 L). unfold qprefix in P1, P2. pose proof (qsum_firstn_S ps (S lab) ltac:(lia)) as F. rewrite HZ in F.
      rewrite F in P1. assert ((qsum (firstn (S lab) ps) + 0) / qsum ps == qsum (firstn (S lab) ps) / qsum ps)%Q by (field; intro; lra). lra.
    + (* last class: the other weights already sum to the total *)
      assert (E : (qsum (firstn (S lab) ps) == qsum ps)%Q).
      { pose proof (qsum_firstn_S ps (S lab) ltac:(lia)) as F. rewrite HZ in F.
        rewrite (firstn_all2 ps) in F by lia. lra. }
      unfold qprefix in P2. rewrite E in P2. assert (K : (qsum ps / qsum ps == 1)%Q) by (field; intro; lra). rewrite K in P2. lra.
Qed.

Lemma qprefix_mono : forall sum ps j k, (0 < sum)%Q -> Forall (fun p => 0 <= p)%Q ps -> (j <= k)%nat -> (qprefix sum j ps <= qprefix sum k ps)%Q.
Proof.
  intros sum ps j k Hs HN H. unfold qprefix. apply Qmult_le_compat_r; [|apply Qlt_le_weak, Qinv_lt_0_compat; auto].
  assert (K : forall (l : list Q) a b, (a <= b)%nat -> Forall (fun p => 0 <= p)%Q l -> (qsum (firstn a l) <= qsum (firstn b l))%Q).
  { induction l as [|x l IH]; intros [|a] [|b] Hab HF; cbn [firstn qsum]; try lra; try lia.
    - inversion HF; subst. pose proof (IH 0%nat b ltac:(lia) H3). cbn [firstn qsum] in *. simpl in H0. lra.
    - inversion HF; subst. pose proof (IH a b ltac:(lia) H3). lra. }
  apply K; auto.
Qed.

Theorem pick_interval : forall ps u k,
  Forall (fun p => 0 <= p)%Q ps -> (0 < qsum ps)%Q -> (2 <= length ps)%nat -> (k < length ps)%nat ->
  (qprefix (qsum ps) k ps < u <= qprefix (qsum ps) (S k) ps)%Q ->
  pick_loop (qsum ps) 0 u 0 ps = k.
Proof.
  intros ps u k HN HS HL Hk [H1 H2].
  assert (Hne : ps <> []) by (destruct ps; [simpl in HL; lia|discriminate]).
  pose proof (pick_loop_spec (qsum ps) ps 0 u 0 HS (or_introl HL) Hne) as P. cbv zeta in P.
  pose proof (pick_loop_range (qsum ps) ps 0 u 0 Hne) as R.
  set (m := pick_loop (qsum ps) 0 u 0 ps) in *. rewrite Nat.sub_0_r in P. destruct P as [P1 P2].
  destruct (Nat.lt_trichotomy m k) as [L|[L|L]]; auto; exfalso.
  - specialize (P1 ltac:(lia)). pose proof (qprefix_mono (qsum ps) ps (S m) k HS HN ltac:(lia)). lra.
  - specialize (P2 k L). lra.
Qed.

(** ** FeedbackBlock::process *)

Definition neg_weights (T : Q) (votes : list Z) (label : nat) : list Q := set_nth label 0%Q (map (neg_prob T) votes).

Lemma neg_weights_spec : forall T votes label, (0 < T)%Q -> (label < length votes)%nat ->
  length (neg_weights T votes label) = length votes /\
  Forall (fun p => 0 <= p)%Q (neg_weights T votes label) /\
  nth label (neg_weights T votes label) 0%Q = 0%Q /\
  (forall k, (k < length votes)%nat -> k <> label -> nth k (neg_weights T votes label) 0%Q = neg_prob T (nth k votes 0)).
Proof.
  intros T votes label HT Hl. unfold neg_weights.
  assert (L : length (map (neg_prob T) votes) = length votes) by (apply map_length).
  assert (N : forall k, (k < length votes)%nat -> k <> label -> nth k (set_nth label 0%Q (map (neg_prob T) votes)) 0%Q = neg_prob T (nth k votes 0)).
  { intros k Hk Hn. rewrite nth_set_nth_neq by auto. rewrite (nth_indep _ 0%Q (neg_prob T 0)) by lia. apply map_nth. }
  assert (Z0 : nth label (set_nth label 0%Q (map (neg_prob T) votes)) 0%Q = 0%Q) by (apply nth_set_nth_eq; lia).
  split; [rewrite set_nth_length; auto|]. split; [|split]; auto.
  apply Forall_forall. intros q Hq. apply (In_nth _ _ 0%Q) in Hq. destruct Hq as [k [Hk E]].
  rewrite set_nth_length, L in Hk. subst q. destruct (Nat.eq_dec k label) as [->|Hn].
  - rewrite Z0. lra.
  - rewrite N by auto. apply Qlt_le_weak, neg_prob_pos. auto.
Qed.

Lemma neg_weights_sum : forall T votes label, (0 < T)%Q -> (label < length votes)%nat -> (2 <= length votes)%nat ->
  (0 < qsum (neg_weights T votes label))%Q.
Proof.
  intros T votes label HT Hl H2. destruct (neg_weights_spec T votes label HT Hl) as [L [NN [Z0 N]]].
  set (k := if Nat.eqb label 0 then 1%nat else 0%nat).
  assert (Hk : (k < length votes)%nat /\ k <> label) by (unfold k; destruct (Nat.eqb label 0) eqn:E; [apply Nat.eqb_eq in E|apply Nat.eqb_neq in E]; lia).
  pose proof (qsum_in_le _ k NN) as Q. rewrite N in Q by tauto. pose proof (neg_prob_pos T HT (nth k votes 0)). lra.
Qed.

(** The draw that selects the negative class. *)
Theorem process_spec : forall f label ncls, (0 < fb_thr f)%Q -> fb_ok ncls f -> length (fb_votes f) = ncls -> (label < ncls)%nat ->
  let f' := fb_process label f in
  fb_pos f' = label /\ (fb_neg f' < ncls)%nat /\
  fb_pp f' = pos_prob (fb_thr f) (nth label (fb_votes f) 0) /\
  (fb_neg f' <> label -> fb_np f' = neg_prob (fb_thr f) (nth (fb_neg f') (fb_votes f) 0)) /\
  (fb_neg f' = label -> fb_np f' = 0%Q) /\
  ((2 <= ncls)%nat -> (0 < draw (fb_rng f) 0 <= 1)%Q -> fb_neg f' <> label) /\
  fb_total f' = fb_total f + 1 /\
  fb_correct f' = fb_correct f + (if Nat.eqb (fb_predict f) label then 1 else 0).
Proof.
  intros f label ncls HT [H1 H2] HL Hlab f'.
  assert (EV : firstn (fb_ncls f) (fb_votes f) = fb_votes f) by (apply firstn_all2; lia).
  destruct (neg_weights_spec (fb_thr f) (fb_votes f) label HT ltac:(lia)) as [L [NN [Z0 N]]].
  assert (EF : f' = let '(neg, r) := sample_discrete (neg_weights (fb_thr f) (fb_votes f) label) (fb_rng f) in
     mkFb (fb_ncls f) (fb_thr f) (fb_votes f) (neg_weights (fb_thr f) (fb_votes f) label) label neg
       (pos_prob (fb_thr f) (nth label (fb_votes f) 0)) (nth neg (neg_weights (fb_thr f) (fb_votes f) label) 0%Q)
       (if Nat.eqb (predicted_class (fb_votes f)) label then fb_correct f + 1 else fb_correct f) (fb_total f + 1) r).
  { unfold f', fb_process. rewrite EV. reflexivity. }
  assert (PC : fb_predict f = predicted_class (fb_votes f)).
  { unfold fb_predict. rewrite EV. unfold predicted_class, argmax.
    destruct (fb_votes f) as [|v vs] eqn:E; [simpl in HL; lia|]. cbn [hd argmax_loop]. rewrite Z.gtb_ltb, Z.ltb_irrefl. reflexivity. }
  rewrite PC. clear PC.
  unfold sample_discrete in EF. rewrite L in EF. destruct (Nat.ltb (length (fb_votes f)) 2) eqn:E2.
  - apply Nat.ltb_lt in E2. rewrite EF. cbn [fb_pos fb_neg fb_pp fb_np fb_total fb_correct].
    assert (label = 0%nat) by lia. subst label. repeat split; auto; try lia; try tauto.
    destruct (Nat.eqb _ _); lia.
  - apply Nat.ltb_ge in E2. unfold next_u in EF. rewrite EF. cbn [fb_pos fb_neg fb_pp fb_np fb_total fb_correct].
    assert (Hne : neg_weights (fb_thr f) (fb_votes f) label <> []).
    { intros K. rewrite K in L. simpl in L. lia. }
    pose proof (pick_loop_range (qsum (neg_weights (fb_thr f) (fb_votes f) label)) (neg_weights (fb_thr f) (fb_votes f) label) 0
      (rng_src (fb_rng f) (rng_pos (fb_rng f))) 0 Hne) as R. rewrite L in R.
    pose proof (pick_not_zero (neg_weights (fb_thr f) (fb_votes f) label) (rng_src (fb_rng f) (rng_pos (fb_rng f))) label NN
      (neg_weights_sum (fb_thr f) (fb_votes f) label HT ltac:(lia) E2) ltac:(lia) ltac:(lia) ltac:(rewrite Z0; reflexivity)) as PZ.
    set (m := pick_loop _ _ _ _ _) in *. unfold draw. rewrite Nat.add_0_r.
    split; [|split; [|split; [|split; [|split; [|split; [|split]]]]]]; auto; try lia.
    + intros K. apply N; auto; lia.
    + intros K. rewrite K. auto.
    + destruct (Nat.eqb _ _); lia.
Qed.

(** Every other class can be the negative class. *)
Theorem process_reaches : forall f label ncls k, (0 < fb_thr f)%Q -> fb_ok ncls f -> length (fb_votes f) = ncls ->
  (label < ncls)%nat -> (k < ncls)%nat -> k <> label ->
  let w := neg_weights (fb_thr f) (fb_votes f) label in
  (qprefix (qsum w) k w < qprefix (qsum w) (S k) w)%Q /\
  ((qprefix (qsum w) k w < draw (fb_rng f) 0 <= qprefix (qsum w) (S k) w)%Q -> fb_neg (fb_process label f) = k).
Proof.
  intros f label ncls k HT [H1 H2] HL Hlab Hk Hn w.
  assert (EV : firstn (fb_ncls f) (fb_votes f) = fb_votes f) by (apply firstn_all2; lia).
  destruct (neg_weights_spec (fb_thr f) (fb_votes f) label HT ltac:(lia)) as [L [NN [Z0 N]]]. fold w in L, NN, Z0, N.
  assert (HS : (0 < qsum w)%Q) by (apply neg_weights_sum; auto; lia).
  split.
  - unfold qprefix. apply Qmult_lt_compat_r; [apply Qinv_lt_0_compat; auto|].
    rewrite qsum_firstn_S by lia. rewrite N by (auto; lia). pose proof (neg_prob_pos (fb_thr f) HT (nth k (fb_votes f) 0)). lra.
  - intros HD. unfold fb_process. rewrite EV. fold (neg_weights (fb_thr f) (fb_votes f) label). fold w.
    unfold sample_discrete. rewrite L. rewrite (proj2 (Nat.ltb_ge _ _)) by lia. unfold next_u. cbn [fb_neg].
    unfold draw in HD. rewrite Nat.add_0_r in HD. apply pick_interval; auto; lia.
Qed.

(** ** Uniform and multi-label selection *)

Lemma draw_class_range : forall n r, (0 < n)%nat -> (fst (draw_class n r) < n)%nat.
Proof. intros n r Hn. unfold draw_class. destruct (next_u r) as [u r']. cbn [fst]. lia. Qed.

Theorem draw_other_spec : forall fuel n pos r c r', (0 < n)%nat -> draw_other fuel n pos r = Some (c, r') ->
  (c < n)%nat /\ c <> pos.
Proof.
  induction fuel as [|fuel IH]; intros n pos r c r' Hn H; cbn [draw_other] in H; [discriminate|].
  pose proof (draw_class_range n r Hn) as R. destruct (draw_class n r) as [d r1]. cbn [fst] in R.
  destruct (Nat.eqb d pos) eqn:E.
  - apply (IH n pos r1 c r'); auto.
  - inversion H; subst. apply Nat.eqb_neq in E. auto.
Qed.

(** With one class the loop never ends, whatever the draws. *)
Theorem draw_other_stuck : forall fuel r, draw_other fuel 1 0 r = None.
Proof.
  induction fuel as [|fuel IH]; intros r; cbn [draw_other]; auto.
  pose proof (draw_class_range 1 r ltac:(lia)) as R. destruct (draw_class 1 r) as [d r1]. cbn [fst] in R.
  assert (d = 0%nat) by lia. subst. cbn [Nat.eqb]. apply IH.
Qed.

(** It ends as soon as a draw differs from the label. *)
Theorem draw_other_ends : forall k n pos r, fst (draw_class n (advance k r)) <> pos ->
  exists c, draw_other (S k) n pos r = Some c.
Proof.
  induction k as [|k IH]; intros n pos r H.
  - rewrite advance_0 in H. cbn [draw_other]. destruct (draw_class n r) as [c r1]. cbn [fst] in H.
    rewrite (proj2 (Nat.eqb_neq c pos) H). eauto.
  - change (draw_other (S (S k)) n pos r) with (let '(c, r) := draw_class n r in if Nat.eqb c pos then draw_other (S k) n pos r else Some (c, r)).
    assert (E : snd (draw_class n r) = advance 1 r) by (unfold draw_class, next_u, advance; cbn [snd]; f_equal; lia).
    destruct (draw_class n r) as [c r1]. cbn [snd] in E. subst r1.
    destruct (Nat.eqb c pos); eauto. apply IH. rewrite advance_advance. auto.
Qed.

Theorem uniform_spec : forall fuel label f f', (0 < fb_ncls f)%nat -> fbu_process fuel label f = Some f' ->
  fb_pos f' = label /\ fb_neg f' <> label /\ (fb_neg f' < fb_ncls f)%nat /\
  fb_pp f' = pos_prob (fb_thr f) (nth label (fb_votes f) 0) /\
  fb_np f' = neg_prob (fb_thr f) (nth (fb_neg f') (fb_votes f) 0) /\
  fb_total f' = fb_total f + 1 /\
  fb_correct f' = fb_correct f + (if Nat.eqb (fb_predict f) label then 1 else 0).
Proof.
  intros fuel label f f' Hn H. unfold fbu_process in H.
  destruct (draw_other fuel (fb_ncls f) label (fb_rng f)) as [[c r]|] eqn:E; [|discriminate].
  destruct (draw_other_spec _ _ _ _ _ _ Hn E) as [A1 A2]. inversion H; subst. cbn. unfold fb_predict.
  repeat split; auto. destruct (Nat.eqb _ _); lia.
Qed.

(** Multi-label: the two drawn labels differ; a class drawn as positive
    is its ON half exactly when the example has the label, a class drawn as
    negative is its OFF half exactly when the example has the label. *)
Theorem multi_spec : forall fuel labels f f', (0 < fb_ncls f)%nat -> fbm_process fuel labels f = Some f' ->
  exists p0 q0, (p0 < fb_ncls f)%nat /\ (q0 < fb_ncls f)%nat /\ p0 <> q0 /\
  fb_pos f' = (if (nth p0 labels 0 =? 0)%Z then (p0 + fb_ncls f)%nat else p0) /\
  fb_neg f' = (if (nth q0 labels 0 =? 1)%Z then (q0 + fb_ncls f)%nat else q0) /\
  fb_pos f' <> fb_neg f' /\ (fb_pos f' < 2 * fb_ncls f)%nat /\ (fb_neg f' < 2 * fb_ncls f)%nat.
Proof.
  intros fuel labels f f' Hn H. unfold fbm_process in H.
  pose proof (draw_class_range (fb_ncls f) (fb_rng f) Hn) as R. destruct (draw_class (fb_ncls f) (fb_rng f)) as [p0 r]. cbn [fst] in R.
  destruct (draw_other fuel (fb_ncls f) p0 r) as [[q0 r1]|] eqn:E; [|discriminate].
  destruct (draw_other_spec _ _ _ _ _ _ Hn E) as [A1 A2]. inversion H; subst. cbn [fb_pos fb_neg].
  exists p0, q0. repeat split; auto; destruct (nth p0 labels 0 =? 0); destruct (nth q0 labels 0 =? 1); lia.
Qed.
