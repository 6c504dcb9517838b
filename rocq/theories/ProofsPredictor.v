(** Predictor: explanations and history independence. *)
From Coq Require Import ZArith List Bool Lia ZifyBool.
From Verif Require Import Base BaseProofs Spec ModelRuleSet ModelInference ModelPredictor ProofsInference ProofsRuleSet ProofsEval.
Import ListNotations.
Open Scope Z_scope.

(** ** Explanation values *)

Lemma count_occ_NoDup : forall r l, NoDup r ->
  Z.of_nat (count_occ Nat.eq_dec r l) = if existsb (Nat.eqb l) r then 1 else 0.
Proof.
  intros r l H. destruct (existsb (Nat.eqb l) r) eqn:E.
  - apply existsb_exists in E. destruct E as [k [Hk E]]. apply Nat.eqb_eq in E. subst k.
    rewrite NoDup_count_occ' in H. rewrite (H l Hk). reflexivity.
  - assert (~ In l r).
    { intros Hi. assert (existsb (Nat.eqb l) r = true); [|congruence].
      apply existsb_exists. exists l. split; auto. apply Nat.eqb_refl. }
    apply (count_occ_not_In Nat.eq_dec) in H0. rewrite H0. reflexivity.
Qed.

Lemma contribution_shift : forall excl r rules w ws y l k,
  contribution excl (r :: rules) (w :: ws) y l (S k) = contribution excl rules ws y l k.
Proof. reflexivity. Qed.

Lemma matching_from_shift : forall n x rules k,
  matching_from n x (S k) rules = map S (matching_from n x k rules).
Proof.
  induction rules as [|r rules IH]; intros k; simpl; auto.
  destruct (conj_true n x r); simpl; rewrite IH; auto.
Qed.

Lemma contributions_sum : forall n x excl y l rules ws,
  length rules = length ws -> Forall (@NoDup nat) rules ->
  zsum (map (contribution excl rules ws y l) (matching_from n x 0 rules)) =
  literal_contribution n x excl rules ws y l.
Proof.
  intros n x excl y l rules. induction rules as [|r rules IH]; intros [|w ws] Hl H; simpl in Hl; try lia; auto.
  inversion H; subst.
  assert (T : zsum (map (contribution excl (r :: rules) (w :: ws) y l) (matching_from n x 1 rules)) =
              literal_contribution n x excl rules ws y l).
  { rewrite matching_from_shift, map_map. rewrite (map_ext _ (contribution excl rules ws y l)) by reflexivity.
    apply IH; auto. }
  cbn [matching_from literal_contribution]. destruct (conj_true n x r); simpl andb.
  - cbn [map zsum]. rewrite T. f_equal. unfold contribution. cbn [nth].
    rewrite count_occ_NoDup by auto.
    destruct (existsb (Nat.eqb l) r); destruct excl; cbn [negb andb orb];
      destruct (nth y w 0 <? 1) eqn:E1; destruct (1 <=? nth y w 0) eqn:E2; lia.
  - rewrite T. reflexivity.
Qed.

Lemma inf_explain_imp : forall excl s y x l, inf_wf s -> length x = inf_nlit s -> Forall (@NoDup nat) (inf_rules s) ->
  (l < 2 * inf_nlit s)%nat ->
  nth l (inf_imp (inf_explain excl (snd (inf_predict s x)) y)) 0 =
  wrap32 (literal_contribution (inf_nlit s) x excl (inf_rules s) (inf_weights s) y l).
Proof.
  intros excl s y x l W Hx Hnd Hl. unfold inf_explain. cbn [inf_imp].
  destruct (inf_predict_frame s x) as [E1 [E2 [E3 [E4 [E5 E6]]]]].
  rewrite inf_predict_active by auto. rewrite E4, E5, E6.
  destruct W as [W1 [W2 [W3 W4]]].
  rewrite importance_loop_nth.
  - rewrite nth_repeat0, Z.add_0_l. rewrite contributions_sum by auto. reflexivity.
  - intros k Hk. rewrite repeat_length, W4. apply matching_from_In in Hk.
    destruct Hk as [Hk _]. unfold rules_in_range in W1. rewrite Forall_forall in W1. apply W1. apply nth_In. lia.
  - rewrite nth_repeat0. reflexivity.
Qed.

Lemma inf_explain_length : forall excl s y, length (inf_imp (inf_explain excl s y)) = length (inf_imp s).
Proof. intros. unfold inf_explain. simpl. rewrite importance_loop_length, repeat_length. auto. Qed.

Lemma compiled_rules_nodup : forall n s rs, dense_wf n s -> compile_from_dense_state s = Ok rs ->
  Forall (@NoDup nat) (rs_rules rs).
Proof.
  intros n s rs Hwf Hc. destruct (compile_ok n s Hwf) as [m [E I]]. rewrite E in Hc. inversion Hc; subst. simpl.
  apply Forall_forall. intros k Hk. apply (ci_in _ _ _ _ I) in Hk.
  destruct Hk as [_ [i [row [w [_ [_ [K _]]]]]]]. subst k. unfold included. apply NoDup_filter, seq_NoDup.
Qed.

(** ** History independence *)

(** Fields fixed at construction. *)
Definition same_inf (a b : inference) : Prop :=
  inf_nlit a = inf_nlit b /\ inf_ncls a = inf_ncls b /\ inf_empty a = inf_empty b /\
  inf_rules a = inf_rules b /\ inf_weights a = inf_weights b /\ length (inf_imp a) = length (inf_imp b).

(** Same result of the last predict. *)
Definition same_pred (a b : inference) : Prop :=
  same_inf a b /\ inf_active a = inf_active b /\ inf_votes a = inf_votes b /\ inf_example a = inf_example b.

Lemma same_inf_predict : forall a b x, same_inf a b ->
  fst (inf_predict a x) = fst (inf_predict b x) /\ same_pred (snd (inf_predict a x)) (snd (inf_predict b x)).
Proof.
  intros a b x [H1 [H2 [H3 [H4 [H5 H6]]]]]. unfold inf_predict. rewrite H1, H2, H3, H4, H5.
  destruct (inf_clause_loop _ _ _ _ _ _) as [active votes].
  unfold same_pred, same_inf. destruct active; simpl; auto 15.
Qed.

Lemma same_inf_predict_self : forall a x, same_inf (snd (inf_predict a x)) a.
Proof.
  intros a x. destruct (inf_predict_frame a x) as [E1 [E2 [E3 [E4 [E5 E6]]]]].
  unfold same_inf. rewrite E1, E2, E3, E4, E5, E6. auto 10.
Qed.

Lemma same_pred_explain : forall e a b y, same_pred a b ->
  inf_imp (inf_explain e a y) = inf_imp (inf_explain e b y) /\ same_pred (inf_explain e a y) (inf_explain e b y).
Proof.
  intros e a b y [[H1 [H2 [H3 [H4 [H5 H6]]]]] [H7 [H8 H9]]].
  assert (K : inf_imp (inf_explain e a y) = inf_imp (inf_explain e b y)).
  { unfold inf_explain. simpl. rewrite H4, H5, H6, H7. auto. }
  split; auto. unfold same_pred, same_inf. rewrite K. unfold inf_explain. simpl. auto 15.
Qed.

Lemma explain_same_pred : forall e a y, same_pred (inf_explain e a y) a.
Proof.
  intros e a y. unfold same_pred, same_inf. rewrite inf_explain_length. unfold inf_explain. simpl. auto 15.
Qed.

Lemma same_inf_trans : forall a b c, same_inf a b -> same_inf b c -> same_inf a c.
Proof. unfold same_inf. intros a b c H1 H2. intuition congruence. Qed.
Lemma same_pred_trans : forall a b c, same_pred a b -> same_pred b c -> same_pred a c.
Proof. unfold same_pred, same_inf. intros a b c H1 H2. intuition congruence. Qed.
Lemma same_pred_refl : forall a, same_pred a a.
Proof. unfold same_pred, same_inf. auto 15. Qed.

Definition same_obj (p q : predictor) : Prop :=
  p_mode p = p_mode q /\ p_excl p = p_excl q /\ p_ncls p = p_ncls q /\ same_inf (p_inf p) (p_inf q).

Lemma explain_class_same : forall p y, let q := snd (explain_class p y) in
  p_mode q = p_mode p /\ p_excl q = p_excl p /\ p_ncls q = p_ncls p /\ p_names q = p_names p /\ p_last q = p_last p /\
  same_pred (p_inf q) (p_inf p).
Proof. intros. unfold q, explain_class, with_inf. simpl. repeat split; auto; apply explain_same_pred. Qed.

Lemma explain_each_same : forall ys p, let q := snd (explain_each p ys) in
  p_mode q = p_mode p /\ p_excl q = p_excl p /\ p_ncls q = p_ncls p /\ p_names q = p_names p /\ p_last q = p_last p /\
  same_pred (p_inf q) (p_inf p).
Proof.
  induction ys as [|y ys IH]; intros p q.
  - unfold q. simpl. repeat split; auto.
  - unfold q. clear q. cbn [explain_each].
    pose proof (explain_class_same p y) as E. destruct (explain_class p y) as [e p1]. cbn [snd] in E.
    specialize (IH p1). destruct (explain_each p1 ys) as [r p2]. cbn [snd] in *. cbv zeta in *.
    destruct E as [E1 [E2 [E3 [E4 [E5 E6]]]]]. destruct IH as [I1 [I2 [I3 [I4 [I5 I6]]]]].
    assert (same_pred (p_inf p2) (p_inf p)) by (eapply same_pred_trans; eauto).
    intuition congruence.
Qed.

Lemma explain_target_same : forall p t, let q := snd (pred_explain_target p t) in
  p_mode q = p_mode p /\ p_excl q = p_excl p /\ p_ncls q = p_ncls p /\ p_names q = p_names p /\ p_last q = p_last p /\
  same_pred (p_inf q) (p_inf p).
Proof.
  intros p t q. unfold q, pred_explain_target. clear q.
  assert (Id : p_mode p = p_mode p /\ p_excl p = p_excl p /\ p_ncls p = p_ncls p /\ p_names p = p_names p /\ p_last p = p_last p /\
               same_pred (p_inf p) (p_inf p)) by (repeat split; auto).
  assert (K : forall y, let q := snd (let '(e, p') := explain_class p y in (Ok e, p')) in
    p_mode q = p_mode p /\ p_excl q = p_excl p /\ p_ncls q = p_ncls p /\ p_names q = p_names p /\ p_last q = p_last p /\
    same_pred (p_inf q) (p_inf p)).
  { intros y. exact (explain_class_same p y). }
  destruct (p_mode p) eqn:M; rewrite <- ?M; auto.
  all: rewrite <- ?M in *; try exact Id.
  destruct t as [t|].
  - destruct (p_names p) as [names|] eqn:N; rewrite <- ?N in *.
    + destruct (inv_lookup 0 _ t); [apply K|exact Id].
    + apply K.
  - destruct (p_last p) eqn:L; rewrite <- ?L in *; [apply K|exact Id].
Qed.

Lemma explain_all_same : forall p, let q := snd (pred_explain_all p) in
  p_mode q = p_mode p /\ p_excl q = p_excl p /\ p_ncls q = p_ncls p /\ p_names q = p_names p /\ p_last q = p_last p /\
  same_pred (p_inf q) (p_inf p).
Proof.
  intros p q. unfold q, pred_explain_all. clear q.
  assert (Id : p_mode p = p_mode p /\ p_excl p = p_excl p /\ p_ncls p = p_ncls p /\ p_names p = p_names p /\ p_last p = p_last p /\
               same_pred (p_inf p) (p_inf p)) by (repeat split; auto).
  pose proof (explain_each_same (seq 0 (p_ncls p)) p) as E. cbv zeta in E.
  destruct (explain_each p (seq 0 (p_ncls p))) as [r p2]. cbn [snd] in E.
  assert (C : forall z, z = p \/ z = p2 ->
    p_mode z = p_mode p /\ p_excl z = p_excl p /\ p_ncls z = p_ncls p /\ p_names z = p_names p /\ p_last z = p_last p /\
    same_pred (p_inf z) (p_inf p)) by (intros z [->| ->]; auto).
  apply C. destruct (p_mode p); auto. destruct (p_names p); auto. destruct r; auto.
Qed.

Lemma prun_obj : forall cs p, same_obj (prun p cs) p.
Proof.
  unfold prun. induction cs as [|c cs IH]; intros p; simpl.
  - unfold same_obj. repeat split.
  - specialize (IH (pstep p c)).
    assert (S : same_obj (pstep p c) p).
    { unfold same_obj. destruct c as [x|t| |names]; cbn [pstep].
      - unfold pred_predict. pose proof (same_inf_predict_self (p_inf p) x) as S.
        destruct (inf_predict (p_inf p) x) as [k inf]. cbn [snd] in S.
        destruct (p_names p) as [names|]; [destruct (nth_error names k)|]; simpl; auto.
      - pose proof (explain_target_same p t) as E. cbv zeta in E. destruct E as [E1 [E2 [E3 [E4 [E5 [E6 _]]]]]]. auto.
      - pose proof (explain_all_same p) as E. cbv zeta in E. destruct E as [E1 [E2 [E3 [E4 [E5 [E6 _]]]]]]. auto.
      - simpl. repeat split. }
    destruct IH as [I1 [I2 [I3 I4]]]. destruct S as [S1 [S2 [S3 S4]]].
    unfold same_obj. split; [|split; [|split]]; try congruence. eapply same_inf_trans; eauto.
Qed.

Definition is_names (c : pcall) : bool := match c with CNames _ => true | _ => false end.
Definition is_explain (c : pcall) : bool := match c with CExplain _ | CExplainAll => true | _ => false end.

Lemma prun_names : forall cs p, existsb is_names cs = false -> p_names (prun p cs) = p_names p.
Proof.
  unfold prun. induction cs as [|c cs IH]; intros p H; simpl in *; auto.
  apply orb_false_iff in H. destruct H as [H1 H2]. rewrite IH by auto.
  destruct c as [x|t| |names]; cbn [pstep]; try easy.
  - unfold pred_predict. destruct (inf_predict (p_inf p) x) as [k inf].
    destruct (p_names p) as [names|]; [destruct (nth_error names k)|]; reflexivity.
  - pose proof (explain_target_same p t) as E. cbv zeta in E. tauto.
  - pose proof (explain_all_same p) as E. cbv zeta in E. tauto.
Qed.

Theorem predict_history : forall p cs x, existsb is_names cs = false ->
  fst (pred_predict (prun p cs) x) = fst (pred_predict p x) /\
  pred_votes (snd (pred_predict (prun p cs) x)) = pred_votes (snd (pred_predict p x)).
Proof.
  intros p cs x H. pose proof (prun_names cs p H) as N. destruct (prun_obj cs p) as [_ [_ [_ S]]].
  destruct (same_inf_predict _ _ x S) as [E [_ [_ [V _]]]].
  unfold pred_predict. destruct (inf_predict (p_inf (prun p cs)) x) as [k1 i1]. destruct (inf_predict (p_inf p) x) as [k2 i2].
  cbn [fst snd] in *. subst k2. rewrite N. unfold pred_votes.
  destruct (p_names p) as [names|]; [destruct (nth_error names k1)|]; auto.
Qed.

(** After "predict x" the object is determined by x, up to the old importance
    vector. *)
Definition same_answer (p q : predictor) : Prop :=
  p_mode p = p_mode q /\ p_excl p = p_excl q /\ p_ncls p = p_ncls q /\ p_names p = p_names q /\
  p_last p = p_last q /\ same_pred (p_inf p) (p_inf q).

Lemma predict_same_answer : forall p q x, same_obj p q -> p_names p = p_names q ->
  same_answer (snd (pred_predict p x)) (snd (pred_predict q x)).
Proof.
  intros p q x [H1 [H2 [H3 H4]]] HN. destruct (same_inf_predict _ _ x H4) as [E S].
  unfold pred_predict. destruct (inf_predict (p_inf p) x) as [k1 i1]. destruct (inf_predict (p_inf q) x) as [k2 i2].
  cbn [fst snd] in *. subst k2. rewrite HN. unfold same_answer.
  destruct (p_names q) as [names|]; [destruct (nth_error names k1)|]; simpl; auto 10.
Qed.

Lemma same_answer_explain_class : forall p q y, same_answer p q ->
  fst (explain_class p y) = fst (explain_class q y) /\ same_answer (snd (explain_class p y)) (snd (explain_class q y)).
Proof.
  intros p q y [H1 [H2 [H3 [H4 [H5 H6]]]]]. unfold explain_class. cbn [fst snd]. rewrite H2.
  destruct (same_pred_explain (p_excl q) _ _ y H6) as [E S]. split; auto.
  unfold same_answer, with_inf. simpl. auto 10.
Qed.

Lemma same_answer_explain : forall p q t, same_answer p q ->
  fst (pred_explain_target p t) = fst (pred_explain_target q t).
Proof.
  intros p q t H. pose proof H as [H1 [H2 [H3 [H4 [H5 H6]]]]]. unfold pred_explain_target.
  rewrite H1, H4, H5. destruct (p_mode q); auto.
  assert (K : forall y, fst (let '(e, p') := explain_class p y in (Ok e, p')) =
                        fst (let '(e, p') := explain_class q y in (Ok e, p'))).
  { intros y. destruct (same_answer_explain_class p q y H) as [E _].
    destruct (explain_class p y), (explain_class q y). simpl in *. congruence. }
  destruct t; [destruct (p_names q); [destruct (inv_lookup 0 l n)|]|destruct (p_last q)]; auto.
Qed.

Lemma same_answer_trans : forall a b c, same_answer a b -> same_answer b c -> same_answer a c.
Proof.
  unfold same_answer. intros a b c H1 H2.
  assert (same_pred (p_inf a) (p_inf c)) by (eapply same_pred_trans; [apply H1|apply H2]).
  intuition congruence.
Qed.

Lemma explains_same_answer : forall cs p, forallb is_explain cs = true -> same_answer (prun p cs) p.
Proof.
  unfold prun. induction cs as [|c cs IH]; intros p H; simpl in *.
  - unfold same_answer. repeat split; auto.
  - apply andb_true_iff in H. destruct H as [H1 H2].
    eapply same_answer_trans; [apply IH; auto|].
    destruct c; try easy; cbn [pstep].
    + exact (explain_target_same p t).
    + exact (explain_all_same p).
Qed.

Theorem explain_history : forall p cs1 cs2 x t, existsb is_names cs1 = false -> forallb is_explain cs2 = true ->
  fst (pred_explain_target (prun (snd (pred_predict (prun p cs1) x)) cs2) t) =
  fst (pred_explain_target (snd (pred_predict p x)) t).
Proof.
  intros p cs1 cs2 x t H1 H2. apply same_answer_explain.
  eapply same_answer_trans; [apply explains_same_answer; auto|].
  apply predict_same_answer; [apply prun_obj | apply prun_names; auto].
Qed.

(** ** explain("all") *)

Lemma explain_each_keys : forall ys p, map fst (fst (explain_each p ys)) = ys.
Proof.
  induction ys as [|y ys IH]; intros p; simpl; auto.
  specialize (IH (with_inf p (inf_explain (p_excl p) (p_inf p) y))).
  destruct (explain_each _ ys) as [r p2]. simpl in *. congruence.
Qed.

Lemma explain_each_values : forall ys p q, same_answer p q ->
  Forall (fun ye => fst (explain_class q (fst ye)) = snd ye) (fst (explain_each p ys)).
Proof.
  induction ys as [|y ys IH]; intros p q S; cbn [explain_each]; [constructor|].
  destruct (same_answer_explain_class p q y S) as [E _].
  assert (S' : same_answer (snd (explain_class p y)) q).
  { eapply same_answer_trans; [|apply S]. exact (explain_class_same p y). }
  specialize (IH _ _ S').
  destruct (explain_class p y) as [e p1]. cbn [fst snd] in *. destruct (explain_each p1 ys) as [r p2]. cbn [fst] in *.
  constructor; [cbn [fst snd]; auto|auto].
Qed.

Theorem explain_all_ok : forall p r q, p_names p = None -> pred_explain_all p = (Ok r, q) ->
  map fst r = seq 0 (p_ncls p) /\
  (forall y e, In (y, e) r -> fst (pred_explain_target p (Some y)) = Ok e).
Proof.
  intros p r q HN H. unfold pred_explain_all in H.
  destruct (p_mode p) eqn:M; try discriminate.
  pose proof (explain_each_keys (seq 0 (p_ncls p)) p) as K.
  assert (S : same_answer p p) by (unfold same_answer; repeat split; auto).
  pose proof (explain_each_values (seq 0 (p_ncls p)) p p S) as V.
  destruct (explain_each p (seq 0 (p_ncls p))) as [r' p']. rewrite HN in H. inversion H; subst. cbn [fst] in *.
  split; auto. intros y e Hin. rewrite Forall_forall in V. specialize (V (y, e) Hin). cbn [fst snd] in V.
  unfold pred_explain_target. rewrite M, HN. destruct (explain_class p y). simpl in *. congruence.
Qed.

Lemma explain_all_names_raises : forall p names, p_mode p = XLiterals -> (0 < p_ncls p)%nat ->
  fst (pred_explain_all (set_target_names names p)) = Raise TypeError.
Proof.
  intros p names M H. unfold pred_explain_all. cbn [set_target_names p_mode p_names p_ncls]. rewrite M.
  pose proof (explain_each_keys (seq 0 (p_ncls p)) (set_target_names names p)) as K.
  destruct (explain_each (set_target_names names p) (seq 0 (p_ncls p))) as [r q]. cbn [fst] in K.
  destruct r; [|reflexivity]. destruct (p_ncls p); [lia|discriminate].
Qed.

Lemma features_raise : forall rs excl junk,
  from_ruleset XFeatures excl rs junk = Raise ValueError /\ from_ruleset XBoth excl rs junk = Raise ValueError.
Proof. intros. split; reflexivity. Qed.
