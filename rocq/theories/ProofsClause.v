(** Clause evaluation of the scalar backend meets the specification. *)
From Coq Require Import ZArith List Bool QArith Lia ZifyBool.
From Verif Require Import Base BaseProofs Spec ModelDense.
Import ListNotations.
Open Scope Z_scope.

Lemma included_In : forall row i,
  In i (included row) <-> (i < length row)%nat /\ 0 <= nth i row (-1).
Proof.
  intros row i. unfold included. rewrite filter_In, in_seq, Z.leb_le. lia.
Qed.

Lemma clause_matches_iff : forall n x row,
  clause_matches n x row = true <->
  (forall i, (i < length row)%nat -> 0 <= nth i row (-1) -> lit_true n x i = true).
Proof.
  intros n x row. unfold clause_matches, conj_true. rewrite forallb_forall. split.
  - intros H i Hi H0. apply H, included_In; auto.
  - intros H i Hi. apply included_In in Hi. apply H; tauto.
Qed.

Lemma included_nil_iff : forall row,
  included row = [] <-> (forall i, (i < length row)%nat -> nth i row (-1) < 0).
Proof.
  intros row. split.
  - intros H i Hi. destruct (Z_lt_le_dec (nth i row (-1)) 0); auto.
    assert (In i (included row)) by (apply included_In; auto). rewrite H in H0. easy.
  - intros H. destruct (included row) as [|i t] eqn:E; auto.
    assert (Hi : In i (included row)) by (rewrite E; simpl; auto).
    apply included_In in Hi. specialize (H i). lia.
Qed.

Lemma clause_fires_iff : forall n x row,
  clause_fires n x row = true <->
  clause_matches n x row = true /\ included row <> [].
Proof.
  intros. unfold clause_fires, clause_matches. destruct (included row) eqn:E.
  - split; [easy | intros [_ H]; congruence].
  - split; [intro H; split; [exact H | congruence] | tauto].
Qed.

(** Pairwise form used by the loops. *)
Definition pair_ok (pos neg lits : list Z) : Prop :=
  forall i, (i < length lits)%nat ->
    (0 <= nth i pos (-1) -> nth i lits 0 <> 0) /\
    (0 <= nth i neg (-1) -> nth i lits 0 <> 1).

Lemma clause_matches_pair : forall pos neg x,
  length pos = length x -> length neg = length x -> binary x ->
  clause_matches (length x) x (pos ++ neg) = true <-> pair_ok pos neg x.
Proof.
  intros pos neg x Hp Hn Hb. rewrite clause_matches_iff. rewrite app_length.
  unfold pair_ok, lit_true. unfold binary in Hb. rewrite Forall_forall in Hb.
  split.
  - intros H i Hi. split; intro Hs.
    + specialize (H i). rewrite app_nth1 in H by lia.
      assert (Hlt : Nat.ltb i (length x) = true) by (apply Nat.ltb_lt; lia).
      rewrite Hlt in H. specialize (H ltac:(lia) Hs).
      destruct (nth i x 0 =? 0) eqn:E; [easy | lia].
    + specialize (H (length x + i)%nat). rewrite app_nth2 in H by lia.
      replace (length x + i - length pos)%nat with i in H by lia.
      assert (Hlt : Nat.ltb (length x + i) (length x) = false) by (apply Nat.ltb_ge; lia).
      rewrite Hlt in H. specialize (H ltac:(lia) Hs).
      replace (length x + i - length x)%nat with i in H by lia. lia.
  - intros H i Hi Hs. destruct (Nat.ltb i (length x)) eqn:E.
    + apply Nat.ltb_lt in E. rewrite app_nth1 in Hs by lia.
      destruct (H i E) as [H1 _]. specialize (H1 Hs).
      apply negb_true_iff, Z.eqb_neq; auto.
    + apply Nat.ltb_ge in E. rewrite app_nth2 in Hs by lia.
      rewrite Hp in Hs. assert (E2 : (i - length x < length x)%nat) by lia.
      destruct (H _ E2) as [_ H2]. specialize (H2 Hs).
      assert (Hin : In (nth (i - length x) x 0) x) by (apply nth_In; lia).
      apply Hb in Hin. apply Z.eqb_eq. lia.
Qed.

Lemma pair_ok_cons : forall p pos q neg l lits,
  pair_ok (p :: pos) (q :: neg) (l :: lits) <->
  (0 <= p -> l <> 0) /\ (0 <= q -> l <> 1) /\ pair_ok pos neg lits.
Proof.
  intros. unfold pair_ok. simpl length. split.
  - intros H. split; [|split].
    + intros. destruct (H O ltac:(lia)) as [H1 _]. apply H1; auto.
    + intros. destruct (H O ltac:(lia)) as [_ H1]. apply H1; auto.
    + intros i Hi. apply (H (S i)). lia.
  - intros [H1 [H2 H3]] [|i] Hi; simpl.
    + split; auto.
    + apply H3. lia.
Qed.

(** number of included automata in the two rows *)
Definition n_incl (row : list Z) : Z := Z.of_nat (length (filter (fun v => 0 <=? v) row)).

Lemma n_incl_cons : forall v row, n_incl (v :: row) = (if 0 <=? v then 1 else 0) + n_incl row.
Proof.
  intros. unfold n_incl. simpl. destruct (0 <=? v); simpl length; lia.
Qed.

Lemma n_incl_nonneg : forall row, 0 <= n_incl row.
Proof. intros. unfold n_incl. lia. Qed.

Lemma eval_output_loop_01 : forall pos neg lits e,
  eval_output_loop pos neg lits e = 0 \/ eval_output_loop pos neg lits e = 1.
Proof.
  induction pos as [|p pos IH]; intros [|q neg] [|l lits] e; simpl;
    try (destruct e; auto; fail).
  destruct ((p >=? 0) && (l =? 0)); auto.
  destruct ((q >=? 0) && (l =? 1)); auto.
Qed.

Lemma eval_output_loop_spec : forall pos neg lits e,
  length pos = length lits -> length neg = length lits ->
  (eval_output_loop pos neg lits e = 1 <->
   pair_ok pos neg lits /\ (e = false \/ 0 < n_incl pos + n_incl neg)).
Proof.
  induction pos as [|p pos IH]; intros [|q neg] [|l lits] e Hp Hn; simpl in Hp, Hn; try lia.
  - simpl. destruct e; split; try easy.
    + intros [_ [H|H]]; [easy | unfold n_incl in H; simpl in H; lia].
    + intros _. split; [|auto]. intros i Hi. simpl in Hi. lia.
  - rewrite pair_ok_cons, !n_incl_cons. simpl eval_output_loop.
    pose proof (n_incl_nonneg pos) as Np. pose proof (n_incl_nonneg neg) as Nn.
    rewrite !Z.geb_leb.
    destruct (0 <=? p) eqn:Ep; destruct (l =? 0) eqn:E0; simpl andb; cbv iota.
    all: destruct (0 <=? q) eqn:Eq; destruct (l =? 1) eqn:E1; simpl andb; cbv iota.
    all: try (rewrite IH by lia).
    all: generalize dependent (pair_ok pos neg lits); intros P.
    all: destruct e; intuition lia.
Qed.

Lemma n_incl_zero_iff : forall row,
  n_incl row = 0 <-> (forall i, (i < length row)%nat -> nth i row (-1) < 0).
Proof.
  induction row as [|v row IH].
  - split; auto. intros _ i Hi. simpl in Hi. lia.
  - rewrite n_incl_cons. pose proof (n_incl_nonneg row). split.
    + intros H0. destruct (0 <=? v) eqn:E; [lia|].
      intros [|i] Hi; simpl in *; [lia|]. apply IH; lia.
    + intros H0. assert (v < 0) by (apply (H0 O); simpl; lia).
      destruct (0 <=? v) eqn:E; [lia|]. apply IH. intros i Hi. apply (H0 (S i)). simpl; lia.
Qed.

Lemma included_app_nil : forall pos neg,
  included (pos ++ neg) = [] <-> n_incl pos + n_incl neg = 0.
Proof.
  intros. pose proof (n_incl_nonneg pos). pose proof (n_incl_nonneg neg).
  assert (n_incl pos + n_incl neg = 0 <-> n_incl (pos ++ neg) = 0).
  { unfold n_incl. rewrite filter_app, app_length. lia. }
  rewrite H1, n_incl_zero_iff, included_nil_iff. tauto.
Qed.

Theorem eval_output_fires : forall n x c,
  length (cl_pos c) = n -> length (cl_neg c) = n -> length x = n -> binary x ->
  eval_output x c = b2z (clause_fires n x (cl_pos c ++ cl_neg c)).
Proof.
  intros n x [pos neg] Hp Hn Hx Hb. simpl in *. unfold eval_output. simpl.
  assert (K : eval_output_loop pos neg x true = 1 <-> clause_fires n x (pos ++ neg) = true).
  { rewrite eval_output_loop_spec by congruence. rewrite clause_fires_iff.
    rewrite <- Hx at 1. rewrite clause_matches_pair by congruence.
    pose proof (n_incl_nonneg pos). pose proof (n_incl_nonneg neg).
    pose proof (included_app_nil pos neg).
    split; intros [H2 H3]; split; auto.
    - destruct H3 as [H3|H3]; [easy|]. rewrite H1. lia.
    - right. rewrite H1 in H3. lia. }
  destruct (eval_output_loop_01 pos neg x true) as [H|H].
  - rewrite H in *. destruct (clause_fires n x (pos ++ neg)); auto. destruct K as [_ K]. now specialize (K eq_refl).
  - rewrite H in *. destruct K as [K _]. now rewrite (K eq_refl).
Qed.

Lemma set_output_loop_01 : forall b pos neg lits pc nc,
  fst (set_output_loop b pos neg lits pc nc) = 0 \/ fst (set_output_loop b pos neg lits pc nc) = 1.
Proof.
  induction pos as [|p pos IH]; intros [|q neg] [|l lits] pc nc; simpl; auto.
  destruct ((p >=? 0) && (l =? 0)); auto.
  destruct ((q >=? 0) && (l =? 1)); auto.
Qed.

Lemma set_output_loop_spec : forall b pos neg lits pc nc,
  length pos = length lits -> length neg = length lits ->
  (fst (set_output_loop b pos neg lits pc nc) = 1 <-> pair_ok pos neg lits).
Proof.
  induction pos as [|p pos IH]; intros [|q neg] [|l lits] pc nc Hp Hn; simpl in Hp, Hn; try lia.
  - simpl. split; auto. intros _ i Hi. simpl in Hi. lia.
  - rewrite pair_ok_cons. simpl set_output_loop. rewrite !Z.geb_leb.
    destruct (0 <=? p) eqn:Ep; destruct (l =? 0) eqn:E0; simpl andb; cbv iota.
    all: destruct (0 <=? q) eqn:Eq; destruct (l =? 1) eqn:E1; simpl andb; cbv iota.
    all: try (rewrite IH by lia).
    all: simpl fst; split; try easy.
    all: try (intros H1; split; [|split]; auto; lia).
    all: try (intros [H1 [H2 H3]]; auto; lia).
Qed.

Theorem set_output_matches : forall b n x c,
  length (cl_pos c) = n -> length (cl_neg c) = n -> length x = n -> binary x ->
  fst (set_output b x c) = b2z (clause_matches n x (cl_pos c ++ cl_neg c)).
Proof.
  intros b n x [pos neg] Hp Hn Hx Hb. simpl in *. unfold set_output. simpl.
  assert (K : fst (set_output_loop b pos neg x 0 0) = 1 <-> clause_matches n x (pos ++ neg) = true).
  { rewrite set_output_loop_spec by congruence. rewrite <- Hx at 1. rewrite clause_matches_pair by congruence. tauto. }
  destruct (set_output_loop_01 b pos neg x 0 0) as [H|H].
  - rewrite H in *. destruct (clause_matches n x (pos ++ neg)); auto. destruct K as [_ K]. now specialize (K eq_refl).
  - rewrite H in *. destruct K as [K _]. now rewrite (K eq_refl).
Qed.

(** When the clause output is 1 the stored count is the number of included
    literals; it never exceeds it. *)
Lemma set_output_loop_count : forall pos neg lits pc nc,
  length pos = length lits -> length neg = length lits ->
  fst (set_output_loop true pos neg lits pc nc) = 1 ->
  snd (set_output_loop true pos neg lits pc nc) = pc + nc + n_incl pos + n_incl neg.
Proof.
  induction pos as [|p pos IH]; intros [|q neg] [|l lits] pc nc Hp Hn; simpl in Hp, Hn; try lia.
  - simpl. unfold n_incl. simpl. lia.
  - rewrite !n_incl_cons. simpl set_output_loop. rewrite !Z.geb_leb.
    destruct (0 <=? p) eqn:Ep; destruct (l =? 0) eqn:E0; simpl andb; cbv iota; try easy.
    all: destruct (0 <=? q) eqn:Eq; destruct (l =? 1) eqn:E1; simpl andb; cbv iota; try easy.
    all: intros H; rewrite IH by (auto; lia); lia.
Qed.

Lemma included_length : forall row, Z.of_nat (length (included row)) = n_incl row.
Proof.
  intros row. unfold n_incl. f_equal. unfold included.
  assert (K : forall l s, (forall i, (i < length l)%nat -> nth i l (-1) = nth (s + i) row (-1)) ->
     length (filter (fun i => 0 <=? nth i row (-1)) (seq s (length l))) =
     length (filter (fun v => 0 <=? v) l)).
  { induction l as [|v l IH]; intros s H; simpl; auto.
    pose proof (H O ltac:(simpl; lia)) as H0. simpl in H0. rewrite Nat.add_0_r in H0. rewrite <- H0.
    assert (H' : forall i, (i < length l)%nat -> nth i l (-1) = nth (S s + i) row (-1)).
    { intros i Hi. specialize (H (S i)). simpl in H. rewrite H by lia. f_equal. lia. }
    destruct (0 <=? v); simpl; rewrite (IH (S s) H'); auto. }
  apply K. auto.
Qed.

Lemma n_incl_app : forall a b, n_incl (a ++ b) = n_incl a + n_incl b.
Proof. intros. unfold n_incl. rewrite filter_app, app_length. lia. Qed.

Theorem set_output_count : forall n x c,
  length (cl_pos c) = n -> length (cl_neg c) = n -> length x = n ->
  fst (set_output true x c) = 1 ->
  snd (set_output true x c) = Z.of_nat (length (included (cl_pos c ++ cl_neg c))).
Proof.
  intros n x [pos neg] Hp Hn Hx H. simpl in *. unfold set_output in *. simpl in *.
  rewrite set_output_loop_count by (auto; congruence).
  rewrite included_length, n_incl_app. lia.
Qed.
