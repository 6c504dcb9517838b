(** The sparse block: clause outputs, state transfer, pruning. *)
From Coq Require Import ZArith Arith List Bool QArith Lia ZifyBool Sorted Permutation.
From Verif Require Import Base BaseProofs Spec ModelDense ModelRuleSet ModelLayout ModelFeedback ModelExecutor ModelSparse SpecSparse ProofsLayout ProofsInput.
Import ListNotations.
Open Scope Z_scope.

Lemma memb_In : forall a l, memb a l = true <-> In a l.
Proof.
  intros a l. unfold memb. rewrite existsb_exists. split.
  - intros [x [H1 H2]]. apply Nat.eqb_eq in H2. now subst.
  - intros H. exists a. split; [auto|apply Nat.eqb_refl].
Qed.
Lemma memb_not_In : forall a l, memb a l = false <-> ~ In a l.
Proof. intros a l. rewrite <- memb_In. destruct (memb a l); intuition congruence. Qed.

(** ** Scanning a sorted example *)

Lemma scan_pos_eval_same : forall ta lits, scan_pos_eval ta lits = scan_pos ta lits.
Proof.
  intros ta lits. induction lits as [|l t IH]; cbn [scan_pos scan_pos_eval]; auto.
  destruct (Nat.ltb_spec ta l), (Nat.eqb_spec ta l), (Nat.ltb_spec l ta); try lia; auto.
Qed.

Lemma pos_falsified_eval_same : forall back lits row sts, pos_falsified_eval back lits row sts = pos_falsified back lits row sts.
Proof.
  intros back lits row. induction row as [|ta row IH]; intros [|st sts]; cbn [pos_falsified pos_falsified_eval]; auto.
  rewrite scan_pos_eval_same, IH. reflexivity.
Qed.

Lemma scan_pos_spec : forall ta lits, increasing lits ->
  match scan_pos ta lits with
  | Found => In ta lits
  | Falsified => ~ In ta lits
  | Exhausted => forall l, In l lits -> (l < ta)%nat
  end.
Proof.
  intros ta lits H. induction H as [|l t H IH F]; cbn [scan_pos]; [easy|].
  rewrite Forall_forall in F.
  destruct (Nat.ltb_spec ta l) as [A|A].
  - intros [E|E]; [lia|]. specialize (F _ E). lia.
  - destruct (Nat.ltb_spec l ta) as [C|C].
    + destruct (scan_pos ta t).
      * intros [E|E]; [lia|auto].
      * now right.
      * intros x [E|E]; [lia|auto].
    + left. lia.
Qed.

(** Found or not, as decided by [scan_pos]. *)
Lemma scan_pos_cases : forall ta lits, increasing lits ->
  (scan_pos ta lits = Found /\ In ta lits) \/
  (scan_pos ta lits = Falsified /\ ~ In ta lits /\ exists l, In l lits /\ (ta < l)%nat) \/
  (scan_pos ta lits = Exhausted /\ ~ In ta lits /\ forall l, In l lits -> (l < ta)%nat).
Proof.
  intros ta lits H. pose proof (scan_pos_spec ta lits H) as S.
  destruct (scan_pos ta lits) eqn:E.
  - right. left. split; [auto|]. split; [auto|].
    clear S. induction lits as [|l t IH]; cbn [scan_pos] in E; [discriminate|].
    destruct (Nat.ltb_spec ta l) as [A|A]; [exists l; split; [now left|auto]|].
    destruct (Nat.ltb_spec l ta) as [C|C]; [|discriminate].
    inversion H; subst. destruct (IH ltac:(auto) E) as [x [X1 X2]]. exists x. split; [now right|auto].
  - auto.
  - right. right. split; [auto|]. split; [|auto]. intros I. specialize (S _ I). lia.
Qed.

Lemma scan_neg_spec : forall ta lits, increasing lits -> (scan_neg ta lits = true <-> In ta lits).
Proof.
  intros ta lits H. induction H as [|l t H IH F]; cbn [scan_neg]; [easy|].
  rewrite Forall_forall in F.
  destruct (Nat.eqb_spec ta l) as [A|A]; [split; auto; now left|].
  destruct (Nat.ltb_spec l ta) as [C|C].
  - rewrite IH. split; [now right|]. intros [E|E]; [lia|auto].
  - split; [discriminate|]. intros [E|E]; [lia|]. specialize (F _ E). lia.
Qed.

Lemma sp_included_cons : forall ta row st sts,
  sp_included (ta :: row) (st :: sts) = if 0 <=? st then ta :: sp_included row sts else sp_included row sts.
Proof. intros. unfold sp_included. cbn [combine filter snd]. destruct (0 <=? st); reflexivity. Qed.

Lemma sp_included_In : forall row sts l, In l (sp_included row sts) -> In l row.
Proof.
  intros row. induction row as [|ta row IH]; intros [|st sts] l; try easy. rewrite sp_included_cons. destruct (0 <=? st).
  - intros [H|H]; [now left|right; eauto].
  - intros H. right. eauto.
Qed.

Lemma neg_falsified_spec : forall lits row sts, increasing lits ->
  (neg_falsified lits row sts = false <-> forall l, In l (sp_included row sts) -> ~ In l lits).
Proof.
  intros lits row sts H. revert sts. induction row as [|ta row IH]; intros [|st sts]; cbn [neg_falsified]; try (split; easy).
  rewrite sp_included_cons. destruct (Z.ltb_spec st 0).
  - replace (0 <=? st) with false by lia. apply IH.
  - replace (0 <=? st) with true by lia. pose proof (scan_neg_spec ta lits H) as S. destruct (scan_neg ta lits).
    + split; [discriminate|]. intros K. exfalso. apply (K ta); [now left|apply S; auto].
    + rewrite IH. split.
      * intros K l [E|E]; [subst; intros I; apply S in I; discriminate|auto].
      * intros K l E. apply K. now right.
Qed.

(** The exact meaning of the positive loop. *)
Definition tolerated (back : nat) (lits : list nat) (l : nat) : Prop :=
  In l lits \/ ((forall x, In x lits -> (x < l)%nat) /\ l <> back).

Lemma pos_falsified_spec : forall back lits row sts, increasing lits ->
  (pos_falsified back lits row sts = false <-> forall l, In l (sp_included row sts) -> tolerated back lits l).
Proof.
  intros back lits row sts H. revert sts. induction row as [|ta row IH]; intros [|st sts]; cbn [pos_falsified]; try (split; easy).
  rewrite sp_included_cons. destruct (Z.ltb_spec st 0).
  - replace (0 <=? st) with false by lia. apply IH.
  - replace (0 <=? st) with true by lia.
    assert (Cons : tolerated back lits ta -> (pos_falsified back lits row sts = false <-> forall l, In l (ta :: sp_included row sts) -> tolerated back lits l)).
    { intros T. rewrite IH. split.
      - intros K l [E|E]; [now subst|auto].
      - intros K l E. apply K. now right. }
    destruct (scan_pos_cases ta lits H) as [[E I]|[[E [I [x [X1 X2]]]]|[E [I A]]]]; rewrite E.
    + apply Cons. now left.
    + split; [discriminate|]. intros K. exfalso. destruct (K ta ltac:(now left)) as [J|[J _]]; [auto|]. specialize (J x X1). lia.
    + destruct (Nat.eqb_spec ta back) as [B|B].
      * split; [discriminate|]. intros K. exfalso. destruct (K ta ltac:(now left)) as [J|[_ J]]; auto.
      * apply Cons. right. auto.
Qed.

(** Training output: both cases of the empty-clause shortcut agree with the
    general rule. *)
Theorem sp_set_output_exact : forall lits prow nrow psts nsts, increasing lits ->
  fst (sp_set_output lits prow nrow psts nsts) = 1 <->
  (forall l, In l (sp_included prow psts) -> tolerated (last prow O) lits l) /\
  (forall l, In l (sp_included nrow nsts) -> ~ In l lits).
Proof.
  intros lits prow nrow psts nsts H. unfold sp_set_output.
  destruct ((length prow =? 0)%nat && (length nrow =? 0)%nat) eqn:E.
  - apply andb_prop in E. destruct E as [E1 E2]. apply Nat.eqb_eq in E1, E2. apply length_zero_iff_nil in E1, E2. subst.
    cbn [fst]. split; auto. intros _. split; intros l I; apply sp_included_In in I; easy.
  - cbn [fst]. rewrite <- (pos_falsified_spec _ _ _ _ H), <- (neg_falsified_spec _ _ _ H).
    destruct (pos_falsified _ _ _ _), (neg_falsified _ _ _); cbn [orb]; intuition congruence.
Qed.

Theorem sp_eval_output_exact : forall lits prow nrow psts nsts, increasing lits ->
  sp_eval_output lits prow nrow psts nsts = 1 <->
  prow <> [] /\ nrow <> [] /\
  (forall l, In l (sp_included prow psts) -> tolerated (last prow O) lits l) /\
  (forall l, In l (sp_included nrow nsts) -> ~ In l lits).
Proof.
  intros lits prow nrow psts nsts H. unfold sp_eval_output.
  rewrite pos_falsified_eval_same.
  destruct prow as [|p prow]; [cbn [length Nat.eqb orb]; split; [lia|intros [K _]; congruence]|].
  destruct nrow as [|q nrow]; [cbn [length Nat.eqb orb]; split; [lia|intros [_ [K _]]; congruence]|].
  cbn [length Nat.eqb orb]. rewrite <- (pos_falsified_spec _ _ _ _ H), <- (neg_falsified_spec _ _ _ H).
  destruct (pos_falsified _ _ _ _), (neg_falsified _ _ _); cbn [orb]; intuition (try congruence).
Qed.

Lemma sp_set_output_binary : forall lits prow nrow psts nsts,
  fst (sp_set_output lits prow nrow psts nsts) = 0 \/ fst (sp_set_output lits prow nrow psts nsts) = 1.
Proof. intros. unfold sp_set_output. destruct (_ && _); [auto|]. cbn [fst]. destruct (_ || _); auto. Qed.

Lemma n_nonneg_included : forall row sts, length sts = length row -> n_nonneg sts = Z.of_nat (length (sp_included row sts)).
Proof.
  induction row as [|ta row IH]; intros [|st sts] H; cbn [length] in H; try lia; auto.
  rewrite sp_included_cons. unfold n_nonneg in *. cbn [map zsum]. rewrite IH by lia.
  destruct (Z.leb_spec 0 st); cbn [length b2z]; destruct (Z.geb_spec st 0); cbn [b2z]; lia.
Qed.

Theorem sp_counts_included : forall lits prow nrow psts nsts, length psts = length prow -> length nsts = length nrow ->
  snd (sp_set_output lits prow nrow psts nsts) = Z.of_nat (length (sp_included prow psts) + length (sp_included nrow nsts)).
Proof.
  intros lits prow nrow psts nsts H1 H2. unfold sp_set_output.
  destruct ((length prow =? 0)%nat && (length nrow =? 0)%nat) eqn:E.
  - apply andb_prop in E. destruct E as [E1 E2]. apply Nat.eqb_eq in E1, E2. apply length_zero_iff_nil in E1, E2. subst. reflexivity.
  - cbn [snd]. rewrite (n_nonneg_included prow psts), (n_nonneg_included nrow nsts) by auto. lia.
Qed.

(** When nothing can be tolerated wrongly, "fires" is "holds". *)
Lemma tolerated_holds : forall lits row sts, increasing row -> length sts = length row ->
  (row = [] \/ 0 <= last sts 0 \/ (forall l, In l (sp_included row sts) -> exists x, In x lits /\ (l <= x)%nat)) ->
  ((forall l, In l (sp_included row sts) -> tolerated (last row O) lits l) <-> (forall l, In l (sp_included row sts) -> In l lits)).
Proof.
  intros lits row sts Hs HL HC. split; [|intros H l I; left; auto].
  intros H. destruct HC as [->|[HC|HC]].
  - intros l I. apply sp_included_In in I. easy.
  - assert (B : row = [] \/ (In (last row O) (sp_included row sts) /\ forall l, In l row -> (l <= last row O)%nat)).
    { clear H. revert sts HL HC. induction Hs as [|ta row Hs IH F]; intros sts HL HC; [now left|]. right.
      destruct sts as [|st sts]; [easy|]. cbn [length] in HL. destruct row as [|tb row].
      - destruct sts; [|easy]. cbn [last] in *. rewrite sp_included_cons. replace (0 <=? st) with true by lia.
        split; [now left|]. intros l [E|[]]. lia.
      - destruct sts as [|s2 sts]; [easy|].
        destruct (IH (s2 :: sts) ltac:(lia) ltac:(exact HC)) as [E|[E1 E2]]; [discriminate|].
        change (last (ta :: tb :: row) O) with (last (tb :: row) O).
        split.
        + rewrite sp_included_cons. destruct (0 <=? st); [now right|auto].
        + intros l [E|E]; [|auto]. subst. rewrite Forall_forall in F. specialize (F (last (tb :: row) O)).
          specialize (E2 tb ltac:(now left)).
          assert (In (last (tb :: row) O) (tb :: row)) by (eapply sp_included_In; eauto). specialize (F H). lia. }
    destruct B as [->|[B1 B2]]; [intros l I; apply sp_included_In in I; easy|].
    assert (L : In (last row O) lits).
    { destruct (H _ B1) as [K|[_ K]]; [auto|congruence]. }
    intros l I. destruct (H l I) as [K|[K _]]; [auto|]. specialize (K _ L). specialize (B2 l (sp_included_In _ _ _ I)). lia.
  - intros l I. destruct (H l I) as [K|[K _]]; [auto|]. destruct (HC l I) as [x [X1 X2]]. specialize (K x X1). lia.
Qed.
