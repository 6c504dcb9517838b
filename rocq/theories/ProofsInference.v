(** Inference::predict / calculate_importance meet the specification. *)
From Coq Require Import ZArith List Bool Lia ZifyBool.
From Verif Require Import Base BaseProofs Spec ModelRuleSet ModelInference.
Import ListNotations.
Open Scope Z_scope.

(** ** argmax *)

Lemma argmax_loop_spec : forall vs pre bk,
  first_argmax pre bk ->
  first_argmax (pre ++ vs) (argmax_loop (length pre) bk (nth bk pre 0) vs).
Proof.
  induction vs as [|v vs IH]; intros pre bk H.
  - simpl. now rewrite app_nil_r.
  - simpl. replace (pre ++ v :: vs) with ((pre ++ [v]) ++ vs) by (rewrite <- app_assoc; reflexivity).
    destruct H as [H1 [H2 H3]].
    destruct (v >? nth bk pre 0) eqn:E.
    + specialize (IH (pre ++ [v]) (length pre)).
      rewrite app_nth2, Nat.sub_diag in IH by lia. simpl in IH.
      rewrite app_length in IH. simpl length in IH. rewrite Nat.add_1_r in IH.
      apply IH. split; [|split].
      * rewrite app_length. simpl. lia.
      * intros j Hj. rewrite app_length in Hj. simpl in Hj.
        rewrite (app_nth2 _ _ _ (n:=length pre)), Nat.sub_diag by lia. simpl.
        destruct (Nat.eq_dec j (length pre)).
        -- subst. rewrite app_nth2, Nat.sub_diag by lia. simpl. lia.
        -- rewrite app_nth1 by lia. specialize (H2 j). lia.
      * intros j Hj. rewrite (app_nth2 _ _ _ (n:=length pre)), Nat.sub_diag by lia. simpl.
        rewrite app_nth1 by lia. specialize (H2 j). lia.
    + specialize (IH (pre ++ [v]) bk).
      rewrite app_nth1 in IH by lia.
      rewrite app_length in IH. simpl length in IH. rewrite Nat.add_1_r in IH.
      apply IH. split; [|split].
      * rewrite app_length. simpl. lia.
      * intros j Hj. rewrite app_length in Hj. simpl in Hj.
        rewrite (app_nth1 _ _ _ (n:=bk)) by lia.
        destruct (Nat.eq_dec j (length pre)).
        -- subst. rewrite app_nth2, Nat.sub_diag by lia. simpl. lia.
        -- rewrite app_nth1 by lia. apply H2. lia.
      * intros j Hj. rewrite !app_nth1 by lia. auto.
Qed.

Lemma first_argmax_single : forall v, first_argmax [v] 0.
Proof.
  intros. split; [simpl; lia|split].
  - intros j Hj. simpl in Hj. destruct j; [simpl; lia|lia].
  - intros j Hj. lia.
Qed.

Lemma argmax_spec : forall votes, votes <> [] -> first_argmax votes (argmax votes).
Proof.
  intros [|v t] H; [easy|]. simpl.
  apply (argmax_loop_spec t [v] 0). apply first_argmax_single.
Qed.

Lemma first_argmax_unique : forall votes a b, first_argmax votes a -> first_argmax votes b -> a = b.
Proof.
  intros votes a b [A1 [A2 A3]] [B1 [B2 B3]].
  destruct (Nat.lt_trichotomy a b) as [H|[H|H]]; auto.
  - specialize (B3 a H). specialize (A2 b B1). lia.
  - specialize (A3 b H). specialize (B2 a A1). lia.
Qed.

Lemma argmax_repeat_0 : forall n, argmax (repeat 0 n) = O.
Proof.
  intros n. destruct n; auto.
  apply (first_argmax_unique (repeat 0 (S n))).
  - apply argmax_spec. easy.
  - split; [rewrite repeat_length; lia|split; [|lia]].
    intros j Hj. rewrite !nth_repeat. lia.
Qed.

(** ** extended example *)

Lemma extend_length : forall n x, length x = n -> length (extend_example n x) = (2 * n)%nat.
Proof.
  intros. unfold extend_example. rewrite app_length, map_length, firstn_length. lia.
Qed.

Lemma extend_nth : forall n x i, length x = n -> (i < 2 * n)%nat ->
  (nth i (extend_example n x) 0 =? 0) = negb (lit_true n x i).
Proof.
  intros n x i Hx Hi. unfold extend_example, lit_true. rewrite firstn_all2 by lia.
  destruct (Nat.ltb i n) eqn:E.
  - apply Nat.ltb_lt in E. rewrite app_nth1 by lia. now rewrite negb_involutive.
  - apply Nat.ltb_ge in E. rewrite app_nth2 by lia. rewrite Hx.
    set (f := fun v => if v =? 0 then 1 else 0).
    assert (Hn : nth (i - n) (map f x) 0 = f (nth (i - n) x 0)).
    { rewrite nth_indep with (d' := f 0) by (rewrite map_length; lia). apply map_nth. }
    rewrite Hn. unfold f. destruct (nth (i - n) x 0 =? 0); auto.
Qed.

Definition rules_in_range (n : nat) (rules : list (list nat)) : Prop :=
  Forall (Forall (fun l => (l < 2 * n)%nat)) rules.

Lemma rule_active_conj : forall n x rule, length x = n ->
  Forall (fun l => (l < 2 * n)%nat) rule ->
  rule_active (extend_example n x) rule = conj_true n x rule.
Proof.
  intros n x rule Hx. induction rule as [|l t IH]; intros H; simpl; auto.
  inversion H; subst. rewrite extend_nth by auto.
  destruct (lit_true (length x) x l); simpl; auto.
Qed.

(** ** clause loop *)

(** Positions of matching rules, counted from [k]. *)
Fixpoint matching_from (n : nat) (x : list Z) (k : nat) (rules : list (list nat)) : list nat :=
  match rules with
  | [] => []
  | r :: t => if conj_true n x r then k :: matching_from n x (S k) t else matching_from n x (S k) t
  end.

Lemma inf_clause_loop_active : forall n x rules ws k active votes, length x = n ->
  rules_in_range n rules ->
  fst (inf_clause_loop (extend_example n x) k rules ws active votes) =
  active ++ matching_from n x k rules.
Proof.
  intros n x rules. induction rules as [|r rules IH]; intros ws k active votes Hx H; simpl.
  - now rewrite app_nil_r.
  - inversion H; subst. rewrite rule_active_conj by auto.
    destruct (conj_true (length x) x r).
    + rewrite IH by auto. now rewrite <- app_assoc.
    + rewrite IH by auto. reflexivity.
Qed.

Lemma add32_length : forall v w, length v = length w -> length (add32 v w) = length v.
Proof. intros. unfold add32. rewrite map2_length. lia. Qed.

Lemma inf_clause_loop_votes_length : forall ex ncls rules ws k active votes,
  length votes = ncls -> length rules = length ws -> rows_of ncls ws ->
  length (snd (inf_clause_loop ex k rules ws active votes)) = ncls.
Proof.
  intros ex ncls rules. induction rules as [|r rules IH]; intros [|w ws] k active votes Hv Hl Hw;
    simpl in *; auto; try lia.
  inversion Hw; subst. destruct (rule_active ex r).
  - apply IH; auto. rewrite add32_length; auto; congruence.
  - apply IH; auto.
Qed.

Lemma inf_clause_loop_votes : forall n x ncls rules ws k active votes c, length x = n ->
  rules_in_range n rules -> length votes = ncls -> length rules = length ws -> rows_of ncls ws ->
  (c < ncls)%nat -> wrap32 (nth c votes 0) = nth c votes 0 ->
  nth c (snd (inf_clause_loop (extend_example n x) k rules ws active votes)) 0 =
  wrap32 (nth c votes 0 + rule_vote_total n x rules ws c).
Proof.
  intros n x ncls rules. induction rules as [|r rules IH]; intros [|w ws] k active votes c Hx H Hv Hl Hw Hc Hwr;
    simpl in *; try lia.
  - rewrite Z.add_0_r. auto.
  - inversion H; subst. inversion Hw; subst. rewrite rule_active_conj by auto.
    destruct (conj_true (length x) x r).
    + rewrite IH; auto; try lia.
      * unfold add32. rewrite nth_map2 with (da := 0) (db := 0) by congruence.
        rewrite wrap32_add_l. f_equal. lia.
      * rewrite add32_length; auto.
      * unfold add32. rewrite nth_map2 with (da := 0) (db := 0) by congruence.
        unfold wrap32. apply wrap_wrap. lia.
    + rewrite IH by auto. f_equal.
Qed.

(** Well-formed inference objects: what set_rules receives from a RuleSet. *)
Definition inf_wf (s : inference) : Prop :=
  rules_in_range (inf_nlit s) (inf_rules s) /\
  length (inf_rules s) = length (inf_weights s) /\
  rows_of (inf_ncls s) (inf_weights s) /\
  length (inf_imp s) = (2 * inf_nlit s)%nat.

Lemma inf_predict_votes : forall s x c, inf_wf s -> length x = inf_nlit s -> (c < inf_ncls s)%nat ->
  nth c (inf_votes (snd (inf_predict s x))) 0 =
  wrap32 (rule_vote_total (inf_nlit s) x (inf_rules s) (inf_weights s) c).
Proof.
  intros s x c [H1 [H2 [H3 H4]]] Hx Hc. unfold inf_predict.
  destruct (inf_clause_loop (extend_example (inf_nlit s) x) 0 (inf_rules s) (inf_weights s) []
              (repeat 0 (inf_ncls s))) as [active votes] eqn:E.
  assert (nth c votes 0 = wrap32 (rule_vote_total (inf_nlit s) x (inf_rules s) (inf_weights s) c)).
  { pose proof (inf_clause_loop_votes (inf_nlit s) x (inf_ncls s) (inf_rules s) (inf_weights s) 0 []
      (repeat 0 (inf_ncls s)) c Hx H1 (repeat_length _ _) H2 H3 Hc) as K.
    rewrite E in K. rewrite nth_repeat in K. simpl in K. apply K. reflexivity. }
  destruct active; simpl; auto.
Qed.

Lemma inf_predict_votes_length : forall s x, inf_wf s -> length x = inf_nlit s ->
  length (inf_votes (snd (inf_predict s x))) = inf_ncls s.
Proof.
  intros s x [H1 [H2 [H3 H4]]] Hx. unfold inf_predict.
  destruct (inf_clause_loop (extend_example (inf_nlit s) x) 0 (inf_rules s) (inf_weights s) []
              (repeat 0 (inf_ncls s))) as [active votes] eqn:E.
  pose proof (inf_clause_loop_votes_length (extend_example (inf_nlit s) x) (inf_ncls s) (inf_rules s) (inf_weights s) 0 []
      (repeat 0 (inf_ncls s)) (repeat_length _ _) H2 H3) as K.
  rewrite E in K. destruct active; simpl; auto.
Qed.

Lemma inf_predict_active : forall s x, inf_wf s -> length x = inf_nlit s ->
  inf_active (snd (inf_predict s x)) = matching_from (inf_nlit s) x 0 (inf_rules s).
Proof.
  intros s x [H1 [H2 [H3 H4]]] Hx. unfold inf_predict.
  pose proof (inf_clause_loop_active (inf_nlit s) x (inf_rules s) (inf_weights s) 0 []
      (repeat 0 (inf_ncls s)) Hx H1) as K.
  destruct (inf_clause_loop (extend_example (inf_nlit s) x) 0 (inf_rules s) (inf_weights s) []
              (repeat 0 (inf_ncls s))) as [active votes] eqn:E.
  simpl in K. destruct active; simpl; auto.
Qed.

Lemma matching_nil_iff : forall n x rules k,
  matching_from n x k rules = [] <-> Forall (fun r => conj_true n x r = false) rules.
Proof.
  intros n x rules. induction rules as [|r rules IH]; intros k; simpl.
  - split; auto.
  - destruct (conj_true n x r) eqn:E.
    + split; [easy|]. intros H. inversion H; congruence.
    + rewrite IH. split; intros H; [constructor; auto | inversion H; auto].
Qed.

Lemma inf_predict_fst : forall s x, inf_wf s -> length x = inf_nlit s ->
  fst (inf_predict s x) =
  match matching_from (inf_nlit s) x 0 (inf_rules s) with
  | [] => inf_empty s
  | _ => argmax (inf_votes (snd (inf_predict s x)))
  end.
Proof.
  intros s x Hw Hx. rewrite <- (inf_predict_active s x Hw Hx). unfold inf_predict.
  destruct (inf_clause_loop (extend_example (inf_nlit s) x) 0 (inf_rules s) (inf_weights s) []
              (repeat 0 (inf_ncls s))) as [active votes] eqn:E.
  destruct active; simpl; auto.
Qed.

Lemma inf_predict_frame : forall s x,
  let s' := snd (inf_predict s x) in
  inf_nlit s' = inf_nlit s /\ inf_ncls s' = inf_ncls s /\ inf_empty s' = inf_empty s /\
  inf_rules s' = inf_rules s /\ inf_weights s' = inf_weights s /\ inf_imp s' = inf_imp s.
Proof.
  intros s x. unfold inf_predict.
  destruct (inf_clause_loop (extend_example (inf_nlit s) x) 0 (inf_rules s) (inf_weights s) []
              (repeat 0 (inf_ncls s))) as [active votes].
  destruct active; simpl; repeat split.
Qed.

Lemma inf_predict_wf : forall s x, inf_wf s -> inf_wf (snd (inf_predict s x)).
Proof.
  intros s x [H1 [H2 [H3 H4]]]. destruct (inf_predict_frame s x) as [E1 [E2 [E3 [E4 [E5 E6]]]]].
  unfold inf_wf. rewrite E1, E2, E4, E5, E6. auto.
Qed.

(** ** importance *)

Lemma add_importance_length : forall rule imp w, length (add_importance imp rule w) = length imp.
Proof.
  induction rule as [|l t IH]; intros; simpl; auto. rewrite IH, set_nth_length. auto.
Qed.

Lemma wrap32_wrap32 : forall z, wrap32 (wrap32 z) = wrap32 z.
Proof. intros. apply wrap_wrap. lia. Qed.

Lemma add_importance_nth : forall rule imp w l,
  Forall (fun k => (k < length imp)%nat) rule ->
  wrap32 (nth l imp 0) = nth l imp 0 ->
  nth l (add_importance imp rule w) 0 =
  wrap32 (nth l imp 0 + Z.of_nat (count_occ Nat.eq_dec rule l) * w).
Proof.
  induction rule as [|k t IH]; intros imp w l H Hwr; simpl.
  - rewrite Z.add_0_r. auto.
  - inversion H; subst. rewrite IH.
    + destruct (Nat.eq_dec k l).
      * subst. rewrite nth_set_nth_eq by auto. rewrite wrap32_add_l. f_equal. lia.
      * rewrite nth_set_nth_neq by auto. reflexivity.
    + rewrite set_nth_length. auto.
    + destruct (Nat.eq_dec k l).
      * subst. rewrite nth_set_nth_eq by auto. apply wrap32_wrap32.
      * rewrite nth_set_nth_neq by auto. auto.
Qed.

(** Contribution of active rule [k] to literal [l]. *)
Definition contribution (excl : bool) (rules : list (list nat)) (ws : list (list Z)) (y l k : nat) : Z :=
  let w := nth y (nth k ws []) 0 in
  if excl && (w <? 1) then 0 else Z.of_nat (count_occ Nat.eq_dec (nth k rules []) l) * w.

Lemma importance_loop_length : forall excl rules ws y active imp,
  length (importance_loop excl rules ws y active imp) = length imp.
Proof.
  induction active as [|k t IH]; intros; simpl; auto.
  destruct (excl && _); rewrite IH; auto. apply add_importance_length.
Qed.

Lemma importance_loop_nth : forall excl rules ws y active imp l,
  (forall k, In k active -> Forall (fun j => (j < length imp)%nat) (nth k rules [])) ->
  wrap32 (nth l imp 0) = nth l imp 0 ->
  nth l (importance_loop excl rules ws y active imp) 0 =
  wrap32 (nth l imp 0 + zsum (map (contribution excl rules ws y l) active)).
Proof.
  induction active as [|k t IH]; intros imp l H Hwr; simpl.
  - rewrite Z.add_0_r. auto.
  - unfold contribution at 1. destruct (excl && _).
    + rewrite IH; auto. intros; apply H; simpl; auto.
    + rewrite IH.
      * rewrite add_importance_nth by (auto; apply H; simpl; auto).
        rewrite wrap32_add_l. f_equal. lia.
      * intros j Hj. rewrite add_importance_length. apply H; simpl; auto.
      * rewrite add_importance_nth by (auto; apply H; simpl; auto). apply wrap32_wrap32.
Qed.

Lemma matching_from_In : forall n x rules k j,
  In j (matching_from n x k rules) <->
  (k <= j < k + length rules)%nat /\ conj_true n x (nth (j - k) rules []) = true.
Proof.
  intros n x rules. induction rules as [|r rules IH]; intros k j; simpl.
  - lia.
  - assert (K : In j (matching_from n x (S k) rules) <->
        (S k <= j < k + S (length rules))%nat /\ conj_true n x (nth (j - S k) rules []) = true).
    { rewrite IH. replace (S k + length rules)%nat with (k + S (length rules))%nat by lia. tauto. }
    assert (K2 : (S k <= j)%nat -> nth (j - k) (r :: rules) [] = nth (j - S k) rules []).
    { intros. replace (j - k)%nat with (S (j - S k)) by lia. reflexivity. }
    change (match (j - k)%nat with 0%nat => r | S m => nth m rules [] end) with (nth (j - k) (r :: rules) []).
    destruct (conj_true n x r) eqn:E; simpl In; rewrite K.
    + split.
      * intros [H|[H H']].
        -- subst. rewrite Nat.sub_diag. simpl. split; [lia|auto].
        -- rewrite K2 by lia. split; [lia|auto].
      * intros [H H']. destruct (Nat.eq_dec k j); auto. right. rewrite K2 in H' by lia. split; [lia|auto].
    + split.
      * intros [H H']. rewrite K2 by lia. split; [lia|auto].
      * intros [H H']. destruct (Nat.eq_dec k j).
        -- subst. rewrite Nat.sub_diag in H'. simpl in H'. congruence.
        -- rewrite K2 in H' by lia. split; [lia|auto].
Qed.
