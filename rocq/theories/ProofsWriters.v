(** The programs written by the two exporters compute the predictor's votes. *)
From Coq Require Import String Ascii.
From Coq Require Import ZArith List Bool Lia Permutation.
From Verif Require Import Base BaseProofs Spec ModelRuleSet ModelInference ModelPredictor ModelC ModelWriters
  ProofsRuleSet ProofsInference ProofsLayout ProofsEval ProofsC.
Import ListNotations.
Open Scope Z_scope.

Lemma c_votes_reads : forall n name comment ncls body ss x, reads n body ss -> (1 <= ncls)%nat ->
  c_votes name comment
    ((c_guard name ++ ln comment ++ [newline] ++ c_head1) ++ fmt_nat ncls ++ c_head2 ++ body ++ c_tail ++ c_end name) x
  = Some (ncls, run_stmts x ss (repeat 0 ncls)).
Proof.
  intros n name comment ncls body ss x Hr Hn. unfold c_votes.
  rewrite expect_app. cbn [opt_bind]. rewrite parse_fmt_nat by reflexivity. cbn [opt_bind].
  rewrite expect_app. cbn [opt_bind].
  rewrite (reads_parse n body ss Hr); [|lia|split; reflexivity].
  cbn [opt_bind].
  replace (skip_ws (c_tail ++ c_end name)) with (c_tail ++ c_end name) by reflexivity.
  rewrite <- (app_nil_r (c_tail ++ c_end name)) at 2. rewrite expect_app. cbn [opt_bind].
  replace (1 <=? ncls)%nat with true by (symmetry; now apply Nat.leb_le). reflexivity.
Qed.

(** *** Effect of statements on the votes *)

Definition good (ncls : nat) (v : list Z) : Prop :=
  length v = ncls /\ forall c, (c < ncls)%nat -> is_int16 (nth c v 0).

Definition effect (ncls : nat) (x : list Z) (ss : list cstmt) (d : nat -> Z) : Prop :=
  forall v, good ncls v ->
    good ncls (run_stmts x ss v) /\
    forall c, (c < ncls)%nat -> nth c (run_stmts x ss v) 0 = wrap16 (nth c v 0 + d c).

Lemma good_zero : forall ncls, good ncls (repeat 0 ncls).
Proof.
  intros ncls. split; [apply repeat_length|]. intros c _. rewrite nth_repeat. unfold is_int16. lia.
Qed.

Lemma effect_nil : forall ncls x, effect ncls x [] (fun _ => 0).
Proof.
  intros ncls x v Hv. cbn [run_stmts]. split; auto. intros c Hc. rewrite Z.add_0_r. symmetry.
  apply wrap16_small. now apply Hv.
Qed.

Lemma effect_ext : forall ncls x ss d1 d2, (forall c, (c < ncls)%nat -> d1 c = d2 c) ->
  effect ncls x ss d1 -> effect ncls x ss d2.
Proof.
  intros ncls x ss d1 d2 He H v Hv. destruct (H v Hv) as [A B]. split; auto.
  intros c Hc. rewrite B, He; auto.
Qed.

Lemma effect_app : forall ncls x a b d1 d2, effect ncls x a d1 -> effect ncls x b d2 ->
  effect ncls x (a ++ b) (fun c => d1 c + d2 c).
Proof.
  intros ncls x a b d1 d2 H1 H2 v Hv. rewrite exec_all_app.
  destruct (H1 v Hv) as [A1 B1]. destruct (H2 _ A1) as [A2 B2]. split; auto.
  intros c Hc. rewrite B2, B1, wrap16_add_l by auto. f_equal. lia.
Qed.

Lemma effect_if : forall ncls x cs body d, effect ncls x body d ->
  effect ncls x [SIf cs body] (fun c => if forallb (cond_true x) cs then d c else 0).
Proof.
  intros ncls x cs body d H v Hv. cbn [run_stmts]. rewrite exec_if.
  destruct (forallb (cond_true x) cs).
  - destruct (H v Hv) as [A B]. split; auto.
  - exact (effect_nil ncls x v Hv).
Qed.

Lemma effect_adds : forall ncls x ws, length ws = ncls ->
  effect ncls x (adds_from 0 ws) (fun c => nth c ws 0).
Proof.
  intros ncls x ws Hl v [Hv1 Hv2]. split.
  - split; [now rewrite adds_length|]. intros c Hc. rewrite adds_row by lia. apply wrap16_range.
  - intros c Hc. apply adds_row; lia.
Qed.

(** *** Conditions *)

Definition bytes (x : list Z) : Prop := Forall (fun v => 0 <= v <= 255) x.

Lemma cond_lit : forall n x ta, bytes x -> length x = n -> (ta < 2 * n)%nat ->
  cond_true x (cond_of n ta) = lit_true n x ta.
Proof.
  intros n x ta Hx Hl Ht. unfold cond_of, lit_true. destruct (ta <? n)%nat eqn:E; cbn [cond_true].
  - apply Nat.ltb_lt in E.
    assert (0 <= nth ta x 0) by (apply (proj1 (Forall_forall _ _) Hx); apply nth_In; lia).
    destruct (nth ta x 0 =? 0) eqn:Z; cbn [negb]; lia.
  - reflexivity.
Qed.

Lemma conds_conj : forall n x tas, bytes x -> length x = n -> Forall (fun t => (t < 2 * n)%nat) tas ->
  forallb (cond_true x) (map (cond_of n) tas) = conj_true n x tas.
Proof.
  intros n x tas Hx Hl H. induction H as [|t tas Ht H IH]; [reflexivity|].
  cbn [map forallb]. unfold conj_true in *. cbn [forallb]. rewrite IH, cond_lit; auto.
Qed.

(** *** The rule sets exported *)

Definition ruleset_ok (rs : ruleset) : Prop :=
  (1 <= rs_nclasses rs)%nat /\
  length (rs_weights rs) = length (rs_rules rs) /\ rows_of (rs_nclasses rs) (rs_weights rs) /\
  Forall (Forall (fun l => (l < 2 * rs_nliterals rs)%nat)) (rs_rules rs) /\ ~ In [] (rs_rules rs).

Fixpoint simple_stmts (n : nat) (rules : list (list nat)) (wss : list (list Z)) : list cstmt :=
  match rules, wss with
  | r :: rules', ws :: wss' => SIf (map (cond_of n) r) (adds_from 0 ws) :: simple_stmts n rules' wss'
  | _, _ => []
  end.

Lemma simple_rules_reads : forall n rules wss, length wss = length rules -> ~ In [] rules ->
  exists t, simple_rules n rules wss = Ok t /\ reads n t (simple_stmts n rules wss).
Proof.
  intros n rules. induction rules as [|r rules IH]; intros wss Hl Hne.
  - exists []. split; [reflexivity|constructor].
  - destruct wss as [|ws wss]; [discriminate|].
    destruct (IH wss) as [t [E R]]; [cbn in Hl; lia|intro K; apply Hne; now right|].
    exists (simple_rule n r ws ++ t). cbn [simple_rules]. rewrite E. split; auto.
    unfold simple_rule. rewrite <- !app_assoc. cbn [simple_stmts].
    rewrite (app_assoc (fmt_votes ws)), (app_assoc [newline]).
    apply R_if.
    + intros ->. apply Hne. now left.
    + cbn [app]. apply R_ws; [reflexivity|].
      rewrite <- (app_nil_r (adds_from 0 ws)). apply reads_app; [apply reads_votes|].
      now apply reads_ws_only.
    + cbn [app]. now apply R_ws.
Qed.

Lemma simple_effect : forall n ncls x rules wss, bytes x -> length x = n ->
  Forall (Forall (fun l => (l < 2 * n)%nat)) rules -> rows_of ncls wss ->
  effect ncls x (simple_stmts n rules wss) (fun c => rule_vote_total n x rules wss c).
Proof.
  intros n ncls x rules wss Hx Hl. revert wss.
  induction rules as [|r rules IH]; intros wss Hr Hw; [apply effect_nil|].
  destruct wss as [|ws wss]; [apply effect_nil|].
  inversion Hr; subst. inversion Hw; subst.
  cbn [simple_stmts].
  change (SIf (map (cond_of (length x)) r) (adds_from 0 ws) :: simple_stmts (length x) rules wss)
    with ([SIf (map (cond_of (length x)) r) (adds_from 0 ws)] ++ simple_stmts (length x) rules wss).
  eapply effect_ext; [|apply effect_app; [apply effect_if; apply effect_adds; reflexivity|apply IH; auto]].
  intros c Hc. cbn [rule_vote_total]. now rewrite conds_conj.
Qed.

Lemma final_votes : forall ncls x ss d, effect ncls x ss d -> (forall c, (c < ncls)%nat -> is_int16 (d c)) ->
  run_stmts x ss (repeat 0 ncls) = map d (seq 0 ncls).
Proof.
  intros ncls x ss d He Hd. destruct (He _ (good_zero ncls)) as [[A _] B].
  apply list_ext0.
  - now rewrite map_length, seq_length.
  - intros c Hc. rewrite A in Hc. rewrite B, nth_repeat, nth_map_seq by auto. apply wrap16_small. cbn [Z.add]. auto.
Qed.

(** The class the predictor answers. *)
Lemma predictor_answer : forall rs mode excl junk p x, ruleset_ok rs -> from_ruleset mode excl rs junk = Ok p ->
  length x = rs_nliterals rs ->
  (forall c, (c < rs_nclasses rs)%nat -> is_int16 (rule_vote_total (rs_nliterals rs) x (rs_rules rs) (rs_weights rs) c)) ->
  fst (pred_predict p x) =
  Ok (AClass (argmax (map (rule_vote_total (rs_nliterals rs) x (rs_rules rs) (rs_weights rs)) (seq 0 (rs_nclasses rs))))).
Proof.
  intros rs mode excl junk p x [Hn [Hl [Hw [Hr Hne]]]] Hp Hx Hfit.
  assert (E : p_names p = None /\
              p_inf p = new_inference (rs_nliterals rs) (rs_nclasses rs) (rs_rules rs) (rs_weights rs) junk).
  { destruct mode; cbn [from_ruleset] in Hp; inversion Hp; auto. }
  destruct E as [E1 E2]. unfold pred_predict. rewrite E1, E2.
  pose proof (predictor_class (new_inference (rs_nliterals rs) (rs_nclasses rs) (rs_rules rs) (rs_weights rs) junk) x) as P.
  cbn [new_inference inf_nlit inf_ncls inf_rules inf_weights inf_empty] in P.
  destruct (inf_predict _ x) as [k inf]. cbn [fst] in *. rewrite P; auto.
  - unfold inf_wf. cbn [new_inference inf_nlit inf_ncls inf_rules inf_weights inf_imp].
    split; [exact Hr|]. split; [auto|]. split; [auto|]. rewrite repeat_length. lia.
  - intros c Hc. specialize (Hfit c Hc). unfold is_int16, is_int32 in *. lia.
Qed.

Lemma simple_layout : forall rs body, simple_rules (rs_nliterals rs) (rs_rules rs) (rs_weights rs) = Ok body ->
  simple_c rs = Ok ((c_guard "SIMPLE_C" ++ ln "// Export from green_tsetlin:SimpleC" ++ [newline] ++ c_head1) ++
                    fmt_nat (rs_nclasses rs) ++ c_head2 ++ body ++ c_tail ++ c_end "SIMPLE_C").
Proof.
  intros rs body E. unfold simple_c. rewrite E. f_equal.
  unfold fmt_header, c_head2. rewrite <- !app_assoc. reflexivity.
Qed.

Definition simple_note : string := "// Export from green_tsetlin:SimpleC".
Definition topo_note : string := "// Export from green_tsetlin:TopographicalC".

Theorem simple_c_correct : forall rs x, ruleset_ok rs -> bytes x -> length x = rs_nliterals rs ->
  (forall c, (c < rs_nclasses rs)%nat -> is_int16 (rule_vote_total (rs_nliterals rs) x (rs_rules rs) (rs_weights rs) c)) ->
  exists t, simple_c rs = Ok t /\
    c_votes "SIMPLE_C" simple_note t x =
      Some (rs_nclasses rs,
            map (rule_vote_total (rs_nliterals rs) x (rs_rules rs) (rs_weights rs)) (seq 0 (rs_nclasses rs))).
Proof.
  intros rs x [Hn [Hl [Hw [Hr Hne]]]] Hx Hlx Hfit.
  destruct (simple_rules_reads (rs_nliterals rs) (rs_rules rs) (rs_weights rs) Hl Hne) as [body [E R]].
  eexists. split; [apply simple_layout; exact E|].
  unfold simple_note. erewrite c_votes_reads by eauto. f_equal. f_equal.
  apply final_votes; auto. now apply simple_effect.
Qed.
