(** C06, C07, C58: the exported C programs. *)
From Coq Require Import String Ascii.
From Coq Require Import ZArith List Bool QArith Lia.
From Verif Require Import Base Spec ModelRuleSet ModelInference ModelDense ModelFeedback ModelExecutor
  ModelDenseExec ModelLayout ModelPredictor ModelC ModelWriters
  ProofsClause ProofsInference ProofsRuleSet ProofsLayout ProofsEval ProofsPredictor ProofsTopInference
  ProofsC ProofsWriters ProofsTopo ExampleData.
Import ListNotations.
Open Scope Z_scope.

(** ** C06 *)

(** [ruleset_ok rs]: at least one class, one weight row of n_classes entries
    per rule, literals below 2*n_literals, no empty rule.  [run_c] reads the
    characters of the exported file and executes them.  The second conclusion
    says that the program's vote array holds exactly the vote totals. *)
Theorem C06_simple_c_partial : forall rs mode excl junk p x,
  ruleset_ok rs -> from_ruleset mode excl rs junk = Ok p ->
  length x = rs_nliterals rs -> bytes x ->
  (forall c, (c < rs_nclasses rs)%nat ->
     is_int16 (rule_vote_total (rs_nliterals rs) x (rs_rules rs) (rs_weights rs) c)) ->
  exists t k, simple_c rs = Ok t /\
    run_c "SIMPLE_C" "// Export from green_tsetlin:SimpleC" t x = Some k /\
    fst (pred_predict p x) = Ok (AClass k) /\
    c_votes "SIMPLE_C" "// Export from green_tsetlin:SimpleC" t x =
      Some (rs_nclasses rs,
            map (rule_vote_total (rs_nliterals rs) x (rs_rules rs) (rs_weights rs)) (seq 0 (rs_nclasses rs))).
Proof.
  intros rs mode excl junk p x Hok Hp Hx Hb Hfit.
  destruct (simple_c_correct rs x Hok Hb Hx Hfit) as [t [E V]]. unfold simple_note in V.
  eexists. eexists. split; [exact E|]. unfold run_c. rewrite V. split; [reflexivity|].
  split; [|reflexivity].
  rewrite (predictor_answer rs mode excl junk p x Hok Hp Hx Hfit). f_equal. f_equal.
  symmetry. apply find_output_argmax; [now rewrite map_length, seq_length|]. apply Hok.
Qed.

Definition ex_rules : ruleset :=
  mkRuleSet [[1; 2; 3]; [1; 2]; [1; 3]; [3; 4]; [10; 12]]%nat [[-21; 21]; [24; -21]; [-26; 28]; [-26; 28]; [0; 5]] 8 2.

Lemma ex_rules_ok : ruleset_ok ex_rules.
Proof.
  unfold ruleset_ok. cbn [rs_nclasses rs_weights rs_rules rs_nliterals ex_rules].
  split; [lia|]. split; [reflexivity|]. split; [repeat constructor|]. split.
  - repeat (apply Forall_cons || apply Forall_nil); lia.
  - intros H. repeat (destruct H as [H|H]; [discriminate|]). exact H.
Qed.

Example C06_case : ruleset_ok ex_rules /\
  match simple_c ex_rules with
  | Ok t => map (run_c "SIMPLE_C" "// Export from green_tsetlin:SimpleC" t)
              [[0;1;1;0;0;0;0;0]; [0;1;1;1;0;0;0;0]; [9;1;0;255;1;0;0;0]; [0;0;0;0;0;0;0;0]]
            = [Some 0; Some 1; Some 1; Some 1]%nat
  | Raise _ => False
  end.
Proof. split; [exact ex_rules_ok|vm_compute; reflexivity]. Qed.

(** The full claim ("for any rule set") is false: an empty rule, which a
    hand-made RuleSet may contain, is written as "if(){", not a C program,
    while the predictor answers. *)
Theorem C06_empty_rule_refuted : exists rs p t x,
  from_ruleset XNone false rs [] = Ok p /\ simple_c rs = Ok t /\
  fst (pred_predict p x) = Ok (AClass 1) /\
  run_c "SIMPLE_C" "// Export from green_tsetlin:SimpleC" t x = None.
Proof.
  exists (mkRuleSet [[]; [0]]%nat [[1; 2]; [3; 4]] 2 2). eexists. eexists. exists [0; 0].
  split; [reflexivity|]. split; [reflexivity|]. split; vm_compute; reflexivity.
Qed.

(** Which exports are refused: an unknown exporter with ValueError, a rule set
    with fewer weight rows than rules with IndexError, nothing else. *)
Theorem C06_refused : forall pick e rs,
  (exists t, export_as_program pick e rs = Ok t) /\ e <> EOther /\ (length (rs_rules rs) <= length (rs_weights rs))%nat \/
  export_as_program pick e rs = Raise IndexError /\ e <> EOther /\ (length (rs_weights rs) < length (rs_rules rs))%nat \/
  export_as_program pick e rs = Raise ValueError /\ e = EOther.
Proof.
  assert (SR : forall n rules wss,
    (exists t, simple_rules n rules wss = Ok t) /\ (length rules <= length wss)%nat \/
    simple_rules n rules wss = Raise IndexError /\ (length wss < length rules)%nat).
  { intros n. induction rules as [|r rules IH]; intros wss; [left; split; [eexists; reflexivity|cbn; lia]|].
    destruct wss as [|ws wss]; [right; split; [reflexivity|cbn; lia]|]. cbn [simple_rules length].
    destruct (IH wss) as [[[t E] L]|[E L]]; rewrite E; [left; split; [eexists; reflexivity|lia]|right; split; [reflexivity|lia]]. }
  intros pick e rs. destruct e.
  - unfold export_as_program, simple_c. destruct (SR (rs_nliterals rs) (rs_rules rs) (rs_weights rs)) as [[[t E] L]|[E L]]; rewrite E.
    + left. split; [eexists; reflexivity|]. split; [discriminate|exact L].
    + right. left. split; [reflexivity|]. split; [discriminate|exact L].
  - unfold export_as_program, topographical_c. destruct (Nat.ltb_spec (length (rs_weights rs)) (length (rs_rules rs))) as [L|L].
    + right. left. split; [reflexivity|]. split; [discriminate|exact L].
    + left. destruct (generate_tree_total pick rs) as [root E]. rewrite E. split; [eexists; reflexivity|]. split; [discriminate|exact L].
  - right. right. split; reflexivity.
Qed.
Example C06_refused_case :
  simple_c (mkRuleSet [[0]; [1]]%nat [[3; 1]] 2 2) = Raise IndexError /\
  topographical_c (fun _ _ => 0%nat) (mkRuleSet [[0]; [1]]%nat [[3; 1]] 2 2) = Raise IndexError.
Proof. split; reflexivity. Qed.

(** Outside the 16 bit range the program (int16 votes) and the predictor
    (int32 votes) disagree, so the range hypothesis is needed. *)
Example C06_overflow : exists rs p t x,
  ruleset_ok rs /\ from_ruleset XNone false rs [] = Ok p /\ simple_c rs = Ok t /\
  fst (pred_predict p x) = Ok (AClass 0) /\
  run_c "SIMPLE_C" "// Export from green_tsetlin:SimpleC" t x = Some 1%nat.
Proof.
  exists (mkRuleSet [[0]; [1]]%nat [[30000; 1]; [30000; 1]] 2 2). eexists. eexists. exists [1; 1].
  split.
  - unfold ruleset_ok. cbn [rs_nclasses rs_weights rs_rules rs_nliterals].
    split; [lia|]. split; [reflexivity|]. split; [repeat constructor|]. split.
    + repeat (apply Forall_cons || apply Forall_nil); lia.
    + intros H. repeat (destruct H as [H|H]; [discriminate|]). exact H.
  - split; [reflexivity|]. split; [reflexivity|]. split; vm_compute; reflexivity.
Qed.

(** ** C07 *)

(** [distinct_rules rs]: no two rules contain the same literals.  [pick] is the
    tie-breaking order, arbitrary.  The vote array holds the totals, so each
    matching rule was counted exactly once. *)
Theorem C07_topographical_c : forall pick rs mode excl junk p x,
  ruleset_ok rs -> distinct_rules rs -> from_ruleset mode excl rs junk = Ok p ->
  length x = rs_nliterals rs -> bytes x ->
  (forall c, (c < rs_nclasses rs)%nat ->
     is_int16 (rule_vote_total (rs_nliterals rs) x (rs_rules rs) (rs_weights rs) c)) ->
  exists t k, topographical_c pick rs = Ok t /\
    run_c "TOPOGRAPHICAL_C" "// Export from green_tsetlin:TopographicalC" t x = Some k /\
    fst (pred_predict p x) = Ok (AClass k) /\
    c_votes "TOPOGRAPHICAL_C" "// Export from green_tsetlin:TopographicalC" t x =
      Some (rs_nclasses rs,
            map (rule_vote_total (rs_nliterals rs) x (rs_rules rs) (rs_weights rs)) (seq 0 (rs_nclasses rs))).
Proof.
  intros pick rs mode excl junk p x Hok Hd Hp Hx Hb Hfit.
  destruct (topographical_c_correct pick rs x Hok Hd Hb Hx Hfit) as [t [E V]]. unfold topo_note in V.
  eexists. eexists. split; [exact E|]. unfold run_c. rewrite V. split; [reflexivity|].
  split; [|reflexivity].
  rewrite (predictor_answer rs mode excl junk p x Hok Hp Hx Hfit). f_equal. f_equal.
  symmetry. apply find_output_argmax; [now rewrite map_length, seq_length|]. apply Hok.
Qed.

(** Tree construction ends for every rule set, also with duplicates, empty
    rules or missing weights. *)
Theorem C07_construction_terminates : forall pick rs, exists root, generate_tree pick rs = Some root.
Proof. exact generate_tree_total. Qed.

Lemma distinct_check : forall rs,
  forallb (fun i => forallb (fun j => Nat.eqb i j || negb (set_eqb (nth i (rs_rules rs) []) (nth j (rs_rules rs) [])))
                            (seq 0 (length (rs_rules rs)))) (seq 0 (length (rs_rules rs))) = true ->
  distinct_rules rs.
Proof.
  intros rs H i j ri rj Hi Hj E. rewrite forallb_forall in H.
  assert (Li : (i < length (rs_rules rs))%nat) by (apply nth_error_Some; congruence).
  assert (Lj : (j < length (rs_rules rs))%nat) by (apply nth_error_Some; congruence).
  specialize (H i ltac:(apply in_seq; lia)). rewrite forallb_forall in H.
  specialize (H j ltac:(apply in_seq; lia)). apply orb_prop in H. destruct H as [H|H].
  - now apply Nat.eqb_eq in H.
  - apply negb_true_iff in H. exfalso. rewrite <- not_true_iff_false in H. apply H. apply set_eqb_spec.
    rewrite (nth_error_nth _ _ [] Hi), (nth_error_nth _ _ [] Hj). split; intros v Hv; now apply E.
Qed.

Lemma ex_rules_distinct : distinct_rules ex_rules.
Proof. apply distinct_check. vm_compute. reflexivity. Qed.

Example C07_case : ruleset_ok ex_rules /\ distinct_rules ex_rules /\
  match topographical_c (fun _ _ => 1%nat) ex_rules with
  | Ok t => map (run_c "TOPOGRAPHICAL_C" "// Export from green_tsetlin:TopographicalC" t)
              [[0;1;1;0;0;0;0;0]; [0;1;1;1;0;0;0;0]; [9;1;0;255;1;0;0;0]; [0;0;0;0;0;0;0;0]]
            = [Some 0; Some 1; Some 1; Some 1]%nat
  | Raise _ => False
  end.
Proof. split; [exact ex_rules_ok|]. split; [exact ex_rules_distinct|]. vm_compute. reflexivity. Qed.

(** Both restrictions of the statement are needed: of two rules with the same
    literals only one is counted. *)
Example C07_duplicates : exists rs p t x, ruleset_ok rs /\
  from_ruleset XNone false rs [] = Ok p /\ topographical_c (fun _ _ => 0%nat) rs = Ok t /\
  fst (pred_predict p x) = Ok (AClass 1) /\
  run_c "TOPOGRAPHICAL_C" "// Export from green_tsetlin:TopographicalC" t x = Some 0%nat.
Proof.
  exists (mkRuleSet [[0]; [0]]%nat [[3; 1]; [1; 9]] 2 2). eexists. eexists. exists [1; 1].
  split.
  - unfold ruleset_ok. cbn [rs_nclasses rs_weights rs_rules rs_nliterals].
    split; [lia|]. split; [reflexivity|]. split; [repeat constructor|]. split.
    + repeat (apply Forall_cons || apply Forall_nil); lia.
    + intros H. repeat (destruct H as [H|H]; [discriminate|]). exact H.
  - split; [reflexivity|]. split; [reflexivity|]. split; vm_compute; reflexivity.
Qed.

(** ** C58: from the trained machine to the exported program *)

Lemma included_set_eq : forall m r1 r2, length r1 = m -> length r2 = m ->
  (forall l, In l (included r1) <-> In l (included r2)) -> included r1 = included r2.
Proof.
  intros m r1 r2 H1 H2 H. unfold included. rewrite H1, H2. apply filter_ext_in.
  intros i Hi. specialize (H i). unfold included in H. rewrite !filter_In, H1, H2 in H.
  apply eq_true_iff_eq. tauto.
Qed.

Lemma compiled_exportable : forall n s rs, dense_wf n s -> (1 <= ds_nclasses s)%nat ->
  compile_from_dense_state s = Ok rs -> ruleset_ok rs /\ distinct_rules rs /\ rs_nliterals rs = n /\
  rs_nclasses rs = ds_nclasses s.
Proof.
  intros n s rs W Hn E. destruct (compiled_wf n s rs [] W E) as [A1 [A2 [A3 [A4 [A5 _]]]]].
  destruct (compile_spec n s W) as [rs' [E' [B1 [B2 [B3 [B4 [B5 [B6 [B7 _]]]]]]]]].
  rewrite E in E'. inversion E'; subst rs'. clear E'.
  cbn [new_inference inf_nlit inf_ncls inf_rules inf_weights] in *.
  split; [|split; [|auto]].
  - unfold ruleset_ok. rewrite A2, A1. split; auto.
  - intros i j ri rj Hi Hj H.
    assert (ri = rj).
    { destruct (proj1 (B7 ri) (nth_error_In _ _ Hi)) as [_ [i1 [row1 [w1 [P1 [_ [P3 _]]]]]]].
      destruct (proj1 (B7 rj) (nth_error_In _ _ Hj)) as [_ [i2 [row2 [w2 [Q1 [_ [Q3 _]]]]]]].
      subst ri rj. destruct W as [_ [_ [W3 _]]].
      apply (included_set_eq (2 * n)); auto; apply (proj1 (Forall_forall _ _) W3); eapply nth_error_In; eauto. }
    subst rj. apply (proj1 (NoDup_nth_error _) B3); [|congruence].
    apply nth_error_Some. congruence.
Qed.

(** For a machine state [s] written into any blocks and its compiled rule set:
    whatever exporter and tie-breaking order is used, the exported program
    returns the class the machine itself predicts, on every 0/1 example. *)
Theorem C58_exported_program_agrees_with_machine : forall (L : Type) pick ex n ncls s rs cbs (e : exec block)
  (data : list (list Z * L)) out,
  ex <> EOther -> (1 <= ncls)%nat ->
  Forall (flat_wf n ncls) cbs -> state_shape n (total_clauses cbs) ncls s ->
  Forall2 (fun f tb => block_on n ncls f (snd tb)) (save_state_in_backend s cbs) (x_blocks e) ->
  fb_ready ncls (x_fb e) ->
  compile_from_dense_state s = Ok rs ->
  length out = length data ->
  (forall r c, (c < ncls)%nat -> is_int16 (merged_weight (ds_c s) (ds_w s) r c)) ->
  Forall (fun d => length (fst d) = n /\ binary (fst d) /\
            forall c, (c < ncls)%nat -> is_int16 (clause_vote_total n (fst d) (ds_c s) (ds_w s) c)) data ->
  exists t ys e', export_as_program pick ex rs = Ok t /\
    eval_predict block (list Z) dense_eval_ex L data out e = (true, ys, e') /\
    map (fun d => match ex with
                  | ESimple => run_c "SIMPLE_C" "// Export from green_tsetlin:SimpleC" t (fst d)
                  | _ => run_c "TOPOGRAPHICAL_C" "// Export from green_tsetlin:TopographicalC" t (fst d)
                  end) data = map Some ys.
Proof.
  intros L pick ex n ncls s rs cbs e data out Hex Hn HF HS H2 R Hc Ho Hm Hd.
  assert (W : dense_wf n s /\ ds_nclasses s = ncls).
  { destruct HS as [S1 [S2 [S3 [S4 [S5 S6]]]]]. split; auto.
    unfold dense_wf. subst ncls. repeat split; auto; lia. }
  destruct W as [W Hncls].
  destruct (compiled_exportable n s rs W ltac:(lia) Hc) as [Hok [Hdist [Hnl Hnc]]].
  assert (Hp : exists p, from_ruleset XNone false rs [] = Ok p) by (eexists; reflexivity).
  destruct Hp as [p Hp].
  destruct (predictor_agrees_merged L n ncls s rs XNone false [] p cbs e data out HF HS H2 R Hc Hp Ho Hm Hd)
    as [ys [e' [E1 E2]]].
  assert (Fit : Forall (fun d => length (fst d) = rs_nliterals rs /\ bytes (fst d) /\
            forall c, (c < rs_nclasses rs)%nat ->
              is_int16 (rule_vote_total (rs_nliterals rs) (fst d) (rs_rules rs) (rs_weights rs) c)) data).
  { eapply Forall_impl; [|exact Hd]. intros d [D1 [D2 D3]]. rewrite Hnl, Hnc, Hncls. split; auto. split.
    - eapply Forall_impl; [|exact D2]. intros v [->| ->]; lia.
    - intros c Hcc. rewrite (compile_votes_exact n s rs (fst d) c W Hc); auto. }
  assert (T : exists t, export_as_program pick ex rs = Ok t /\
     Forall (fun d => Ok (AClass match (match ex with
                  | ESimple => run_c "SIMPLE_C" "// Export from green_tsetlin:SimpleC" t (fst d)
                  | _ => run_c "TOPOGRAPHICAL_C" "// Export from green_tsetlin:TopographicalC" t (fst d)
                  end) with Some k => k | None => O end) = fst (pred_predict p (fst d)) /\
                 (match ex with
                  | ESimple => run_c "SIMPLE_C" "// Export from green_tsetlin:SimpleC" t (fst d)
                  | _ => run_c "TOPOGRAPHICAL_C" "// Export from green_tsetlin:TopographicalC" t (fst d)
                  end) <> None) data).
  { destruct ex; [| |congruence]; cbn [export_as_program].
    - destruct (simple_rules_reads (rs_nliterals rs) (rs_rules rs) (rs_weights rs)) as [body [B1 _]];
        [apply Hok|apply Hok|].
      destruct (simple_c rs) as [t|] eqn:Et; [|unfold simple_c in Et; rewrite B1 in Et; discriminate].
      exists t. split; auto. eapply Forall_impl; [|exact Fit]. intros d [D1 [D2 D3]].
      destruct (C06_simple_c_partial rs XNone false [] p (fst d) Hok Hp D1 D2 D3) as [t' [k [T1 [T2 [T3 _]]]]].
      rewrite Et in T1. inversion T1; subst t'. rewrite T2, T3. split; [reflexivity|discriminate].
    - destruct (generate_tree_total pick rs) as [root Er].
      destruct (topographical_c pick rs) as [t|] eqn:Et.
      2:{ rewrite (topo_layout pick rs root) in Et; [discriminate|destruct Hok as [O1 [O2 O3]]; lia|auto]. }
      exists t. split; auto. eapply Forall_impl; [|exact Fit]. intros d [D1 [D2 D3]].
      destruct (C07_topographical_c pick rs XNone false [] p (fst d) Hok Hdist Hp D1 D2 D3) as [t' [k [T1 [T2 [T3 _]]]]].
      assert (t' = t) by congruence. subst t'. rewrite T2, T3. split; [reflexivity|discriminate]. }
  destruct T as [t [T1 T2]]. exists t, ys, e'. split; auto. split; auto.
  clear - E2 T2. revert ys E2. induction T2 as [|d data [H1 H2] T2 IH]; intros [|y ys] E2; cbn [map] in *; try discriminate; auto.
  injection E2 as E3 E4. rewrite (IH ys E4). f_equal. rewrite E3 in H1.
  destruct ex; destruct (run_c _ _ t (fst d)); try congruence.
Qed.

Example C58_case : exists rs, compile_from_dense_state ex_state = Ok rs /\
  match export_as_program (fun _ _ => 2%nat) ETopological rs with
  | Ok t => map (fun d => run_c "TOPOGRAPHICAL_C" "// Export from green_tsetlin:TopographicalC" t (fst d)) ex_data
  | Raise _ => []
  end = map Some [0; 1; 0; 1]%nat /\
  fst (eval_predict block (list Z) dense_eval_ex nat ex_data [9;9;9;9]%nat (ex_exec ex_flats)) = (true, [0; 1; 0; 1]%nat).
Proof. eexists. split; [vm_compute; reflexivity|]. split; vm_compute; reflexivity. Qed.

Print Assumptions C06_simple_c_partial.
Print Assumptions C06_empty_rule_refuted.
Print Assumptions C07_topographical_c.
Print Assumptions C07_construction_terminates.
Print Assumptions C58_exported_program_agrees_with_machine.
Print Assumptions C06_refused.
