(** C120, C121: the native inference object, access by access. *)
From Coq Require Import ZArith List Bool Lia.
From Verif Require Import Base Spec ModelRuleSet ProofsRuleSet ModelSparseImp ModelInferImp SpecInferImp ProofsInferImp.
Import ListNotations.
Open Scope Z_scope.

(** ** C120 *)

(** The constructor: exactly when it works. *)
Theorem C120_constructed : forall fl nlit ncls nexp junk,
  (exists o, io_new fl nlit ncls nexp junk = Ret o) <-> (2 * Z.of_nat nlit <= 2147483647 /\ (f_feat fl = true -> 0 <= nexp)).
Proof.
  intros fl nlit ncls nexp junk. unfold io_new, int_max. destruct (Z.gtb_spec (Z.of_nat nlit * 2) 2147483647).
  - split; [intros [o E]; discriminate|lia].
  - destruct (f_feat fl); cbn [andb].
    + destruct (Z.ltb_spec nexp 0); split; eauto; [intros [o E]; discriminate|intros [_ A]; specialize (A eq_refl); lia|intros; split; auto; lia].
    + split; eauto. intros; split; [lia|discriminate].
Qed.

(** Every history of calls that keeps the unchecked conditions stays inside the
    object's memory and the int32 range. *)
Theorem C120_memory_partial : forall fl nlit ncls nexp junk o cs, io_new fl nlit ncls nexp junk = Ret o ->
  proper fl nlit ncls (Z.to_nat nexp) true false 0 cs -> exists o', io_run fl cs o = Ret o'.
Proof.
  intros fl nlit ncls nexp junk o cs E P. destruct (run_ok _ _ _ _ cs _ _ _ _ (new_shape _ _ _ _ _ _ E) P) as [o' [_ [_ [_ [R _]]]]]. eauto.
Qed.

(** After any such history new rules are used as C03 says: the votes of every
    class, the clauses that hold, the first class with most votes. *)
Theorem C120_predict_partial : forall fl nlit ncls nexp junk o cs rules ws e x, io_new fl nlit ncls nexp junk = Ret o ->
  proper fl nlit ncls (Z.to_nat nexp) true false 0 cs -> rules_ok nlit ncls rules ws -> length x = nlit -> (1 <= ncls)%nat ->
  exists o1 y o2, io_run fl (cs ++ [IRules rules ws; IEmpty e]) o = Ret o1 /\ io_predict x o1 = Ret (y, o2) /\
    io_votes o2 = map (rule_vote_total nlit x rules ws) (seq 0 ncls) /\
    io_active o2 = filter (fun k => conj_true nlit x (nth k rules [])) (seq 0 (length rules)) /\
    ((exists r, In r rules /\ conj_true nlit x r = true) -> first_argmax (map (rule_vote_total nlit x rules ws) (seq 0 ncls)) y) /\
    ((forall r, In r rules -> conj_true nlit x r = false) -> y = e).
Proof.
  intros fl nlit ncls nexp junk o cs rules ws e x E P R Hx Hc.
  destruct (run_ok _ _ _ _ cs _ _ _ _ (new_shape _ _ _ _ _ _ E) P) as [o' [fr [fs [nr [R0 Sh]]]]].
  pose (o1 := io_set_empty e (io_set_rules rules ws o')).
  assert (Sh1 : shape fl nlit ncls (Z.to_nat nexp) false fs (length rules) o1).
  { destruct Sh as [S1 S2 S3 S4 S5 S6 S7 S8 S9 S10 S11 S12]. constructor; cbn; auto. discriminate. }
  destruct (predict_spec _ _ _ _ _ _ _ o1 x Sh1 Hx Hc) as [y [o2 [E2 [_ [_ [_ [_ [V [A [F N]]]]]]]]]].
  exists o1, y, o2. split; [rewrite run_app, R0; reflexivity|]. split; [exact E2|]. split; [exact V|]. split; [exact A|]. split; [exact F|exact N].
Qed.

(** Rule sets compiled from a machine's state keep the conditions on rules. *)
Theorem C120_compiled : forall n s rs, dense_wf n s -> compile_from_dense_state s = Ok rs -> Z.of_nat (length (ds_c s)) <= 65535 ->
  rules_ok n (ds_nclasses s) (rs_rules rs) (rs_weights rs).
Proof. exact compiled_ok. Qed.

(** What is not checked: a target of explain outside the classes, an example that
    is too short, no class at all. *)
Theorem C120_target_refuted : forall fl y o, io_active o <> [] -> Forall (fun w => length w = io_ncls o) (io_weights o) -> (io_ncls o <= y)%nat ->
  io_explain fl y o = Wild.
Proof.
  intros fl y o Ha Hw Hy. unfold io_explain. destruct (io_active o) as [|k act]; [congruence|]. cbn [length fold_ix]. unfold ix at 1. cbn [nth_error bindR].
  unfold ix at 1. destruct (nth_error (io_weights o) k) as [row|] eqn:E; [|reflexivity]. cbn [bindR].
  rewrite Forall_forall in Hw. apply nth_error_In in E. specialize (Hw row E). unfold ix at 1.
  assert (N : nth_error row y = None) by (apply nth_error_None; lia). rewrite N. reflexivity.
Qed.
Theorem C120_short_example_refuted : forall x o, (length x < io_nlit o)%nat -> io_predict x o = Wild.
Proof. intros x o H. unfold io_predict, io_copy. destruct (Nat.leb_spec (io_nlit o) (length x)); [lia|reflexivity]. Qed.
Theorem C120_no_class_refuted : exists o, io_new (mkFlags false false false) 1 0 0 [] = Ret o /\
  io_run (mkFlags false false false) [IRules [[0%nat]] [[]]; IPredict [1]] o = Wild.
Proof. eexists. split; [reflexivity|]. vm_compute. reflexivity. Qed.

(** Explaining between set_rules and the next prediction uses clause numbers of
    the rules before: every call by itself is in order. *)
Theorem C120_stale_clauses_refuted : exists o, io_new (mkFlags false true false) 2 2 0 [] = Ret o /\
  rules_ok 2 2 [[0]; [1]]%nat [[1; 2]; [3; 4]] /\ rules_ok 2 2 [[0]]%nat [[5; 6]] /\
  io_run (mkFlags false true false) [IRules [[0]; [1]]%nat [[1; 2]; [3; 4]]; IPredict [1; 1]; IRules [[0]]%nat [[5; 6]]; IExplain 0] o = Wild.
Proof.
  eexists. split; [reflexivity|]. split; [|split].
  - repeat split; repeat constructor; cbn; try tauto; try lia. intros [|[|c]] H; cbn; lia.
  - repeat split; repeat constructor; cbn; try tauto; try lia. intros [|[|c]] H; cbn; lia.
  - vm_compute. reflexivity.
Qed.
(** The literal count is doubled in an int. *)
Theorem C120_too_many_literals_refuted : forall fl nlit ncls nexp junk, 2147483647 < 2 * Z.of_nat nlit -> io_new fl nlit ncls nexp junk = Wild.
Proof. intros. unfold io_new, int_max. destruct (Z.gtb_spec (Z.of_nat nlit * 2) 2147483647); [reflexivity|lia]. Qed.

Definition exFl : iflags := mkFlags true true false.
Definition exCs : list icall :=
  [IRules [[0; 5]; [1]]%nat [[5; -1; 4]; [-3; 6; 1]]; IFeatures [[0; 1]; [1]; []]%nat; IPredict [1; 1; 0]; IExplain 1; IEmpty 2; IPredict [0; 0; 0]].
Example C120_case : exists o o', io_new exFl 3 3 3 [] = Ret o /\ proper exFl 3 3 3 true false 0 exCs /\ io_run exFl exCs o = Ret o' /\
  io_active o' = [] /\ io_implit o' = [-1; 6; 0; 0; 0; -1] /\ io_impfeat o' = [-1; 5; 0].
Proof.
  eexists; eexists. split; [reflexivity|]. split; [|split; [vm_compute; reflexivity|vm_compute; auto]].
  cbn. split.
  { unfold rules_ok. split; [|split; [reflexivity|split]].
    - repeat constructor; cbn; try lia; intuition discriminate.
    - repeat constructor.
    - intros [|[|[|c]]] H; cbn; lia. }
  split; [repeat constructor; cbn; try lia; intuition discriminate|]. repeat split; auto; lia.
Qed.
Example C120_predict_case : exists o y o2, io_run exFl [IRules [[0; 5]; [1]]%nat [[5; -1; 4]; [-3; 6; 1]]; IEmpty 2]
    (mkIO 3 3 3 0 [] [] [] [] (repeat 0 6) (repeat 0 3) (repeat 0 3) (repeat 0 6)) = Ret o /\ io_predict [1; 1; 0] o = Ret (y, o2) /\
  y = 1%nat /\ io_votes o2 = [2; 5; 5] /\ io_active o2 = [0; 1]%nat.
Proof. do 3 eexists. split; [vm_compute; reflexivity|]. split; [vm_compute; reflexivity|]. auto. Qed.
Example C120_compiled_case : compile_from_dense_state (mkDense 4 2 [[0;-1;-1;3]; [-1;2;-1;-1]] [[7;-2]; [-300;1]])
  = Ok (mkRuleSet [[0;3];[1]]%nat [[7;-2]; [-300;1]] 2 2).
Proof. vm_compute. reflexivity. Qed.

(** ** C121 *)

(** One feature list per rule, at most n_explanations rules: explaining gives every
    literal and every feature the weights of the rules that hold. *)
Theorem C121_importance_partial : forall fl nlit ncls nexp junk o cs rules ws f x t, io_new fl nlit ncls nexp junk = Ret o ->
  proper fl nlit ncls (Z.to_nat nexp) true false 0 cs -> rules_ok nlit ncls rules ws -> length x = nlit -> (t < ncls)%nat ->
  f_feat fl = true -> features_ok (Z.to_nat nexp) f -> length f = Z.to_nat nexp -> (length rules <= Z.to_nat nexp)%nat ->
  exists o1 y o2 o3, io_run fl (cs ++ [IRules rules ws; IFeatures f]) o = Ret o1 /\ io_predict x o1 = Ret (y, o2) /\ io_explain fl t o2 = Ret o3 /\
    io_impfeat o3 = map (feature_contribution nlit x (f_excl fl) rules f ws t) (seq 0 (Z.to_nat nexp)) /\
    (f_lit fl = true -> io_implit o3 = map (literal_contribution nlit x (f_excl fl) rules ws t) (seq 0 (2 * nlit))).
Proof.
  intros fl nlit ncls nexp junk o cs rules ws f x t E P R Hx Ht Ff Hf Lf Lr.
  destruct (run_ok _ _ _ _ cs _ _ _ _ (new_shape _ _ _ _ _ _ E) P) as [o' [fr [fs [nr [R0 Sh]]]]].
  pose (oa := io_set_rules rules ws o').
  assert (Sa : io_set_features fl f oa = Ret (mkIO (io_nlit oa) (io_ncls oa) (io_nexp oa) (io_empty oa) (io_rules oa) f (io_weights oa)
                 (io_active oa) (io_implit oa) (io_impfeat oa) (io_votes oa) (io_example oa))).
  { unfold io_set_features. rewrite Ff. cbn [negb]. replace (io_nexp oa) with (Z.to_nat nexp) by (symmetry; apply Sh). rewrite Lf, Nat.eqb_refl. reflexivity. }
  set (o1 := mkIO (io_nlit oa) (io_ncls oa) (io_nexp oa) (io_empty oa) (io_rules oa) f (io_weights oa)
                 (io_active oa) (io_implit oa) (io_impfeat oa) (io_votes oa) (io_example oa)) in *.
  assert (Sh1 : shape fl nlit ncls (Z.to_nat nexp) false true (length rules) o1).
  { destruct Sh as [S1 S2 S3 S4 S5 S6 S7 S8 S9 S10 S11 S12]. constructor; cbn; auto. discriminate. }
  destruct (explain_spec _ _ _ _ _ _ _ o1 x t Sh1 Hx Ht ltac:(auto)) as [y [o2 [o3 [E2 [E3 [L F]]]]]].
  exists o1, y, o2, o3. split; [rewrite run_app, R0; cbn [io_run io_step]; fold oa; rewrite Sa; reflexivity|]. split; [exact E2|]. split; [exact E3|].
  split; [exact (F Ff)|exact L].
Qed.
(** Literal importance alone needs no features. *)
Theorem C121_literals : forall fl nlit ncls nexp junk o cs rules ws x t, io_new fl nlit ncls nexp junk = Ret o ->
  proper fl nlit ncls (Z.to_nat nexp) true false 0 cs -> rules_ok nlit ncls rules ws -> length x = nlit -> (t < ncls)%nat ->
  f_feat fl = false -> f_lit fl = true ->
  exists o1 y o2 o3, io_run fl (cs ++ [IRules rules ws]) o = Ret o1 /\ io_predict x o1 = Ret (y, o2) /\ io_explain fl t o2 = Ret o3 /\
    io_implit o3 = map (literal_contribution nlit x (f_excl fl) rules ws t) (seq 0 (2 * nlit)).
Proof.
  intros fl nlit ncls nexp junk o cs rules ws x t E P R Hx Ht Ff Fl.
  destruct (run_ok _ _ _ _ cs _ _ _ _ (new_shape _ _ _ _ _ _ E) P) as [o' [fr [fs [nr [R0 Sh]]]]].
  pose (o1 := io_set_rules rules ws o').
  assert (Sh1 : shape fl nlit ncls (Z.to_nat nexp) false fs (length rules) o1).
  { destruct Sh as [S1 S2 S3 S4 S5 S6 S7 S8 S9 S10 S11 S12]. constructor; cbn; auto. discriminate. }
  destruct (explain_spec _ _ _ _ _ _ _ o1 x t Sh1 Hx Ht ltac:(congruence)) as [y [o2 [o3 [E2 [E3 [L F]]]]]].
  exists o1, y, o2, o3. split; [rewrite run_app, R0; reflexivity|]. split; [exact E2|]. split; [exact E3|exact (L Fl)].
Qed.

(** set_features compares the number of lists with the number of features, not
    with the number of rules: one list per rule is refused unless they agree. *)
Theorem C121_per_rule_refused : forall fl f o, length f <> io_nexp o -> io_set_features fl f o = Throw.
Proof.
  intros fl f o H. unfold io_set_features. destruct (f_feat fl); cbn [negb]; [|reflexivity].
  destruct (Nat.eqb_spec (length f) (io_nexp o)); [contradiction|reflexivity].
Qed.
(** What it accepts is too short for more rules than features: then explaining
    reads past it, whatever was set. *)
Theorem C121_more_rules_refuted : forall f, length f = 1%nat -> features_ok 1 f ->
  exists o, io_new (mkFlags true false false) 1 1 1 [] = Ret o /\ rules_ok 1 1 [[0]; [1]]%nat [[2]; [3]] /\
  io_run (mkFlags true false false) [IRules [[0]; [1]]%nat [[2]; [3]]; IFeatures f; IPredict [0]; IExplain 0] o = Wild.
Proof.
  intros f Hl Hf. eexists. split; [reflexivity|]. split.
  - repeat split; repeat constructor; cbn; try tauto; try lia. intros [|c] H; cbn; lia.
  - destruct f as [|a [|b f]]; try discriminate. vm_compute. reflexivity.
Qed.
(** Nor does explaining check that features were set. *)
Theorem C121_unset_refuted : exists o, io_new (mkFlags true false false) 1 1 1 [] = Ret o /\
  io_run (mkFlags true false false) [IRules [[0]]%nat [[2]]; IPredict [1]; IExplain 0] o = Wild.
Proof. eexists. split; [reflexivity|]. vm_compute. reflexivity. Qed.
(** predictor.py:30 leaves n_features at -1: no object with feature importance
    can be made for a Predictor. *)
Theorem C121_predictor_refuted : forall fl nlit ncls junk, f_feat fl = true -> 2 * Z.of_nat nlit <= 2147483647 ->
  io_new fl nlit ncls (-1) junk = Throw.
Proof. intros. unfold io_new, int_max. destruct (Z.gtb_spec (Z.of_nat nlit * 2) 2147483647); [lia|]. rewrite H. reflexivity. Qed.

Example C121_case : exists o o', io_new exFl 3 3 2 [] = Ret o /\
  io_run exFl [IRules [[0; 5]; [1]]%nat [[5; -1; 4]; [-3; 6; 1]]; IFeatures [[0; 1]; [1]]%nat; IPredict [1; 1; 0]; IExplain 0] o = Ret o' /\
  io_impfeat o' = [5; 2] /\
  map (feature_contribution 3 [1; 1; 0] false [[0; 5]; [1]]%nat [[0; 1]; [1]]%nat [[5; -1; 4]; [-3; 6; 1]] 0) (seq 0 2) = [5; 2] /\
  map (feature_contribution 3 [1; 1; 0] true [[0; 5]; [1]]%nat [[0; 1]; [1]]%nat [[5; -1; 4]; [-3; 6; 1]] 0) (seq 0 2) = [5; 5].
Proof. do 2 eexists. split; [reflexivity|]. split; [vm_compute; reflexivity|]. vm_compute. auto. Qed.

Print Assumptions C120_constructed.
Print Assumptions C120_memory_partial.
Print Assumptions C120_predict_partial.
Print Assumptions C120_compiled.
Print Assumptions C120_target_refuted.
Print Assumptions C120_short_example_refuted.
Print Assumptions C120_no_class_refuted.
Print Assumptions C120_stale_clauses_refuted.
Print Assumptions C120_too_many_literals_refuted.
Print Assumptions C121_importance_partial.
Print Assumptions C121_literals.
Print Assumptions C121_per_rule_refused.
Print Assumptions C121_more_rules_refuted.
Print Assumptions C121_unset_refuted.
Print Assumptions C121_predictor_refuted.
