(** C35, C43, C62, C63 and C64: the convolutional clause block. *)
From Coq Require Import ZArith List Bool QArith Lia ZifyBool.
From Verif Require Import Base Spec SpecLearning SpecConv ModelInference ModelDense ModelFeedback ModelExecutor ModelDenseExec ModelConv
  ProofsInference ProofsEval ProofsLearning ProofsStep ProofsHistory ProofsAvx2Hist ProofsConv ProofsConvStep ProofsTopConv ExampleData.
Import ListNotations.
Open Scope Z_scope.

(** Two inputs per patch, three patches, two classes, budget 1. Clause 0 is
    empty, clause 1 includes both inputs, clause 2 the first one and the
    negation of the second. The per-clause and per-patch arrays hold garbage. *)
Definition cx_v : cvblock :=
  mkCv (mkBlock 2 2 [mkClause [-1;-1] [-1;-1]; mkClause [5;0] [-3;-1]; mkClause [0;-9] [-1;2]] [[4;-2];[1;1];[7;0]]
          [9;9;9] [50;51;52] [0;0] 1 (1#4) (3#4) ex_rng ex_rng) 3 [7;7;7]%nat [77;78;79].
(** Patches (0,0), (1,1), (1,0). *)
Definition cx_lits : list Z := [0;0; 1;1; 1;0].

Lemma cx_ok : conv_ok 2 2 cx_v.
Proof.
  constructor; try reflexivity; [|cbn; lia]. constructor; [constructor| |]; try reflexivity.
  - cbn. repeat (apply Forall_cons || apply Forall_nil); auto.
  - cbn. unfold rows_of. repeat (apply Forall_cons || apply Forall_nil); auto.
  - cbn. unfold int8s, is_int8. repeat (apply Forall_cons || apply Forall_nil || split); lia.
  - cbn. unfold is_int16. repeat (apply Forall_cons || apply Forall_nil); lia.
Qed.
Lemma cx_example : conv_example 2 3 cx_lits.
Proof. split; [reflexivity|]. unfold binary, cx_lits. repeat (apply Forall_cons || apply Forall_nil); auto. Qed.

(** ** C35 *)

Theorem C35_training_output : forall bo lits v n ncls, conv_ok n ncls v -> conv_example n (cv_np v) lits ->
  let v1 := fst (conv_train_ex bo lits v) in
  forall k, (k < nclauses v)%nat ->
    (nth k (b_outputs (cv_b v1)) 0 = 1 <-> some_match n (cv_np v) lits (crow v k)) /\
    (nth k (b_outputs (cv_b v1)) 0 = 0 <-> ~ some_match n (cv_np v) lits (crow v k)) /\
    (some_match n (cv_np v) lits (crow v k) ->
       (nth k (cv_active v1) O < cv_np v)%nat /\ patch_matches n lits (crow v k) (nth k (cv_active v1) O)).
Proof. exact conv_train_output. Qed.

Theorem C35_patch_reachable : forall bo lits v n ncls k p, conv_ok n ncls v -> conv_example n (cv_np v) lits -> (k < nclauses v)%nat ->
  (p < cv_np v)%nat -> patch_matches n lits (crow v k) p ->
  exists r, (forall i, (0 <= draw r i /\ draw r i < 1)%Q) /\ nth k (cv_active (fst (conv_train_ex bo lits (cv_with_rng r v)))) O = p.
Proof. exact conv_patch_reachable. Qed.

Theorem C35_evaluation_output : forall lits v n ncls, conv_ok n ncls v -> conv_example n (cv_np v) lits ->
  let v1 := fst (conv_eval_ex lits v) in
  forall k, (k < nclauses v)%nat ->
    nth k (b_outputs (cv_b v1)) 0 = (if existsb (patch_fires n lits (crow v k)) (seq 0 (cv_np v)) then 1 else 0).
Proof. exact conv_eval_output. Qed.

(** What an executor of convolutional blocks answers. *)
Theorem C35_prediction : forall L n ncls np (data : list (list Z * L)) out (x : exec cvblock), (0 < ncls)%nat ->
  Forall (fun tb => conv_ok n ncls (snd tb) /\ cv_np (snd tb) = np) (x_blocks x) -> fb_ready ncls (x_fb x) ->
  Forall (fun d => conv_example n np (fst d)) data -> length out = length data ->
  exists ys x', eval_predict cvblock (list Z) conv_eval_ex L data out x = (true, ys, x') /\ length ys = length data /\
    forall i, (i < length data)%nat -> forall d0,
      first_argmax (map (fun c => wrap16 (conv_total n np (fst (nth i data d0)) (x_blocks x) c)) (seq 0 ncls)) (nth i ys O).
Proof.
  intros L n ncls np data out x Hc HF HR HX HL. destruct (conv_predict L n ncls np data out x HF HR HX HL) as [x' E].
  eexists. exists x'. split; [exact E|]. split; [apply map_length|]. intros i Hi d0.
  match goal with |- context [nth i (map ?f data) O] => rewrite (nth_indep (map f data) O (f d0)) by (rewrite map_length; auto); rewrite (map_nth f) end.
  apply argmax_spec. destruct ncls; [lia|discriminate].
Qed.

Example C35_case : conv_ok 2 2 cx_v /\ conv_example 2 (cv_np cx_v) cx_lits /\
  some_match 2 3 cx_lits (crow cx_v 1) /\ ~ some_match 2 3 [0;0; 0;1; 0;0] (crow cx_v 1) /\
  b_outputs (cv_b (fst (conv_train_ex true cx_lits cx_v))) = [1;1;1] /\ cv_active (fst (conv_train_ex true cx_lits cx_v)) = [0;1;2]%nat /\
  b_outputs (cv_b (fst (conv_train_ex true [0;0; 0;1; 0;0] cx_v))) = [1;0;0] /\
  b_outputs (cv_b (fst (conv_eval_ex cx_lits cx_v))) = [0;1;1].
Proof.
  split; [exact cx_ok|]. split; [exact cx_example|]. split; [exists 1%nat; split; [lia|reflexivity]|].
  split; [|vm_compute; auto]. intros [[|[|[|p]]] [H1 H2]]; try lia; discriminate H2.
Qed.

(** ** C43 *)

(** The literal count of the chosen patch is looked up under the position of the
    patch in the list of matching patches, so it is the right one when the
    matching patches come first - in particular with one patch. *)
Theorem C43_over_budget_partial : forall boost lits pc pp nc np v n ncls, conv_ok n ncls v -> conv_example n (cv_np v) lits ->
  (pc < ncls)%nat -> (nc < ncls)%nat ->
  let v' := conv_step true boost lits pc pp nc np v in
  forall k, (k < nclauses v)%nat -> b_budget (cv_b v) < n_included (crow v k) -> matches_first n (cv_np v) lits (crow v k) ->
    (forall c, cweight v' k c = cweight v k c) /\
    (forall i, (i < 2 * n)%nat -> nth i (crow v k) 0 - 2 <= nth i (crow v' k) 0 <= nth i (crow v k) 0).
Proof.
  intros boost lits pc pp nc np v n ncls OK HX Hpc Hnc v' k Hk HB HF.
  apply (conv_silent true boost lits pc pp nc np v n ncls OK HX Hpc Hnc k Hk). right. auto.
Qed.

Theorem C43_one_patch_partial : forall boost lits pc pp nc np v n ncls, conv_ok n ncls v -> cv_np v = 1%nat -> conv_example n 1 lits ->
  (pc < ncls)%nat -> (nc < ncls)%nat ->
  let v' := conv_step true boost lits pc pp nc np v in
  forall k, (k < nclauses v)%nat -> b_budget (cv_b v) < n_included (crow v k) ->
    (forall c, cweight v' k c = cweight v k c) /\
    (forall i, (i < 2 * n)%nat -> nth i (crow v k) 0 - 2 <= nth i (crow v' k) 0 <= nth i (crow v k) 0).
Proof.
  intros boost lits pc pp nc np v n ncls OK H1 HX Hpc Hnc v' k Hk HB. rewrite <- H1 in HX.
  apply (conv_silent true boost lits pc pp nc np v n ncls OK HX Hpc Hnc k Hk). right. split; [auto|]. split; [auto|].
  intros p q Hpq Hq. lia.
Qed.

(** Without that restriction it fails, whatever the stale arrays hold: the empty
    clause 0 leaves the count 0 for every patch, and clause 1, two literals over
    a budget of one, reads the count of patch 0 after matching patch 1 only. *)
Theorem C43_over_budget_refuted : exists v lits, conv_ok 2 2 v /\ conv_example 2 (cv_np v) lits /\ b_budget (cv_b v) < n_included (crow v 1) /\
  forall ppc cnts aps, length ppc = 3%nat -> length cnts = 3%nat -> length aps = 3%nat ->
  let v0 := mkCv (mkBlock 2 2 (b_clauses (cv_b v)) (b_weights (cv_b v)) (b_outputs (cv_b v)) cnts (b_votes (cv_b v)) (b_budget (cv_b v))
                    (b_s_inv (cv_b v)) (b_s_min1_inv (cv_b v)) (b_rng (cv_b v)) (b_fast (cv_b v))) (cv_np v) aps ppc in
  let v' := conv_step true true lits 0 1%Q 1 1%Q v0 in
  cweight v' 1 0 = cweight v0 1 0 + 1 /\ nth 0 (crow v' 1) 0 = nth 0 (crow v0 1) 0 + 1.
Proof.
  exists cx_v, cx_lits. split; [exact cx_ok|]. split; [exact cx_example|]. split; [vm_compute; reflexivity|].
  intros [|p0 [|p1 [|p2 [|]]]] [|c0 [|c1 [|c2 [|]]]] [|a0 [|a1 [|a2 [|]]]]; cbn [length]; try discriminate. intros _ _ _.
  vm_compute. auto.
Qed.

Example C43_case : conv_ok 2 2 cx_v /\ conv_example 2 (cv_np cx_v) [1;1; 1;1; 1;0] /\ b_budget (cv_b cx_v) < n_included (crow cx_v 1) /\
  matches_first 2 3 [1;1; 1;1; 1;0] (crow cx_v 1) /\ some_match 2 3 [1;1; 1;1; 1;0] (crow cx_v 1) /\
  (let v' := conv_step true true [1;1; 1;1; 1;0] 0 1%Q 1 1%Q cx_v in cweight v' 1 0 = 1 /\ cweight v' 1 1 = 1).
Proof.
  split; [exact cx_ok|]. split; [split; [reflexivity|unfold binary; repeat (apply Forall_cons || apply Forall_nil); auto]|].
  split; [vm_compute; reflexivity|]. split.
  - intros p q H1 H2 H3. destruct q as [|[|[|q]]]; try lia; destruct p as [|[|p]]; try lia; try reflexivity; discriminate H3.
  - split; [exists 0%nat; split; [lia|reflexivity]|vm_compute; auto].
Qed.

(** ** C62 *)

Theorem C62_matching_clause : forall bo boost lits pc pp nc np v n ncls, conv_ok n ncls v -> conv_example n (cv_np v) lits ->
  let v' := conv_step bo boost lits pc pp nc np v in
  forall k, (k < nclauses v)%nat -> some_match n (cv_np v) lits (crow v k) ->
  exists p rk cnt, (p < cv_np v)%nat /\ patch_matches n lits (crow v k) p /\
    (bo = true -> matches_first n (cv_np v) lits (crow v k) -> cnt = n_included (crow v k)) /\
    let t := train_update_clause bo boost (b_budget (cv_b v)) (b_s_inv (cv_b v)) (b_s_min1_inv (cv_b v)) (nth_patch n lits p)
               pc pp nc np (clause_at (cv_b v) k) (nth k (b_weights (cv_b v)) []) 1 cnt rk (advance (2 * k) (b_fast (cv_b v))) in
    clause_at (cv_b v') k = fst (fst (fst (fst t))) /\ nth k (b_weights (cv_b v')) [] = snd (fst (fst (fst t))).
Proof. exact conv_step_dense. Qed.

Theorem C62_silent_clause : forall bo boost lits pc pp nc np v n ncls, conv_ok n ncls v -> conv_example n (cv_np v) lits -> (pc < ncls)%nat -> (nc < ncls)%nat ->
  let v' := conv_step bo boost lits pc pp nc np v in
  forall k, (k < nclauses v)%nat -> ~ some_match n (cv_np v) lits (crow v k) ->
    (forall c, cweight v' k c = cweight v k c) /\
    (forall i, (i < 2 * n)%nat -> nth i (crow v k) 0 - 2 <= nth i (crow v' k) 0 <= nth i (crow v k) 0).
Proof. intros. apply conv_silent with (ncls := ncls); auto. Qed.

Theorem C62_weights : forall bo boost lits pc pp nc np v n ncls, conv_ok n ncls v -> conv_example n (cv_np v) lits ->
  (pc < ncls)%nat -> (nc < ncls)%nat -> pc <> nc ->
  let v' := conv_step bo boost lits pc pp nc np v in
  forall k, (k < nclauses v)%nat -> (bo = true -> matches_first n (cv_np v) lits (crow v k)) ->
    let fired := some_match n (cv_np v) lits (crow v k) /\ (bo = true -> n_included (crow v k) <= b_budget (cv_b v)) in
    (forall c, c <> pc -> c <> nc -> cweight v' k c = cweight v k c) /\
    (~ fired -> forall c, cweight v' k c = cweight v k c) /\
    (fired -> cweight v' k pc = (if Qlt_bool (draw (b_fast (cv_b v)) (2 * k)) pp then wrap16 (cweight v k pc + 1) else cweight v k pc)) /\
    (fired -> cweight v' k nc = (if Qlt_bool (draw (b_fast (cv_b v)) (2 * k + 1)) np then wrap16 (cweight v k nc - 1) else cweight v k nc)).
Proof. exact conv_step_weights. Qed.

Theorem C62_delta : forall bo boost lits pc pp nc np v n ncls, conv_ok n ncls v -> conv_example n (cv_np v) lits -> (pc < ncls)%nat -> (nc < ncls)%nat ->
  forall k i, (k < nclauses v)%nat -> (i < 2 * n)%nat ->
    nth i (crow v k) 0 - 2 <= nth i (crow (conv_step bo boost lits pc pp nc np v) k) 0 <= nth i (crow v k) 0 + 2.
Proof. exact conv_step_delta. Qed.

(** The other side of C43: a clause within the budget is not reinforced because
    an earlier clause left a larger count. Clause 0 includes both inputs and
    matches patch 0; clause 1 includes one input and matches patch 1 only. *)
Definition cx_w : cvblock :=
  mkCv (mkBlock 2 2 [mkClause [-1;-1] [5;0]; mkClause [0;-9] [-1;-2]] [[4;-2];[1;1]]
          [9;9] [50;51] [0;0] 1 (1#4) (3#4) ex_rng ex_rng) 2 [7;7]%nat [0;0].
Theorem C62_within_budget_refuted : let lits := [0;0; 1;1] in
  conv_ok 2 2 cx_w /\ conv_example 2 (cv_np cx_w) lits /\ some_match 2 2 lits (crow cx_w 1) /\ n_included (crow cx_w 1) <= b_budget (cv_b cx_w) /\
  let v' := conv_step true true lits 0 1%Q 1 1%Q cx_w in cweight v' 1 0 = cweight cx_w 1 0 /\ cweight v' 1 1 = cweight cx_w 1 1.
Proof.
  cbv zeta. split.
  { constructor; try reflexivity; [|cbn; lia]. constructor; [constructor| |]; try reflexivity.
    - cbn. repeat (apply Forall_cons || apply Forall_nil); auto.
    - cbn. unfold rows_of. repeat (apply Forall_cons || apply Forall_nil); auto.
    - cbn. unfold int8s, is_int8. repeat (apply Forall_cons || apply Forall_nil || split); lia.
    - cbn. unfold is_int16. repeat (apply Forall_cons || apply Forall_nil); lia. }
  split; [split; [reflexivity|unfold binary; repeat (apply Forall_cons || apply Forall_nil); auto]|].
  split; [exists 1%nat; split; [lia|reflexivity]|]. split; [vm_compute; discriminate|]. vm_compute. auto.
Qed.

Example C62_case : conv_ok 2 2 cx_v /\ conv_example 2 (cv_np cx_v) cx_lits /\ some_match 2 3 cx_lits (crow cx_v 2) /\ ~ matches_first 2 3 cx_lits (crow cx_v 2) /\
  (let v' := conv_step false true cx_lits 0 1%Q 1 1%Q cx_v in
   cweight v' 2 0 = 8 /\ cweight v' 2 1 = -1 /\ crow v' 2 <> crow cx_v 2).
Proof.
  split; [exact cx_ok|]. split; [exact cx_example|]. split; [exists 2%nat; split; [lia|reflexivity]|].
  split; [intros H; specialize (H 0%nat 2%nat ltac:(lia) ltac:(lia) eq_refl); discriminate H|].
  vm_compute. split; [reflexivity|]. split; [reflexivity|discriminate].
Qed.

(** ** C63 *)

Theorem C63_history : forall (L : Type) (process : L -> fblock -> fblock) bo boost n ncls np lo cs (x : exec cvblock), -128 <= lo <= -127 ->
  Forall (fun c => Forall (fun d => conv_example n np (fst d)) (gdata (list Z) L c)) cs ->
  Forall (fun tb => conv_good n ncls np lo (snd tb)) (x_blocks x) ->
  Forall (fun tb => conv_good n ncls np lo (snd tb))
    (x_blocks (grun cvblock (list Z) (conv_train_ex bo) conv_eval_ex (conv_update bo boost) L process cs x)).
Proof. exact conv_history. Qed.

(** A block that was set up satisfies the invariant with lo = -127. *)
Theorem C63_initialized : forall std_of fast_of junk jap jppc np nlit ncl ncls budget si sm seed v,
  conv_initialize std_of fast_of junk jap jppc np nlit ncl ncls budget si sm seed = Some v ->
  length junk = ncl -> length jap = ncl -> length jppc = Z.to_nat np ->
  conv_good nlit ncls (Z.to_nat np) (-127) v.
Proof.
  intros std_of fast_of junk jap jppc np nlit ncl ncls budget si sm seed v H HJ HA HP.
  unfold conv_initialize in H. destruct (initialize std_of fast_of junk nlit ncl ncls budget si sm seed) as [b|] eqn:E; [|discriminate].
  destruct (np >? 0) eqn:EN; [|discriminate]. injection H as <-.
  destruct (initialize_spec _ _ _ _ _ _ _ _ _ _ _ E) as [_ [OK [LC [RI _]]]].
  assert (EB : b_nlit b = nlit /\ b_counts b = junk /\ length (b_outputs b) = ncl).
  { unfold initialize in E. destruct (seed =? 0); [discriminate|]. destruct (init_clauses nlit ncl (std_of seed)) as [cs r].
    destruct (init_weights ncls ncl (fast_of seed)) as [ws f]. injection E as <-. cbn [b_nlit b_counts b_outputs]. rewrite repeat_length. auto. }
  destruct EB as [E1 [E2 E3]].
  split; [constructor; cbn [cv_b cv_np cv_active cv_ppc]; auto; try congruence; try lia|].
  split; [reflexivity|]. split; [|unfold nclauses; cbn [cv_b]; congruence]. cbn [cv_b].
  unfold automata_in. apply Forall_forall. intros c Hc. apply (In_nth _ _ dclause) in Hc. destruct Hc as [k [Hk EK]].
  destruct (clause_at_ok nlit ncls b k OK Hk) as [P1 [P2 _]]. fold (clause_at b k) in EK. subst c.
  assert (R : forall i, (i < 2 * nlit)%nat -> in_range (-127) 127 (nth i (row_at b k) 7)).
  { intros i Hi. rewrite RI by lia. unfold in_range. destruct (Qle_bool _ _); lia. }
  split; apply Forall_forall; intros w Hw; apply (In_nth _ _ 7) in Hw; destruct Hw as [i [Hi <-]].
  - specialize (R i ltac:(lia)). unfold row_at, row_of in R. rewrite app_nth1 in R by lia. exact R.
  - specialize (R (nlit + i)%nat ltac:(lia)). unfold row_at, row_of in R. rewrite app_nth2 in R by lia. replace (nlit + i - length (cl_pos (clause_at b k)))%nat with i in R by lia. exact R.
Qed.

(** It is not set up when the number of patches was never given (-1). *)
Theorem C63_needs_patches : forall std_of fast_of junk jap jppc np nlit ncl ncls budget si sm seed, np <= 0 ->
  conv_initialize std_of fast_of junk jap jppc np nlit ncl ncls budget si sm seed = None.
Proof.
  intros. unfold conv_initialize. destruct (initialize _ _ _ _ _ _ _ _ _ _); auto. replace (np >? 0) with false by lia. reflexivity.
Qed.

Example C63_case :
  match conv_initialize (fun _ => ex_rng) (fun _ => ex_rng) [50;51] [7;7]%nat [77;78;79] 3 2 2 2 1 (1#4) (3#4) 5 with
  | Some v =>
      let x := mkExec [(true, v)] (new_fblock 2 (20#1) ex_rng) [] ex_irng in
      let x' := grun cvblock (list Z) (conv_train_ex true) conv_eval_ex (conv_update true true) nat fb_process
                  [GTrain (list Z) nat [(cx_lits, 0%nat); ([0;0; 0;1; 0;0], 1%nat)]; GEval (list Z) nat [(cx_lits, 0%nat)] [0%nat]; GTrain (list Z) nat [(cx_lits, 1%nat)]] x in
      map (fun tb => b_clauses (cv_b (snd tb))) (x_blocks x') <> [b_clauses (cv_b v)]
  | None => False
  end.
Proof. vm_compute. discriminate. Qed.

(** ** C64 *)

Theorem C64_one_patch_evaluation : forall lits v n ncls, conv_ok n ncls v -> cv_np v = 1%nat -> length lits = n ->
  snd (conv_eval_ex lits v) = snd (dense_eval_ex lits (cv_b v)).
Proof. exact conv_one_patch_eval. Qed.

Theorem C64_one_patch_step : forall bo boost lits pc pp nc np v n ncls, conv_ok n ncls v -> cv_np v = 1%nat -> length lits = n -> binary lits ->
  let v' := conv_step bo boost lits pc pp nc np v in
  exists m, let b' := dense_step bo boost lits pc pp nc np (with_rng (advance m (b_rng (cv_b v))) (cv_b v)) in
    b_clauses (cv_b v') = b_clauses b' /\ b_weights (cv_b v') = b_weights b' /\ b_outputs (cv_b v') = b_outputs b' /\
    b_votes (cv_b v') = b_votes b' /\ b_rng (cv_b v') = b_rng b' /\ b_fast (cv_b v') = b_fast b'.
Proof. exact conv_one_patch_step. Qed.

Definition cx_1 : cvblock := mkCv (cv_b cx_v) 1 (cv_active cx_v) [77].
Example C64_case : conv_ok 2 2 cx_1 /\
  (let v' := conv_step true true [1;0] 0 1%Q 1 1%Q cx_1 in
   b_weights (cv_b v') = [[5;-3];[1;1];[7;0]] /\ b_outputs (cv_b v') = [1;0;0]).
Proof.
  split; [|vm_compute; auto]. destruct cx_ok as [A B C D E F]. constructor; auto.
Qed.

Print Assumptions C35_training_output.
Print Assumptions C35_patch_reachable.
Print Assumptions C35_evaluation_output.
Print Assumptions C35_prediction.
Print Assumptions C43_over_budget_partial.
Print Assumptions C43_one_patch_partial.
Print Assumptions C43_over_budget_refuted.
Print Assumptions C62_matching_clause.
Print Assumptions C62_silent_clause.
Print Assumptions C62_weights.
Print Assumptions C62_delta.
Print Assumptions C62_within_budget_refuted.
Print Assumptions C63_history.
Print Assumptions C63_initialized.
Print Assumptions C63_needs_patches.
Print Assumptions C64_one_patch_evaluation.
Print Assumptions C64_one_patch_step.
