(** C122: the predictor of a multi-label machine. *)
From Coq Require Import ZArith List Bool Lia.
From Verif Require Import Base BaseProofs Spec SpecMultiPred ModelRuleSet ProofsRuleSet ModelInference ProofsInference ModelPredictor ProofsEval ProofsTopInference.
Import ListNotations.
Open Scope Z_scope.

(** The predictor's votes after a prediction are those of the clauses, of the
    ON and of the OFF classes. *)
Theorem C122_votes_partial : forall n lits s rs mode excl junk p x, dense_wf lits s -> ds_nclasses s = (2 * n)%nat -> (1 <= n)%nat ->
  compile_from_dense_state s = Ok rs -> from_ruleset mode excl rs junk = Ok p -> length x = lits ->
  (forall r c, In r (rs_rules rs) -> (c < 2 * n)%nat -> is_int16 (merged_weight (ds_c s) (ds_w s) r c)) ->
  (forall c, (c < 2 * n)%nat -> is_int32 (clause_vote_total lits x (ds_c s) (ds_w s) c)) ->
  pred_votes (snd (pred_predict p x)) = map (clause_vote_total lits x (ds_c s) (ds_w s)) (seq 0 (2 * n)) /\
  labels_on n (fun c => nth c (pred_votes (snd (pred_predict p x))) 0) = labels_on n (clause_vote_total lits x (ds_c s) (ds_w s)).
Proof.
  intros n lits s rs mode excl junk p x Wf Hn H1 Cp Fr Hx Hm Hi.
  destruct (compiled_wf lits s rs junk Wf Cp) as [L1 [L2 W]].
  assert (Ep : p_inf p = new_inference lits (ds_nclasses s) (rs_rules rs) (rs_weights rs) junk).
  { unfold from_ruleset in Fr. rewrite L1, L2 in Fr. destruct mode; try discriminate; inversion Fr; reflexivity. }
  assert (V : pred_votes (snd (pred_predict p x)) = inf_votes (snd (inf_predict (p_inf p) x))).
  { unfold pred_votes, pred_predict. destruct (inf_predict (p_inf p) x) as [k inf]. destruct (p_names p) as [nm|]; [destruct (nth_error nm k)|]; reflexivity. }
  assert (T : forall c, (c < 2 * n)%nat -> rule_vote_total lits x (rs_rules rs) (rs_weights rs) c = clause_vote_total lits x (ds_c s) (ds_w s) c).
  { intros c Hc. apply compile_votes_exact; auto. }
  assert (M : pred_votes (snd (pred_predict p x)) = map (clause_vote_total lits x (ds_c s) (ds_w s)) (seq 0 (2 * n))).
  { rewrite V, Ep. destruct (predict_correct (new_inference lits (ds_nclasses s) (rs_rules rs) (rs_weights rs) junk) x W) as [_ [_ [_ K]]].
    - exact Hx.
    - cbn. lia.
    - cbn. intros c Hc. rewrite T by lia. apply Hi. lia.
    - rewrite K. unfold rule_totals. cbn. rewrite Hn. apply map_ext_in. intros c Hc. apply in_seq in Hc. apply T. lia. }
  split; [exact M|]. rewrite M. unfold labels_on. apply filter_ext_in. intros k Hk. apply in_seq in Hk.
  assert (N : forall c, (c < 2 * n)%nat -> nth c (map (clause_vote_total lits x (ds_c s) (ds_w s)) (seq 0 (2 * n))) 0 = clause_vote_total lits x (ds_c s) (ds_w s) c).
  { intros c Hc. rewrite (nth_indep _ 0 (clause_vote_total lits x (ds_c s) (ds_w s) 0)) by (rewrite map_length, seq_length; lia).
    rewrite map_nth, seq_nth by lia. reflexivity. }
  rewrite !N by lia. reflexivity.
Qed.

(** The answer itself is one class number: it does not determine the labels. *)
Theorem C122_refuted : exists s rs p x1 x2, dense_wf 2 s /\ ds_nclasses s = 4%nat /\ compile_from_dense_state s = Ok rs /\
  from_ruleset XNone false rs [] = Ok p /\ length x1 = 2%nat /\ length x2 = 2%nat /\
  fst (pred_predict p x1) = fst (pred_predict p x2) /\
  labels_on 2 (clause_vote_total 2 x1 (ds_c s) (ds_w s)) = [0]%nat /\ labels_on 2 (clause_vote_total 2 x2 (ds_c s) (ds_w s)) = [0; 1]%nat.
Proof.
  exists (mkDense 4 4 [[0;-1;-1;-1]; [-1;0;-1;-1]] [[5;0;0;0]; [0;3;0;0]]). do 2 eexists. exists [1; 0], [1; 1].
  split; [unfold dense_wf; repeat split; repeat constructor|]. split; [reflexivity|]. split; [vm_compute; reflexivity|]. split; [vm_compute; reflexivity|].
  repeat split; vm_compute; reflexivity.
Qed.

(** With a name for every label, an OFF class that has most votes raises. *)
Theorem C122_names_refuted : forall p names x c, p_names p = Some names -> inf_wf (p_inf p) -> length x = inf_nlit (p_inf p) ->
  (inf_empty (p_inf p) < inf_ncls (p_inf p))%nat ->
  (forall c, (c < inf_ncls (p_inf p))%nat -> is_int32 (rule_vote_total (inf_nlit (p_inf p)) x (inf_rules (p_inf p)) (inf_weights (p_inf p)) c)) ->
  (length names <= c < inf_ncls (p_inf p))%nat ->
  (forall k, (k < length names)%nat ->
     rule_vote_total (inf_nlit (p_inf p)) x (inf_rules (p_inf p)) (inf_weights (p_inf p)) k
     < rule_vote_total (inf_nlit (p_inf p)) x (inf_rules (p_inf p)) (inf_weights (p_inf p)) c) ->
  (exists r, In r (inf_rules (p_inf p)) /\ conj_true (inf_nlit (p_inf p)) x r = true) ->
  fst (pred_predict p x) = Raise IndexError.
Proof.
  intros p names x c Hp W Hx He Hi Hc Hk Hr. destruct (predict_correct (p_inf p) x W Hx He Hi) as [_ [K _]]. specialize (K Hr).
  unfold pred_predict. destruct (inf_predict (p_inf p) x) as [k inf]. cbn [fst] in K. rewrite Hp.
  destruct K as [K1 [K2 _]]. unfold rule_totals in K1, K2. rewrite map_length, seq_length in K1, K2.
  set (tot := rule_vote_total (inf_nlit (p_inf p)) x (inf_rules (p_inf p)) (inf_weights (p_inf p))) in *.
  assert (N : forall j, (j < inf_ncls (p_inf p))%nat -> nth j (map tot (seq 0 (inf_ncls (p_inf p)))) 0 = tot j).
  { intros j Hj. rewrite (nth_indep _ 0 (tot O)) by (rewrite map_length, seq_length; lia). rewrite map_nth, seq_nth by lia. reflexivity. }
  specialize (K2 c ltac:(lia)). change (fun c => rule_vote_total (inf_nlit (p_inf p)) x (inf_rules (p_inf p)) (inf_weights (p_inf p)) c) with tot in K2.
  rewrite !N in K2 by lia.
  assert (L : (length names <= k)%nat).
  { destruct (Nat.le_gt_cases (length names) k) as [|G]; auto. specialize (Hk k G). lia. }
  assert (E : nth_error names k = None) by (apply nth_error_None; auto). rewrite E. reflexivity.
Qed.

Definition exMl : dense_state := mkDense 4 4 [[0;-1;-1;-1]; [-1;0;-1;-1]; [-1;-1;-1;0]] [[5;0;1;7]; [0;3;2;0]; [1;1;0;0]].
Example C122_case : exists rs p, dense_wf 2 exMl /\ compile_from_dense_state exMl = Ok rs /\ from_ruleset XNone false rs [] = Ok p /\
  pred_votes (snd (pred_predict p [1; 1])) = [5; 3; 3; 7] /\ labels_on 2 (clause_vote_total 2 [1; 1] (ds_c exMl) (ds_w exMl)) = [0]%nat /\
  fst (pred_predict p [1; 1]) = Ok (AClass 3) /\ fst (pred_predict (set_target_names [10; 11]%nat p) [1; 1]) = Raise IndexError.
Proof.
  do 2 eexists. split; [unfold dense_wf; repeat split; repeat constructor|]. split; [vm_compute; reflexivity|]. split; [vm_compute; reflexivity|].
  repeat split; vm_compute; reflexivity.
Qed.

Print Assumptions C122_votes_partial.
Print Assumptions C122_refuted.
Print Assumptions C122_names_refuted.
