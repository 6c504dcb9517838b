(** C01-C05, C10, C16, C40, C46: the state, the rule set, the predictor. *)
From Coq Require Import ZArith List Bool QArith Lia.
From Verif Require Import Base Spec ModelRuleSet ModelInference ModelDense ModelFeedback ModelExecutor
  ModelDenseExec ModelLayout ModelPredictor
  ProofsClause ProofsInference ProofsRuleSet ProofsLayout ProofsEval ProofsPredictor ProofsTopInference ExampleData.
Import ListNotations.
Open Scope Z_scope.

(** ** C01 *)

(** The machine state [s] is written into any list of blocks [cbs] (any split,
    padded or not); an executor [e] runs over those blocks.  The predictor [p]
    is made from the compiled state.  On every data set of 0/1 examples the
    executor's predictions are the predictor's answers. *)
Theorem C01_predictor_agrees_with_machine : forall (L : Type) n ncls s rs mode excl junk p cbs (e : exec block)
  (data : list (list Z * L)) out,
  Forall (flat_wf n ncls) cbs -> state_shape n (total_clauses cbs) ncls s ->
  Forall2 (fun f tb => block_on n ncls f (snd tb)) (save_state_in_backend s cbs) (x_blocks e) ->
  fb_ready ncls (x_fb e) ->
  compile_from_dense_state s = Ok rs -> from_ruleset mode excl rs junk = Ok p ->
  length out = length data ->
  (forall r c, (c < ncls)%nat -> is_int16 (merged_weight (ds_c s) (ds_w s) r c)) ->
  Forall (fun d => length (fst d) = n /\ binary (fst d) /\
            forall c, (c < ncls)%nat -> is_int16 (clause_vote_total n (fst d) (ds_c s) (ds_w s) c)) data ->
  exists ys e', eval_predict block (list Z) dense_eval_ex L data out e = (true, ys, e') /\
    map (fun d => fst (pred_predict p (fst d))) data = map (fun y => Ok (AClass y)) ys.
Proof. exact predictor_agrees_merged. Qed.

(** Same conclusion when only the totals (not the merged weights) fit. *)
Theorem C01_predictor_agrees_totals : forall (L : Type) n ncls s rs mode excl junk p cbs (e : exec block)
  (data : list (list Z * L)) out,
  Forall (flat_wf n ncls) cbs -> state_shape n (total_clauses cbs) ncls s ->
  Forall2 (fun f tb => block_on n ncls f (snd tb)) (save_state_in_backend s cbs) (x_blocks e) ->
  fb_ready ncls (x_fb e) ->
  compile_from_dense_state s = Ok rs -> from_ruleset mode excl rs junk = Ok p ->
  length out = length data ->
  Forall (fun d => length (fst d) = n /\ binary (fst d) /\
            forall c, (c < ncls)%nat ->
              is_int16 (clause_vote_total n (fst d) (ds_c s) (ds_w s) c) /\
              is_int16 (rule_vote_total n (fst d) (rs_rules rs) (rs_weights rs) c)) data ->
  exists ys e', eval_predict block (list Z) dense_eval_ex L data out e = (true, ys, e') /\
    map (fun d => fst (pred_predict p (fst d))) data = map (fun y => Ok (AClass y)) ys.
Proof. exact predictor_agrees_data. Qed.

Example C01_case :
  Forall (flat_wf 3 2) ex_flats /\ state_shape 3 (total_clauses ex_flats) 2 ex_state /\
  Forall2 (fun f tb => block_on 3 2 f (snd tb)) (save_state_in_backend ex_state ex_flats) (x_blocks (ex_exec ex_flats)) /\
  fb_ready 2 (x_fb (ex_exec ex_flats)) /\
  fst (eval_predict block (list Z) dense_eval_ex nat ex_data [9;9;9;9]%nat (ex_exec ex_flats)) = (true, [0; 1; 0; 1]%nat).
Proof.
  split; [|split; [|split; [|split]]].
  - repeat (constructor; try (vm_compute; lia)).
  - vm_compute. repeat split; repeat constructor.
  - vm_compute. repeat constructor.
  - vm_compute. auto.
  - vm_compute. reflexivity.
Qed.
Example C01_case_predictor : exists rs p, compile_from_dense_state ex_state = Ok rs /\
  from_ruleset XNone false rs [] = Ok p /\
  map (fun d => fst (pred_predict p (fst d))) ex_data = map (fun y => Ok (AClass y)) [0; 1; 0; 1]%nat.
Proof. eexists. eexists. split; [vm_compute; reflexivity|split; [vm_compute; reflexivity|vm_compute; reflexivity]]. Qed.

(** Without the hypothesis on merged weights the claim is false: two equal
    clauses of weight 20000 merge to a wrapped weight. *)
Theorem C01_merge_overflow_refuted : exists s x rs p,
  state_shape 2 3 2 s /\ binary x /\ length x = 2%nat /\
  (forall c, (c < 2)%nat -> is_int16 (clause_vote_total 2 x (ds_c s) (ds_w s) c)) /\
  compile_from_dense_state s = Ok rs /\ from_ruleset XNone false rs [] = Ok p /\
  fst (pred_predict p x) <> Ok (AClass (dense_eval_one
     (map ex_block_of (save_state_in_backend s [mkFlat 3 2 2 2 2 (repeat 0 12) (repeat 0 6)])) (new_fblock 2 (20#1) ex_rng) x)).
Proof.
  exists (mkDense 4 2 [[0;-1;-1;-1]; [0;-1;-1;-1]; [-1;0;-1;-1]] [[20000;1]; [20000;1]; [-30000;1]]), [1;1].
  eexists. eexists. split; [|split; [|split; [|split; [|split; [|split]]]]].
  - vm_compute. repeat split; repeat constructor.
  - repeat (constructor; [auto|]); constructor.
  - reflexivity.
  - intros [|[|c]] Hc; [vm_compute; split; discriminate|vm_compute; split; discriminate|lia].
  - vm_compute. reflexivity.
  - vm_compute. reflexivity.
  - vm_compute. intros H. inversion H.
Qed.

(** ** C02 *)

Theorem C02_ruleset_shape : forall n s, dense_wf n s ->
  exists rs, compile_from_dense_state s = Ok rs /\
    rs_nliterals rs = n /\ rs_nclasses rs = ds_nclasses s /\
    NoDup (rs_rules rs) /\ ~ In [] (rs_rules rs) /\
    length (rs_rules rs) = length (rs_weights rs) /\ rows_of (ds_nclasses s) (rs_weights rs) /\
    (forall r, In r (rs_rules rs) <->
       r <> [] /\ exists i row w, nth_error (ds_c s) i = Some row /\ nth_error (ds_w s) i = Some w /\
                                  included row = r /\ exists v, In v w /\ v <> 0) /\
    (forall k r c, nth_error (rs_rules rs) k = Some r ->
       nth c (nth k (rs_weights rs) []) 0 = wrap16 (merged_weight (ds_c s) (ds_w s) r c)).
Proof. exact compile_spec. Qed.

Theorem C02_votes_mod : forall n s rs x c, dense_wf n s -> compile_from_dense_state s = Ok rs ->
  rule_vote_total n x (rs_rules rs) (rs_weights rs) c mod 65536 =
  clause_vote_total n x (ds_c s) (ds_w s) c mod 65536.
Proof. exact compile_votes_mod. Qed.

Theorem C02_votes_exact : forall n s rs x c, dense_wf n s -> compile_from_dense_state s = Ok rs ->
  (forall r, In r (rs_rules rs) -> is_int16 (merged_weight (ds_c s) (ds_w s) r c)) ->
  rule_vote_total n x (rs_rules rs) (rs_weights rs) c = clause_vote_total n x (ds_c s) (ds_w s) c.
Proof. exact compile_votes_exact. Qed.

Example C02_case : dense_wf 3 ex_state /\
  compile_from_dense_state ex_state = Ok (mkRuleSet [[0;5];[1]]%nat [[5;-1];[-3;6]] 3 2) /\
  clause_vote_total 3 [1;1;0] (ds_c ex_state) (ds_w ex_state) 1 = 5.
Proof.
  split; [|split; vm_compute; reflexivity].
  unfold dense_wf. repeat split; try reflexivity; repeat constructor.
Qed.

(** ** C03 *)

Theorem C03_predict_first_argmax : forall s x, inf_wf s -> length x = inf_nlit s -> (inf_empty s < inf_ncls s)%nat ->
  (forall c, (c < inf_ncls s)%nat -> is_int32 (rule_vote_total (inf_nlit s) x (inf_rules s) (inf_weights s) c)) ->
  let k := fst (inf_predict s x) in
  (k < inf_ncls s)%nat /\
  ((exists r, In r (inf_rules s) /\ conj_true (inf_nlit s) x r = true) ->
     first_argmax (map (rule_vote_total (inf_nlit s) x (inf_rules s) (inf_weights s)) (seq 0 (inf_ncls s))) k) /\
  ((forall r, In r (inf_rules s) -> conj_true (inf_nlit s) x r = false) -> k = inf_empty s) /\
  inf_votes (snd (inf_predict s x)) =
    map (rule_vote_total (inf_nlit s) x (inf_rules s) (inf_weights s)) (seq 0 (inf_ncls s)).
Proof. exact predict_correct. Qed.

Definition ex_inf : inference := new_inference 3 3 [[0;5];[1];[]]%nat [[5;-1;4];[-3;6;1];[0;0;0]] [].
Example C03_case : inf_wf ex_inf /\ length [1;1;0] = inf_nlit ex_inf /\ (inf_empty ex_inf < inf_ncls ex_inf)%nat /\
  fst (inf_predict ex_inf [1;1;0]) = 1%nat.
Proof. vm_compute. repeat split; auto; repeat constructor. Qed.

(** ** C04 *)

(** [y] is the class meant by the target argument: with target names the
    (last) position of the name. *)
Theorem C04_literal_explanations : forall p x t y, inf_wf (p_inf p) -> Forall (@NoDup nat) (inf_rules (p_inf p)) ->
  p_mode p = XLiterals -> length x = inf_nlit (p_inf p) ->
  (match t with
   | None => y = fst (inf_predict (p_inf p) x)
   | Some k => match p_names p with None => y = k | Some names => last_index names k y end
   end) ->
  (forall l, (l < 2 * inf_nlit (p_inf p))%nat ->
     is_int32 (literal_contribution (inf_nlit (p_inf p)) x (p_excl p) (inf_rules (p_inf p)) (inf_weights (p_inf p)) y l)) ->
  fst (pred_explain_target (snd (pred_predict p x)) t) =
  Ok (map (literal_contribution (inf_nlit (p_inf p)) x (p_excl p) (inf_rules (p_inf p)) (inf_weights (p_inf p)) y)
          (seq 0 (2 * inf_nlit (p_inf p)))).
Proof. exact explain_correct. Qed.

(** A target that is not one of the names is refused. *)
Theorem C04_unknown_name : forall p x k names, p_mode p = XLiterals -> p_names p = Some names -> ~ In k names ->
  fst (pred_explain_target (snd (pred_predict p x)) (Some k)) = Raise ValueError.
Proof. exact explain_unknown. Qed.

(** Compiled rule sets have the required distinct literals. *)
Theorem C04_compiled_rules_distinct : forall n s rs, dense_wf n s -> compile_from_dense_state s = Ok rs ->
  Forall (@NoDup nat) (rs_rules rs).
Proof. exact compiled_rules_nodup. Qed.

Definition ex_pred (excl : bool) : predictor :=
  mkPred XLiterals excl 2 None None (new_inference 3 2 [[0;5];[0;1];[1]]%nat [[5;-1];[2;2];[-3;6]] []).
Example C04_case : inf_wf (p_inf (ex_pred true)) /\ Forall (@NoDup nat) (inf_rules (p_inf (ex_pred true))) /\
  fst (pred_explain_target (snd (pred_predict (ex_pred true) [1;1;0])) (Some 0%nat)) = Ok [7;2;0;0;0;5] /\
  fst (pred_explain_target (snd (pred_predict (ex_pred false) [1;1;0])) (Some 0%nat)) = Ok [7;-1;0;0;0;5].
Proof.
  split; [|split; [|split; vm_compute; reflexivity]].
  - vm_compute. repeat split; auto; repeat constructor.
  - vm_compute. repeat constructor; simpl; intuition discriminate.
Qed.

(** The name 7 belongs to class 1, and to no later class. *)
Example C04_case_names : last_index [9; 7]%nat 7 1 /\
  fst (pred_explain_target (snd (pred_predict (set_target_names [9; 7]%nat (ex_pred true)) [1;1;0])) (Some 7%nat)) =
  fst (pred_explain_target (snd (pred_predict (ex_pred true) [1;1;0])) (Some 1%nat)) /\
  fst (pred_explain_target (snd (pred_predict (set_target_names [9; 7]%nat (ex_pred true)) [1;1;0])) (Some 8%nat)) = Raise ValueError.
Proof.
  split; [|split; vm_compute; reflexivity]. split; [reflexivity|].
  intros [|[|[|j]]] H; cbn [nth_error]; try lia; discriminate.
Qed.

(** ** C05 *)

Theorem C05_predict_history : forall p cs x, existsb is_names cs = false ->
  fst (pred_predict (prun p cs) x) = fst (pred_predict p x) /\
  pred_votes (snd (pred_predict (prun p cs) x)) = pred_votes (snd (pred_predict p x)).
Proof. exact predict_history. Qed.

Theorem C05_explain_history : forall p cs1 cs2 x t, existsb is_names cs1 = false -> forallb is_explain cs2 = true ->
  fst (pred_explain_target (prun (snd (pred_predict (prun p cs1) x)) cs2) t) =
  fst (pred_explain_target (snd (pred_predict p x)) t).
Proof. exact explain_history. Qed.

Example C05_case : existsb is_names [CPredict [0;1;1]; CExplain (Some 1%nat); CExplainAll; CPredict [1;1;1]] = false /\
  fst (pred_predict (prun (ex_pred false) [CPredict [0;1;1]; CExplain (Some 1%nat); CExplainAll; CPredict [1;1;1]]) [1;0;0])
  = Ok (AClass 0).
Proof. split; vm_compute; reflexivity. Qed.

(** ** C10 *)

(** Write a state into the blocks, read it back (into any state object [d] of
    the right shape). *)
Theorem C10_state_roundtrip : forall n ncls cbs s d, Forall (flat_wf n ncls) cbs ->
  state_shape n (total_clauses cbs) ncls s -> state_shape n (total_clauses cbs) ncls d ->
  load_state_from_backend (save_state_in_backend s cbs) d = s.
Proof. exact load_save_state. Qed.

(** Read the blocks, write the result back: every byte, padding included, is
    as before. *)
Theorem C10_blocks_roundtrip : forall n ncls cbs off c w, Forall (flat_wf n ncls) cbs ->
  ((off + total_clauses cbs) * (n * 2) <= length c)%nat -> ((off + total_clauses cbs) * ncls <= length w)%nat ->
  save_loop (fst (load_loop cbs off c w)) (snd (load_loop cbs off c w)) off cbs = cbs.
Proof. exact save_load_blocks. Qed.

(** After writing, the clauses seen by the kernels are the state's rows in
    order, and block sizes are unchanged. *)
Theorem C10_blocks_hold_state : forall n ncls rows ws cbs off, Forall (flat_wf n ncls) cbs ->
  rows_of (2 * n) rows -> rows_of ncls ws -> length rows = length ws ->
  (off + total_clauses cbs)%nat = length rows ->
  concat (map view_clauses (save_loop (flatten rows) (flatten ws) off cbs)) = map (split_row n) (skipn off rows) /\
  concat (map view_all_weights (save_loop (flatten rows) (flatten ws) off cbs)) = skipn off ws /\
  map f_ncl (save_loop (flatten rows) (flatten ws) off cbs) = map f_ncl cbs.
Proof. exact save_views. Qed.

(** Reading touches only the rows that belong to the blocks. *)
Theorem C10_read_frame : forall n ncls cbs off c w, Forall (flat_wf n ncls) cbs ->
  ((off + total_clauses cbs) * (n * 2) <= length c)%nat -> ((off + total_clauses cbs) * ncls <= length w)%nat ->
  length (fst (load_loop cbs off c w)) = length c /\ length (snd (load_loop cbs off c w)) = length w /\
  (forall k, (k < off * (n * 2) \/ (off + total_clauses cbs) * (n * 2) <= k)%nat ->
     nth k (fst (load_loop cbs off c w)) 0 = nth k c 0) /\
  (forall k, (k < off * ncls \/ (off + total_clauses cbs) * ncls <= k)%nat ->
     nth k (snd (load_loop cbs off c w)) 0 = nth k w 0).
Proof. exact load_frame. Qed.

(** Writing one block stores exactly its own rows; the padding bytes keep their
    old contents. *)
Theorem C10_write_frame : forall f src off,
  (f_nlit f <= f_lmem f)%nat -> length (f_clauses f) = (f_ncl f * (f_lmem f * 2))%nat ->
  ((off + f_ncl f) * (f_nlit f * 2) <= length src)%nat ->
  let m' := f_clauses (set_clause_state f src off) in
  length m' = length (f_clauses f) /\
  (forall i r, (i < f_ncl f)%nat -> (r < f_lmem f)%nat ->
     nth (i * (f_lmem f * 2) + r) m' 0 =
       (if (r <? f_nlit f)%nat then nth ((i + off) * (f_nlit f * 2) + r) src 0
        else nth (i * (f_lmem f * 2) + r) (f_clauses f) 0) /\
     nth (i * (f_lmem f * 2) + f_lmem f + r) m' 0 =
       (if (r <? f_nlit f)%nat then nth ((i + off) * (f_nlit f * 2) + f_nlit f + r) src 0
        else nth (i * (f_lmem f * 2) + f_lmem f + r) (f_clauses f) 0)).
Proof. exact set_clause_state_spec. Qed.

Example C10_case : Forall (flat_wf 3 2) ex_flats /\ state_shape 3 (total_clauses ex_flats) 2 ex_state /\
  load_state_from_backend (save_state_in_backend ex_state ex_flats) (zero_state 3 5 2) = ex_state.
Proof.
  split; [|split; [|vm_compute; reflexivity]].
  - repeat (constructor; try (vm_compute; lia)).
  - vm_compute. repeat split; auto; repeat constructor.
Qed.

(** ** C16 *)

Theorem C16_train_output : forall b n x c,
  length (cl_pos c) = n -> length (cl_neg c) = n -> length x = n -> binary x ->
  fst (set_output b x c) = b2z (clause_matches n x (cl_pos c ++ cl_neg c)).
Proof. exact set_output_matches. Qed.

Theorem C16_eval_output : forall n x c,
  length (cl_pos c) = n -> length (cl_neg c) = n -> length x = n -> binary x ->
  eval_output x c = b2z (clause_fires n x (cl_pos c ++ cl_neg c)).
Proof. exact eval_output_fires. Qed.

(** What clause_matches and clause_fires mean, literal by literal. *)
Theorem C16_matches_means : forall n x row,
  clause_matches n x row = true <->
  (forall i, (i < length row)%nat -> 0 <= nth i row (-1) -> lit_true n x i = true).
Proof. exact clause_matches_iff. Qed.
Theorem C16_fires_means : forall n x row,
  clause_fires n x row = true <-> clause_matches n x row = true /\ included row <> [].
Proof. exact clause_fires_iff. Qed.

Example C16_case : fst (set_output true [1;0;1] (mkClause [0;-1;5] [-1;2;-1])) = 1 /\
  eval_output [1;0;1] (mkClause [0;-1;5] [-1;2;-1]) = 1 /\
  eval_output [1;1;1] (mkClause [0;-1;5] [-1;2;-1]) = 0 /\
  fst (set_output true [1;0;1] (mkClause [-1;-1;-1] [-1;-2;-1])) = 1 /\
  eval_output [1;0;1] (mkClause [-1;-1;-1] [-1;-2;-1]) = 0.
Proof. vm_compute. auto. Qed.

(** ** C40 *)

Theorem C40_block_split : forall (L : Type) n ncls s cbs1 cbs2 (e1 e2 : exec block) (data : list (list Z * L)) out1 out2,
  Forall (flat_wf n ncls) cbs1 -> Forall (flat_wf n ncls) cbs2 ->
  state_shape n (total_clauses cbs1) ncls s -> total_clauses cbs2 = total_clauses cbs1 ->
  Forall2 (fun f tb => block_on n ncls f (snd tb)) (save_state_in_backend s cbs1) (x_blocks e1) ->
  Forall2 (fun f tb => block_on n ncls f (snd tb)) (save_state_in_backend s cbs2) (x_blocks e2) ->
  fb_ready ncls (x_fb e1) -> fb_ready ncls (x_fb e2) ->
  Forall (fun d => length (fst d) = n /\ binary (fst d)) data ->
  length out1 = length data -> length out2 = length data ->
  fst (eval_predict block (list Z) dense_eval_ex L data out1 e1) =
  fst (eval_predict block (list Z) dense_eval_ex L data out2 e2).
Proof. exact eval_any_split. Qed.

Theorem C40_votes : forall n ncls s cbs bs fb x c,
  Forall (flat_wf n ncls) cbs -> state_shape n (total_clauses cbs) ncls s ->
  Forall2 (fun f tb => block_on n ncls f (snd tb)) (save_state_in_backend s cbs) bs ->
  fb_ready ncls fb -> length x = n -> binary x -> (c < ncls)%nat ->
  nth c (registered_votes bs fb x) 0 = wrap16 (clause_vote_total n x (ds_c s) (ds_w s) c).
Proof. exact eval_votes_state. Qed.

Example C40_case : Forall (flat_wf 3 2) ex_flats1 /\ total_clauses ex_flats1 = total_clauses ex_flats /\
  Forall2 (fun f tb => block_on 3 2 f (snd tb)) (save_state_in_backend ex_state ex_flats1) (x_blocks (ex_exec ex_flats1)) /\
  fst (eval_predict block (list Z) dense_eval_ex nat ex_data [9;9;9;9]%nat (ex_exec ex_flats1)) = (true, [0; 1; 0; 1]%nat).
Proof.
  split; [|split; [|split]]; try (vm_compute; reflexivity).
  - repeat (constructor; try (vm_compute; lia)).
  - vm_compute. repeat constructor.
Qed.

(** ** C46 *)

(** Without target names explain("all") gives, class by class, the explanation
    that a single request for that class gives. *)
Theorem C46_explain_all_partial : forall p r q, p_names p = None -> pred_explain_all p = (Ok r, q) ->
  map fst r = seq 0 (p_ncls p) /\
  (forall y e, In (y, e) r -> fst (pred_explain_target p (Some y)) = Ok e).
Proof. exact explain_all_ok. Qed.

Example C46_case : exists r q, pred_explain_all (snd (pred_predict (ex_pred false) [1;1;0])) = (Ok r, q) /\
  r = [(0%nat, [7;-1;0;0;0;5]); (1%nat, [1;8;0;0;0;-1])].
Proof. eexists. eexists. split; vm_compute; reflexivity. Qed.

(** With target names every call fails, for every predictor with a class. *)
Theorem C46_names_refuted : forall p names, p_mode p = XLiterals -> (0 < p_ncls p)%nat ->
  fst (pred_explain_all (set_target_names names p)) = Raise TypeError.
Proof. exact explain_all_names_raises. Qed.

(** No predictor with feature explanations can be built. *)
Theorem C46_features_refuted : forall rs excl junk,
  from_ruleset XFeatures excl rs junk = Raise ValueError /\ from_ruleset XBoth excl rs junk = Raise ValueError.
Proof. exact features_raise. Qed.

Print Assumptions C01_predictor_agrees_with_machine.
Print Assumptions C01_predictor_agrees_totals.
Print Assumptions C01_merge_overflow_refuted.
Print Assumptions C02_ruleset_shape.
Print Assumptions C02_votes_mod.
Print Assumptions C02_votes_exact.
Print Assumptions C03_predict_first_argmax.
Print Assumptions C04_literal_explanations.
Print Assumptions C04_unknown_name.
Print Assumptions C04_compiled_rules_distinct.
Print Assumptions C05_predict_history.
Print Assumptions C05_explain_history.
Print Assumptions C10_state_roundtrip.
Print Assumptions C10_blocks_roundtrip.
Print Assumptions C10_blocks_hold_state.
Print Assumptions C10_read_frame.
Print Assumptions C10_write_frame.
Print Assumptions C16_train_output.
Print Assumptions C16_eval_output.
Print Assumptions C16_matches_means.
Print Assumptions C16_fires_means.
Print Assumptions C40_block_split.
Print Assumptions C40_votes.
Print Assumptions C46_explain_all_partial.
Print Assumptions C46_names_refuted.
Print Assumptions C46_features_refuted.
