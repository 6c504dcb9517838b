(** User-level forms of the inference results. *)
From Coq Require Import ZArith List Bool QArith Lia ZifyBool.
From Verif Require Import Base BaseProofs Spec ModelRuleSet ModelInference ModelDense ModelFeedback ModelExecutor
  ModelDenseExec ModelLayout ModelPredictor
  ProofsInference ProofsRuleSet ProofsLayout ProofsEval ProofsPredictor ProofsExecutor ProofsDenseExec.
Import ListNotations.
Open Scope Z_scope.

Lemma block_wf_inv : forall n ncls bs, Forall (fun tb : bool * block => block_wf n ncls (snd tb)) bs -> blocks_inv ncls bs.
Proof.
  intros n ncls bs H. unfold blocks_inv. eapply Forall_impl; [|apply H].
  intros tb [W1 W2 W3 W4]. split; auto.
Qed.

Lemma fb_ready_ok : forall ncls f, fb_ready ncls f -> fb_ok ncls f.
Proof. intros ncls f [H1 H2]. split; auto. lia. Qed.

Lemma eval_predict_map : forall n ncls (L : Type) (data : list (list Z * L)) out (e : exec block),
  Forall (fun tb => block_wf n ncls (snd tb)) (x_blocks e) -> fb_ready ncls (x_fb e) ->
  length out = length data ->
  exists e', eval_predict block (list Z) dense_eval_ex L data out e =
    (true, map (dense_eval_one (x_blocks e) (x_fb e)) (map fst data), e').
Proof.
  intros n ncls L data out e W R Hl. unfold eval_predict. rewrite Hl, Nat.eqb_refl. cbn [negb].
  pose proof (eval_list_map ncls (map fst data) (x_blocks e) (x_blocks e) (x_fb e) (x_fb e)
                (block_wf_inv n ncls _ W) (fb_ready_ok _ _ R) (same_blocks_refl _) eq_refl) as M.
  destruct (eval_list block (list Z) dense_eval_ex (map fst data) (x_blocks e) (x_fb e)) as [[ys bs] fb].
  cbn [fst] in M. subst ys. eexists. reflexivity.
Qed.

Theorem predictor_agrees_data : forall (L : Type) n ncls s rs mode excl junk p cbs (e : exec block)
  (data : list (list Z * L)) out,
  Forall (flat_wf n ncls) cbs -> state_shape n (total_clauses cbs) ncls s ->
  Forall2 (fun f tb => block_on n ncls f (snd tb)) (save_state_in_backend s cbs) (x_blocks e) ->
  fb_ready ncls (x_fb e) ->
  compile_from_dense_state s = Ok rs -> from_ruleset mode excl rs junk = Ok p ->
  length out = length data ->
  Forall (fun d => length (fst d) = n /\ binary (fst d) /\
            forall c, (c < ncls)%nat ->
              is_int16 (clause_vote_total n (fst d) (ds_c s) (ds_w s) c) /\
              is_int16 (rule_vote_total n (fst d) (rs_rules rs) (rs_weights rs) c)) data ->
  exists ys e', eval_predict block (list Z) dense_eval_ex L data out e = (true, ys, e') /\
    map (fun d => fst (pred_predict p (fst d))) data = map (fun y => Ok (AClass y)) ys.
Proof.
  intros L n ncls s rs mode excl junk p cbs e data out HF HS H2 R Hc Hp Hl HD.
  destruct (blocks_on_state n ncls s cbs (x_blocks e) HF HS H2) as [A1 [A2 A3]].
  destruct (eval_predict_map n ncls L data out e A3 R Hl) as [e' Ev].
  exists (map (dense_eval_one (x_blocks e) (x_fb e)) (map fst data)), e'. split; auto.
  rewrite !map_map. apply map_ext_in. intros d Hd.
  rewrite Forall_forall in HD. destruct (HD d Hd) as [D1 [D2 D3]].
  pose proof HS as HS0. destruct HS0 as [S1 [S2 [S3 [S4 [S5 S6]]]]].
  assert (Hwf : dense_wf n s) by (unfold dense_wf; subst ncls; repeat split; auto; lia).
  destruct (compiled_wf n s rs junk Hwf Hc) as [C1 [C2 C3]].
  pose proof (predictor_agrees n ncls s rs junk cbs (x_blocks e) (x_fb e) (fst d) HF HS H2 R Hc D1 D2
                (fun c H => proj1 (D3 c H)) (fun c H => proj2 (D3 c H))) as K.
  unfold from_ruleset in Hp. rewrite C1, C2, S2 in Hp.
  assert (Ep : p_inf p = new_inference n ncls (rs_rules rs) (rs_weights rs) junk /\ p_names p = None).
  { destruct mode; inversion Hp; subst; auto. }
  destruct Ep as [Ep En]. unfold pred_predict. rewrite Ep, En.
  destruct (inf_predict (new_inference n ncls (rs_rules rs) (rs_weights rs) junk) (fst d)) as [k inf].
  cbn [fst] in *. rewrite K. reflexivity.
Qed.

(** The wording of C01: vote totals and merged weights fit 16 bits. *)
Theorem predictor_agrees_merged : forall (L : Type) n ncls s rs mode excl junk p cbs (e : exec block)
  (data : list (list Z * L)) out,
  Forall (flat_wf n ncls) cbs -> state_shape n (total_clauses cbs) ncls s ->
  Forall2 (fun f tb => block_on n ncls f (snd tb)) (save_state_in_backend s cbs) (x_blocks e) ->
  fb_ready ncls (x_fb e) ->
  compile_from_dense_state s = Ok rs -> from_ruleset mode excl rs junk = Ok p ->
  length out = length data ->
  (forall r c, (c < ncls)%nat -> is_int16 (merged_weight (ds_c s) (ds_w s) r c)) ->
  Forall (fun d => length (fst d) = n /\ binary (fst d) /\
            forall c, (c < ncls)%nat -> is_int16 (clause_vote_total n (fst d) (ds_c s) (ds_w s) c)) data ->
  exists ys e', eval_predict block (list Z) dense_eval_ex L data out e = (true, ys, e') /\
    map (fun d => fst (pred_predict p (fst d))) data = map (fun y => Ok (AClass y)) ys.
Proof.
  intros L n ncls s rs mode excl junk p cbs e data out HF HS H2 R Hc Hp Hl HM HD.
  apply (predictor_agrees_data L n ncls s rs mode excl junk p cbs e data out); auto.
  eapply Forall_impl; [|apply HD]. intros d [D1 [D2 D3]]. split; [|split]; auto.
  intros c Hcc. split; auto.
  destruct HS as [S1 [S2 [S3 [S4 [S5 S6]]]]].
  rewrite (compile_votes_exact n s rs); auto.
  - unfold dense_wf. subst ncls. repeat split; auto. lia.
Qed.

Theorem eval_any_split : forall (L : Type) n ncls s cbs1 cbs2 (e1 e2 : exec block) (data : list (list Z * L)) out1 out2,
  Forall (flat_wf n ncls) cbs1 -> Forall (flat_wf n ncls) cbs2 ->
  state_shape n (total_clauses cbs1) ncls s -> total_clauses cbs2 = total_clauses cbs1 ->
  Forall2 (fun f tb => block_on n ncls f (snd tb)) (save_state_in_backend s cbs1) (x_blocks e1) ->
  Forall2 (fun f tb => block_on n ncls f (snd tb)) (save_state_in_backend s cbs2) (x_blocks e2) ->
  fb_ready ncls (x_fb e1) -> fb_ready ncls (x_fb e2) ->
  Forall (fun d => length (fst d) = n /\ binary (fst d)) data ->
  length out1 = length data -> length out2 = length data ->
  fst (eval_predict block (list Z) dense_eval_ex L data out1 e1) =
  fst (eval_predict block (list Z) dense_eval_ex L data out2 e2).
Proof.
  intros L n ncls s cbs1 cbs2 e1 e2 data out1 out2 F1 F2 HS Ht B1 B2 R1 R2 HD O1 O2.
  assert (HS2 : state_shape n (total_clauses cbs2) ncls s) by (rewrite Ht; auto).
  destruct (blocks_on_state n ncls s cbs1 _ F1 HS B1) as [A1 [A2 A3]].
  destruct (blocks_on_state n ncls s cbs2 _ F2 HS2 B2) as [A4 [A5 A6]].
  destruct (eval_predict_map n ncls L data out1 e1 A3 R1 O1) as [e1' E1].
  destruct (eval_predict_map n ncls L data out2 e2 A6 R2 O2) as [e2' E2].
  rewrite E1, E2. cbn [fst]. f_equal. rewrite !map_map. apply map_ext_in. intros d Hd.
  rewrite Forall_forall in HD. destruct (HD d Hd) as [D1 D2].
  apply (eval_block_split n ncls); auto; congruence.
Qed.

(** The per-class votes registered for one example are those of the whole
    clause list, for every split. *)
Definition registered_votes (bs : list (bool * block)) (fb : fblock) (x : list Z) : list Z :=
  fb_votes (snd (run_examples block (list Z) dense_eval_ex x bs (fb_reset fb))).

Theorem eval_votes_state : forall n ncls s cbs bs fb x c,
  Forall (flat_wf n ncls) cbs -> state_shape n (total_clauses cbs) ncls s ->
  Forall2 (fun f tb => block_on n ncls f (snd tb)) (save_state_in_backend s cbs) bs ->
  fb_ready ncls fb -> length x = n -> binary x -> (c < ncls)%nat ->
  nth c (registered_votes bs fb x) 0 = wrap16 (clause_vote_total n x (ds_c s) (ds_w s) c).
Proof.
  intros n ncls s cbs bs fb x c HF HS H2 R Hx Hb Hc.
  destruct (blocks_on_state n ncls s cbs bs HF HS H2) as [A1 [A2 A3]].
  destruct (run_eval_votes n ncls x bs (fb_reset fb) c A3 Hx Hb (fb_reset_ready _ _ R) Hc) as [_ V].
  { cbn [fb_reset fb_votes]. rewrite nth_repeat0. reflexivity. }
  unfold registered_votes. rewrite V. cbn [fb_reset fb_votes]. rewrite nth_repeat0, Z.add_0_l.
  rewrite (blocks_total_all n ncls) by auto. rewrite A1, A2. reflexivity.
Qed.

(** ** predict *)

Definition rule_totals (s : inference) (x : list Z) : list Z :=
  map (rule_vote_total (inf_nlit s) x (inf_rules s) (inf_weights s)) (seq 0 (inf_ncls s)).

Theorem predict_correct : forall s x, inf_wf s -> length x = inf_nlit s -> (inf_empty s < inf_ncls s)%nat ->
  (forall c, (c < inf_ncls s)%nat -> is_int32 (rule_vote_total (inf_nlit s) x (inf_rules s) (inf_weights s) c)) ->
  let k := fst (inf_predict s x) in
  (k < inf_ncls s)%nat /\
  ((exists r, In r (inf_rules s) /\ conj_true (inf_nlit s) x r = true) -> first_argmax (rule_totals s x) k) /\
  ((forall r, In r (inf_rules s) -> conj_true (inf_nlit s) x r = false) -> k = inf_empty s) /\
  inf_votes (snd (inf_predict s x)) = rule_totals s x.
Proof.
  intros s x W Hx He Hfit k.
  assert (V : inf_votes (snd (inf_predict s x)) = rule_totals s x).
  { apply nth_ext with (d := 0) (d' := 0).
    - rewrite inf_predict_votes_length by auto. unfold rule_totals. rewrite map_length, seq_length. auto.
    - intros c Hc. rewrite inf_predict_votes_length in Hc by auto. rewrite inf_predict_votes by auto.
      unfold rule_totals. rewrite nth_map_seq by auto. apply wrap32_small. auto. }
  pose proof (inf_predict_fst s x W Hx) as K. fold k in K. rewrite V in K.
  assert (Ne : rule_totals s x <> []).
  { unfold rule_totals. intros E. apply (f_equal (@length Z)) in E. rewrite map_length, seq_length in E. simpl in E. lia. }
  pose proof (argmax_spec (rule_totals s x) Ne) as AM.
  destruct (matching_from (inf_nlit s) x 0 (inf_rules s)) as [|a l] eqn:M.
  - pose proof (proj1 (matching_nil_iff (inf_nlit s) x (inf_rules s) 0) M) as N. rewrite Forall_forall in N.
    split; [|split; [|split]]; auto; try lia. intros [r [H1 H2]]. rewrite (N r H1) in H2. discriminate.
  - split; [|split; [|split]]; auto.
    + rewrite K. destruct AM as [L _]. unfold rule_totals in L at 2. rewrite map_length, seq_length in L. exact L.
    + intros _. rewrite K. exact AM.
    + intros N. exfalso. assert (E : matching_from (inf_nlit s) x 0 (inf_rules s) = []).
      { apply matching_nil_iff. apply Forall_forall. exact N. }
      congruence.
Qed.

(** ** explain *)

Lemma pred_predict_inf : forall p x, p_inf (snd (pred_predict p x)) = snd (inf_predict (p_inf p) x) /\
  p_mode (snd (pred_predict p x)) = p_mode p /\ p_excl (snd (pred_predict p x)) = p_excl p /\
  p_names (snd (pred_predict p x)) = p_names p /\ p_last (snd (pred_predict p x)) = Some (fst (inf_predict (p_inf p) x)).
Proof.
  intros p x. unfold pred_predict. destruct (inf_predict (p_inf p) x) as [k inf].
  destruct (p_names p); [destruct (nth_error l k)|]; simpl; auto.
Qed.

Lemma inv_lookup_last : forall names i k,
  match inv_lookup i names k with
  | Some y => (i <= y)%nat /\ nth_error names (y - i) = Some k /\ forall j, (y - i < j)%nat -> nth_error names j <> Some k
  | None => ~ In k names
  end.
Proof.
  induction names as [|s r IH]; intros i k; cbn [inv_lookup]; [easy|].
  specialize (IH (S i) k). destruct (inv_lookup (S i) r k) as [y|].
  - destruct IH as [H1 [H2 H3]]. split; [lia|]. replace (y - i)%nat with (S (y - S i)) by lia. cbn [nth_error]. split; [auto|].
    intros [|j] Hj; [lia|]. cbn [nth_error]. apply H3. lia.
  - destruct (Nat.eqb_spec s k) as [E|E].
    + subst. rewrite Nat.sub_diag. split; [lia|]. split; [reflexivity|]. intros [|j] Hj; [lia|]. cbn [nth_error].
      intros C. apply IH. eapply nth_error_In; eauto.
    + intros [C|C]; auto.
Qed.

Lemma last_index_lookup : forall names k y, last_index names k y -> inv_lookup 0 names k = Some y.
Proof.
  intros names k y [H1 H2]. pose proof (inv_lookup_last names 0 k) as L. destruct (inv_lookup 0 names k) as [z|].
  - destruct L as [_ [L1 L2]]. rewrite Nat.sub_0_r in *. f_equal.
    destruct (Nat.lt_trichotomy y z) as [E|[E|E]]; auto; exfalso; [now apply (H2 z E)|now apply (L2 y E)].
  - exfalso. apply L. eapply nth_error_In; eauto.
Qed.

Theorem explain_correct : forall p x t y, inf_wf (p_inf p) -> Forall (@NoDup nat) (inf_rules (p_inf p)) ->
  p_mode p = XLiterals -> length x = inf_nlit (p_inf p) ->
  (match t with
   | None => y = fst (inf_predict (p_inf p) x)
   | Some k => match p_names p with None => y = k | Some names => last_index names k y end
   end) ->
  (forall l, (l < 2 * inf_nlit (p_inf p))%nat ->
     is_int32 (literal_contribution (inf_nlit (p_inf p)) x (p_excl p) (inf_rules (p_inf p)) (inf_weights (p_inf p)) y l)) ->
  fst (pred_explain_target (snd (pred_predict p x)) t) =
  Ok (map (literal_contribution (inf_nlit (p_inf p)) x (p_excl p) (inf_rules (p_inf p)) (inf_weights (p_inf p)) y)
          (seq 0 (2 * inf_nlit (p_inf p)))).
Proof.
  intros p x t y W Hnd M Hx Hy Hfit.
  destruct (pred_predict_inf p x) as [E1 [E2 [E3 [E4 E5]]]].
  assert (K : inf_imp (inf_explain (p_excl p) (snd (inf_predict (p_inf p) x)) y) =
    map (literal_contribution (inf_nlit (p_inf p)) x (p_excl p) (inf_rules (p_inf p)) (inf_weights (p_inf p)) y)
        (seq 0 (2 * inf_nlit (p_inf p)))).
  { pose proof W as [_ [_ [_ W4]]]. apply nth_ext with (d := 0) (d' := 0).
    - rewrite inf_explain_length. destruct (inf_predict_frame (p_inf p) x) as [_ [_ [_ [_ [_ F]]]]].
      rewrite F, W4, map_length, seq_length. auto.
    - intros l Hl. rewrite inf_explain_length in Hl. destruct (inf_predict_frame (p_inf p) x) as [_ [_ [_ [_ [_ F]]]]].
      rewrite F, W4 in Hl. rewrite inf_explain_imp by auto. rewrite nth_map_seq by auto. apply wrap32_small. auto. }
  unfold pred_explain_target. rewrite E2, E4, E5, M. unfold explain_class. rewrite E1, E3.
  destruct t as [t|].
  - destruct (p_names p) as [names|].
    + rewrite (last_index_lookup _ _ _ Hy). cbn [fst]. rewrite K. reflexivity.
    + subst y. cbn [fst]. rewrite K. reflexivity.
  - subst y. cbn [fst]. rewrite K. reflexivity.
Qed.

Lemma explain_unknown : forall p x k names, p_mode p = XLiterals -> p_names p = Some names -> ~ In k names ->
  fst (pred_explain_target (snd (pred_predict p x)) (Some k)) = Raise ValueError.
Proof.
  intros p x k names M N H. destruct (pred_predict_inf p x) as [E1 [E2 [E3 [E4 E5]]]].
  unfold pred_explain_target. rewrite E2, E4, M, N.
  pose proof (inv_lookup_last names 0 k) as L. destruct (inv_lookup 0 names k) as [z|]; [|reflexivity].
  exfalso. apply H. destruct L as [_ [L _]]. eapply nth_error_In; eauto.
Qed.

(** ** Compilation *)

Theorem compile_spec : forall n s, dense_wf n s ->
  exists rs, compile_from_dense_state s = Ok rs /\
    rs_nliterals rs = n /\ rs_nclasses rs = ds_nclasses s /\
    NoDup (rs_rules rs) /\ ~ In [] (rs_rules rs) /\
    length (rs_rules rs) = length (rs_weights rs) /\ rows_of (ds_nclasses s) (rs_weights rs) /\
    (forall r, In r (rs_rules rs) <->
       r <> [] /\ exists i row w, nth_error (ds_c s) i = Some row /\ nth_error (ds_w s) i = Some w /\
                                  included row = r /\ exists v, In v w /\ v <> 0) /\
    (forall k r c, nth_error (rs_rules rs) k = Some r ->
       nth c (nth k (rs_weights rs) []) 0 = wrap16 (merged_weight (ds_c s) (ds_w s) r c)).
Proof.
  intros n s W. destruct (compile_ok n s W) as [m [E [I1 I2 I3 I4 I5]]].
  eexists. split; [exact E|]. cbn [rs_nliterals rs_nclasses rs_rules rs_weights].
  split; auto. split; auto. split; auto. split; auto. rewrite !map_length. split; auto. split.
  { unfold rows_of. rewrite Forall_map. exact I3. }
  split.
  - intros r. rewrite I4. split; intros [H1 [i [row [w [H2 [H3 [H4 H5]]]]]]]; split; auto;
      exists i, row, w; split; auto; split; auto; split; auto.
    + unfold all_zero in H5. clear - H5. induction w as [|v w IH]; simpl in H5; [discriminate|].
      destruct (v =? 0) eqn:Z; [destruct (IH H5) as [u [U1 U2]]; exists u; split; simpl; auto|].
      exists v. split; simpl; auto. lia.
    + destruct H5 as [v [V1 V2]]. unfold all_zero. apply not_true_iff_false. intros A.
      rewrite forallb_forall in A. specialize (A v V1). lia.
  - intros k r c Hk.
    rewrite nth_error_map in Hk. destruct (nth_error m k) as [[r' w]|] eqn:Em; simpl in Hk; inversion Hk; subst.
    assert (Hin : In r (map fst m)) by (apply in_map_iff; exists (r, w); split; auto; eapply nth_error_In; eauto).
    rewrite <- (I5 r c Hin).
    assert (Ew : nth k (map snd m) [] = w).
    { apply nth_error_nth. rewrite nth_error_map, Em. reflexivity. }
    rewrite Ew. clear - I1 Em. revert k Em. unfold rm_val.
    assert (G : forall k, nth_error m k = Some (r, w) -> rm_get r m = Some w).
    { induction m as [|[r0 w0] m IH]; intros k Hk; [destruct k; discriminate|].
      simpl. inversion I1; subst. destruct k as [|k]; simpl in Hk.
      - inversion Hk; subst. rewrite (proj2 (list_nat_eqb_eq r r) eq_refl). auto.
      - destruct (list_nat_eqb r0 r) eqn:Q.
        + apply list_nat_eqb_eq in Q. subst. exfalso. apply H1. apply in_map_iff. exists (r, w). split; auto.
          eapply nth_error_In; eauto.
        + eapply IH; eauto. }
    intros k Hk. rewrite (G k Hk). auto.
Qed.

(** ** Reading blocks: frame *)

Open Scope nat_scope.
Lemma load_frame_after : forall n ncls cbs off c w, Forall (flat_wf n ncls) cbs ->
  (off + total_clauses cbs) * (n * 2) <= length c -> (off + total_clauses cbs) * ncls <= length w ->
  (forall k, (off + total_clauses cbs) * (n * 2) <= k -> nth k (fst (load_loop cbs off c w)) 0%Z = nth k c 0%Z) /\
  (forall k, (off + total_clauses cbs) * ncls <= k -> nth k (snd (load_loop cbs off c w)) 0%Z = nth k w 0%Z).
Proof.
  intros n ncls cbs. induction cbs as [|cb cbs IH]; intros off c w HF Hc Hw; cbn [load_loop]; auto.
  inversion HF as [|? ? W HF']; subst. destruct W as [W1 W2 W3 W4 W5 W6].
  assert (Ht : total_clauses (cb :: cbs) = f_ncl cb + total_clauses cbs) by reflexivity. rewrite Ht in *.
  destruct (get_clause_state_spec cb c off) as [G1 [G2 G3]]; try (rewrite ?W1; nia).
  destruct (get_clause_weights_spec cb w off) as [G4 [G5 G6]]; try (rewrite ?W2; nia).
  rewrite W1, W2 in *.
  destruct (IH (off + f_ncl cb) (get_clause_state cb c off) (get_clause_weights cb w off) HF') as [I1 I2];
    [nia|nia|].
  split; intros k Hk.
  - rewrite I1 by nia. apply G2. nia.
  - rewrite I2 by nia. apply G5. nia.
Qed.

Theorem load_frame : forall n ncls cbs off c w, Forall (flat_wf n ncls) cbs ->
  (off + total_clauses cbs) * (n * 2) <= length c -> (off + total_clauses cbs) * ncls <= length w ->
  length (fst (load_loop cbs off c w)) = length c /\ length (snd (load_loop cbs off c w)) = length w /\
  (forall k, k < off * (n * 2) \/ (off + total_clauses cbs) * (n * 2) <= k ->
     nth k (fst (load_loop cbs off c w)) 0%Z = nth k c 0%Z) /\
  (forall k, k < off * ncls \/ (off + total_clauses cbs) * ncls <= k ->
     nth k (snd (load_loop cbs off c w)) 0%Z = nth k w 0%Z).
Proof.
  intros n ncls cbs off c w HF Hc Hw.
  destruct (load_loop_frame n ncls cbs off c w HF Hc Hw) as [A1 [A2 [A3 A4]]].
  destruct (load_frame_after n ncls cbs off c w HF Hc Hw) as [B1 B2].
  split; [|split; [|split]]; auto; intros k [H|H]; auto.
Qed.
