(** Every function of the inputs can be learnt by a NEON block. *)
From Coq Require Import ZArith List Bool QArith Lia Lqa ZifyBool.
From Verif Require Import Base BaseProofs Spec SpecLearning SpecLearnable SpecAvx2 SpecNeon SpecLearnableAvx2 SpecLearnableNeon ModelInference ModelDense ModelLayout
  ModelDenseExec ModelAvx2 ModelNeon ProofsInput ProofsClause ProofsEval ProofsLearning ProofsStep ProofsFeedback ProofsLearnable ProofsLearnableAll ProofsLearnableGame
  ProofsAvx2 ProofsAvx2Scalar ProofsAvx2Step ProofsNeon ProofsNeonScalar ProofsNeonStep ProofsNeonHist.
Import ListNotations.
Open Scope Z_scope.

Lemma neon_trains_trans : forall n ncls boost p a b c, neon_trains n ncls boost p a b -> neon_trains n ncls boost p b c -> neon_trains n ncls boost p a c.
Proof.
  intros n ncls boost p a b c H. induction H as [|a x lits pc nc vr f a' H1 H2 H3 H4 H5 H6 H7 H8 H9 IH]; intros T; auto.
  apply (neon_train_more _ _ _ _ a x lits pc nc vr f); auto.
Qed.

(** ** One step that reaches one clause *)

Lemma neon_untouched : forall bo boost bud cmp lmem x pc pp nc np row ws o cnt r f,
  Qlt_bool (draw f 0) pp = false -> Qlt_bool (draw f 1) np = false ->
  neon_update_clause bo boost bud cmp lmem x pc pp nc np row ws o cnt r f = (row, ws, if bo && (cnt >? bud) then 0 else o, r, advance 2 f).
Proof.
  intros. unfold neon_update_clause. rewrite draw_lt_eq, H, draw_lt_eq.
  replace (draw (advance 1 f) 0) with (draw f 1) by (unfold draw, advance; cbn; f_equal; lia). rewrite H0, advance_advance. reflexivity.
Qed.
Lemma neon_update_fast : forall bo boost bud cmp lmem x pc pp nc np row ws o cnt r f,
  snd (neon_update_clause bo boost bud cmp lmem x pc pp nc np row ws o cnt r f) = advance 2 f.
Proof.
  intros. unfold neon_update_clause. rewrite !draw_lt_eq, advance_advance.
  destruct (Qlt_bool (draw f 0) pp); [destruct (neon_clause_update _ _ _ _ _ _ _ _ _) as [[? ?] ?]|];
    (destruct (Qlt_bool (draw (advance 1 f) 0) np); [destruct (neon_clause_update _ _ _ _ _ _ _ _ _) as [[? ?] ?]|]); reflexivity.
Qed.

Lemma neon_loop_only : forall bo boost bud cmp lmem x pc pp nc np rows wss outs counts r f k,
  length wss = length rows -> length outs = length rows -> (k < length rows)%nat ->
  (forall j, j <> k -> Qlt_bool (draw f (2 * j)) pp = false /\ Qlt_bool (draw f (2 * j + 1)) np = false) ->
  let t := neon_update_clause bo boost bud cmp lmem x pc pp nc np (nth k rows []) (nth k wss []) (nth k outs 0) (nth k counts 0) r (advance (2 * k) f) in
  let l := neon_update_loop bo boost bud cmp lmem x pc pp nc np rows wss outs counts r f in
  forall j, nth j (fst (fst (fst (fst l)))) [] = if Nat.eqb j k then fst (fst (fst (fst t))) else nth j rows [].
Proof.
  intros bo boost bud cmp lmem x pc pp nc np.
  assert (Quiet : forall rows wss outs counts r f, (forall j, Qlt_bool (draw f (2 * j)) pp = false /\ Qlt_bool (draw f (2 * j + 1)) np = false) ->
    fst (fst (fst (fst (neon_update_loop bo boost bud cmp lmem x pc pp nc np rows wss outs counts r f)))) = rows).
  { induction rows as [|c rows IH]; intros [|ws wss] [|o outs] counts r f Q; cbn [neon_update_loop]; auto.
    destruct (Q O) as [Q0 Q1]. rewrite neon_untouched by auto.
    assert (Q' : forall j, Qlt_bool (draw (advance 2 f) (2 * j)) pp = false /\ Qlt_bool (draw (advance 2 f) (2 * j + 1)) np = false).
    { intros j. rewrite !draw_advance. destruct (Q (S j)) as [A B]. replace (2 + 2 * j)%nat with (2 * S j)%nat by lia. replace (2 + (2 * j + 1))%nat with (2 * S j + 1)%nat by lia. auto. }
    specialize (IH wss outs (tl counts) r (advance 2 f) Q').
    destruct (neon_update_loop _ _ _ _ _ _ _ _ _ _ _ _ _ _ _ _) as [[[[a b] c0] d] e]. cbn in *. congruence. }
  induction rows as [|c rows IH]; intros [|ws wss] [|o outs] counts r f k L1 L2 Hk Q; cbn [length] in *; try lia.
  destruct k as [|k].
  - cbn [neon_update_loop nth]. replace (2 * 0)%nat with O by lia. rewrite advance_0.
    replace (hd 0 counts) with (nth 0 counts 0) by (destruct counts; reflexivity).
    pose proof (neon_update_fast bo boost bud cmp lmem x pc pp nc np c ws o (nth 0 counts 0) r f) as FA.
    destruct (neon_update_clause _ _ _ _ _ _ _ _ _ _ _ _ _ _ _ _) as [[[[c1 w1] o1] r1] f1]. cbn [snd] in FA. subst f1.
    assert (Q' : forall j, Qlt_bool (draw (advance 2 f) (2 * j)) pp = false /\ Qlt_bool (draw (advance 2 f) (2 * j + 1)) np = false).
    { intros j. rewrite !draw_advance. destruct (Q (S j) ltac:(lia)) as [A B]. replace (2 + 2 * j)%nat with (2 * S j)%nat by lia. replace (2 + (2 * j + 1))%nat with (2 * S j + 1)%nat by lia. auto. }
    specialize (Quiet rows wss outs (tl counts) r1 (advance 2 f) Q').
    destruct (neon_update_loop _ _ _ _ _ _ _ _ _ _ _ _ _ _ _ _) as [[[[a b] c0] d] e]. cbn in *. subst a.
    intros [|j]; reflexivity.
  - cbn [neon_update_loop nth]. destruct (Q O ltac:(lia)) as [Q0 Q1]. rewrite (neon_untouched _ _ _ _ _ _ _ _ _ _ c) by auto.
    assert (Q' : forall j, j <> k -> Qlt_bool (draw (advance 2 f) (2 * j)) pp = false /\ Qlt_bool (draw (advance 2 f) (2 * j + 1)) np = false).
    { intros j Hj. rewrite !draw_advance. destruct (Q (S j) ltac:(lia)) as [A B]. replace (2 + 2 * j)%nat with (2 * S j)%nat by lia. replace (2 + (2 * j + 1))%nat with (2 * S j + 1)%nat by lia. auto. }
    specialize (IH wss outs (tl counts) r (advance 2 f) k ltac:(lia) ltac:(lia) ltac:(lia) Q'). cbv zeta in IH.
    rewrite advance_advance in IH. replace (2 + 2 * k)%nat with (2 * S k)%nat in IH by lia.
    replace (nth k (tl counts) 0) with (nth (S k) counts 0) in IH by (destruct counts; [destruct k|]; reflexivity).
    destruct (neon_update_loop _ _ _ _ _ _ _ _ _ _ _ _ _ _ _ _) as [[[[a b] c0] d] e]. cbn in *.
    intros [|j]; cbn; auto.
Qed.

(** ** Blocks *)

Definition view (a : ablock) : block := scalar_view (1#2) (1#2) (mkRng (fun _ => 0%Q) 0) a.
Definition nlit_at (n : nat) (a : ablock) (k j : nat) : Z := nth j (row_of (row_clause n (nlmem_of n) (nth k (a_rows a) []))) 0.
Definition nwt_at (a : ablock) (k d : nat) : Z := nth d (nth k (a_weights a) []) 0.

Lemma view_ok : forall n ncls a, neon_good n a -> a_ncls a = ncls -> rows_of ncls (a_weights a) -> length (a_rows a) = length (a_weights a) ->
  Forall (Forall is_int16) (a_weights a) -> block_ok n ncls (view a).
Proof.
  intros n ncls a [[O1 O2 O3 O4 O5] [R8 VR]] N1 N2 N3 N4. constructor; [constructor|unfold view; cbn [b_clauses scalar_view]|exact N4].
  - exact N1.
  - unfold view. cbn [b_clauses scalar_view]. apply Forall_map. rewrite O2, O3. eapply Forall_impl; [|exact O5]. intros row L. cbv beta in L.
    split; [apply (nrc_pos_len n row O1 L)|apply (nrc_neg_len n row O1 L)].
  - exact N2.
  - unfold view. cbn [b_clauses b_weights scalar_view]. rewrite map_length. exact N3.
  - apply Forall_map. eapply Forall_impl; [|exact R8]. intros row R. unfold row_clause, int8s, slice. cbn [cl_pos cl_neg]. unfold row8 in R.
    split; apply Forall_forall; intros v Hv; (rewrite Forall_forall in R; apply R); [rewrite <- (firstn_skipn (a_nlit a) row); apply in_or_app; auto|].
    rewrite <- (firstn_skipn (a_lmem a) row). apply in_or_app. right. rewrite <- (firstn_skipn (a_nlit a) (skipn (a_lmem a) row)). apply in_or_app. left. exact Hv.
Qed.

Lemma outs_total_one : forall c outs ws k, length outs = length ws -> (k < length outs)%nat -> nth k outs 0 = 1 ->
  (forall j, (j < length outs)%nat -> j <> k -> nth j outs 0 <> 1 \/ nth c (nth j ws []) 0 = 0) -> outs_total outs ws c = nth c (nth k ws []) 0.
Proof.
  unfold outs_total. intros c.
  assert (Zero : forall outs ws, length outs = length ws -> (forall j, (j < length outs)%nat -> nth j outs 0 <> 1 \/ nth c (nth j ws []) 0 = 0) ->
    zsum (map2 (fun o w => if o =? 1 then nth c w 0 else 0) outs ws) = 0).
  { induction outs as [|o outs IH]; intros [|w ws] L H; cbn [length map2 zsum] in *; try lia.
    rewrite IH; [|lia|intros j Hj; apply (H (S j)); lia]. destruct (H O ltac:(lia)) as [E|E]; cbn [nth] in E.
    - apply Z.eqb_neq in E. rewrite E. reflexivity.
    - destruct (o =? 1); lia. }
  induction outs as [|o outs IH]; intros [|w ws] k L Hk E H; cbn [length map2 zsum] in *; try lia. destruct k as [|k].
  - cbn [nth] in *. subst o. cbn [Z.eqb Pos.eqb]. rewrite Zero; [lia|lia|]. intros j Hj. apply (H (S j)); lia.
  - cbn [nth] in E |- *. rewrite (IH ws k); auto; try lia; [|intros j Hj N; apply (H (S j)); lia]. destruct (H O ltac:(lia) ltac:(lia)) as [Y|Y]; cbn [nth] in Y.
    + apply Z.eqb_neq in Y. rewrite Y. reflexivity.
    + destruct (o =? 1); lia.
Qed.

Section Neon.
  Variables (n ncls ncl : nat) (boost : bool) (p : probs).
  Hypothesis Hncls : (2 <= ncls)%nat.
  Hypothesis HP : forall cs ws x pc nc, (0 < fst (p cs ws x pc nc) < 1)%Q /\ (0 < snd (p cs ws x pc nc) < 1)%Q.

  Record nok (a : ablock) : Prop := {
    nk_good : neon_good n a;
    nk_view : block_ok n ncls (view a);
    nk_len : length (a_rows a) = ncl;
    nk_cmp : -127 <= a_cmp a <= 127;
    nk_budget : Z.of_nat n <= a_budget a
  }.
  Notation only_k := (only ablock nok (nlit_at n) nwt_at).

  Definition pad (x : list Z) : list Z := x ++ repeat 0 (nlmem_of n - n).
  Lemma pad_buffer : forall x, (0 < n)%nat -> length x = n -> nbuffer_of n x (pad x).
  Proof.
    intros x Hn L. destruct (nlmem_of_facts n Hn) as [F1 [F2 F3]]. split; [exact L|]. unfold pad. split.
    - rewrite app_length, repeat_length. lia.
    - rewrite <- L at 1. rewrite firstn_app, firstn_all, Nat.sub_diag. cbn [firstn]. apply app_nil_r.
  Qed.
  Definition same (v : Z) : vrng := mkVrng (fun _ => repeat v 16) 0.
  Lemma same_ok : forall v, nvrng_ok (same v).
  Proof. intros v k. reflexivity. Qed.
  Lemma same_twin : forall v, twin_rng (same v).
  Proof. intros v k i Hi. cbn [vr_src same]. rewrite !nth_repeat_lt by lia. reflexivity. Qed.
  Lemma same_hit : forall cmp v h j, nhit cmp (same v) h j = (v <? cmp).
  Proof.
    intros cmp v h j. unfold nhit, vdraw. cbn [vr_src same]. rewrite nth_repeat_lt; [reflexivity|].
    apply Nat.mod_upper_bound. lia.
  Qed.

  Lemma nlit_lo : forall a k j, nok a -> (k < ncl)%nat -> (j < n)%nat -> nlit_at n a k j = nth j (nth k (a_rows a) []) 0.
  Proof.
    intros a k j [[[O1 O2 O3 O4 O5] [R8 VR]] V L _ _] Hk Hj. unfold nlit_at, row_of.
    assert (LR : length (nth k (a_rows a) []) = (2 * nlmem_of n)%nat) by (rewrite Forall_forall in O5; apply O5, nth_In; lia).
    rewrite app_nth1 by (rewrite nrc_pos_len; auto). apply nrc_pos_nth; auto.
  Qed.
  Lemma nlit_hi : forall a k j, nok a -> (k < ncl)%nat -> (j < n)%nat -> nlit_at n a k (n + j) = nth (nlmem_of n + j) (nth k (a_rows a) []) 0.
  Proof.
    intros a k j [[[O1 O2 O3 O4 O5] [R8 VR]] V L _ _] Hk Hj. unfold nlit_at, row_of.
    assert (LR : length (nth k (a_rows a) []) = (2 * nlmem_of n)%nat) by (rewrite Forall_forall in O5; apply O5, nth_In; lia).
    rewrite app_nth2 by (rewrite nrc_pos_len; auto; lia). rewrite nrc_pos_len by auto. replace (n + j - n)%nat with j by lia. apply nrc_neg_nth; auto.
  Qed.
  Lemma view_row : forall a k, nok a -> (k < ncl)%nat -> row_at (view a) k = row_of (row_clause n (nlmem_of n) (nth k (a_rows a) [])).
  Proof.
    intros a k [[[O1 O2 O3 O4 O5] [R8 VR]] V L _ _] Hk. unfold row_at, clause_at, view. cbn [b_clauses scalar_view]. f_equal.
    rewrite (nth_indep _ dclause (row_clause (a_nlit a) (a_lmem a) [])) by (rewrite map_length; lia). rewrite (map_nth (row_clause (a_nlit a) (a_lmem a))). rewrite O2, O3. reflexivity.
  Qed.
  Lemma view_count : forall a, length (b_clauses (view a)) = length (a_rows a).
  Proof. intros a. unfold view. cbn [b_clauses scalar_view]. apply map_length. Qed.
  Lemma nlit_row : forall a k j, nok a -> (k < ncl)%nat -> nth j (row_at (view a) k) 0 = nlit_at n a k j.
  Proof. intros a k j H Hk. rewrite view_row by auto. reflexivity. Qed.
  Lemma nrow_len : forall a k, nok a -> (k < ncl)%nat -> length (row_at (view a) k) = (2 * n)%nat.
  Proof.
    intros a k H Hk. destruct (clause_at_ok n ncls (view a) k (nk_view a H) ltac:(rewrite view_count, (nk_len a H); exact Hk)) as [P1 [P2 _]].
    unfold row_at, row_of. rewrite app_length. lia.
  Qed.

  (** The literals with which the clause takes part in the step. *)
  Definition takes (x : list Z) (a : ablock) (k : nat) : bool := active true n x (a_budget a) (row_at (view a) k).
  Lemma takes_yes : forall a k x, nok a -> (k < ncl)%nat -> length x = n -> binary x ->
    (forall j, (j < 2 * n)%nat -> lit_true n x j = false -> nlit_at n a k j < 0) -> takes x a k = true.
  Proof.
    intros a k x H Hk Lx Bx HN. unfold takes, active. pose proof (nrow_len a k H Hk) as LR.
    assert (IT : forall i, In i (included (row_at (view a) k)) -> (i < 2 * n)%nat /\ lit_true n x i = true).
    { intros i I. apply included_In in I. destruct I as [I1 I2]. rewrite LR in I1. split; [exact I1|]. destruct (lit_true n x i) eqn:E; [reflexivity|].
      specialize (HN i I1 E). rewrite (nth_indep _ (-1) 0) in I2 by (rewrite LR; exact I1). rewrite nlit_row in I2 by auto. lia. }
    assert (M : clause_matches n x (row_at (view a) k) = true) by (apply forallb_forall; intros i I; apply IT; exact I). rewrite M. cbn [andb negb orb].
    apply Z.leb_le. unfold n_included. pose proof (nk_budget a H) as B.
    assert (LE : (length (included (row_at (view a) k)) <= length (minterm n x))%nat).
    { apply NoDup_incl_length; [apply NoDup_filter, seq_NoDup|]. intros i I. destruct (IT i I) as [I1 I2]. apply minterm_In.
      unfold lit_true in I2. destruct (Nat.ltb i n) eqn:E.
      - apply Nat.ltb_lt in E. exists i. split; [exact E|]. destruct (nth_binary x i Bx ltac:(lia)) as [V|V]; rewrite V in *; [discriminate|reflexivity].
      - apply Nat.ltb_ge in E. exists (i - n)%nat. split; [lia|]. destruct (nth_binary x (i - n) Bx ltac:(lia)) as [V|V]; rewrite V in *; [cbn; lia|discriminate]. }
    rewrite minterm_length in LE. lia.
  Qed.
  Lemma takes_no : forall a k x i, nok a -> (k < ncl)%nat -> (i < 2 * n)%nat -> lit_true n x i = false -> 0 <= nlit_at n a k i -> takes x a k = false.
  Proof.
    intros a k x i H Hk Hi E V. unfold takes, active. destruct (clause_matches n x (row_at (view a) k)) eqn:M; [|reflexivity]. exfalso.
    pose proof (nrow_len a k H Hk) as LR.
    apply (proj1 (clause_matches_iff _ _ _)) with (i := i) in M; [congruence|lia|]. rewrite (nth_indep _ (-1) 0) by lia. rewrite nlit_row by auto. exact V.
  Qed.

  Lemma neon_aimed : forall a k x c (pos : bool) v, nok a -> (k < ncl)%nat -> (c < ncls)%nat -> length x = n -> binary x ->
    exists a', neon_trains n ncls boost p a a' /\ only_k k a a' /\
      nth k (a_rows a') [] = fst (fst (neon_clause_update boost (a_cmp a) (nlmem_of n) (nth k (a_rows a) []) (nwt_at a k c) (if pos then 1 else -1) (pad x) (if takes x a k then 1 else 0) (same v))) /\
      (forall d, d <> c -> nwt_at a' k d = nwt_at a k d) /\
      nwt_at a' k c = if takes x a k then wrap16 (nwt_at a k c + (if pos then 1 else -1)) else nwt_at a k c.
  Proof.
    intros a k x c pos v H Hk Hc Lx Bx. pose proof H as [G V L Hcmp Hbud]. pose proof G as [OK [R8 VR]]. pose proof OK as [O1 O2 O3 O4 O5].
    set (other := if Nat.eqb c 0 then 1%nat else 0%nat).
    assert (HO : (other < ncls)%nat /\ other <> c) by (unfold other; destruct (Nat.eqb_spec c 0); lia).
    set (pc := if pos then c else other). set (nc := if pos then other else c).
    assert (Hpc : (pc < ncls)%nat) by (unfold pc; destruct pos; lia). assert (Hnc : (nc < ncls)%nat) by (unfold nc; destruct pos; lia).
    destruct (HP (avx_clauses a) (a_weights a) x pc nc) as [[P1 P2] [P3 P4]].
    set (pp := fst (p (avx_clauses a) (a_weights a) x pc nc)) in *. set (np := snd (p (avx_clauses a) (a_weights a) x pc nc)) in *.
    set (f := aim k pos (qmax pp np)). set (a0 := avx_gens (same v) f a). set (a' := neon_step boost (pad x) pc pp nc np a0).
    pose proof (pad_buffer x O1 Lx) as BUF.
    assert (G0 : neon_good n a0) by (split; [constructor; auto|split; [exact R8|apply same_ok]]).
    assert (OK0 : neon_ok n a0) by apply G0.
    assert (G' : neon_good n a') by (apply neon_upd_good; [apply BUF|apply neon_train_good; exact G0]).
    pose proof (aimed_step n ncls true boost x pc nc pp np (view a) k pos (fun _ => 0%Q) V Lx Bx Hpc Hnc ltac:(rewrite view_count; lia) P1 P3) as AS. cbv zeta in AS.
    pose proof (neon_step_weights n x (pad x) a0 boost pc pp nc np (1#2) (1#2) (mkRng (fun _ => 0%Q) 0) OK0 BUF Bx) as SW. cbv zeta in SW.
    change (scalar_view (1#2) (1#2) (mkRng (fun _ => 0%Q) 0) a0) with (with_gens (mkRng (fun _ => 0%Q) 0) f (view a)) in SW.
    fold a' in SW. fold f in AS. set (s' := dense_step true boost x pc pp nc np (with_gens (mkRng (fun _ => 0%Q) 0) f (view a))) in *.
    destruct SW as [W1 [_ [_ [_ [W5 [W6 W7]]]]]]. destruct AS as [F [_ W]].
    replace (if pos then pc else nc) with c in W by (unfold pc, nc; destruct pos; reflexivity).
    assert (RT : a_cmp a' = a_cmp a /\ forall j, nth j (a_rows a') [] = if Nat.eqb j k then
       fst (fst (neon_clause_update boost (a_cmp a) (nlmem_of n) (nth k (a_rows a) []) (nwt_at a k c) (if pos then 1 else -1) (pad x) (if takes x a k then 1 else 0) (same v)))
       else nth j (a_rows a) []).
    { set (a1 := fst (neon_train_ex (pad x) a0)).
      assert (LO : length (a_outputs a1) = length (a_rows a)) by (unfold a1; cbn; rewrite !map_length; reflexivity).
      pose proof (bw_len _ _ _ (bo_wf _ _ _ V)) as LW. rewrite view_count in LW. change (b_weights (view a)) with (a_weights a) in LW.
      destruct (qmax_le pp np) as [M1 M2].
      assert (Qj : forall j, j <> k -> Qlt_bool (draw f (2 * j)) pp = false /\ Qlt_bool (draw f (2 * j + 1)) np = false).
      { intros j Hj. unfold f, aim, draw. cbn [rng_src rng_pos Nat.add].
        replace (Nat.eqb (2 * j) _) with false by (symmetry; apply Nat.eqb_neq; destruct pos; lia).
        replace (Nat.eqb (2 * j + 1) _) with false by (symmetry; apply Nat.eqb_neq; destruct pos; lia). split; apply qlt_false; auto. }
      pose proof (neon_loop_only true boost (a_budget a) (a_cmp a) (nlmem_of n) (pad x) pc pp nc np (a_rows a) (a_weights a) (a_outputs a1) (a_counts a1) (same v) f k
        ltac:(lia) LO ltac:(lia) Qj) as T. cbv zeta in T.
      assert (E : a_cmp a' = a_cmp a /\ a_rows a' = fst (fst (fst (fst (neon_update_loop true boost (a_budget a) (a_cmp a) (nlmem_of n) (pad x) pc pp nc np (a_rows a) (a_weights a)
         (a_outputs a1) (a_counts a1) (same v) f))))).
      { unfold a', neon_step, neon_upd, neon_train_update. fold a1. change (a_budget a1) with (a_budget a). change (a_cmp a1) with (a_cmp a). change (a_lmem a1) with (a_lmem a).
        rewrite O3. change (a_rows a1) with (a_rows a). change (a_weights a1) with (a_weights a). change (a_vrng a1) with (same v). change (a_fast a1) with f.
        destruct (neon_update_loop _ _ _ _ _ _ _ _ _ _ _ _ _ _ _ _) as [[[[b1 b2] b3] b4] b5]. auto. }
      destruct E as [E1 E2]. split; [exact E1|]. rewrite E2. intros j. rewrite T. destruct (Nat.eqb j k) eqn:EJ; [|reflexivity].
      set (o' := nth k (a_outputs a1) 0). set (cnt := nth k (a_counts a1) 0).
      assert (OU : ((if true && (cnt >? a_budget a) then 0 else o') =? 1) = ((if takes x a k then 1 else 0) =? 1)).
      { pose proof (step_outputs true n ncls (view a0) x k ltac:(apply view_ok; [exact G0|apply (bw_ncls _ _ _ (bo_wf _ _ _ V))|apply (bw_weights _ _ _ (bo_wf _ _ _ V))|exact LW|apply (bo_int16 _ _ _ V)]) Lx Bx ltac:(rewrite view_count; unfold a0; cbn; lia)) as SO. cbv zeta in SO.
        pose proof (neon_train_outputs n x (pad x) a0 true (1#2) (1#2) (mkRng (fun _ => 0%Q) 0) OK0 BUF Bx) as TO.
        pose proof (neon_train_counts n x (pad x) a0 (1#2) (1#2) (mkRng (fun _ => 0%Q) 0) k OK0 BUF Bx) as TC.
        change (b_outputs (fst (dense_train_ex true x (view a0)))) with (b_outputs (train_set_clause_output true x (view a0))) in SO.
        change (b_counts (fst (dense_train_ex true x (view a0)))) with (b_counts (train_set_clause_output true x (view a0))) in SO.
        change (scalar_view (1#2) (1#2) (mkRng (fun _ => 0%Q) 0) a0) with (view a0) in TO, TC. rewrite <- TO in SO.
        change (a_outputs (neon_train_on (pad x) a0)) with (a_outputs a1) in SO, TC. change (a_counts (neon_train_on (pad x) a0)) with (a_counts a1) in TC.
        change (row_at (view a0) k) with (row_at (view a) k) in SO. change (b_budget (view a0)) with (a_budget a) in SO. fold (takes x a k) in SO. rewrite <- SO. fold o'.
        fold o' cnt in TC. cbn [andb]. destruct (Z.eqb_spec o' 1) as [Y|Y].
        - rewrite <- (TC Y). destruct (cnt >? a_budget a); cbn [andb negb]; [reflexivity|]. rewrite Y. reflexivity.
        - cbn [andb]. destruct (cnt >? a_budget a); [reflexivity|]. apply Z.eqb_neq in Y. rewrite Y. reflexivity. }
      assert (CU : forall row w t, neon_clause_update boost (a_cmp a) (nlmem_of n) row w t (pad x) (if true && (cnt >? a_budget a) then 0 else o') (same v) =
         neon_clause_update boost (a_cmp a) (nlmem_of n) row w t (pad x) (if takes x a k then 1 else 0) (same v)).
      { intros row w t. unfold neon_clause_update. rewrite OU. reflexivity. }
      unfold neon_update_clause. rewrite !draw_lt_eq, !draw_advance.
      replace (2 * k + 0)%nat with (2 * k)%nat by lia. replace (2 * k + (1 + 0))%nat with (2 * k + 1)%nat by lia. rewrite !CU.
      destruct pos.
      - replace (Qlt_bool (draw f (2 * k)) pp) with true.
        2:{ symmetry. apply Qlt_bool_iff. unfold f, aim, draw. cbn [rng_src rng_pos Nat.add]. rewrite Nat.eqb_refl. exact P1. }
        replace (Qlt_bool (draw f (2 * k + 1)) np) with false.
        2:{ symmetry. apply qlt_false. unfold f, aim, draw. cbn [rng_src rng_pos Nat.add]. replace (Nat.eqb (2 * k + 1) (2 * k)) with false by (symmetry; apply Nat.eqb_neq; lia). exact M2. }
        unfold pc, nwt_at. destruct (neon_clause_update _ _ _ _ _ _ _ _ _) as [[c' w'] r']. reflexivity.
      - replace (Qlt_bool (draw f (2 * k)) pp) with false.
        2:{ symmetry. apply qlt_false. unfold f, aim, draw. cbn [rng_src rng_pos Nat.add]. replace (Nat.eqb (2 * k) (2 * k + 1)) with false by (symmetry; apply Nat.eqb_neq; lia). exact M1. }
        replace (Qlt_bool (draw f (2 * k + 1)) np) with true.
        2:{ symmetry. apply Qlt_bool_iff. unfold f, aim, draw. cbn [rng_src rng_pos Nat.add]. rewrite Nat.eqb_refl. exact P3. }
        rewrite CU. unfold nc, nwt_at. destruct (neon_clause_update _ _ _ _ _ _ _ _ _) as [[c' w'] r']. reflexivity. }
    destruct RT as [RC RT].
    assert (LR : length (a_rows a') = ncl).
    { unfold a', neon_step, neon_upd, neon_train_update. destruct (nlmem_of_facts n O1) as [F1 [F2 F3]].
      pose proof (neon_update_loop_keep (pad x) (nlmem_of n) ltac:(apply BUF) F3 true boost (a_budget a) (a_cmp a) pc pp nc np (a_rows a) (a_weights a)
        (a_outputs (fst (neon_train_ex (pad x) a0))) (a_counts (fst (neon_train_ex (pad x) a0))) (same v) f (neon_good_rows n a G) (same_ok v)) as K.
      change (a_budget (fst (neon_train_ex (pad x) a0))) with (a_budget a). change (a_cmp (fst (neon_train_ex (pad x) a0))) with (a_cmp a). change (a_lmem (fst (neon_train_ex (pad x) a0))) with (a_lmem a).
      change (a_rows (fst (neon_train_ex (pad x) a0))) with (a_rows a). change (a_weights (fst (neon_train_ex (pad x) a0))) with (a_weights a).
      change (a_vrng (fst (neon_train_ex (pad x) a0))) with (same v). change (a_fast (fst (neon_train_ex (pad x) a0))) with f. rewrite O3.
      destruct (neon_update_loop _ _ _ _ _ _ _ _ _ _ _ _ _ _ _ _) as [[[[b1 b2] b3] b4] b5]. cbn [a_rows]. destruct K as [K _]. lia. }
    assert (H' : nok a').
    { destruct F as [Fo Fl Fb Fs1 Fs2 Fr Fw]. constructor.
      - exact G'.
      - apply view_ok; [exact G'|rewrite W7; apply (bw_ncls _ _ _ (bo_wf _ _ _ Fo))|rewrite W1; apply (bw_weights _ _ _ (bo_wf _ _ _ Fo))| |rewrite W1; apply (bo_int16 _ _ _ Fo)].
        rewrite W1, LR, <- (bw_len _ _ _ (bo_wf _ _ _ Fo)). rewrite Fl, view_count. auto.
      - exact LR.
      - rewrite RC. exact Hcmp.
      - rewrite W5, Fb. exact Hbud. }
    exists a'. split; [|split; [|split; [|split]]].
    - eapply (neon_train_more _ _ _ _ a x (pad x) pc nc (same v) f); auto; [unfold pc, nc; destruct pos; destruct HO; auto|apply same_ok|apply same_twin| |apply neon_trained].
      apply aim_unit. destruct (qmax_le pp np) as [M1 M2]. split; [lra|apply qmax_lt; auto].
    - split; [exact H'|]. intros j Hj. split.
      + intros i. unfold nlit_at. rewrite RT. apply Nat.eqb_neq in Hj. rewrite Hj. reflexivity.
      + intros d. unfold nwt_at. rewrite W1. apply (fr_weights _ _ _ _ _ F j d Hj).
    - rewrite RT, Nat.eqb_refl. reflexivity.
    - intros d Hd. unfold nwt_at. rewrite W1. specialize (W d). unfold weight_at in W. fold s' in W. rewrite W. apply Nat.eqb_neq in Hd. rewrite Hd. reflexivity.
    - unfold nwt_at at 1. rewrite W1. specialize (W c). unfold weight_at at 1 in W. rewrite W, Nat.eqb_refl. rewrite clause_update_weight by (destruct pos; auto).
      change (active true n x (b_budget (view a)) (row_at (view a) k)) with (takes x a k). change (weight_at (view a) k c) with (nwt_at a k c).
      destruct (takes x a k); reflexivity.
  Qed.

  Lemma pad_nth : forall x j, length x = n -> (j < n)%nat -> nth j (pad x) 0 = nth j x 0.
  Proof. intros x j L Hj. unfold pad. apply app_nth1. lia. Qed.
  Lemma pad_non : forall x j, length x = n -> binary x -> (j < n)%nat ->
    non (pad x) j = lit_true n x j /\ negb (non (pad x) j) = lit_true n x (n + j).
  Proof.
    intros x j L B Hj. unfold non. rewrite pad_nth by auto. rewrite lit_true_pos, lit_true_neg by auto.
    destruct (nth_binary x j B ltac:(lia)) as [V|V]; rewrite V; auto.
  Qed.
  Lemma nrow_ok : forall a k, nok a -> (k < ncl)%nat -> length (nth k (a_rows a) []) = (2 * nlmem_of n)%nat /\ row8 (nth k (a_rows a) []).
  Proof.
    intros a k [[[O1 O2 O3 O4 O5] [R8 VR]] V L _ _] Hk. rewrite Forall_forall in O5, R8. split; [apply O5|apply R8]; apply nth_In; lia.
  Qed.
  Lemma nok_pos : forall a, nok a -> (0 < n)%nat.
  Proof. intros a [[[O1 _ _ _ _] _] _ _ _ _]. exact O1. Qed.

  Lemma neon_down : forall a k i, nok a -> (k < ncl)%nat -> (i < 2 * n)%nat -> 0 <= nlit_at n a k i ->
    exists a', neon_trains n ncls boost p a a' /\ only_k k a a' /\ (forall d, nwt_at a' k d = nwt_at a k d) /\
      forall j, (j < 2 * n)%nat -> nlit_at n a' k j = down8 (nlit_at n a k j).
  Proof.
    intros a k i H Hk Hi V. pose proof (nok_pos a H) as Hn. destruct (against_ok n i) as [A1 A2].
    destruct (neon_aimed a k (against n i) 0 (nwt_at a k 0 >=? 0) (-128) H Hk ltac:(lia) A1 A2) as [a' [R [F [T [W1 W2]]]]].
    rewrite (takes_no a k (against n i) i H Hk Hi (against_false n 2 0 1 ltac:(lia) ltac:(lia) ltac:(lia) i Hi) V) in T, W2.
    exists a'. split; [exact R|]. split; [exact F|]. split; [intros d; destruct (Nat.eq_dec d 0) as [->|N]; auto|].
    destruct (nlmem_of_facts n Hn) as [F1 [F2 F3]]. destruct (nrow_ok a k H Hk) as [G1 G2].
    pose proof (pad_buffer (against n i) Hn A1) as [_ [B2 _]].
    pose proof (neon_t1b_exact (a_cmp a) (pad (against n i)) (nlmem_of n) B2 F3 (nth k (a_rows a) []) (same (-128)) (same_ok _) G1 G2) as X.
    assert (E : nth k (a_rows a') [] = fst (neon_t1b (a_cmp a) (nlmem_of n) (nth k (a_rows a) []) (same (-128)))).
    { rewrite T. unfold neon_clause_update. destruct (nwt_at a k 0 >=? 0); cbn [Z.mul Z.gtb Z.compare Z.opp Pos.mul Pos.compare Pos.compare_cont Z.eqb];
      destruct (neon_t1b _ _ _ _) as [r1 r2]; reflexivity. }
    destruct (neon_t1b (a_cmp a) (nlmem_of n) (nth k (a_rows a) []) (same (-128))) as [row' r']. cbn [fst] in E. destruct X as [_ [_ [_ X]]].
    pose proof (nk_cmp a H) as HC.
    assert (X' : forall j, (j < nlmem_of n)%nat -> nth j row' 0 = down8 (nth j (nth k (a_rows a) []) 0) /\ nth (nlmem_of n + j) row' 0 = down8 (nth (nlmem_of n + j) (nth k (a_rows a) []) 0)).
    { intros j Hj. destruct (X j Hj) as [X1 X2]. rewrite !same_hit in X1, X2. replace (-128 <? a_cmp a) with true in X1, X2 by lia. auto. }
    intros j Hj. destruct (Nat.lt_ge_cases j n) as [Lt|Ge].
    - rewrite !nlit_lo by (try apply F; auto). rewrite E. apply X'. lia.
    - replace j with (n + (j - n))%nat by lia. rewrite !nlit_hi by (try apply F; auto; lia). rewrite E. apply X'. lia.
  Qed.

  Lemma neon_up : forall a k c x, nok a -> (k < ncl)%nat -> (c < ncls)%nat -> length x = n -> binary x ->
    (forall j, (j < 2 * n)%nat -> lit_true n x j = false -> nlit_at n a k j < 0) ->
    exists a', neon_trains n ncls boost p a a' /\ only_k k a a' /\ (forall d, d <> c -> nwt_at a' k d = nwt_at a k d) /\
      nwt_at a' k c = wrap16 (nwt_at a k c + (if nwt_at a k c >=? 0 then 1 else -1)) /\
      forall j, (j < 2 * n)%nat -> nlit_at n a' k j = if lit_true n x j then up8 (nlit_at n a k j) else nlit_at n a k j.
  Proof.
    intros a k c x H Hk Hc Lx Bx HN. pose proof (nok_pos a H) as Hn.
    destruct (neon_aimed a k x c (nwt_at a k c >=? 0) 127 H Hk Hc Lx Bx) as [a' [R [F [T [W1 W2]]]]].
    rewrite (takes_yes a k x H Hk Lx Bx HN) in T, W2.
    exists a'. split; [exact R|]. split; [exact F|]. split; [exact W1|]. split; [exact W2|].
    destruct (nlmem_of_facts n Hn) as [F1 [F2 F3]]. destruct (nrow_ok a k H Hk) as [G1 G2].
    pose proof (pad_buffer x Hn Lx) as [_ [B2 _]].
    pose proof (neon_t1a_exact (a_cmp a) (pad x) (nlmem_of n) B2 F3 boost (nth k (a_rows a) []) (same 127) (same_ok _) G1 G2) as X.
    assert (E : nth k (a_rows a') [] = fst (neon_t1a boost (a_cmp a) (pad x) (nlmem_of n) (nth k (a_rows a) []) (same 127))).
    { rewrite T. unfold neon_clause_update. destruct (nwt_at a k c >=? 0); cbn [Z.mul Z.gtb Z.compare Z.opp Pos.mul Pos.compare Pos.compare_cont Z.eqb Pos.eqb];
      destruct (neon_t1a _ _ _ _ _ _) as [r1 r2]; reflexivity. }
    destruct (neon_t1a boost (a_cmp a) (pad x) (nlmem_of n) (nth k (a_rows a) []) (same 127)) as [row' r']. cbn [fst] in E. destruct X as [_ [_ [_ X]]].
    pose proof (nk_cmp a H) as HC.
    intros j Hj. destruct (Nat.lt_ge_cases j n) as [Lt|Ge].
    - rewrite !nlit_lo by (try apply F; auto). rewrite E. destruct (X j ltac:(lia)) as [X1 _]. rewrite X1, same_hit. replace (127 <? a_cmp a) with false by lia.
      destruct (pad_non x j Lx Bx Lt) as [-> _]. unfold t1a_lane. rewrite orb_true_r. reflexivity.
    - replace j with (n + (j - n))%nat by lia. rewrite !nlit_hi by (try apply F; auto; lia). rewrite E. destruct (X (j - n)%nat ltac:(lia)) as [_ X1]. rewrite X1, same_hit. replace (127 <? a_cmp a) with false by lia.
      destruct (pad_non x (j - n) Lx Bx ltac:(lia)) as [_ ->]. reflexivity.
  Qed.

  Lemma neon_nudge : forall a k d (more : bool), nok a -> (k < ncl)%nat -> (d < ncls)%nat -> (forall j, (j < 2 * n)%nat -> nlit_at n a k j < 0) ->
    exists a', neon_trains n ncls boost p a a' /\ only_k k a a' /\ (forall e, e <> d -> nwt_at a' k e = nwt_at a k e) /\
      nwt_at a' k d = wrap16 (nwt_at a k d + if more then 1 else -1).
  Proof.
    intros a k d more H Hk Hd HN.
    assert (Lx : length (repeat 0 n) = n) by apply repeat_length.
    assert (Bx : binary (repeat 0 n)) by (apply Forall_forall; intros v Hv; apply repeat_spec in Hv; auto).
    destruct (neon_aimed a k (repeat 0 n) d more 0 H Hk Hd Lx Bx) as [a' [R [F [_ [W1 W2]]]]].
    rewrite (takes_yes a k (repeat 0 n) H Hk Lx Bx ltac:(intros; apply HN; auto)) in W2. exists a'. auto.
  Qed.

  Lemma nlit8 : forall a k i, nok a -> is_int8 (nlit_at n a k i).
  Proof.
    intros a k i [[[O1 O2 O3 O4 O5] [R8 VR]] V L _ _]. unfold nlit_at, row_of, row_clause, slice. cbn [cl_pos cl_neg]. apply row8_nth.
    assert (RR : row8 (nth k (a_rows a) [])).
    { destruct (Nat.lt_ge_cases k (length (a_rows a))) as [B|B]; [rewrite Forall_forall in R8; apply R8, nth_In; exact B|]. rewrite nth_overflow by exact B. constructor. }
    unfold row8 in *. rewrite Forall_forall in RR. apply Forall_forall. intros v Hv. apply RR. apply in_app_or in Hv. destruct Hv as [Hv|Hv].
    - rewrite <- (firstn_skipn n (nth k (a_rows a) [])). apply in_or_app. auto.
    - rewrite <- (firstn_skipn (nlmem_of n) (nth k (a_rows a) [])). apply in_or_app. right. rewrite <- (firstn_skipn n (skipn (nlmem_of n) (nth k (a_rows a) []))). apply in_or_app. auto.
  Qed.
  Lemma nwt16 : forall a k d, nok a -> is_int16 (nwt_at a k d).
  Proof.
    intros a k d H. pose proof (bo_int16 _ _ _ (nk_view a H)) as I. change (b_weights (view a)) with (a_weights a) in I. unfold nwt_at.
    destruct (Nat.lt_ge_cases k (length (a_weights a))) as [B|B]; [|rewrite (nth_overflow (a_weights a)) by exact B; destruct d; unfold is_int16; cbn; lia].
    rewrite Forall_forall in I. specialize (I _ (nth_In _ [] B)).
    destruct (Nat.lt_ge_cases d (length (nth k (a_weights a) []))) as [B2|B2]; [|rewrite nth_overflow by exact B2; unfold is_int16; lia].
    rewrite Forall_forall in I. apply I, nth_In, B2.
  Qed.

  Lemma neon_machine : forall (use : nat -> bool) (pt : nat -> list Z) (c : nat -> nat) a, nok a ->
    (forall k, (k < ncl)%nat -> use k = true -> length (pt k) = n /\ binary (pt k) /\ (c k < ncls)%nat) ->
    exists a', neon_trains n ncls boost p a a' /\ nok a' /\ forall k, (k < ncl)%nat ->
      (forall d, (d < ncls)%nat -> nwt_at a' k d = if use k && Nat.eqb d (c k) then 128 else 0) /\
      (use k = true -> forall j, (j < 2 * n)%nat -> (0 <= nlit_at n a' k j <-> lit_true n (pt k) j = true)).
  Proof.
    intros use pt c a H HU.
    apply (game_learn ablock (neon_trains n ncls boost p) ltac:(intros; apply neon_trained) ltac:(intros; eapply neon_trains_trans; eauto) n ncls ncl nok (nlit_at n) nwt_at
      nlit8 nwt16 neon_down neon_up neon_nudge use pt c ncl a H (le_n _) HU).
  Qed.

  Lemma neon_function : forall (f : list Z -> nat) a, nok a -> (2 ^ n <= ncl)%nat -> (forall x, length x = n -> binary x -> (f x < ncls)%nat) ->
    exists a', neon_trains n ncls boost p a a' /\ nok a' /\
      forall x lits d, nbuffer_of n x lits -> binary x -> (d < ncls)%nat -> nth d (snd (neon_eval_ex lits a')) 0 = if Nat.eqb d (f x) then 128 else 0.
  Proof.
    intros f a H HL Hf. pose proof (nok_pos a H) as Hn.
    set (pt := fun k => nth k (cube n) []). set (use := fun k => Nat.ltb k (2 ^ n)).
    assert (PT : forall k, use k = true -> length (pt k) = n /\ binary (pt k)) by (intros k U; apply cube_ok, nth_In; rewrite cube_length; apply Nat.ltb_lt; exact U).
    destruct (neon_machine use pt (fun k => f (pt k)) a H) as [a' [T [H' D]]].
    { intros k _ U. destruct (PT k U) as [Q1 Q2]. auto. }
    exists a'. split; [exact T|]. split; [exact H'|]. intros x lits d Hbuf Bx Hd. pose proof Hbuf as [Lx _].
    pose proof H' as [[OK' [R8 VR]] V' L' _ _]. pose proof OK' as [O1 O2 O3 O4 O5].
    destruct (neon_eval_exact n x lits a' OK' Hbuf Bx) as [E1 E2].
    destruct (In_nth _ _ [] (cube_In n x Lx Bx)) as [k [K1 K2]]. rewrite cube_length in K1.
    (* the rows of the points say what they should *)
    assert (INC : forall j, (j < 2 ^ n)%nat -> forall i, In i (included (row_at (view a') j)) <-> In i (minterm n (pt j))).
    { intros j Hj i. assert (U : use j = true) by (apply Nat.ltb_lt; exact Hj). destruct (D j ltac:(lia)) as [_ D2]. specialize (D2 U). destruct (PT j U) as [Q1 Q2].
      pose proof (nrow_len a' j H' ltac:(lia)) as LR. rewrite included_In, LR, minterm_In. split.
      - intros [I1 I2]. rewrite (nth_indep _ (-1) 0), nlit_row in I2 by (auto; lia). apply D2 in I2; [|exact I1]. unfold lit_true in I2. destruct (Nat.ltb i n) eqn:E.
        + apply Nat.ltb_lt in E. exists i. split; [exact E|]. destruct (nth_binary (pt j) i Q2 ltac:(lia)) as [V|V]; rewrite V in *; [discriminate|reflexivity].
        + apply Nat.ltb_ge in E. exists (i - n)%nat. split; [lia|]. destruct (nth_binary (pt j) (i - n) Q2 ltac:(lia)) as [V|V]; rewrite V in *; [cbn; lia|discriminate].
      - intros [m [M1 M2]]. assert (B : (i < 2 * n)%nat) by (destruct (nth m (pt j) 0 =? 1); lia). split; [exact B|]. rewrite (nth_indep _ (-1) 0), nlit_row by (auto; lia). apply D2; [exact B|].
        destruct (nth_binary (pt j) m Q2 ltac:(lia)) as [V|V]; rewrite V in M2; cbn [Z.eqb Pos.eqb] in M2; subst i; [rewrite lit_true_neg by auto|rewrite lit_true_pos by auto]; rewrite V; reflexivity. }
    assert (MT : forall j, (j < 2 ^ n)%nat -> (clause_matches n x (row_at (view a') j) = true <-> x = pt j)).
    { intros j Hj. assert (U : use j = true) by (apply Nat.ltb_lt; exact Hj). destruct (PT j U) as [Q1 Q2]. rewrite <- (minterm_true n (pt j) x Q1 Q2 Lx Bx).
      unfold clause_matches, conj_true. rewrite !forallb_forall. split; intros G i I; apply G; apply (INC j Hj); exact I. }
    assert (NE : forall j, (j < 2 ^ n)%nat -> included (row_at (view a') j) <> []).
    { intros j Hj Z0. pose proof (proj2 (INC j Hj (if nth 0 (pt j) 0 =? 1 then 0%nat else (n + 0)%nat))) as I. rewrite Z0 in I. apply I. apply minterm_In. exists O. auto. }
    assert (EX : forall j, (j < ncl)%nat -> existsb has_lit (map (row_clause n (nlmem_of n)) (firstn (S j) (a_rows a'))) = true).
    { intros j Hj. apply existsb_exists. exists (row_clause n (nlmem_of n) (nth 0 (a_rows a') [])). split.
      - apply in_map. rewrite <- (nth_firstn_rows (a_rows a') (S j) 0 []) by lia. apply nth_In. rewrite firstn_length. lia.
      - apply has_lit_iff. rewrite <- (view_row a' 0 H' ltac:(lia)). apply NE. pose proof (Nat.pow_nonzero 2 n ltac:(lia)). lia. }
    assert (OUT : forall j, (j < ncl)%nat -> nth j (a_outputs (fst (neon_eval_ex lits a'))) 0 = b2z (clause_matches n x (row_at (view a') j))).
    { intros j Hj. rewrite E2 by lia. rewrite EX by auto. rewrite andb_true_r, <- (view_row a' j H' Hj). reflexivity. }
    pose proof (bw_len _ _ _ (bo_wf _ _ _ V')) as LW. rewrite view_count in LW. change (b_weights (view a')) with (a_weights a') in LW.
    pose proof (bw_ncls _ _ _ (bo_wf _ _ _ V')) as NC. change (b_ncls (view a')) with (a_ncls a') in NC.
    assert (VT : nth d (snd (neon_eval_ex lits a')) 0 = wrap16 (outs_total (a_outputs (fst (neon_eval_ex lits a'))) (a_weights a') d)).
    { change (snd (neon_eval_ex lits a')) with (count_votes_loop (a_outputs (fst (neon_eval_ex lits a'))) (a_weights a') (repeat 0 (a_ncls a'))). rewrite NC.
      rewrite (count_votes_loop_nth ncls); [rewrite nth_repeat; reflexivity|apply (bw_weights _ _ _ (bo_wf _ _ _ V'))|apply repeat_length|exact Hd|rewrite nth_repeat; reflexivity]. }
    rewrite VT. rewrite (outs_total_one d _ _ k).
    - destruct (D k ltac:(lia)) as [D1 _]. specialize (D1 d Hd). unfold nwt_at in D1. rewrite D1. replace (use k) with true by (symmetry; apply Nat.ltb_lt; exact K1). cbn [andb].
      unfold pt. rewrite K2. destruct (Nat.eqb d (f x)); reflexivity.
    - lia.
    - lia.
    - rewrite OUT by lia. rewrite (proj2 (MT k K1)); [reflexivity|]. unfold pt. symmetry. exact K2.
    - intros j Hj N. rewrite E1, L' in Hj. destruct (use j) eqn:U.
      + left. apply Nat.ltb_lt in U. rewrite OUT by lia. destruct (clause_matches n x (row_at (view a') j)) eqn:E; [|discriminate]. exfalso.
        apply (MT j U) in E. apply N. pose proof (cube_NoDup n) as ND. apply (proj1 (NoDup_nth (cube n) []) ND); try (rewrite cube_length; lia).
        unfold pt in E. rewrite K2, <- E. reflexivity.
      + right. destruct (D j Hj) as [D1 _]. specialize (D1 d Hd). unfold nwt_at in D1. rewrite D1, U. reflexivity.
  Qed.

  (** Training keeps what learning needs. *)
  Lemma neon_step_ok : forall a x lits pc nc pp np vr f, nok a -> nbuffer_of n x lits -> binary x -> (pc < ncls)%nat -> (nc < ncls)%nat -> nvrng_ok vr ->
    nok (neon_step boost lits pc pp nc np (avx_gens vr f a)).
  Proof.
    intros a x lits pc nc pp np vr f H BUF Bx Hpc Hnc VR. pose proof H as [G V L Hcmp Hbud]. pose proof G as [OK [R8 _]]. pose proof OK as [O1 O2 O3 O4 O5].
    set (a0 := avx_gens vr f a). assert (G0 : neon_good n a0) by (split; [constructor; auto|split; [exact R8|exact VR]]).
    set (a' := neon_step boost lits pc pp nc np a0).
    assert (G' : neon_good n a') by (apply neon_upd_good; [apply BUF|apply neon_train_good; exact G0]).
    pose proof (neon_step_weights n x lits a0 boost pc pp nc np (1#2) (1#2) (mkRng (fun _ => 0%Q) 0) (proj1 G0) BUF Bx) as SW. cbv zeta in SW. fold a' in SW.
    change (scalar_view (1#2) (1#2) (mkRng (fun _ => 0%Q) 0) a0) with (view a0) in SW. destruct SW as [W1 [_ [_ [_ [W5 [_ W7]]]]]].
    assert (V0 : block_ok n ncls (view a0)) by (destruct V as [[V1 V2 V3 V4] V5 V6]; constructor; [constructor; auto|exact V5|exact V6]).
    pose proof (dense_step_spec true boost x pc pp nc np (view a0) n ncls V0 ltac:(apply BUF) Bx Hpc Hnc) as S. cbv zeta in S. destruct S as [S1 [S2 [S3 _]]].
    destruct (nlmem_of_facts n O1) as [F1 [F2 F3]].
    pose proof (neon_update_loop_keep lits (nlmem_of n) ltac:(apply BUF) F3 true boost (a_budget a) (a_cmp a) pc pp nc np (a_rows a) (a_weights a)
        (a_outputs (fst (neon_train_ex lits a0))) (a_counts (fst (neon_train_ex lits a0))) vr f (neon_good_rows n a G) VR) as K.
    assert (E : length (a_rows a') = length (a_rows a) /\ a_cmp a' = a_cmp a).
    { unfold a', neon_step, neon_upd, neon_train_update.
      change (a_budget (fst (neon_train_ex lits a0))) with (a_budget a). change (a_cmp (fst (neon_train_ex lits a0))) with (a_cmp a). change (a_lmem (fst (neon_train_ex lits a0))) with (a_lmem a).
      change (a_rows (fst (neon_train_ex lits a0))) with (a_rows a). change (a_weights (fst (neon_train_ex lits a0))) with (a_weights a).
      change (a_vrng (fst (neon_train_ex lits a0))) with vr. change (a_fast (fst (neon_train_ex lits a0))) with f. rewrite O3.
      destruct (neon_update_loop _ _ _ _ _ _ _ _ _ _ _ _ _ _ _ _) as [[[[b1 b2] b3] b4] b5]. cbn [a_rows a_cmp]. destruct K as [K _]. auto. }
    destruct E as [E1 E2]. constructor.
    - exact G'.
    - apply view_ok; [exact G'|rewrite W7; apply (bw_ncls _ _ _ (bo_wf _ _ _ S1))|rewrite W1; apply (bw_weights _ _ _ (bo_wf _ _ _ S1))| |rewrite W1; apply (bo_int16 _ _ _ S1)].
      rewrite W1, E1, <- (bw_len _ _ _ (bo_wf _ _ _ S1)), S2. change (length (b_clauses (view a0))) with (length (b_clauses (view a))). now rewrite view_count.
    - rewrite E1. exact L.
    - rewrite E2. exact Hcmp.
    - rewrite W5. rewrite S3. exact Hbud.
  Qed.
  Lemma neon_trains_ok : forall a a', neon_trains n ncls boost p a a' -> nok a -> nok a'.
  Proof.
    intros a a' T. induction T as [|a x lits pc nc vr f a' H1 H2 H3 H4 H5 H6 H7 H8 H9 IH]; intros H; auto.
    apply IH. eapply neon_step_ok; eauto.
  Qed.
End Neon.
