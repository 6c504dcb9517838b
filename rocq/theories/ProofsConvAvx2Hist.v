(** The AVX2 convolutional block: whole training steps, histories, predictions
    and the case of a single patch. *)
From Coq Require Import ZArith Arith List Bool QArith Lia ZifyBool.
From Verif Require Import Base BaseProofs Spec SpecLearning ModelInference ModelDense ModelLayout ModelFeedback ModelExecutor ModelDenseExec ModelAvx2 ModelConv ModelConvAvx2
  SpecAvx2 SpecConv SpecConvAvx2 ProofsClause ProofsLayout ProofsEval ProofsLearning ProofsStep ProofsExecutor ProofsDenseExec ProofsInput
  ProofsHistory ProofsAvx2 ProofsAvx2Scalar ProofsAvx2Step ProofsAvx2Hist ProofsConv ProofsConvStep ProofsTopConv ProofsSim ProofsConvAvx2 ProofsConvAvx2Step.
Import ListNotations.
Open Scope Z_scope.

Lemma Forall_nth_lists : forall (P : list Z -> Prop) (l : list (list Z)), (forall k, (k < length l)%nat -> P (nth k l [])) -> Forall P l.
Proof.
  intros P l H. apply Forall_forall. intros a Ha. apply (In_nth _ _ []) in Ha. destruct Ha as [k [Hk <-]]. auto.
Qed.

(** ** TrainUpdate on a block whose outputs were set *)
Theorem xc_update_spec : forall bo boost n ncls x lits pc pp nc npr v, xc_ok n ncls v -> outputs_set v ->
  conv_buffer n (xc_np v) x lits -> whole_patches n (xc_np v) ->
  exists v', xc_update bo boost lits pc pp nc npr v = Some v' /\ xc_ok n ncls v' /\ xc_np v' = xc_np v /\ xclauses v' = xclauses v /\
    length (a_outputs (xc_b v')) = xclauses v /\
    a_budget (xc_b v') = a_budget (xc_b v) /\ a_cmp (xc_b v') = a_cmp (xc_b v) /\ a_votes (xc_b v') = a_votes (xc_b v) /\
    a_counts (xc_b v') = a_counts (xc_b v) /\ xc_active v' = xc_active v /\ xc_ppc v' = xc_ppc v /\ xc_rng v' = xc_rng v /\
    a_fast (xc_b v') = advance (2 * xclauses v) (a_fast (xc_b v)) /\
    forall k, (k < xclauses v)%nat -> exists rk, vrng_ok rk /\
      let t := avx_update_clause bo boost (a_budget (xc_b v)) (a_cmp (xc_b v)) (lmem_of n) (patch_mem n lits (nth k (xc_active v) O)) pc pp nc npr
                 (nth k (a_rows (xc_b v)) []) (xweights v k) (nth k (a_outputs (xc_b v)) 0) (nth k (a_counts (xc_b v)) 0) rk (advance (2 * k) (a_fast (xc_b v))) in
      nth k (a_rows (xc_b v')) [] = fst (fst (fst (fst t))) /\ xweights v' k = snd (fst (fst (fst t))) /\ nth k (a_outputs (xc_b v')) 0 = snd (fst (fst t)).
Proof.
  intros bo boost n ncls x lits pc pp nc npr v OK [OS1 [OS2 OS3]] Hb HW.
  pose proof (avx_good_rows n _ (xk_good _ _ _ OK)) as GR.
  pose proof OK as [[[O1 O2 O3 O4 O5] [R8 VR]] K1 K2 K3 K4 K5 K6 K7 K8]. unfold xclauses in *.
  unfold xc_update. rewrite O2, O3.
  destruct (xc_update_loop_some bo boost (a_budget (xc_b v)) (a_cmp (xc_b v)) n (xc_np v) x lits pc nc pp npr O1 Hb HW
    (a_rows (xc_b v)) (a_weights (xc_b v)) (a_outputs (xc_b v)) (a_counts (xc_b v)) (xc_active v) (a_vrng (xc_b v)) (a_fast (xc_b v))
    K4 OS1 GR VR OS3 OS2) as [rows2 [wss2 [outs2 [r2 [f2 [U1 [U2 [U3 [U4 [U5 [U6 [U7 U8]]]]]]]]]]]].
  rewrite U1. eexists. split; [reflexivity|]. cbv beta in U8.
  assert (W : forall k, (k < length wss2)%nat -> length (nth k wss2 []) = ncls /\ Forall is_int16 (nth k wss2 [])).
  { intros k Hk. destruct (U8 k ltac:(lia)) as [rk [VK [T1 [T2 T3]]]].
    pose proof (avx_clause_effect bo boost (a_budget (xc_b v)) (a_cmp (xc_b v)) (lmem_of n) (patch_mem n lits (nth k (xc_active v) O)) pc pp nc npr
      (nth k (a_rows (xc_b v)) []) (nth k (a_weights (xc_b v)) []) (nth k (a_outputs (xc_b v)) 0) (nth k (a_counts (xc_b v)) 0) rk (advance (2 * k) (a_fast (xc_b v)))) as E.
    destruct (avx_update_clause _ _ _ _ _ _ _ _ _ _ _ _ _ _ _ _) as [[[[row1 ws1] o1] r1] f1]. cbn [fst snd] in T2. rewrite T2.
    destruct (clause_effect_shape bo (a_budget (xc_b v)) pc pp nc npr (nth k (a_weights (xc_b v)) []) (nth k (a_outputs (xc_b v)) 0) (nth k (a_counts (xc_b v)) 0) (advance (2 * k) (a_fast (xc_b v)))) as [S1 S2].
    rewrite <- E in S1, S2. cbn [fst] in S1, S2.
    assert (IW : In (nth k (a_weights (xc_b v)) []) (a_weights (xc_b v))) by (apply nth_In; lia).
    unfold rows_of in K2. rewrite Forall_forall in K2, K3. split; [rewrite S1; auto|auto]. }
  split; [|split; [reflexivity|]].
  - constructor; unfold xclauses; cbn [xc_b xc_np xc_active xc_ppc xc_rng a_ncls a_rows a_weights a_counts]; auto; try lia.
    + split; [|split]; cbn [a_rows a_vrng]; auto.
      * constructor; cbn [a_nlit a_lmem a_mask a_rows]; auto. eapply Forall_impl; [|exact U5]. intros a Ha. apply Ha.
      * eapply Forall_impl; [|exact U5]. intros a Ha. apply Ha.
    + unfold rows_of. apply Forall_nth_lists. intros k Hk. apply (W k Hk).
    + apply Forall_nth_lists. intros k Hk. apply (W k Hk).
  - cbn [xc_b xc_np xc_active xc_ppc xc_rng a_ncls a_rows a_weights a_counts a_outputs a_budget a_cmp a_votes a_fast]. unfold xweights. cbn [xc_b a_weights].
    repeat (split; [auto; fail|]). exact U8.
Qed.

(** ** One training example *)

Definition xc_step (bo boost : bool) (lits : list Z) (pc : nat) (pp : Q) (nc : nat) (np : Q) (s : option xcblock) : option xcblock :=
  xc_upd bo boost lits pc pp nc np (fst (xc_train_ex bo lits s)).

Lemma xrow_view : forall n ncls si sm v k, xc_ok n ncls v -> (k < xclauses v)%nat -> crow (conv_view si sm v) k = xrow n v k.
Proof.
  intros n ncls si sm v k [[[O1 O2 O3 O4 O5] _] _ _ _ _ _ _ _ _] Hk. unfold xclauses in Hk.
  unfold crow, row_at, clause_at, conv_view, scalar_view, xrow. cbn [cv_b b_clauses]. rewrite O2, O3.
  rewrite (nth_indep _ dclause (row_clause n (lmem_of n) [])) by (rewrite map_length; auto). rewrite (map_nth (row_clause n (lmem_of n))). reflexivity.
Qed.

Lemma xclause_view : forall n ncls si sm v k, xc_ok n ncls v -> (k < xclauses v)%nat -> row_of (clause_at (cv_b (conv_view si sm v)) k) = xrow n v k.
Proof. intros n ncls si sm v k OK Hk. exact (xrow_view n ncls si sm v k OK Hk). Qed.

Theorem xc_step_spec : forall bo boost n ncls x lits pc pp nc npr v, xc_ok n ncls v -> conv_buffer n (xc_np v) x lits -> whole_patches n (xc_np v) ->
  exists v', xc_step bo boost lits pc pp nc npr (Some v) = Some v' /\ xc_ok n ncls v' /\ xc_np v' = xc_np v /\ xclauses v' = xclauses v /\
    a_budget (xc_b v') = a_budget (xc_b v) /\ a_cmp (xc_b v') = a_cmp (xc_b v) /\ a_fast (xc_b v') = advance (2 * xclauses v) (a_fast (xc_b v)) /\
    forall k, (k < xclauses v)%nat -> exists rk p cnt o, vrng_ok rk /\
      (let t := avx_update_clause bo boost (a_budget (xc_b v)) (a_cmp (xc_b v)) (lmem_of n) (patch_mem n lits p) pc pp nc npr
                 (nth k (a_rows (xc_b v)) []) (xweights v k) o cnt rk (advance (2 * k) (a_fast (xc_b v))) in
       nth k (a_rows (xc_b v')) [] = fst (fst (fst (fst t))) /\ xweights v' k = snd (fst (fst (fst t)))) /\
      (~ some_match n (xc_np v) x (xrow n v k) -> o = 0) /\
      (some_match n (xc_np v) x (xrow n v k) -> o = 1 /\ (p < xc_np v)%nat /\ patch_matches n x (xrow n v k) p /\
         (bo = true -> matches_first n (xc_np v) x (xrow n v k) -> cnt = n_included (xrow n v k))).
Proof.
  intros bo boost n ncls x lits pc pp nc npr v OK Hb HW.
  pose proof (xc_ok_view n ncls 0%Q 0%Q v OK) as CO.
  destruct (xc_train_scalar bo n ncls 0%Q 0%Q x lits v OK Hb HW) as [v1 [A1 [A2 [A3 [A4 [A5 [A6 [A7 [A8 A9]]]]]]]]]. cbv zeta in A8, A9.
  destruct (conv_train_spec bo x (conv_view 0 0 v) n ncls CO (proj1 Hb)) as [OK1 [E1 [E2 [E3 [E4 [E5 [E6 [E7 [E8 [_ T]]]]]]]]]].
  set (w := fst (conv_train_ex bo x (conv_view 0 0 v))) in *.
  assert (V : cv_b (conv_view 0 0 v1) = cv_b w /\ cv_active (conv_view 0 0 v1) = cv_active w).
  { destruct bo; [rewrite A8 by auto; auto|]. destruct A9 as [ppc A9]; auto. rewrite A9. auto. }
  destruct V as [V1 V2].
  assert (EW : a_weights (xc_b v1) = a_weights (xc_b v)) by (change (b_weights (cv_b (conv_view 0 0 v1)) = b_weights (cv_b (conv_view 0 0 v))); rewrite V1; exact E3).
  assert (EO : a_outputs (xc_b v1) = b_outputs (cv_b w)) by (rewrite <- V1; reflexivity).
  assert (EC : a_counts (xc_b v1) = b_counts (cv_b w)) by (rewrite <- V1; reflexivity).
  assert (EA : xc_active v1 = cv_active w) by exact V2.
  assert (EB : a_budget (xc_b v1) = a_budget (xc_b v)) by (change (b_budget (cv_b (conv_view 0 0 v1)) = b_budget (cv_b (conv_view 0 0 v))); rewrite V1; exact E4).
  assert (EF : a_fast (xc_b v1) = a_fast (xc_b v)) by (change (b_fast (cv_b (conv_view 0 0 v1)) = b_fast (cv_b (conv_view 0 0 v))); rewrite V1; exact E7).
  assert (EN : xclauses v1 = xclauses v) by (unfold xclauses; rewrite A4; reflexivity).
  destruct (xc_update_spec bo boost n ncls x lits pc pp nc npr v1 A2 A3 ltac:(rewrite A7; auto) ltac:(rewrite A7; auto))
    as [v' [U1 [U2 [U3 [U4 [U5 [U6 [U7 [U8 [U9 [U10 [U11 [U12 [U13 U14]]]]]]]]]]]]]].
  exists v'. unfold xc_step. rewrite A1. cbn [fst xc_upd]. split; [exact U1|]. split; [exact U2|]. split; [congruence|]. split; [congruence|]. split; [congruence|].
  split; [congruence|]. split; [congruence|].
  intros k Hk. destruct (U14 k ltac:(lia)) as [rk [VK UK]]. rewrite A4, A6, EB, EF in UK. unfold xweights at 1 in UK. rewrite EW in UK. fold (xweights v k) in UK.
  exists rk, (nth k (xc_active v1) O), (nth k (a_counts (xc_b v1)) 0), (nth k (a_outputs (xc_b v1)) 0). split; [exact VK|].
  split; [split; apply UK|].
  assert (EX : nclauses (conv_view 0 0 v) = xclauses v) by (unfold nclauses, xclauses, conv_view, scalar_view; cbn [cv_b b_clauses]; apply map_length).
  destruct (T k ltac:(lia)) as [m [ppck [LP [TE TN]]]]. change (cv_np (conv_view 0 0 v)) with (xc_np v) in *.
  rewrite EO, EA, EC. rewrite <- (xrow_view n ncls 0 0 v k OK Hk). split.
  - intros NS. apply TE. destruct (nil_dec _ (matching n (xc_np v) x (clause_at (cv_b (conv_view 0 0 v)) k))) as [N|N]; auto.
    exfalso. apply NS, matching_some, N.
  - intros SM. apply matching_some in SM. destruct (TN SM) as [B1 [B2 [B3 B4]]]. split; [exact B1|].
    set (j := fst (pick_index (length (matching n (xc_np v) x (clause_at (cv_b (conv_view 0 0 v)) k))) (advance m (b_rng (cv_b (conv_view 0 0 v)))))) in *.
    assert (I : In (nth j (matching n (xc_np v) x (clause_at (cv_b (conv_view 0 0 v)) k)) O) (matching n (xc_np v) x (clause_at (cv_b (conv_view 0 0 v)) k))) by (apply nth_In; auto).
    apply matching_In in I. destruct I as [I1 I2]. rewrite B3. split; [exact I1|]. split; [exact I2|].
    intros HB HF. rewrite B4 by auto. rewrite (matches_first_seq n (xc_np v) x (clause_at (cv_b (conv_view 0 0 v)) k) HF j B2). reflexivity.
Qed.

(** A clause that matches no patch, or is over its budget. *)
Theorem xc_silent : forall bo boost n ncls x lits pc pp nc npr v, xc_ok n ncls v -> conv_buffer n (xc_np v) x lits -> whole_patches n (xc_np v) ->
  exists v', xc_step bo boost lits pc pp nc npr (Some v) = Some v' /\
  forall k, (k < xclauses v)%nat ->
  (~ some_match n (xc_np v) x (xrow n v k) \/ (bo = true /\ a_budget (xc_b v) < n_included (xrow n v k) /\ matches_first n (xc_np v) x (xrow n v k))) ->
    xweights v' k = xweights v k /\
    forall j, (j < 2 * lmem_of n)%nat -> nth j (nth k (a_rows (xc_b v')) []) 0 <= nth j (nth k (a_rows (xc_b v)) []) 0.
Proof.
  intros bo boost n ncls x lits pc pp nc npr v OK Hb HW.
  destruct (xc_step_spec bo boost n ncls x lits pc pp nc npr v OK Hb HW) as [v' [S1 [S2 [S3 [S4 [S5 [S6 [S7 S8]]]]]]]].
  exists v'. split; [exact S1|]. intros k Hk HS. destruct (S8 k Hk) as [rk [p [cnt [o [VK [[T1 T2] [T3 T4]]]]]]].
  pose proof (avx_good_rows n _ (xk_good _ _ _ OK)) as GR. assert (O1 : (0 < n)%nat) by apply OK. destruct (lmem_of_facts n O1) as [F1 [F2 F3]].
  assert (SIL : (if bo && (cnt >? a_budget (xc_b v)) then 0 else o) <> 1).
  { destruct (bo && (cnt >? a_budget (xc_b v))) eqn:EB; [lia|]. destruct HS as [HS|[-> [HB HF]]]; [rewrite (T3 HS); lia|].
    intros ->. destruct (existsb (fun q => clause_matches n (nth_patch n x q) (xrow n v k)) (seq 0 (xc_np v))) eqn:EX.
    - apply existsb_exists in EX. destruct EX as [q [Q1 Q2]]. apply in_seq in Q1.
      destruct T4 as [_ [_ [_ T4]]]; [exists q; split; [lia|exact Q2]|]. rewrite T4 in EB by auto. cbn [andb] in EB. lia.
    - assert (NS : ~ some_match n (xc_np v) x (xrow n v k)).
      { intros [q [Q1 Q2]]. assert (existsb (fun q => clause_matches n (nth_patch n x q) (xrow n v k)) (seq 0 (xc_np v)) = true); [|congruence].
        apply existsb_exists. exists q. split; [apply in_seq; lia|exact Q2]. }
      specialize (T3 NS). discriminate. }
  rewrite T1, T2. clear T1 T2.
  rewrite (avx_update_clause_no_literals _ _ _ _ _ _ (repeat 0 (lmem_of n)) _ _ _ _ _ _ _ _ _ _ SIL).
  pose proof (avx_update_clause_silent (repeat 0 (lmem_of n)) (lmem_of n) ltac:(rewrite repeat_length; lia) F3 bo boost (a_budget (xc_b v)) (a_cmp (xc_b v)) pc pp nc npr
    (nth k (a_rows (xc_b v)) []) (xweights v k) o cnt rk (advance (2 * k) (a_fast (xc_b v)))) as U.
  destruct (avx_update_clause _ _ _ _ _ _ _ _ _ _ _ _ _ _ _ _) as [[[[row1 ws1] o1] r1] f1]. cbn [fst snd].
  apply U; auto. rewrite Forall_forall in GR. apply GR, nth_In. auto.
Qed.

Theorem xc_delta : forall bo boost n ncls x lits pc pp nc npr v, xc_ok n ncls v -> conv_buffer n (xc_np v) x lits -> whole_patches n (xc_np v) ->
  exists v', xc_step bo boost lits pc pp nc npr (Some v) = Some v' /\
  forall k j, (k < xclauses v)%nat -> nth j (nth k (a_rows (xc_b v)) []) 0 - 2 <= nth j (nth k (a_rows (xc_b v')) []) 0 <= nth j (nth k (a_rows (xc_b v)) []) 0 + 2.
Proof.
  intros bo boost n ncls x lits pc pp nc npr v OK Hb HW.
  destruct (xc_step_spec bo boost n ncls x lits pc pp nc npr v OK Hb HW) as [v' [S1 [S2 [S3 [S4 [S5 [S6 [S7 S8]]]]]]]].
  exists v'. split; [exact S1|]. intros k j Hk. destruct (S8 k Hk) as [rk [p [cnt [o [VK [[T1 T2] [T3 T4]]]]]]].
  pose proof (avx_good_rows n _ (xk_good _ _ _ OK)) as GR. assert (O1 : (0 < n)%nat) by apply OK. destruct (lmem_of_facts n O1) as [F1 [F2 F3]].
  assert (G : row_good (lmem_of n) (nth k (a_rows (xc_b v)) [])) by (rewrite Forall_forall in GR; apply GR, nth_In; auto).
  assert (KL : exists l, (lmem_of n <= length l)%nat /\
    avx_update_clause bo boost (a_budget (xc_b v)) (a_cmp (xc_b v)) (lmem_of n) (patch_mem n lits p) pc pp nc npr
                 (nth k (a_rows (xc_b v)) []) (xweights v k) o cnt rk (advance (2 * k) (a_fast (xc_b v))) =
    avx_update_clause bo boost (a_budget (xc_b v)) (a_cmp (xc_b v)) (lmem_of n) l pc pp nc npr
                 (nth k (a_rows (xc_b v)) []) (xweights v k) o cnt rk (advance (2 * k) (a_fast (xc_b v)))).
  { destruct (existsb (fun q => clause_matches n (nth_patch n x q) (xrow n v k)) (seq 0 (xc_np v))) eqn:EX.
    - apply existsb_exists in EX. destruct EX as [q [Q1 Q2]]. apply in_seq in Q1.
      destruct T4 as [_ [T4 _]]; [exists q; split; [lia|exact Q2]|]. exists (patch_mem n lits p). split; [|reflexivity]. apply (patch_buffer n (xc_np v) x lits p Hb T4).
    - exists (repeat 0 (lmem_of n)). split; [rewrite repeat_length; lia|]. apply avx_update_clause_no_literals. rewrite T3; [destruct (bo && _); lia|].
      intros [q [Q1 Q2]]. assert (existsb (fun q => clause_matches n (nth_patch n x q) (xrow n v k)) (seq 0 (xc_np v)) = true); [|congruence].
      apply existsb_exists. exists q. split; [apply in_seq; lia|exact Q2]. }
  destruct KL as [l [L1 L2]]. cbv zeta in T1. rewrite L2 in T1. rewrite T1.
  apply (avx_update_clause_delta l (lmem_of n) bo boost (a_budget (xc_b v)) (a_cmp (xc_b v)) pc pp nc npr (nth k (a_rows (xc_b v)) []) (xweights v k) o cnt rk (advance (2 * k) (a_fast (xc_b v))) L1 F3 G VK j).
Qed.

(** ** Weights, outputs and votes of the step are those of the scalar block *)

Lemma xc_update_effect : forall bo boost bud cmp n lmem lits pc pp nc npr si sm x rows wss outs counts aps vr f rows2 wss2 outs2 vr2 f2,
  xc_update_loop bo boost bud cmp n lmem lits pc pp nc npr rows wss outs counts aps vr f = Some (rows2, wss2, outs2, vr2, f2) ->
  forall cs r, length cs = length rows ->
  let '(cs2, wss3, outs3, r3, f3) := conv_update_loop bo boost bud si sm n x pc pp nc npr cs wss outs counts aps r f in
  wss3 = wss2 /\ outs3 = outs2 /\ f3 = f2.
Proof.
  intros bo boost bud cmp n lmem lits pc pp nc npr si sm x rows. induction rows as [|row rows IH];
    intros [|ws wss] [|o outs] counts aps vr f rows2 wss2 outs2 vr2 f2 HU [|c cs] r HL; cbn [length] in HL; try lia;
    cbn [xc_update_loop conv_update_loop] in *; try (injection HU as <- <- <- <- <-; auto; fail).
  unfold xc_update_clause in HU. destruct (draw_lt f pp) as [d1 g1] eqn:D1. destruct (draw_lt g1 npr) as [d2 g2] eqn:D2.
  destruct ((d1 || d2) && ((if bo && (hd 0 counts >? bud) then 0 else o) =? 1) && negb (patch_aligned n (hd 0%nat aps))); [discriminate|].
  pose proof (avx_clause_effect bo boost bud cmp lmem (patch_mem n lits (hd O aps)) pc pp nc npr row ws o (hd 0 counts) vr f) as E2.
  destruct (avx_update_clause _ _ _ _ _ _ _ _ _ _ _ _ _ _ _ _) as [[[[row1 ws2] o2] vr1] f3].
  pose proof (scalar_clause_effect bo boost bud si sm (ModelConv.patch n x (hd O aps)) pc pp nc npr c ws o (hd 0 counts) r f) as E1.
  destruct (train_update_clause _ _ _ _ _ _ _ _ _ _ _ _ _ _ _ _) as [[[[c1 ws1] o1] r1] f1].
  assert (E : (ws1, o1, f1) = (ws2, o2, f3)) by congruence. injection E as -> -> ->.
  destruct (xc_update_loop bo boost bud cmp n lmem lits pc pp nc npr rows wss outs (tl counts) (tl aps) vr1 f3) as [[[[[rows3 wss3] outs3] vr3] f4]|] eqn:EU; [|discriminate].
  injection HU as <- <- <- <- <-. specialize (IH _ _ _ _ _ _ _ _ _ _ _ EU cs r1 ltac:(lia)).
  destruct (conv_update_loop _ _ _ _ _ _ _ _ _ _ _ _ _ _ _ _ _ _) as [[[[cs2 wss4] outs4] r4] f5]. destruct IH as [-> [-> ->]]. auto.
Qed.

Theorem xc_step_scalar : forall bo boost n ncls si sm x lits pc pp nc npr v, xc_ok n ncls v -> conv_buffer n (xc_np v) x lits -> whole_patches n (xc_np v) ->
  exists v', xc_step bo boost lits pc pp nc npr (Some v) = Some v' /\
    let w := conv_step bo boost x pc pp nc npr (conv_view si sm v) in
    a_weights (xc_b v') = b_weights (cv_b w) /\ a_outputs (xc_b v') = b_outputs (cv_b w) /\ a_votes (xc_b v') = b_votes (cv_b w) /\
    a_counts (xc_b v') = b_counts (cv_b w) /\ xc_active v' = cv_active w /\ a_fast (xc_b v') = b_fast (cv_b w).
Proof.
  intros bo boost n ncls si sm x lits pc pp nc npr v OK Hb HW.
  destruct (xc_train_scalar bo n ncls si sm x lits v OK Hb HW) as [v1 [A1 [A2 [A3 [A4 [A5 [A6 [A7 [A8 A9]]]]]]]]]. cbv zeta in A8, A9.
  unfold conv_step. set (w := fst (conv_train_ex bo x (conv_view si sm v))) in *.
  assert (V : cv_b w = cv_b (conv_view si sm v1) /\ cv_active w = cv_active (conv_view si sm v1)).
  { destruct bo; [rewrite A8 by auto; auto|]. destruct A9 as [ppc A9]; auto. rewrite A9. auto. }
  destruct V as [V1 V2].
  destruct (xc_update_spec bo boost n ncls x lits pc pp nc npr v1 A2 A3 ltac:(rewrite A7; auto) ltac:(rewrite A7; auto)) as [v' [U1 _]].
  exists v'. unfold xc_step. rewrite A1. cbn [fst xc_upd]. split; [exact U1|].
  cbv zeta. unfold conv_update. rewrite V1, V2. unfold xc_update in U1.
  pose proof (xk_good _ _ _ A2) as [[O1 O2 O3 O4 O5] _]. rewrite O2, O3 in U1.
  destruct (xc_update_loop bo boost (a_budget (xc_b v1)) (a_cmp (xc_b v1)) n (lmem_of n) lits pc pp nc npr (a_rows (xc_b v1)) (a_weights (xc_b v1)) (a_outputs (xc_b v1))
    (a_counts (xc_b v1)) (xc_active v1) (a_vrng (xc_b v1)) (a_fast (xc_b v1))) as [[[[[rows2 wss2] outs2] vr2] f2]|] eqn:EU; [|discriminate].
  injection U1 as <-.
  cbn [conv_view scalar_view cv_b cv_np cv_active cv_ppc b_nlit b_ncls b_clauses b_weights b_outputs b_counts b_votes b_budget b_s_inv b_s_min1_inv b_rng b_fast].
  unfold scalar_view. cbn [cv_b cv_np cv_active cv_ppc b_nlit b_ncls b_clauses b_weights b_outputs b_counts b_votes b_budget b_s_inv b_s_min1_inv b_rng b_fast].
  rewrite O2, O3.
  pose proof (xc_update_effect _ _ _ _ _ _ _ _ _ _ _ si sm x _ _ _ _ _ _ _ _ _ _ _ _ EU (map (row_clause n (lmem_of n)) (a_rows (xc_b v1))) (xc_rng v1) ltac:(apply map_length)) as E.
  destruct (conv_update_loop _ _ _ _ _ _ _ _ _ _ _ _ _ _ _ _ _ _) as [[[[cs2 wss4] outs4] r4] f5]. destruct E as [-> [-> ->]].
  cbn [xc_b xc_active cv_b cv_active a_weights a_outputs a_votes a_counts a_fast b_weights b_outputs b_votes b_counts b_fast]. auto 10.
Qed.

(** ** Histories *)

Definition xc_good (n ncls np : nat) (s : option xcblock) : Prop := exists v, s = Some v /\ xc_ok n ncls v /\ xc_np v = np.
Definition xc_good1 (n ncls np : nat) (s : option xcblock) : Prop := exists v, s = Some v /\ xc_ok n ncls v /\ xc_np v = np /\ outputs_set v.

Theorem xc_history : forall (L : Type) (process : L -> fblock -> fblock) bo boost n ncls np cs (x : exec (option xcblock)), whole_patches n np ->
  Forall (fun c => Forall (fun d => exists e, conv_buffer n np e (fst d)) (gdata (list Z) L c)) cs ->
  Forall (fun tb => xc_good n ncls np (snd tb)) (x_blocks x) ->
  Forall (fun tb => xc_good n ncls np (snd tb))
    (x_blocks (grun (option xcblock) (list Z) (xc_train_ex bo) xc_eval_ex (xc_upd bo boost) L process cs x)).
Proof.
  intros L process bo boost n ncls np cs x HW HC HB.
  apply (grun_keep2 (option xcblock) (list Z) (xc_train_ex bo) xc_eval_ex (xc_upd bo boost) L process (xc_good n ncls np) (xc_good1 n ncls np) (fun l => exists e, conv_buffer n np e l)); auto.
  - intros e b [y He] [v [-> [OK <-]]]. destruct (xc_train_scalar bo n ncls 0%Q 0%Q y e v OK He HW) as [v1 [A1 [A2 [A3 [A4 [A5 [A6 [A7 _]]]]]]]].
    rewrite A1. exists v1. auto.
  - intros b [v [-> [OK [<- _]]]]. exists v. auto.
  - intros e pc pp nc npr b [y He] [v [-> [OK [<- OS]]]].
    destruct (xc_update_spec bo boost n ncls y e pc pp nc npr v OK OS He HW) as [v' [U1 [U2 [U3 _]]]]. cbn [xc_upd]. rewrite U1. exists v'. auto.
  - intros e b [y He] [v [-> [OK <-]]]. destruct (xc_eval_block n ncls 0%Q 0%Q y e v OK He HW) as [v1 [A1 [A2 [A3 [A4 A5]]]]].
    rewrite A1. exists v1. auto.
Qed.

Lemma xc_initialize_ok : forall std_of vec_of fast_of junk jap jppc np n ncl ncls budget s seed v, (0 < n)%nat -> (forall z, vrng_ok (vec_of z)) ->
  length junk = ncl -> length jap = ncl -> length jppc = Z.to_nat np ->
  xc_initialize std_of vec_of fast_of junk jap jppc np n ncl ncls budget s seed = Some v ->
  xc_ok n ncls v /\ xc_np v = Z.to_nat np /\ xclauses v = ncl.
Proof.
  intros std_of vec_of fast_of junk jap jppc np n ncl ncls budget s seed v Hn HV HJ HA HP H. unfold xc_initialize in H.
  destruct (avx_initialize vec_of fast_of junk n ncl ncls budget s seed) as [b|] eqn:E; [|discriminate].
  destruct (np >? 0) eqn:EN; [|discriminate]. injection H as <-.
  destruct (avx_initialize_good _ _ _ _ _ _ _ _ _ _ Hn HV E) as [G LR].
  unfold avx_initialize in E. destruct (seed =? 0); [discriminate|]. destruct (avx_init_rows n ncl (fast_of seed)) as [rows f].
  pose proof (init_weights_spec ncls ncl f) as W. destruct (init_weights ncls ncl f) as [ws f2]. injection E as <-. cbn [a_rows] in LR.
  unfold xclauses. cbn [xc_b xc_np a_rows]. split; [|auto].
  destruct W as [W1 [W2 W3]].
  assert (WR : Forall (fun w => length w = ncls) ws).
  { apply Forall_nth_lists. intros k Hk. apply (W3 k). lia. }
  assert (WI : Forall (Forall is_int16) ws).
  { apply Forall_nth_lists. intros k Hk. destruct (W3 k ltac:(lia)) as [A1 A2]. apply Forall_forall. intros w Hw. apply (In_nth _ _ 7) in Hw.
    destruct Hw as [i [Hi <-]]. rewrite A2 by lia. destruct (Qlt_bool _ _); unfold is_int16; lia. }
  constructor; unfold xclauses; cbn [xc_b xc_np xc_active xc_ppc a_ncls a_weights a_counts a_rows]; auto; try lia.
Qed.

(** ** Predictions *)

Lemma xrows_view : forall n ncls v, xc_ok n ncls v -> map row_of (b_clauses (cv_b (conv_view 0 0 v))) = xrows n (Some v).
Proof.
  intros n ncls v OK. unfold xrows. apply (nth_ext _ _ (row_of dclause) []).
  - rewrite map_length, map_length, seq_length. unfold conv_view, scalar_view, xclauses. cbn [cv_b b_clauses]. apply map_length.
  - intros k Hk. rewrite map_length in Hk. unfold conv_view, scalar_view in Hk. cbn [cv_b b_clauses] in Hk. rewrite map_length in Hk. fold (xclauses v) in Hk.
    rewrite map_nth. rewrite (nth_indep _ [] (xrow n v O)) by (rewrite map_length, seq_length; auto). rewrite map_nth. rewrite seq_nth by auto.
    apply (xclause_view n ncls 0 0 v k OK Hk).
Qed.

Theorem xc_predict : forall L n ncls np (data : list (list Z * L)) xs out (e : exec (option xcblock)), whole_patches n np ->
  Forall (fun tb => xc_good n ncls np (snd tb)) (x_blocks e) -> fb_ready ncls (x_fb e) ->
  Forall2 (conv_buffer n np) xs (map fst data) -> length out = length data ->
  exists e', eval_predict (option xcblock) (list Z) xc_eval_ex L data out e =
    (true, map (fun x => argmax (map (fun c => wrap16 (xc_total n np x (x_blocks e) c)) (seq 0 ncls))) xs, e').
Proof.
  intros L n ncls np data xs out e HW HB HR HD HL.
  set (view := fun s : option xcblock => match s with Some v => conv_view 0 0 v | None => mkCv (mkBlock 0 0 [] [] [] [] [] 0 0 0 (mkRng (fun _ => 0%Q) 0) (mkRng (fun _ => 0%Q) 0)) 0 [] [] end).
  set (cdata := map2 (fun x (d : list Z * L) => (x, snd d)) xs data).
  set (e2 := mkExec (map (fun tb => (fst tb, view (snd tb))) (x_blocks e)) (x_fb e) (x_index e) (x_rng e)).
  set (RR := fun (s : option xcblock) (w : cvblock) => exists v, s = Some v /\ xc_ok n ncls v /\ xc_np v = np /\ w = conv_view 0 0 v).
  assert (LX : length xs = length data) by (rewrite (Forall2_len _ _ _ _ _ HD); apply map_length).
  assert (LCD : length cdata = length data).
  { unfold cdata. clear -LX. revert data LX. induction xs as [|y ys IH]; intros [|d ds] H; cbn [length map2] in *; auto. }
  assert (FCD : map fst cdata = xs).
  { unfold cdata. clear -LX. revert data LX. induction xs as [|y ys IH]; intros [|d ds] H; cbn [length map2 map fst] in *; try lia; auto. f_equal. apply IH. lia. }
  destruct (eval_predict_sim (option xcblock) cvblock (list Z) (list Z) xc_eval_ex conv_eval_ex L RR (fun l x => conv_buffer n np x l)) with (ds1 := data) (ds2 := cdata) (out := out) (x1 := e) (x2 := e2) as [S1 S2].
  - intros l x s w Hlx [v [-> [OK [<- ->]]]]. destruct (xc_eval_block n ncls 0%Q 0%Q x l v OK Hlx HW) as [v1 [A1 [A2 [A3 [A4 A5]]]]]. rewrite A1. cbn [fst snd].
    split; [|reflexivity]. exists v1. rewrite A2. auto.
  - unfold cdata, same_example. clear -HD. revert xs HD. induction data as [|d ds IH]; intros [|y ys] H; cbn [map] in H; inversion H; subst; cbn [map2]; constructor; auto.
  - unfold exec_alike, e2. cbn [x_blocks x_fb x_index x_rng]. split; [|auto]. clear -HB. induction HB as [|tb bs [v [E1 [OK E2]]] HB IH]; cbn [map]; constructor; auto.
    split; cbn [fst snd]; [reflexivity|]. rewrite E1. exists v. auto.
  - assert (HB2 : Forall (fun tb => conv_ok n ncls (snd tb) /\ cv_np (snd tb) = np) (x_blocks e2)).
    { unfold e2. cbn [x_blocks]. apply Forall_map. eapply Forall_impl; [|exact HB]. intros tb [v [E1 [OK E2]]]. cbn [snd]. rewrite E1. cbn [view].
      split; [apply xc_ok_view; auto|exact E2]. }
    destruct (conv_predict L n ncls np cdata out e2 HB2 HR) as [e3 EP].
    + apply Forall_forall. intros d Hd. assert (I : In (fst d) xs) by (rewrite <- FCD; apply in_map; auto).
      clear -HD I. remember (map fst data) as ls. clear Heqls. induction HD as [|y l ys ls K HD IH]; [easy|]. destruct I as [<-|I]; auto. apply K.
    + lia.
    + destruct (eval_predict (option xcblock) (list Z) xc_eval_ex L data out e) as [[ok ys] e1] eqn:EE. rewrite EP in S1. cbn [fst] in S1. injection S1 as -> ->.
      exists e1. f_equal. f_equal. rewrite <- FCD. rewrite map_map. apply map_ext. intros d. f_equal. apply map_ext. intros c. f_equal.
      unfold conv_total, xc_total, e2. cbn [x_blocks]. rewrite map_map. f_equal. clear -HB. induction HB as [|tb bs [v [E1 [OK E2]]] HB IH]; cbn [map]; [reflexivity|]. f_equal; [|exact IH].
      cbn [snd]. rewrite E1. cbn [view xwts]. rewrite (xrows_view n ncls v OK). reflexivity.
Qed.

(** ** Patches that are not whole vectors *)

Lemma second_patch_misaligned : forall n, (n mod 32 <> 0)%nat -> patch_aligned n 1 = false.
Proof. intros n H. unfold patch_aligned. rewrite Nat.mul_1_l. apply Nat.eqb_neq. exact H. Qed.

Lemma fold_none : forall bo n lmem mask lits row ks, fold_left (xc_patch_step bo n lmem mask lits row) ks None = None.
Proof. intros. induction ks as [|k ks IH]; cbn [fold_left xc_patch_step]; auto. Qed.

Theorem xc_train_ragged : forall bo lits v, (a_nlit (xc_b v) mod 32 <> 0)%nat -> (2 <= xc_np v)%nat -> (0 < xclauses v)%nat ->
  (0 < length (xc_active v))%nat -> (0 < length (a_counts (xc_b v)))%nat -> xc_train_ex bo lits (Some v) = (None, []).
Proof.
  intros bo lits v HM HN HC HA HT. unfold xc_train_ex, xc_set_output, xclauses in *.
  destruct (a_rows (xc_b v)) as [|row rows]; [cbn [length] in HC; lia|].
  destruct (xc_active v) as [|ap aps]; [cbn [length] in HA; lia|]. destruct (a_counts (xc_b v)) as [|c cs]; [cbn [length] in HT; lia|].
  cbn [xc_output_loop]. unfold xc_clause_output, xc_patches.
  destruct (xc_np v) as [|[|np]]; [lia|lia|]. change (seq 0 (S (S np))) with (0 :: 1 :: seq 2 np)%nat. cbn [fold_left].
  assert (E : forall acc, xc_patch_step bo (a_nlit (xc_b v)) (a_lmem (xc_b v)) (a_mask (xc_b v)) lits row acc 1 = None).
  { intros [[st ppc]|]; [|reflexivity]. cbn [xc_patch_step]. rewrite second_patch_misaligned; auto. }
  rewrite E, fold_none. reflexivity.
Qed.

Theorem xc_eval_ragged_block : forall n ncls x lits v, xc_ok n ncls v -> conv_buffer n (xc_np v) x lits -> (n mod 32 <> 0)%nat -> (2 <= xc_np v)%nat ->
  xc_eval_ex lits (Some v) = (None, []) <-> exists k, (k < xclauses v)%nat /\ patch_fires n x (xrow n v k) 0 = false.
Proof.
  intros n ncls x lits v [[[O1 O2 O3 O4 O5] _] _ _ _ _ _ _ _ _] Hb HM HN. unfold xc_eval_ex, xc_eval_set, xclauses, xrow. rewrite O2, O3, O4.
  destruct (xc_np v) as [|[|np]] eqn:EN; [lia|lia|].
  assert (K : match xc_eval_loop n (lmem_of n) (S (S np)) (mask_of n) lits (a_rows (xc_b v)) with
              | None => exists k, (k < length (a_rows (xc_b v)))%nat /\ patch_fires n x (let row := nth k (a_rows (xc_b v)) [] in firstn n row ++ slice row (lmem_of n) n) 0 = false
              | Some _ => forall k, (k < length (a_rows (xc_b v)))%nat -> patch_fires n x (let row := nth k (a_rows (xc_b v)) [] in firstn n row ++ slice row (lmem_of n) n) 0 = true
              end).
  { clear -O1 O5 Hb HM. induction O5 as [|row rows H1 HF IH]; cbn [xc_eval_loop].
    - intros k Hk. cbn [length] in Hk. lia.
    - rewrite (xc_eval_ragged n (S (S np)) x lits row O1 Hb H1 np HM eq_refl). unfold row_of. cbn [row_clause cl_pos cl_neg].
      destruct (patch_fires n x (firstn n row ++ slice row (lmem_of n) n) 0) eqn:EF.
      + destruct (xc_eval_loop n (lmem_of n) (S (S np)) (mask_of n) lits rows).
        * intros [|k] Hk; cbn [nth]; auto. apply IH. cbn [length] in Hk. lia.
        * destruct IH as [k [K1 K2]]. exists (S k). cbn [length nth]. split; [lia|exact K2].
      + exists O. cbn [length nth]. split; [lia|exact EF]. }
  destruct (xc_eval_loop n (lmem_of n) (S (S np)) (mask_of n) lits (a_rows (xc_b v))) as [os|].
  - split; [discriminate|]. intros [k [K1 K2]]. specialize (K k K1). cbv zeta in K, K2. congruence.
  - split; auto.
Qed.
