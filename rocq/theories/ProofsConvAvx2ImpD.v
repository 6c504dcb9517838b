(** Memory of the AVX2 convolutional block: calls. *)
From Coq Require Import ZArith List Bool QArith Lia ZifyBool.
From Verif Require Import Base BaseProofs Spec ModelDense ModelLayout ModelAvx2 ModelConv ModelConvAvx2 SpecAvx2 ModelSparse ModelSparseImp ModelAvx2Imp
  ModelConvAvx2Imp SpecAvx2Imp SpecConvAvx2Imp ProofsLayout ProofsSparseImp ProofsAvx2Imp ProofsAvx2ImpB ProofsAvx2ImpC ProofsAvx2ImpD ProofsAvx2ImpE
  ProofsConvAvx2Imp ProofsConvAvx2ImpB ProofsConvAvx2ImpC.
Import ListNotations.
Open Scope Z_scope.

Lemma patch_room : forall n np lits, whole_buffer n np lits -> forall k, (k < np)%nat -> patch_aligned n k = true -> (k * n + lmem_of n <= length lits)%nat.
Proof.
  intros n np lits HB k Hk PA. unfold whole_buffer in HB. rewrite HB. unfold patch_aligned in PA. apply Nat.eqb_eq in PA.
  pose proof (Nat.div_mod (k * n) 32 ltac:(lia)) as D1. rewrite PA in D1.
  assert (LE : (k * n + n <= np * n)%nat) by (transitivity (S k * n)%nat; [lia|apply Nat.mul_le_mono_r; lia]).
  pose proof (Nat.div_mod (np * n) 32 ltac:(lia)) as D2. pose proof (Nat.mod_upper_bound (np * n) 32 ltac:(lia)) as B2.
  pose proof (Nat.div_mod n 32 ltac:(lia)) as D3. pose proof (Nat.mod_upper_bound n 32 ltac:(lia)) as B3.
  unfold lmem_of. destruct (Nat.eqb_spec (n mod 32) 0) as [E|E]; lia.
Qed.

#[local] Ltac red_b := cbn [m_nlit m_lmem m_ncl m_ncls m_wmem m_mask m_clauses m_weights m_outputs m_counts m_votes m_budget m_cmp m_vrng m_fast
         a_nlit a_lmem a_mask a_ncls a_rows a_weights a_outputs a_counts a_votes a_budget a_cmp a_vrng a_fast
         xc_b xc_np xc_active xc_ppc xc_rng xi_v xi_np xi_active xi_ppc xi_rng hide].

Section calls.
Variables (bo boost pad : bool) (rest : list Z).

Lemma xset_eq : forall v lits, xshape bo pad v -> whole_buffer (a_nlit (xc_b v)) (xc_np v) lits ->
  imp_xset bo lits (xinmem bo pad rest v) = mem_of bo pad rest (xc_set_output bo lits v) /\
  forall v', xc_set_output bo lits v = Some v' ->
    xshape bo pad v' /\ Forall2 (silent_or_ok (xc_np v')) (a_outputs (xc_b v')) (xc_active v') /\
    xc_np v' = xc_np v /\ a_nlit (xc_b v') = a_nlit (xc_b v) /\ length (a_rows (xc_b v')) = length (a_rows (xc_b v)) /\ a_ncls (xc_b v') = a_ncls (xc_b v).
Proof.
  intros v lits Sh HB. pose proof (xs_b _ _ _ Sh) as SB. destruct (geom bo pad _ SB) as (q & Eq & Hq & _).
  pose proof (vs_rows _ _ _ SB) as Hr. pose proof (vs_outputs _ _ _ SB) as Ho. pose proof (vs_mask _ _ _ SB) as HM.
  pose proof (vs_fits _ _ _ SB) as (_ & F2 & _). rewrite <- (vs_lmem _ _ _ SB) in F2. pose proof (vs_lmem _ _ _ SB) as HL.
  pose proof (xs_counts _ _ _ Sh) as Hc. pose proof (xs_active _ _ _ Sh) as Ha. pose proof (xs_ppc _ _ _ Sh) as Hp. pose proof (xs_int _ _ _ Sh) as HI.
  revert Eq Hr Ho HM F2 HL. red_b. intros Eq Hr Ho HM F2 HL.
  assert (Hlen : forall k, (k < xc_np v)%nat -> patch_aligned (a_nlit (xc_b v)) k = true -> (k * a_nlit (xc_b v) + a_lmem (xc_b v) <= length lits)%nat).
  { intros k Hk PA. rewrite HL. eapply patch_room; eauto. }
  pose (s0 := inmem pad rest (hide bo (xc_b v))).
  pose proof (xset_loop bo lits (a_mask (xc_b v)) rest (a_nlit (xc_b v)) (xc_np v) (a_lmem (xc_b v)) q Eq Hq Hlen HI (a_rows (xc_b v)) [] s0 [] (a_outputs (xc_b v))
     (repeat 0 (outs_of (length (a_rows (xc_b v))) - length (a_outputs (xc_b v)))) [] (a_counts (xc_b v)) [] (xc_active v) (xc_ppc v) (xc_rng v)) as XL.
  cbn [app length] in XL. destruct XL as (X1 & X2); auto.
  change (xst bo (xc_np v) s0 (a_outputs (xc_b v) ++ repeat 0 (outs_of (length (a_rows (xc_b v))) - length (a_outputs (xc_b v)))) (a_counts (xc_b v)) (xc_active v) (xc_ppc v) (xc_rng v))
    with (xinmem bo pad rest v) in X1.
  unfold xc_set_output.
  destruct (xc_output_loop bo (a_nlit (xc_b v)) (a_lmem (xc_b v)) (xc_np v) (a_mask (xc_b v)) lits (a_rows (xc_b v)) (xc_active v) (a_counts (xc_b v)) (xc_ppc v) (xc_rng v))
    as [[[[[os aps] cnts] ppc'] r']|] eqn:EL.
  - destruct (X2 _ _ _ _ _ eq_refl) as (Y1 & Y2 & Y3 & Y4 & Y5). split.
    + cbn [mem_of]. unfold imp_xset. cbn [xinmem xi_v inmem m_mask m_ncl m_lmem]. red_b. rewrite mask_ld by exact HM. cbn [bindR].
      destruct (Nat.eqb_spec (length (a_rows (xc_b v))) 0) as [E0|E0].
      * assert (R0 : a_rows (xc_b v) = []) by (destruct (a_rows (xc_b v)); [reflexivity|discriminate]).
        rewrite R0 in EL. cbn [xc_output_loop] in EL. injection EL as <- <- <- <- <-.
        assert (O0 : a_outputs (xc_b v) = []) by (destruct (a_outputs (xc_b v)); [reflexivity|rewrite E0 in Ho; discriminate]).
        unfold xinmem, inmem. red_b. rewrite R0, O0. reflexivity.
      * rewrite (last_ok (a_lmem (xc_b v)) q Eq Hq). cbn [bindR]. rewrite X1. f_equal. unfold xst, xinmem, s0, m_set_outputs, inmem. red_b.
        do 2 f_equal. unfold widen. rewrite Y1, Ho. reflexivity.
    + intros v' E. injection E as <-. red_b. split; [|auto 8]. destruct Sh as [Sb ? ? ? ?]. constructor; red_b; auto; try lia.
      destruct Sb. constructor; revert vs_pos vs_lmem vs_mask vs_rows vs_weights vs_width vs_outputs vs_counts vs_votes vs_vec vs_fits; red_b; intros; auto.
      destruct bo; [lia|discriminate].
  - split; [|discriminate]. unfold imp_xset. cbn [xinmem xi_v inmem m_mask m_ncl m_lmem]. red_b. rewrite mask_ld by exact HM. cbn [bindR].
    destruct (Nat.eqb_spec (length (a_rows (xc_b v))) 0) as [E0|E0].
    + assert (R0 : a_rows (xc_b v) = []) by (destruct (a_rows (xc_b v)); [reflexivity|discriminate]). rewrite R0 in EL. discriminate.
    + rewrite (last_ok (a_lmem (xc_b v)) q Eq Hq). cbn [bindR]. rewrite X1. reflexivity.
Qed.

Lemma xeval_eq : forall v lits, xshape bo pad v -> whole_buffer (a_nlit (xc_b v)) (xc_np v) lits ->
  imp_xeval lits (xinmem bo pad rest v) = mem_of bo pad rest (xc_eval_set lits v) /\
  forall v', xc_eval_set lits v = Some v' ->
    xshape bo pad v' /\
    xc_np v' = xc_np v /\ a_nlit (xc_b v') = a_nlit (xc_b v) /\ length (a_rows (xc_b v')) = length (a_rows (xc_b v)) /\ a_ncls (xc_b v') = a_ncls (xc_b v).
Proof.
  intros v lits Sh HB. pose proof (xs_b _ _ _ Sh) as SB. destruct (geom bo pad _ SB) as (q & Eq & Hq & _).
  pose proof (vs_rows _ _ _ SB) as Hr. pose proof (vs_outputs _ _ _ SB) as Ho. pose proof (vs_mask _ _ _ SB) as HM.
  pose proof (vs_fits _ _ _ SB) as (_ & F2 & _). rewrite <- (vs_lmem _ _ _ SB) in F2. pose proof (vs_lmem _ _ _ SB) as HL.
  pose proof (xs_int _ _ _ Sh) as HI.
  revert Eq Hr Ho HM F2 HL. red_b. intros Eq Hr Ho HM F2 HL.
  assert (Hlen : forall k, (k < xc_np v)%nat -> patch_aligned (a_nlit (xc_b v)) k = true -> (k * a_nlit (xc_b v) + a_lmem (xc_b v) <= length lits)%nat).
  { intros k Hk PA. rewrite HL. eapply patch_room; eauto. }
  pose (s0 := inmem pad rest (hide bo (xc_b v))).
  pose proof (xeval_loop lits (a_mask (xc_b v)) rest (a_nlit (xc_b v)) (xc_np v) (a_lmem (xc_b v)) q Eq Hq Hlen HI (a_rows (xc_b v)) [] s0 [] (a_outputs (xc_b v))
     (repeat 0 (outs_of (length (a_rows (xc_b v))) - length (a_outputs (xc_b v)))) (m_counts s0)) as XL.
  cbn [app length] in XL. destruct XL as (X1 & X2); auto.
  change (m_set_outputs s0 (a_outputs (xc_b v) ++ repeat 0 (outs_of (length (a_rows (xc_b v))) - length (a_outputs (xc_b v)))) (m_counts s0)) with s0 in X1.
  unfold xc_eval_set. unfold imp_xeval. cbn [xinmem xi_v inmem m_mask m_ncl m_lmem xi_np]. red_b. rewrite mask_ld by exact HM. cbn [bindR].
  rewrite (last_ok (a_lmem (xc_b v)) q Eq Hq). cbn [bindR]. fold s0. rewrite X1.
  destruct (xc_eval_loop (a_nlit (xc_b v)) (a_lmem (xc_b v)) (xc_np v) (a_mask (xc_b v)) lits (a_rows (xc_b v))) as [os|] eqn:EL.
  - pose proof (X2 _ eq_refl) as Y1. split.
    + cbn [mem_of bindR].
      destruct (Nat.eqb_spec (length (a_rows (xc_b v))) 0) as [E0|E0].
      * assert (R0 : a_rows (xc_b v) = []) by (destruct (a_rows (xc_b v)); [reflexivity|discriminate]).
        assert (O0 : a_outputs (xc_b v) = []) by (destruct (a_outputs (xc_b v)); [reflexivity|rewrite E0 in Ho; discriminate]).
        assert (O1 : os = []) by (destruct os; [reflexivity|rewrite E0 in Y1; discriminate]).
        unfold xinmem, inmem. red_b. rewrite R0, O0, O1. reflexivity.
      * f_equal. unfold xi_with, xinmem, s0, m_set_outputs, inmem. red_b.
        do 2 f_equal. unfold widen. rewrite Y1, Ho. reflexivity.
    + intros v' E. injection E as <-. red_b. split; [|auto 8]. destruct Sh as [Sb ? ? ? ?]. constructor; red_b; auto; try lia.
      destruct Sb. constructor; revert vs_pos vs_lmem vs_mask vs_rows vs_weights vs_width vs_outputs vs_counts vs_votes vs_vec vs_fits; red_b; intros; auto.
  - split; [|discriminate].
    destruct (Nat.eqb_spec (length (a_rows (xc_b v))) 0) as [E0|E0]; [|reflexivity].
    assert (R0 : a_rows (xc_b v) = []) by (destruct (a_rows (xc_b v)); [reflexivity|discriminate]). rewrite R0 in EL. discriminate.
Qed.

Lemma xvotes_eq : forall v, xshape bo pad v -> imp_xvotes (xinmem bo pad rest v) = Ret (xinmem bo pad rest (xc_count_votes v)) /\ xshape bo pad (xc_count_votes v).
Proof.
  intros v Sh. pose proof (xs_b _ _ _ Sh) as SB. unfold imp_xvotes. cbn [xinmem xi_v]. rewrite (votes_eq bo pad rest _ SB). split; [reflexivity|].
  destruct Sh. constructor; auto. exact (count_votes_shape bo pad _ SB).
Qed.

Lemma xupdate_eq : forall v lits pc pp nc npq, xshape bo pad v -> whole_buffer (a_nlit (xc_b v)) (xc_np v) lits ->
  (pc < a_ncls (xc_b v))%nat -> (nc < a_ncls (xc_b v))%nat -> Forall2 (silent_or_ok (xc_np v)) (a_outputs (xc_b v)) (xc_active v) ->
  imp_xupdate bo boost lits pc pp nc npq (xinmem bo pad rest v) = mem_of bo pad rest (xc_update bo boost lits pc pp nc npq v) /\
  forall v', xc_update bo boost lits pc pp nc npq v = Some v' ->
    xshape bo pad v' /\
    xc_np v' = xc_np v /\ a_nlit (xc_b v') = a_nlit (xc_b v) /\ length (a_rows (xc_b v')) = length (a_rows (xc_b v)) /\ a_ncls (xc_b v') = a_ncls (xc_b v).
Proof.
  intros v lits pc pp nc npq Sh HB Hpc Hnc HS. pose proof (xs_b _ _ _ Sh) as SB. destruct (geom bo pad _ SB) as (q & Eq & Hq & _).
  pose proof (vs_rows _ _ _ SB) as Hr. pose proof (vs_outputs _ _ _ SB) as Ho. pose proof (vs_vec _ _ _ SB) as Hv.
  pose proof (vs_width _ _ _ SB) as Hw. pose proof (vs_weights _ _ _ SB) as Hn.
  pose proof (vs_fits _ _ _ SB) as (F1 & F2 & F3 & F4 & F5). rewrite <- (vs_lmem _ _ _ SB) in F2. pose proof (vs_lmem _ _ _ SB) as HL.
  pose proof (xs_counts _ _ _ Sh) as Hc. pose proof (xs_active _ _ _ Sh) as Ha. pose proof (xs_ppc _ _ _ Sh) as Hp. pose proof (xs_int _ _ _ Sh) as HI.
  revert Eq Hr Ho Hv Hw Hn F2 F5 HL. red_b. intros Eq Hr Ho Hv Hw Hn F2 F5 HL.
  assert (Hlen : forall k, (k < xc_np v)%nat -> patch_aligned (a_nlit (xc_b v)) k = true -> (k * a_nlit (xc_b v) + a_lmem (xc_b v) <= length lits)%nat).
  { intros k Hk PA. rewrite HL. eapply patch_room; eauto. }
  unfold xc_update, imp_xupdate. cbn [xinmem xi_v inmem m_ncl xi_active]. red_b.
  destruct (length (a_rows (xc_b v))) as [|m] eqn:EN.
  - assert (R0 : a_rows (xc_b v) = []) by (destruct (a_rows (xc_b v)); [reflexivity|discriminate]).
    rewrite R0. cbn [xc_update_loop fold_ix bindR mem_of]. split.
    + f_equal. unfold xi_with, xinmem, inmem. red_b. rewrite R0. reflexivity.
    + intros v' E. injection E as <-. red_b. split; [|auto]. destruct Sh as [Sb ? ? ? ?]. constructor; red_b; auto; try (cbn [length]; lia).
      destruct Sb. constructor; revert vs_pos vs_lmem vs_mask vs_rows vs_weights vs_width vs_outputs vs_counts vs_votes vs_vec vs_fits; red_b; rewrite ?R0; intros; auto.
  - rewrite <- EN in *.
    assert (HI2 : Z.of_nat (2 * a_lmem (xc_b v)) <= int_max).
    { eapply Z.le_trans; [|exact F2]. apply inj_le. rewrite EN. cbn [length]. lia. }
    pose (s0 := inmem pad rest (hide bo (xc_b v))).
    pose proof (xupdate_loop_eq bo boost pad lits rest (a_nlit (xc_b v)) (xc_np v) (a_lmem (xc_b v)) q (a_ncls (xc_b v)) (length (a_rows (xc_b v)))
      Eq Hq Hlen HI HI2 F2 F5 (wmem_ge pad (a_ncls (xc_b v))) s0 pc pp nc npq
      (a_rows (xc_b v)) [] [] (a_weights (xc_b v)) [] (a_outputs (xc_b v)) (repeat 0 (outs_of (length (a_rows (xc_b v))) - length (a_outputs (xc_b v)))) [] (a_counts (xc_b v))
      [] (xc_active v) (a_vrng (xc_b v)) (a_fast (xc_b v))) as UL.
    cbn [app length] in UL. change (m_budget s0) with (a_budget (xc_b v)) in UL. change (m_cmp s0) with (a_cmp (xc_b v)) in UL.
    change (st_of pad rest (a_ncls (xc_b v)) s0 (a_rows (xc_b v)) (a_weights (xc_b v)) (a_outputs (xc_b v))
      (repeat 0 (outs_of (length (a_rows (xc_b v))) - length (a_outputs (xc_b v)))) (a_vrng (xc_b v)) (a_fast (xc_b v))) with s0 in UL.
    destruct UL as (U1 & U2); auto.
    fold s0. rewrite U1. clear U1.
    destruct (xc_update_loop bo boost (a_budget (xc_b v)) (a_cmp (xc_b v)) (a_nlit (xc_b v)) (a_lmem (xc_b v)) lits pc pp nc npq (a_rows (xc_b v)) (a_weights (xc_b v))
      (a_outputs (xc_b v)) (a_counts (xc_b v)) (xc_active v) (a_vrng (xc_b v)) (a_fast (xc_b v))) as [[[[[rows1 wss1] outs1] r1] fast1]|].
    2:{ split; [reflexivity|discriminate]. }
    destruct (U2 _ _ _ _ _ eq_refl) as (V1 & V2 & V3 & V4 & V5 & V6). cbn [bindR mem_of]. split.
    + f_equal. unfold xi_with, st_of, xinmem, s0, inmem. red_b. rewrite V4. do 2 f_equal. unfold widen. rewrite V6, Ho. reflexivity.
    + intros v' E. injection E as <-. red_b. split; [|rewrite V4; auto]. destruct Sh as [Sb ? ? ? ?]. constructor; red_b; auto; try lia.
      destruct Sb. constructor; revert vs_pos vs_lmem vs_mask vs_rows vs_weights vs_width vs_outputs vs_counts vs_votes vs_vec vs_fits; red_b; intros; auto; try lia.
      rewrite V4. auto.
Qed.

Lemma hide_rows : forall rows b, hide bo (with_rows rows b) = with_rows rows (hide bo b). Proof. reflexivity. Qed.
Lemma hide_weights : forall ws b, hide bo (with_weights ws b) = with_weights ws (hide bo b). Proof. reflexivity. Qed.

Theorem xcall_eq : forall v c, xshape bo pad v -> xcall_ok (a_nlit (xc_b v)) (xc_np v) (length (a_rows (xc_b v))) (a_ncls (xc_b v)) c ->
  xi_call bo boost (xinmem bo pad rest v) c = mem_of bo pad rest (x_call bo boost (Some v) c) /\
  forall v', x_call bo boost (Some v) c = Some v' ->
    xshape bo pad v' /\
    xc_np v' = xc_np v /\ a_nlit (xc_b v') = a_nlit (xc_b v) /\ length (a_rows (xc_b v')) = length (a_rows (xc_b v)) /\ a_ncls (xc_b v') = a_ncls (xc_b v).
Proof.
  intros v c Sh Hc. destruct c as [l pc pp nc npq|l|st off|w off]; cbn [xcall_ok xi_call x_call] in *.
  - destruct Hc as (HB & Hpc & Hnc). destruct (xset_eq v l Sh HB) as (S1 & S2). rewrite S1. unfold xc_train_ex.
    destruct (xc_set_output bo l v) as [v1|]; cbn [mem_of bindR fst xc_upd].
    2:{ split; [reflexivity|discriminate]. }
    destruct (S2 _ eq_refl) as (T1 & T2 & T3 & T4 & T5 & T6). destruct (xvotes_eq v1 T1) as (V1 & V2). rewrite V1. cbn [bindR].
    destruct (xupdate_eq (xc_count_votes v1) l pc pp nc npq V2) as (U1 & U2).
    + unfold xc_count_votes. cbn [xc_b avx_count_votes a_nlit xc_np]. rewrite T3, T4. exact HB.
    + unfold xc_count_votes. cbn [xc_b avx_count_votes a_ncls]. lia.
    + unfold xc_count_votes. cbn [xc_b avx_count_votes a_ncls]. lia.
    + exact T2.
    + split; [exact U1|]. intros v' E. destruct (U2 _ E) as (W1 & W2 & W3 & W4 & W5).
      revert W2 W3 W4 W5. unfold xc_count_votes. cbn [xc_b avx_count_votes a_ncls a_nlit a_rows xc_np]. intros W2 W3 W4 W5.
      split; [exact W1|]. rewrite W2, W3, W4, W5. auto.
  - destruct (xeval_eq v l Sh Hc) as (S1 & S2). rewrite S1. unfold xc_eval_ex.
    destruct (xc_eval_set l v) as [v1|]; cbn [mem_of bindR fst].
    2:{ split; [reflexivity|discriminate]. }
    destruct (S2 _ eq_refl) as (T1 & T3 & T4 & T5 & T6). destruct (xvotes_eq v1 T1) as (V1 & V2). rewrite V1. split; [reflexivity|].
    intros v' E. injection E as <-. auto.
  - destruct (state_eq bo pad rest _ (xs_b _ _ _ Sh) st off Hc) as (S1 & S2). cbn [xinmem xi_v]. rewrite S1. cbn [bindR mem_of]. split; [reflexivity|].
    intros v' E. injection E as <-.
    assert (LR : length (map2 (put_row (a_nlit (xc_b v)) (a_lmem (xc_b v))) (skipn off st) (a_rows (xc_b v))) = length (a_rows (xc_b v))).
    { destruct Hc as (W1 & W2 & W3). assert (LS : (length (a_rows (xc_b v)) <= length (skipn off st))%nat) by (rewrite skipn_length; lia).
      clear - LS. revert LS. generalize (skipn off st). generalize (put_row (a_nlit (xc_b v)) (a_lmem (xc_b v))). intros f.
      induction (a_rows (xc_b v)) as [|r rows IH]; intros [|s l] H; cbn [map2 length] in *; try lia. rewrite IH; lia. }
    split; [|unfold xc_with, with_rows; red_b; auto]. destruct Sh. constructor; unfold xc_with; red_b; auto; unfold with_rows; red_b; congruence.
  - destruct (wts_eq bo pad rest _ (xs_b _ _ _ Sh) w off Hc) as (S1 & S2). cbn [xinmem xi_v]. rewrite S1. cbn [bindR mem_of]. split; [reflexivity|].
    intros v' E. injection E as <-. split; [|unfold xc_with, with_weights; red_b; auto]. destruct Sh. constructor; unfold xc_with; red_b; auto.
Qed.

Lemma x_none : forall cs, fold_left (x_call bo boost) cs None = None.
Proof. intros cs. induction cs as [|[] cs IH]; cbn [fold_left]; auto. Qed.

Theorem xcalls_eq : forall cs v, xshape bo pad v -> Forall (xcall_ok (a_nlit (xc_b v)) (xc_np v) (length (a_rows (xc_b v))) (a_ncls (xc_b v))) cs ->
  xi_calls bo boost cs (xinmem bo pad rest v) = mem_of bo pad rest (fold_left (x_call bo boost) cs (Some v)) /\
  forall v', fold_left (x_call bo boost) cs (Some v) = Some v' -> xshape bo pad v'.
Proof.
  intros cs. induction cs as [|c cs IH]; intros v Sh HF; cbn [xi_calls fold_left mem_of].
  - split; [reflexivity|]. intros v' E. now injection E as <-.
  - destruct (xcall_eq v c Sh (Forall_inv HF)) as (E1 & E2). rewrite E1. destruct (x_call bo boost (Some v) c) as [v1|]; cbn [mem_of bindR].
    + destruct (E2 _ eq_refl) as (T1 & T2 & T3 & T4 & T5). apply IH; auto. rewrite T2, T3, T4, T5. exact (Forall_inv_tail HF).
    + rewrite x_none. split; [reflexivity|discriminate].
Qed.
End calls.

Theorem xinit_eq : forall bo pad std_of vec_of fast_of jm jc jk ja jp np nlit ncl ncls budget sv seed, seed <> 0 -> fits pad nlit ncl ncls ->
  exists rest, imp_xinitialize bo pad std_of vec_of fast_of jm jc jk ja jp np nlit ncl ncls budget sv seed =
    Ret (option_map (xinmem bo pad rest)
      (xc_initialize std_of vec_of fast_of (fresh ncl jk) (map ja (seq 0 ncl)) (fresh (Z.to_nat np) jp) np nlit ncl ncls budget sv seed)) /\
  forall v, xc_initialize std_of vec_of fast_of (fresh ncl jk) (map ja (seq 0 ncl)) (fresh (Z.to_nat np) jp) np nlit ncl ncls budget sv seed = Some v ->
    xc_np v = Z.to_nat np /\ a_nlit (xc_b v) = nlit /\ length (a_rows (xc_b v)) = ncl /\ a_ncls (xc_b v) = ncls /\
    ((0 < nlit)%nat -> vrng_ok (vec_of seed) -> Z.of_nat (Z.to_nat np * nlit) <= int_max -> xshape bo pad v).
Proof.
  intros bo pad std_of vec_of fast_of jm jc jk ja jp np nlit ncl ncls budget sv seed Hs F.
  destruct (init_eq bo pad vec_of fast_of jm jc jk nlit ncl ncls budget sv seed Hs F) as (rest & b & E1 & E2 & E3 & E4 & E5 & E6).
  exists rest. unfold imp_xinitialize, xc_initialize. rewrite E2. cbn [bindR].
  revert E1. unfold avx_initialize. destruct (Z.eqb_spec seed 0) as [E|_]; [contradiction|].
  destruct (avx_init_rows nlit ncl (fast_of seed)) as [rows f]. destruct (init_weights ncls ncl f) as [ws f']. intros E1.
  match type of E1 with Some ?x = _ => assert (EB : b = x) by congruence end. clear E1.
  destruct (np >? 0); cbn [option_map].
  - split.
    + do 2 f_equal. unfold xinmem. red_b. f_equal. rewrite EB. unfold inmem. red_b. reflexivity.
    + intros v E. injection E as <-. red_b. subst b. revert E3 E4 E5 E6. red_b. intros E3 E4 E5 E6. split; [reflexivity|]. split; [reflexivity|]. split; [exact E4|].
      split; [reflexivity|]. intros Hp Hv HI. constructor; red_b; auto.
      * rewrite fresh_len. auto.
      * rewrite map_length, seq_length. auto.
      * apply fresh_len.
  - split; [reflexivity|discriminate].
Qed.
