(** The AVX2 convolutional block against the scalar one. *)
From Coq Require Import ZArith Arith List Bool QArith Lia ZifyBool.
From Verif Require Import Base BaseProofs Spec SpecLearning ModelInference ModelDense ModelLayout ModelFeedback ModelExecutor ModelDenseExec ModelAvx2 ModelConv ModelConvAvx2
  SpecAvx2 SpecConv SpecConvAvx2 ProofsClause ProofsLayout ProofsEval ProofsLearning ProofsStep ProofsExecutor ProofsDenseExec ProofsInput
  ProofsAvx2 ProofsAvx2Scalar ProofsAvx2Step ProofsAvx2Hist ProofsConv ProofsConvStep.
Import ListNotations.
Open Scope Z_scope.

(** ** Patches *)

Lemma patch_aligned_true : forall n k, patch_aligned n k = true <-> ((k * n) mod 32 = 0)%nat.
Proof. intros. unfold patch_aligned. apply Nat.eqb_eq. Qed.

Lemma whole_aligned : forall n np k, whole_patches n np -> (k < np)%nat -> patch_aligned n k = true.
Proof.
  intros n np k H Hk. apply patch_aligned_true. destruct H as [H|H].
  - rewrite Nat.mul_mod, H by lia. rewrite Nat.mul_0_r. reflexivity.
  - assert (k = 0%nat) by lia. subst k. reflexivity.
Qed.

Lemma patch_buffer : forall n np x lits p, conv_buffer n np x lits -> (p < np)%nat -> buffer_of n (nth_patch n x p) (patch_mem n lits p).
Proof.
  intros n np x lits p [[HL HB] [HF HM]] Hp. unfold buffer_of, patch_mem.
  assert (K : (p * n <= (np - 1) * n)%nat) by (apply Nat.mul_le_mono_r; lia).
  split; [apply nth_patch_len|]. split; [rewrite skipn_length; lia|].
  rewrite <- (patch_eq n np x p HL Hp). unfold ModelConv.patch. rewrite <- HF, skipn_firstn_comm, firstn_firstn. f_equal.
  assert ((p * n + n <= np * n)%nat) by (replace (p * n + n)%nat with (S p * n)%nat by lia; apply Nat.mul_le_mono_r; lia). lia.
Qed.

Lemma xc_patch_output_eq : forall lits lmem mask row,
  xc_patch_output lits lmem mask row = (if fst (avx_set_output lits lmem mask row) =? 1 then snd (avx_set_output lits lmem mask row) else None).
Proof.
  intros. unfold xc_patch_output, avx_set_output. destruct (set_chunks lits row lmem 0 (lmem / 32 - 1) 0) as [c [|]]; [reflexivity|].
  destruct (set_reminder lits row lmem mask (lmem / 32 - 1) c) as [o st]. reflexivity.
Qed.

Section Clause.
  Variables (n np : nat) (x lits row : list Z).
  Hypothesis Hn : (0 < n)%nat.
  Hypothesis Hbuf : conv_buffer n np x lits.
  Hypothesis Hrow : length row = (2 * lmem_of n)%nat.
  Notation cl := (row_clause n (lmem_of n) row).

  Lemma xc_patch_spec : forall p, (p < np)%nat ->
    xc_patch_output (patch_mem n lits p) (lmem_of n) (mask_of n) row = (if pm n x cl p then Some (n_included (row_of cl)) else None).
  Proof.
    intros p Hp. pose proof (patch_buffer n np x lits p Hbuf Hp) as PB. destruct Hbuf as [HX _].
    assert (HB : binary (nth_patch n x p)) by (eapply nth_patch_binary; eauto).
    rewrite xc_patch_output_eq. destruct (avx_set_output_scalar n _ _ row Hn PB HB Hrow true) as [A1 A2]. rewrite A1.
    pose proof (conv_patch_loop_spec true n (nth_patch n x p) cl (rc_pos_len n row Hn Hrow) (rc_neg_len n row Hn Hrow) (nth_patch_len n x p) HB) as S.
    change 0 with (0 + 0) in S at 1. rewrite conv_patch_loop_eq in S. fold (set_output true (nth_patch n x p) cl) in S.
    unfold pm. unfold stored in S. rewrite <- S.
    destruct (fst (set_output true (nth_patch n x p) cl) =? 1) eqn:E; [|reflexivity]. apply A2. lia.
  Qed.

  Lemma xc_fold : forall bo ks st ppc ppc', Forall (fun k => (k < np)%nat /\ patch_aligned n k = true) ks -> (bo = true -> ppc' = ppc) ->
    exists ppc2, fold_left (xc_patch_step bo n (lmem_of n) (mask_of n) lits row) ks (Some (st, ppc)) =
                   Some (fst (fold_left (conv_patch_step bo n x cl) ks (st, ppc')), ppc2) /\
      (bo = true -> ppc2 = snd (fold_left (conv_patch_step bo n x cl) ks (st, ppc'))) /\ (bo = false -> ppc2 = ppc).
  Proof.
    intros bo ks. induction ks as [|k ks IH]; intros st ppc ppc' HF HE; cbn [fold_left].
    - exists ppc. cbn [fst snd]. split; [reflexivity|]. split; [intros E; rewrite (HE E); reflexivity|auto].
    - inversion HF as [|? ? [K1 K2] HF']; subst. cbn [xc_patch_step]. rewrite K2, (xc_patch_spec k K1).
      destruct Hbuf as [HX _].
      rewrite (conv_patch_step_eq bo n np x cl (rc_pos_len n row Hn Hrow) (rc_neg_len n row Hn Hrow) HX st ppc' k K1).
      destruct (pm n x cl k).
      + destruct bo.
        * rewrite (HE eq_refl).
          destruct (IH (st ++ [k]) (set_nth k (n_included (row_of cl)) ppc) (set_nth k (stored true (row_of cl)) ppc) HF' ltac:(reflexivity)) as [p2 [I1 [I2 I3]]].
          exists p2. split; [exact I1|]. split; [exact I2|discriminate].
        * destruct (IH (st ++ [k]) ppc (set_nth k (stored false (row_of cl)) ppc') HF' ltac:(discriminate)) as [p2 [I1 [I2 I3]]].
          exists p2. split; [exact I1|]. split; [discriminate|exact I3].
      + apply IH; auto.
  Qed.

  Lemma xc_clause_scalar : forall bo ap cnt ppc ppc' r, whole_patches n np -> (bo = true -> ppc' = ppc) ->
    exists ppc2, let '(o, ap1, cnt1, ppc1, r1) := conv_clause_output bo n np x cl ap cnt ppc' r in
      xc_clause_output bo n (lmem_of n) np (mask_of n) lits row ap cnt ppc r = Some (o, ap1, cnt1, ppc2, r1) /\
      (bo = true -> ppc2 = ppc1) /\ (bo = false -> ppc2 = ppc) /\
      (o = 1 -> (ap1 < np)%nat) /\ (o = 0 \/ o = 1).
  Proof.
    intros bo ap cnt ppc ppc' r HW HE. unfold xc_clause_output, conv_clause_output, xc_patches, conv_patches.
    destruct (xc_fold bo (seq 0 np) [] ppc ppc') as [p2 [I1 [I2 I3]]]; auto.
    { apply Forall_forall. intros k Hk. apply in_seq in Hk. split; [lia|]. eapply whole_aligned; eauto. lia. }
    exists p2. rewrite I1.
    assert (ST : fst (fold_left (conv_patch_step bo n x cl) (seq 0 np) ([], ppc')) = matching n np x cl).
    { pose proof (conv_patches_fold bo n np x cl (rc_pos_len n row Hn Hrow) (rc_neg_len n row Hn Hrow) (proj1 Hbuf) (seq 0 np) [] ppc' (seq_bound np)) as F.
      cbv zeta in F. destruct F as [F _]. exact F. }
    destruct (fold_left (conv_patch_step bo n x cl) (seq 0 np) ([], ppc')) as [st ppc1]. cbn [fst snd] in *.
    destruct st as [|m0 st].
    - split; [reflexivity|]. split; [exact I2|]. split; [exact I3|]. split; [discriminate|auto].
    - pose proof (pick_index_lt (length (m0 :: st)) r ltac:(cbn [length]; lia)) as LT.
      destruct (pick_index (length (m0 :: st)) r) as [i r1]. cbn [fst] in LT.
      split; [f_equal; f_equal; f_equal; f_equal; destruct bo; [rewrite I2 by auto|]; reflexivity|].
      split; [exact I2|]. split; [exact I3|]. split; [|auto]. intros _.
      apply (matching_In n np x cl). rewrite <- ST. apply nth_In. exact LT.
  Qed.

  Lemma xc_eval_scalar : forall ks, whole_patches n np -> Forall (fun k => (k < np)%nat) ks ->
    xc_eval_patches n (lmem_of n) (mask_of n) lits row ks = Some (conv_eval_patches n x cl ks).
  Proof.
    intros ks HW. induction ks as [|k ks IH]; intros HF; [reflexivity|]. inversion HF as [|? ? K1 HF']; subst.
    cbn [xc_eval_patches conv_eval_patches]. rewrite (whole_aligned n np k HW K1).
    pose proof (patch_buffer n np x lits k Hbuf K1) as PB. destruct Hbuf as [HX _].
    rewrite (avx_eval_output_scalar n _ _ row Hn PB (nth_patch_binary n np x k HX K1) Hrow).
    rewrite conv_eval_loop_eq. rewrite (patch_eq n np x k (proj1 HX) K1). unfold eval_output.
    destruct (eval_output_loop _ _ _ _ =? 1); [reflexivity|]. apply IH; auto.
  Qed.

  (** Patches that do not fill whole vectors: only the first one can be read. *)
  Lemma xc_eval_ragged : forall k, (n mod 32 <> 0)%nat -> np = S (S k) ->
    xc_eval_patches n (lmem_of n) (mask_of n) lits row (seq 0 np) = (if patch_fires n x (row_of cl) 0 then Some 1 else None).
  Proof.
    intros k HM ->. cbn [seq xc_eval_patches].
    assert (A0 : patch_aligned n 0 = true) by (apply patch_aligned_true; reflexivity).
    assert (A1 : patch_aligned n 1 = false).
    { apply not_true_iff_false. intros C. apply patch_aligned_true in C. rewrite Nat.mul_1_l in C. contradiction. }
    rewrite A0, A1.
    pose proof (patch_buffer n _ x lits 0 Hbuf ltac:(lia)) as PB. destruct Hbuf as [HX _].
    pose proof (nth_patch_binary n _ x 0 HX ltac:(lia)) as BB.
    rewrite (avx_eval_output_scalar n _ _ row Hn PB BB Hrow).
    unfold patch_fires. unfold row_of.
    pose proof (eval_output_fires n (nth_patch n x 0) cl (rc_pos_len n row Hn Hrow) (rc_neg_len n row Hn Hrow) (nth_patch_len n x 0) BB) as E.
    rewrite E. destruct (clause_fires _ _ _); reflexivity.
  Qed.
End Clause.
