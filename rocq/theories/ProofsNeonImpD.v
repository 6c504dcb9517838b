(** Memory safety of the NEON block: calls, initialisation and histories. *)
From Coq Require Import ZArith List Bool QArith Lia ZifyBool.
From Verif Require Import Base BaseProofs Spec ModelDense ModelLayout ModelAvx2 ModelNeon SpecAvx2 SpecNeon ModelSparse ModelSparseImp ModelAvx2Imp
  SpecAvx2Imp ModelNeonImp SpecNeonImp ProofsLayout ProofsSparseImp ProofsAvx2Imp ProofsAvx2ImpB ProofsAvx2ImpD ProofsAvx2ImpE
  ProofsNeonImp ProofsNeonImpB ProofsNeonImpC.
Import ListNotations.
Open Scope Z_scope.

Lemma nouts_ge : forall n, (n <= nouts_of n)%nat.
Proof. intros n. unfold nouts_of. pose proof (Nat.div_mod n 64 ltac:(lia)). pose proof (Nat.mod_upper_bound n 64 ltac:(lia)). lia. Qed.
Lemma nmask_ld : forall mask tl, length mask = 16%nat -> nvld (mask ++ tl) 0 0 = Ret mask.
Proof.
  intros mask tl H. unfold nvld. rewrite int_ok by (unfold int_max; lia). cbn [bindR Nat.add].
  destruct (Nat.leb_spec 16 (length (mask ++ tl))) as [_|X]; [|rewrite app_length in X; lia]. f_equal.
  unfold nv_load, slice. cbn [skipn]. rewrite firstn_app, firstn_all2 by lia. rewrite H, Nat.sub_diag, firstn_O. apply app_nil_r.
Qed.
Lemma eval_loop_len : forall lits L mask rows act, length (neon_eval_loop lits L mask rows act) = length rows.
Proof.
  intros lits L mask rows. induction rows as [|row rows IH]; intros act; cbn [neon_eval_loop]; auto.
  destruct (neon_eval_clause lits L mask row act) as [o a]. cbn [length]. rewrite IH. reflexivity.
Qed.
(** Copies ignore what is behind. *)
Lemma cpy_dst_more : forall d t o s so n x, cpy d o s so n = Ret x -> cpy (d ++ t) o s so n = Ret (x ++ t).
Proof.
  intros d t o s so n x. unfold cpy. rewrite app_length.
  destruct (Nat.leb_spec (o + n) (length d)) as [H1|]; [|discriminate]. destruct (Nat.leb_spec (so + n) (length s)) as [H2|]; [|discriminate].
  destruct (Nat.leb_spec (o + n) (length d + length t)); [|lia]. cbn [andb]. intros E. injection E as <-. f_equal. unfold memcpy.
  rewrite firstn_app, skipn_app. replace (o - length d)%nat with O by lia. replace (o + n - length d)%nat with O by lia.
  cbn [firstn skipn]. rewrite app_nil_r, <- !app_assoc. reflexivity.
Qed.
Lemma cpy_src_more : forall d o s t so n x, cpy d o s so n = Ret x -> cpy d o (s ++ t) so n = Ret x.
Proof.
  intros d o s t so n x. unfold cpy. rewrite app_length.
  destruct (Nat.leb_spec (o + n) (length d)) as [H1|]; [|discriminate]. destruct (Nat.leb_spec (so + n) (length s)) as [H2|]; [|discriminate].
  destruct (Nat.leb_spec (so + n) (length s + length t)); [|lia]. cbn [andb]. intros E. injection E as <-. f_equal. unfold memcpy.
  rewrite skipn_app, firstn_app, skipn_length. replace (n - (length s - so))%nat with O by lia. cbn [firstn]. rewrite app_nil_r. reflexivity.
Qed.
Lemma fold_frame : forall (b1 b2 : nat -> list Z -> R (list Z)) t n i s x,
  (forall i s y, b1 i s = Ret y -> b2 i (s ++ t) = Ret (y ++ t)) -> fold_ix n i b1 s = Ret x -> fold_ix n i b2 (s ++ t) = Ret (x ++ t).
Proof.
  intros b1 b2 t n. induction n as [|n IH]; intros i s x H E; cbn [fold_ix] in *.
  - injection E as <-. reflexivity.
  - destruct (b1 i s) as [y| |] eqn:Eb; cbn [bindR] in E; try discriminate. rewrite (H i s y Eb). cbn [bindR]. apply IH; auto.
Qed.

#[local] Ltac fields := cbn [m_nlit m_lmem m_ncl m_ncls m_wmem m_mask m_clauses m_weights m_outputs m_counts m_votes m_budget m_cmp m_vrng m_fast
         a_nlit a_lmem a_mask a_ncls a_rows a_weights a_outputs a_counts a_votes a_budget a_cmp a_vrng a_fast].

Section calls.
Variables (bo boost : bool) (h : behind) (b : ablock).
Hypothesis Sh : nshape bo b.

Lemma nvotes_eq : nimp_votes (in_neon h b) = Ret (in_neon h (avx_count_votes b)).
Proof.
  pose proof (ns_width _ _ Sh) as Hw. pose proof (ns_weights _ _ Sh) as Hn. pose proof (ns_outputs _ _ Sh) as Ho.
  pose proof (ns_votes _ _ Sh) as Hv. pose proof (ns_fits _ _ Sh) as (_ & _ & _ & F4 & F5).
  unfold nimp_votes, in_neon. fields.
  rewrite app_length, Hv. destruct (Nat.leb_spec (a_ncls b) (a_ncls b + length (bh_votes h))); [|lia]. cbn [negb].
  assert (Es : skipn (a_ncls b) (a_votes b ++ bh_votes h) = bh_votes h).
  { rewrite skipn_app, Hv, Nat.sub_diag. rewrite skipn_all2 by lia. reflexivity. }
  rewrite Es. unfold widen at 1. rewrite Ho.
  pose proof (nvote_loop (a_ncls b) (bh_weights h) (bh_votes h) (a_weights b) (a_outputs b)
    (repeat 0 (nouts_of (length (a_rows b)) - length (a_rows b))) (repeat 0 (a_ncls b)) Hw) as VL. rewrite Hn in VL. rewrite VL; auto.
  - lia.
  - apply repeat_length.
Qed.
Lemma ncount_votes_shape : nshape bo (avx_count_votes b).
Proof.
  destruct Sh. constructor; cbn [avx_count_votes a_nlit a_lmem a_mask a_ncls a_rows a_weights a_outputs a_counts a_votes a_budget a_cmp a_vrng a_fast]; auto.
  rewrite count_votes_len; rewrite repeat_length; auto.
Qed.

Lemma ngeom : exists q, a_lmem b = (q * 16)%nat /\ (0 < q)%nat /\ (a_nlit b <= a_lmem b)%nat.
Proof.
  rewrite (ns_lmem _ _ Sh). destruct (nlmem_mod (a_nlit b)) as (q & E1 & E2 & _ & E4). exists q. pose proof (ns_pos _ _ Sh) as Hp.
  split; [exact E1|]. split; [apply E4; exact Hp|exact E2].
Qed.

Lemma nset_eq : forall lits, (a_lmem b <= length lits)%nat -> (bo = true \/ length (a_rows b) = O) ->
  nimp_set bo lits (in_neon h b) = Ret (in_neon h (neon_train_on lits b)).
Proof.
  intros lits Hl Hbo. destruct ngeom as (q & Eq & Hq & _).
  pose proof (ns_rows _ _ Sh) as Hr. pose proof (ns_outputs _ _ Sh) as Ho. pose proof (ns_counts _ _ Sh) as Hc.
  pose proof (ns_fits _ _ Sh) as (_ & F2 & _). rewrite <- (ns_lmem _ _ Sh) in F2.
  unfold nimp_set. cbn [in_neon m_ncl m_lmem].
  destruct (Nat.eqb_spec (length (a_rows b)) 0) as [E0|E0].
  - assert (R0 : a_rows b = []) by (destruct (a_rows b); [reflexivity|discriminate]). rewrite R0 in *. cbn [length] in *.
    assert (O0 : a_outputs b = []) by (destruct (a_outputs b); [reflexivity|discriminate]).
    assert (C0 : a_counts b = []) by (destruct (a_counts b); [reflexivity|destruct bo; discriminate]).
    f_equal. unfold in_neon, neon_train_on. fields. rewrite R0, O0, C0. reflexivity.
  - assert (Eb : bo = true) by (destruct Hbo; [auto|contradiction]). rewrite Eb in *.
    rewrite (nlast_ok (a_lmem b) q Eq Hq). cbn [bindR].
    pose proof (nset_loop lits (a_mask b ++ bh_mask h) (a_mask b) (bh_clauses h) (a_lmem b) q Eq Hq Hl (nmask_ld _ _ (ns_mask _ _ Sh))
       (a_rows b) [] (in_neon h b) [] (a_outputs b)
       (repeat 0 (nouts_of (length (a_rows b)) - length (a_outputs b))) [] (a_counts b)) as VL.
    cbn [app length] in VL.
    assert (EI : m_set_outputs (in_neon h b) (a_outputs b ++ repeat 0 (nouts_of (length (a_rows b)) - length (a_outputs b))) (a_counts b) = in_neon h b) by reflexivity.
    rewrite EI in VL. rewrite VL; auto.
    f_equal. unfold in_neon, neon_train_on, m_set_outputs. fields.
    f_equal. unfold widen. rewrite !map_length, Ho. reflexivity.
Qed.
Lemma ntrain_shape : forall lits, (bo = true \/ length (a_rows b) = O) -> nshape bo (neon_train_on lits b).
Proof.
  intros lits Hbo. destruct Sh. constructor; cbn [neon_train_on a_nlit a_lmem a_mask a_ncls a_rows a_weights a_outputs a_counts a_votes a_budget a_cmp a_vrng a_fast]; auto.
  - rewrite !map_length. reflexivity.
  - rewrite !map_length. destruct bo; [reflexivity|]. destruct Hbo; [discriminate|auto].
Qed.
Lemma neval_eq : forall lits, (a_lmem b <= length lits)%nat -> nimp_eval lits (in_neon h b) = Ret (in_neon h (neon_eval_set lits b)).
Proof.
  intros lits Hl. destruct ngeom as (q & Eq & Hq & _).
  pose proof (ns_rows _ _ Sh) as Hr. pose proof (ns_outputs _ _ Sh) as Ho.
  pose proof (ns_fits _ _ Sh) as (_ & F2 & _). rewrite <- (ns_lmem _ _ Sh) in F2.
  unfold nimp_eval. cbn [in_neon m_ncl m_lmem].
  destruct (Nat.eqb_spec (length (a_rows b)) 0) as [E0|E0].
  - assert (R0 : a_rows b = []) by (destruct (a_rows b); [reflexivity|discriminate]). rewrite R0 in *. cbn [length] in *.
    assert (O0 : a_outputs b = []) by (destruct (a_outputs b); [reflexivity|discriminate]).
    f_equal. unfold in_neon, neon_eval_set. fields. rewrite R0, O0. reflexivity.
  - rewrite (nlast_ok (a_lmem b) q Eq Hq). cbn [bindR].
    destruct (neval_loop lits (a_mask b ++ bh_mask h) (a_mask b) (bh_clauses h) (a_lmem b) q Eq Hq Hl (nmask_ld _ _ (ns_mask _ _ Sh))
       (a_rows b) [] (in_neon h b) [] (a_outputs b)
       (repeat 0 (nouts_of (length (a_rows b)) - length (a_outputs b))) (a_counts b) false) as (a' & VL); auto.
    cbn [app length] in VL.
    assert (EI : m_set_outputs (in_neon h b) (a_outputs b ++ repeat 0 (nouts_of (length (a_rows b)) - length (a_outputs b))) (a_counts b) = in_neon h b) by reflexivity.
    rewrite EI in VL. rewrite VL. cbn [bindR fst].
    f_equal. unfold in_neon, neon_eval_set, m_set_outputs. fields.
    f_equal. unfold widen. rewrite eval_loop_len, Ho. reflexivity.
Qed.
Lemma neval_shape : forall lits, nshape bo (neon_eval_set lits b).
Proof.
  intros lits. destruct Sh. constructor; cbn [neon_eval_set a_nlit a_lmem a_mask a_ncls a_rows a_weights a_outputs a_counts a_votes a_budget a_cmp a_vrng a_fast]; auto.
  apply eval_loop_len.
Qed.

Lemma nupdate_eq : forall lits pc pp nc np, (a_lmem b <= length lits)%nat -> (pc < a_ncls b)%nat -> (nc < a_ncls b)%nat ->
  nimp_update bo boost lits pc pp nc np (in_neon h b) = Ret (in_neon h (neon_train_update bo boost lits pc pp nc np b)) /\
  nshape bo (neon_train_update bo boost lits pc pp nc np b) /\
  length (a_rows (neon_train_update bo boost lits pc pp nc np b)) = length (a_rows b).
Proof.
  intros lits pc pp nc np Hl Hpc Hnc. destruct ngeom as (q & Eq & Hq & _).
  pose proof (ns_rows _ _ Sh) as Hr. pose proof (ns_outputs _ _ Sh) as Ho. pose proof (ns_counts _ _ Sh) as Hc.
  pose proof (ns_width _ _ Sh) as Hw. pose proof (ns_weights _ _ Sh) as Hn. pose proof (ns_vec _ _ Sh) as Hv.
  pose proof (ns_fits _ _ Sh) as (F1 & F2 & F3 & F4 & F5). rewrite <- (ns_lmem _ _ Sh) in F2.
  unfold nimp_update, neon_train_update. cbn [in_neon m_ncl].
  destruct (a_rows b) as [|row0 rows0] eqn:ER.
  - destruct (a_weights b) as [|w0 wss0] eqn:EW; [|discriminate]. destruct (a_outputs b) as [|o0 outs0] eqn:EO; [|discriminate].
    cbn [length fold_ix neon_update_loop]. split; [|split].
    + f_equal. unfold in_neon. rewrite ER, EW, EO. reflexivity.
    + destruct Sh. constructor; fields; auto; rewrite ER in *; auto.
    + fields. reflexivity.
  - rewrite <- ER in *.
    assert (HI2 : Z.of_nat (2 * a_lmem b) <= int_max).
    { eapply Z.le_trans; [|exact F2]. apply inj_le. rewrite ER. cbn [length]. lia. }
    assert (HIw : Z.of_nat (length (a_rows b) * a_ncls b) <= int_max) by lia.
    pose proof (nupdate_loop_eq bo boost lits (bh_clauses h) (bh_weights h) (a_lmem b) q (a_ncls b) (length (a_rows b)) Eq Hl HI2 F2 HIw
      (in_neon h b) (a_rows b) [] [] (a_weights b) [] (a_outputs b) (repeat 0 (nouts_of (length (a_rows b)) - length (a_outputs b))) [] (a_counts b)
      (a_vrng b) (a_fast b) pc pp nc np) as UL.
    cbn [app length] in UL. change (m_budget (in_neon h b)) with (a_budget b) in UL. change (m_cmp (in_neon h b)) with (a_cmp b) in UL.
    change (nst_of (bh_clauses h) (bh_weights h) (in_neon h b) (a_rows b) (a_weights b) (a_outputs b)
      (repeat 0 (nouts_of (length (a_rows b)) - length (a_outputs b))) (a_vrng b) (a_fast b)) with (in_neon h b) in UL.
    destruct (neon_update_loop bo boost (a_budget b) (a_cmp b) (a_lmem b) lits pc pp nc np (a_rows b) (a_weights b) (a_outputs b) (a_counts b) (a_vrng b) (a_fast b))
      as [[[[rows1 wss1] outs1] r1] fast1].
    destruct UL as (U1 & U2 & U3 & U4 & U5 & U6 & U7); auto.
    { intros Eb. rewrite Eb in Hc. auto. }
    rewrite U1. split; [|split].
    + f_equal. unfold nst_of, in_neon. fields. rewrite U5. f_equal. unfold widen. rewrite U7, Ho. reflexivity.
    + destruct Sh. constructor; fields; auto; try lia.
      all: rewrite U5; auto.
    + exact U5.
Qed.

Lemma nstate_eq : forall c off, window c (2 * a_nlit b) off (length (a_rows b)) ->
  imp_set_state (concat c) off (in_neon h b) = Ret (in_neon h (with_rows (map2 (put_row (a_nlit b) (a_lmem b)) (skipn off c) (a_rows b)) b)) /\
  nshape bo (with_rows (map2 (put_row (a_nlit b) (a_lmem b)) (skipn off c) (a_rows b)) b) /\
  length (map2 (put_row (a_nlit b) (a_lmem b)) (skipn off c) (a_rows b)) = length (a_rows b).
Proof.
  intros c off (W1 & W2 & W3). destruct ngeom as (q & Eq & Hq & HnL).
  pose proof (ns_rows _ _ Sh) as Hr. pose proof (ns_fits _ _ Sh) as (F1 & F2 & F3 & F4 & F5). rewrite <- (ns_lmem _ _ Sh) in F2.
  assert (LS : (length (a_rows b) <= length (skipn off c))%nat) by (rewrite skipn_length; lia).
  assert (L2 : length (map2 (put_row (a_nlit b) (a_lmem b)) (skipn off c) (a_rows b)) = length (a_rows b)).
  { clear - LS. revert LS. generalize (skipn off c). induction (a_rows b) as [|r rows IH]; intros [|s l] H; cbn [map2 length] in *; try lia. rewrite IH; lia. }
  pose proof (set_state_loop (bh_clauses h) (a_lmem b) (a_nlit b) (length (a_rows b)) HnL F2 (a_rows b) [] off (firstn off c) (skipn off c)) as SL.
  cbn [app length] in SL. rewrite firstn_skipn in SL. split; [|split; [|exact L2]].
  - unfold imp_set_state, in_neon. fields. rewrite SL; auto.
    + cbn [bindR]. f_equal. unfold m_store, in_neon, with_rows. fields. rewrite L2. reflexivity.
    + rewrite firstn_length. lia.
  - destruct Sh. constructor; cbn [with_rows a_nlit a_lmem a_mask a_ncls a_rows a_weights a_outputs a_counts a_votes a_budget a_cmp a_vrng a_fast]; auto; try lia.
    + assert (WS : Forall (fun r => length r = (2 * a_nlit b)%nat) (skipn off c)).
      { clear - W1. apply Forall_forall. intros x Hx. rewrite Forall_forall in W1. apply W1. rewrite <- (firstn_skipn off c). apply in_or_app. auto. }
      clear - HnL Hr WS. revert WS. generalize (skipn off c). induction (a_rows b) as [|r rows IH]; intros [|s l] H; cbn [map2]; constructor.
      * apply put_row_len; auto. { exact (Forall_inv Hr). } { exact (Forall_inv H). }
      * apply IH. { exact (Forall_inv_tail Hr). } { exact (Forall_inv_tail H). }
    + rewrite L2. auto.
    + rewrite L2. auto.
Qed.
Lemma nget_state_eq : forall d off, window d (2 * a_nlit b) off (length (a_rows b)) ->
  imp_get_state (concat d) off (in_neon h b) =
    Ret (concat (firstn off d ++ map (own_row (a_nlit b) (a_lmem b)) (a_rows b) ++ skipn (off + length (a_rows b)) d)).
Proof.
  intros d off (W1 & W2 & W3). destruct ngeom as (q & Eq & Hq & HnL).
  pose proof (ns_rows _ _ Sh) as Hr. pose proof (ns_fits _ _ Sh) as (F1 & F2 & F3 & F4 & F5). rewrite <- (ns_lmem _ _ Sh) in F2.
  pose proof (get_state_loop (bh_clauses h) (a_lmem b) (a_nlit b) (length (a_rows b)) HnL F2 (a_rows b) [] off (firstn off d) (skipn off d)) as SL.
  cbn [app length] in SL. rewrite firstn_skipn in SL.
  unfold imp_get_state, in_neon. fields. rewrite SL; auto.
  - rewrite <- skipn_add. reflexivity.
  - rewrite firstn_length. lia.
  - rewrite skipn_length. lia.
Qed.
Lemma nwts_eq : forall w off, window w (a_ncls b) off (length (a_rows b)) ->
  imp_set_wts (concat w) off (in_neon h b) = Ret (in_neon h (with_weights (firstn (length (a_rows b)) (skipn off w)) b)) /\
  nshape bo (with_weights (firstn (length (a_rows b)) (skipn off w)) b).
Proof.
  intros w off (W1 & W2 & W3). pose proof (ns_width _ _ Sh) as Hw. pose proof (ns_weights _ _ Sh) as Hn.
  pose proof (ns_fits _ _ Sh) as (F1 & F2 & F3 & F4 & F5).
  assert (FW : Forall (fun w => length w = a_ncls b) (firstn (length (a_rows b)) (skipn off w))).
  { clear - W1. apply Forall_forall. intros x Hx. rewrite Forall_forall in W1. apply W1.
    rewrite <- (firstn_skipn off w). apply in_or_app. right. rewrite <- (firstn_skipn (length (a_rows b)) (skipn off w)). apply in_or_app. auto. }
  assert (F5' : Z.of_nat (length (a_rows b) * a_ncls b) <= int_max) by lia.
  pose proof (set_wts_loop (a_ncls b) (a_ncls b) (length (a_rows b)) (le_n _) F5' (a_weights b) [] off (firstn off w) (skipn off w)) as SL.
  cbn [app length] in SL. rewrite firstn_skipn, Hn in SL. rewrite (widen_all _ _ Hw), (widen_all _ _ FW) in SL. split.
  - unfold imp_set_wts, in_neon. fields.
    rewrite (fold_frame _ (fun i ws => bindR (int_ ((i + off) * a_ncls b)) (fun src_o => bindR (int_ (i * a_ncls b)) (fun dst_o =>
       cpy ws dst_o (concat w) src_o (a_ncls b)))) (bh_weights h) _ _ _ _) with (2 := SL Hw eq_refl W1 ltac:(rewrite firstn_length; lia) ltac:(rewrite skipn_length; lia) W3).
    + cbn [bindR]. reflexivity.
    + intros i s y. destruct (int_ ((i + off) * a_ncls b)) as [x| |]; cbn [bindR]; try discriminate.
      destruct (int_ (i * a_ncls b)) as [z| |]; cbn [bindR]; try discriminate. apply cpy_dst_more.
  - destruct Sh. constructor; cbn [with_weights a_nlit a_lmem a_mask a_ncls a_rows a_weights a_outputs a_counts a_votes a_budget a_cmp a_vrng a_fast]; auto.
    rewrite firstn_length, skipn_length. lia.
Qed.
Lemma nget_wts_eq : forall d off, window d (a_ncls b) off (length (a_rows b)) ->
  imp_get_wts (concat d) off (in_neon h b) = Ret (concat (firstn off d ++ a_weights b ++ skipn (off + length (a_rows b)) d)).
Proof.
  intros d off (W1 & W2 & W3). pose proof (ns_width _ _ Sh) as Hw. pose proof (ns_weights _ _ Sh) as Hn.
  pose proof (ns_fits _ _ Sh) as (F1 & F2 & F3 & F4 & F5).
  assert (F5' : Z.of_nat (length (a_rows b) * a_ncls b) <= int_max) by lia.
  pose proof (get_wts_loop (a_ncls b) (a_ncls b) (length (a_rows b)) (le_n _) F5' (a_weights b) [] off (firstn off d) (skipn off d)) as SL.
  cbn [app length] in SL. rewrite firstn_skipn, Hn in SL. rewrite (widen_all _ _ Hw) in SL.
  unfold imp_get_wts, in_neon. fields.
  specialize (SL Hw eq_refl W1 ltac:(rewrite firstn_length; lia) ltac:(rewrite skipn_length; lia) W3).
  rewrite (fold_mono _ _ (fun i dst => bindR (int_ (i * a_ncls b)) (fun src_o => bindR (int_ ((i + off) * a_ncls b)) (fun dst_o =>
       cpy dst dst_o (concat (a_weights b) ++ bh_weights h) src_o (a_ncls b)))) _ _ _ _) with (2 := SL).
  - rewrite <- skipn_add. reflexivity.
  - intros i s y. destruct (int_ (i * a_ncls b)) as [x| |]; cbn [bindR]; try discriminate.
    destruct (int_ ((i + off) * a_ncls b)) as [z| |]; cbn [bindR]; try discriminate. apply cpy_src_more.
Qed.
End calls.

Theorem ncall_eq : forall bo boost h b c, nshape bo b -> ncall_ok bo (a_nlit b) (length (a_rows b)) (a_ncls b) c ->
  ni_call bo boost (in_neon h b) c = Ret (in_neon h (n_call bo boost b c)) /\ nshape bo (n_call bo boost b c) /\
  a_nlit (n_call bo boost b c) = a_nlit b /\ length (a_rows (n_call bo boost b c)) = length (a_rows b) /\ a_ncls (n_call bo boost b c) = a_ncls b.
Proof.
  intros bo boost h b c Sh Hc. pose proof (ns_lmem _ _ Sh) as Hm.
  destruct c as [l|l|l pc pp nc np|st off|w off]; cbn [ncall_ok ni_call n_call] in *.
  - destruct Hc as [Hc Hb]. unfold nimp_train. rewrite (nset_eq bo h b Sh) by (auto; lia). cbn [bindR]. pose proof (ntrain_shape bo b Sh l Hb) as S1.
    rewrite (nvotes_eq bo h _ S1). split; [reflexivity|]. split; [apply ncount_votes_shape; exact S1|]. auto.
  - unfold nimp_test. rewrite (neval_eq bo h b Sh) by lia. cbn [bindR]. pose proof (neval_shape bo b Sh l) as S1.
    rewrite (nvotes_eq bo h _ S1). split; [reflexivity|]. split; [apply ncount_votes_shape; exact S1|]. auto.
  - destruct Hc as (C1 & C2 & C3).
    destruct (nupdate_eq bo boost h b Sh l pc pp nc np) as (U1 & U2 & U3); auto; [lia|]. split; [exact U1|]. split; [exact U2|].
    split; [|split; [exact U3|]];
    unfold neon_train_update; destruct (neon_update_loop bo boost (a_budget b) (a_cmp b) (a_lmem b) l pc pp nc np (a_rows b) (a_weights b) (a_outputs b) (a_counts b) (a_vrng b) (a_fast b)) as [[[[x1 x2] x3] x4] x5]; reflexivity.
  - destruct (nstate_eq bo h b Sh st off Hc) as (U1 & U2 & U3). split; [exact U1|]. split; [exact U2|].
    cbn [with_rows a_nlit a_rows a_ncls]. auto.
  - destruct (nwts_eq bo h b Sh w off Hc) as [U1 U2]. split; [exact U1|]. split; [exact U2|]. auto.
Qed.
Theorem ncalls_eq : forall bo boost h cs b, nshape bo b -> Forall (ncall_ok bo (a_nlit b) (length (a_rows b)) (a_ncls b)) cs ->
  ni_calls bo boost cs (in_neon h b) = Ret (in_neon h (fold_left (n_call bo boost) cs b)) /\ nshape bo (fold_left (n_call bo boost) cs b).
Proof.
  intros bo boost h cs. induction cs as [|c cs IH]; intros b Sh HF; cbn [ni_calls fold_left]; [auto|].
  destruct (ncall_eq bo boost h b c Sh (Forall_inv HF)) as (E1 & E2 & E3 & E4 & E5). rewrite E1. cbn [bindR].
  apply IH; auto. rewrite E3, E4, E5. exact (Forall_inv_tail HF).
Qed.
