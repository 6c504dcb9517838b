(** Memory safety of the AVX2 block: initialisation and histories. *)
From Coq Require Import ZArith List Bool QArith Lia ZifyBool.
From Verif Require Import Base BaseProofs Spec ModelDense ModelLayout ModelAvx2 SpecAvx2 ModelSparse ModelSparseImp ModelAvx2Imp
  SpecAvx2Imp ProofsLayout ProofsSparseImp ProofsAvx2Imp ProofsAvx2ImpB ProofsAvx2ImpC ProofsAvx2ImpD.
Import ListNotations.
Open Scope Z_scope.

(** ** Calls *)

Lemma mask_ld : forall mask, length mask = 32%nat -> vld mask 0 0 = Ret mask.
Proof.
  intros mask H. unfold vld. rewrite int_ok by (unfold int_max; lia). cbn [bindR Nat.add]. rewrite H.
  change (0 mod 32 =? 0)%nat with true. change (32 <=? 32)%nat with true. cbn [andb]. f_equal.
  unfold v_load, slice. cbn [skipn]. apply firstn_all2. lia.
Qed.
Lemma count_votes_len : forall outs ws votes, Forall (fun w => length w = length votes) ws -> length (count_votes_loop outs ws votes) = length votes.
Proof.
  intros outs. induction outs as [|o outs IH]; intros [|w ws] votes H; cbn [count_votes_loop]; auto.
  assert (E : length (if o =? 1 then map2 (fun v t => wrap16 (v + t)) votes w else votes) = length votes).
  { destruct (o =? 1); auto. apply map2_len; auto. exact (Forall_inv H). }
  rewrite IH; auto. rewrite E. exact (Forall_inv_tail H).
Qed.
Lemma map2_len_min : forall A B C (f : A -> B -> C) a b, length b = length a -> length (map2 f a b) = length a.
Proof. intros A B C f a. induction a as [|x a IH]; intros [|y b] H; cbn [map2 length] in *; try lia. rewrite IH; lia. Qed.

Section calls.
Variables (bo boost pad : bool) (rest : list Z) (b : ablock).
Hypothesis Sh : vshape bo pad b.

Lemma votes_eq : imp_vvotes (inmem pad rest b) = Ret (inmem pad rest (avx_count_votes b)).
Proof.
  pose proof (vs_width _ _ _ Sh) as Hw. pose proof (vs_weights _ _ _ Sh) as Hn. pose proof (vs_outputs _ _ _ Sh) as Ho.
  pose proof (vs_votes _ _ _ Sh) as Hv. pose proof (vs_fits _ _ _ Sh) as (_ & _ & _ & F4 & F5).
  pose proof (wmem_ge pad (a_ncls b)) as HW.
  unfold imp_vvotes. cbn [inmem m_ncls m_votes m_ncl m_outputs m_wmem m_weights].
  rewrite widen_len by lia. destruct (Nat.leb_spec (a_ncls b) (wmem_of pad (a_ncls b))); [|lia]. cbn [negb].
  assert (Es : skipn (a_ncls b) (widen (wmem_of pad (a_ncls b)) (a_votes b)) = repeat 0 (wmem_of pad (a_ncls b) - a_ncls b)).
  { apply (widen_cut (wmem_of pad (a_ncls b)) (a_ncls b)). exact Hv. }
  rewrite Es. unfold widen at 1. rewrite Ho.
  pose proof (vote_loop pad (a_ncls b) (repeat 0 (wmem_of pad (a_ncls b) - a_ncls b)) (a_weights b) [] [] (a_outputs b)
    (repeat 0 (outs_of (length (a_rows b)) - length (a_rows b))) (repeat 0 (a_ncls b))) as VL.
  cbn [app length] in VL. rewrite Hn in VL. rewrite VL; auto.
  - cbn [bindR]. f_equal. unfold m_set_votes, inmem, avx_count_votes.
    cbn [m_nlit m_lmem m_ncl m_ncls m_wmem m_mask m_clauses m_weights m_outputs m_counts m_votes m_budget m_cmp m_vrng m_fast
         a_nlit a_lmem a_mask a_ncls a_rows a_weights a_outputs a_counts a_votes a_budget a_cmp a_vrng a_fast].
    f_equal.
    unfold widen. rewrite count_votes_len; rewrite repeat_length; [reflexivity|exact Hw].
  - apply repeat_length.
Qed.
Lemma count_votes_shape : vshape bo pad (avx_count_votes b).
Proof.
  destruct Sh. constructor; cbn [avx_count_votes a_nlit a_lmem a_mask a_ncls a_rows a_weights a_outputs a_counts a_votes a_budget a_cmp a_vrng a_fast]; auto.
  rewrite count_votes_len; rewrite repeat_length; auto.
Qed.

Lemma geom : exists q, a_lmem b = (q * 32)%nat /\ (0 < q)%nat /\ (a_nlit b <= a_lmem b)%nat.
Proof.
  rewrite (vs_lmem _ _ _ Sh). destruct (lmem_mod (a_nlit b)) as (q & E1 & E2 & _ & E4). exists q. pose proof (vs_pos _ _ _ Sh) as Hp.
  split; [exact E1|]. split; [apply E4; exact Hp|exact E2].
Qed.

Lemma set_eq : forall lits, (a_lmem b <= length lits)%nat -> imp_vset bo lits (inmem pad rest b) = Ret (inmem pad rest (avx_train_output bo lits b)).
Proof.
  intros lits Hl. destruct geom as (q & Eq & Hq & _).
  pose proof (vs_rows _ _ _ Sh) as Hr. pose proof (vs_outputs _ _ _ Sh) as Ho. pose proof (vs_counts _ _ _ Sh) as Hc.
  pose proof (vs_fits _ _ _ Sh) as (_ & F2 & _). rewrite <- (vs_lmem _ _ _ Sh) in F2.
  unfold imp_vset. cbn [inmem m_mask m_ncl m_lmem]. rewrite mask_ld by apply (vs_mask _ _ _ Sh). cbn [bindR].
  destruct (Nat.eqb_spec (length (a_rows b)) 0) as [E0|E0].
  - assert (R0 : a_rows b = []) by (destruct (a_rows b); [reflexivity|discriminate]). rewrite R0 in *. cbn [length] in *.
    assert (O0 : a_outputs b = []) by (destruct (a_outputs b); [reflexivity|discriminate]).
    f_equal. unfold inmem, avx_train_output.
    cbn [a_nlit a_lmem a_mask a_ncls a_rows a_weights a_outputs a_counts a_votes a_budget a_cmp a_vrng a_fast]. rewrite R0, O0. cbn [map map2].
    destruct bo; [|reflexivity]. assert (C0 : a_counts b = []) by (specialize (Hc eq_refl); destruct (a_counts b); [reflexivity|discriminate]).
    rewrite C0. reflexivity.
  - rewrite (last_ok (a_lmem b) q Eq Hq). cbn [bindR].
    pose proof (vset_loop bo lits (a_mask b) rest (a_lmem b) q Eq Hq Hl (a_rows b) [] (inmem pad rest b) [] (a_outputs b)
       (repeat 0 (outs_of (length (a_rows b)) - length (a_outputs b))) [] (a_counts b)) as VL.
    cbn [app length] in VL.
    assert (EI : m_set_outputs (inmem pad rest b) (a_outputs b ++ repeat 0 (outs_of (length (a_rows b)) - length (a_outputs b))) (a_counts b) = inmem pad rest b) by reflexivity.
    rewrite EI in VL. rewrite VL; auto.
    f_equal. unfold inmem, avx_train_output, m_set_outputs.
    cbn [m_nlit m_lmem m_ncl m_ncls m_wmem m_mask m_clauses m_weights m_outputs m_counts m_votes m_budget m_cmp m_vrng m_fast
         a_nlit a_lmem a_mask a_ncls a_rows a_weights a_outputs a_counts a_votes a_budget a_cmp a_vrng a_fast].
    f_equal. unfold widen. rewrite !map_length, Ho. reflexivity.
Qed.
Lemma train_shape : forall lits, vshape bo pad (avx_train_output bo lits b).
Proof.
  intros lits. destruct Sh. constructor; cbn [avx_train_output a_nlit a_lmem a_mask a_ncls a_rows a_weights a_outputs a_counts a_votes a_budget a_cmp a_vrng a_fast]; auto.
  - rewrite !map_length. reflexivity.
  - intros Eb. rewrite Eb. rewrite map2_len_min; rewrite map_length; auto.
Qed.
Lemma eval_eq : forall lits, (a_lmem b <= length lits)%nat -> imp_veval lits (inmem pad rest b) = Ret (inmem pad rest (avx_eval_set lits b)).
Proof.
  intros lits Hl. destruct geom as (q & Eq & Hq & _).
  pose proof (vs_rows _ _ _ Sh) as Hr. pose proof (vs_outputs _ _ _ Sh) as Ho.
  pose proof (vs_fits _ _ _ Sh) as (_ & F2 & _). rewrite <- (vs_lmem _ _ _ Sh) in F2.
  unfold imp_veval. cbn [inmem m_mask m_ncl m_lmem]. rewrite mask_ld by apply (vs_mask _ _ _ Sh). cbn [bindR].
  destruct (Nat.eqb_spec (length (a_rows b)) 0) as [E0|E0].
  - assert (R0 : a_rows b = []) by (destruct (a_rows b); [reflexivity|discriminate]). rewrite R0 in *. cbn [length] in *.
    assert (O0 : a_outputs b = []) by (destruct (a_outputs b); [reflexivity|discriminate]).
    f_equal. unfold inmem, avx_eval_set.
    cbn [a_nlit a_lmem a_mask a_ncls a_rows a_weights a_outputs a_counts a_votes a_budget a_cmp a_vrng a_fast]. rewrite R0, O0. reflexivity.
  - rewrite (last_ok (a_lmem b) q Eq Hq). cbn [bindR].
    pose proof (veval_loop lits (a_mask b) rest (a_lmem b) q Eq Hq Hl (a_rows b) [] (inmem pad rest b) [] (a_outputs b)
       (repeat 0 (outs_of (length (a_rows b)) - length (a_outputs b))) (a_counts b)) as VL.
    cbn [app length] in VL.
    assert (EI : m_set_outputs (inmem pad rest b) (a_outputs b ++ repeat 0 (outs_of (length (a_rows b)) - length (a_outputs b))) (a_counts b) = inmem pad rest b) by reflexivity.
    rewrite EI in VL. rewrite VL; auto.
    f_equal. unfold inmem, avx_eval_set, m_set_outputs.
    cbn [m_nlit m_lmem m_ncl m_ncls m_wmem m_mask m_clauses m_weights m_outputs m_counts m_votes m_budget m_cmp m_vrng m_fast
         a_nlit a_lmem a_mask a_ncls a_rows a_weights a_outputs a_counts a_votes a_budget a_cmp a_vrng a_fast].
    f_equal. unfold widen. rewrite !map_length, Ho. reflexivity.
Qed.
Lemma eval_shape : forall lits, vshape bo pad (avx_eval_set lits b).
Proof.
  intros lits. destruct Sh. constructor; cbn [avx_eval_set a_nlit a_lmem a_mask a_ncls a_rows a_weights a_outputs a_counts a_votes a_budget a_cmp a_vrng a_fast]; auto.
  rewrite !map_length. reflexivity.
Qed.

Lemma update_eq : forall lits pc pp nc np, (a_lmem b <= length lits)%nat -> (pc < a_ncls b)%nat -> (nc < a_ncls b)%nat ->
  imp_vupdate bo boost lits pc pp nc np (inmem pad rest b) = Ret (inmem pad rest (avx_train_update bo boost lits pc pp nc np b)) /\
  vshape bo pad (avx_train_update bo boost lits pc pp nc np b).
Proof.
  intros lits pc pp nc np Hl Hpc Hnc. destruct geom as (q & Eq & Hq & _).
  pose proof (vs_rows _ _ _ Sh) as Hr. pose proof (vs_outputs _ _ _ Sh) as Ho. pose proof (vs_counts _ _ _ Sh) as Hc.
  pose proof (vs_width _ _ _ Sh) as Hw. pose proof (vs_weights _ _ _ Sh) as Hn. pose proof (vs_vec _ _ _ Sh) as Hv.
  pose proof (vs_fits _ _ _ Sh) as (F1 & F2 & F3 & F4 & F5). rewrite <- (vs_lmem _ _ _ Sh) in F2.
  unfold imp_vupdate, avx_train_update. cbn [inmem m_ncl].
  destruct (a_rows b) as [|row0 rows0] eqn:ER.
  - destruct (a_weights b) as [|w0 wss0] eqn:EW; [|discriminate]. destruct (a_outputs b) as [|o0 outs0] eqn:EO; [|discriminate].
    cbn [length fold_ix avx_update_loop]. split.
    + f_equal. unfold inmem. rewrite ER, EW, EO. reflexivity.
    + destruct Sh. constructor; cbn [a_nlit a_lmem a_mask a_ncls a_rows a_weights a_outputs a_counts a_votes a_budget a_cmp a_vrng a_fast]; auto;
      rewrite ER in *; auto.
  - rewrite <- ER in *.
    assert (HI2 : Z.of_nat (2 * a_lmem b) <= int_max).
    { eapply Z.le_trans; [|exact F2]. apply inj_le. rewrite ER. cbn [length]. lia. }
    pose proof (update_loop_eq bo boost pad lits rest (a_lmem b) q (a_ncls b) (length (a_rows b)) Eq Hl HI2 F2 F5 (wmem_ge pad (a_ncls b))
      (inmem pad rest b) (a_rows b) [] [] (a_weights b) [] (a_outputs b) (repeat 0 (outs_of (length (a_rows b)) - length (a_outputs b))) [] (a_counts b)
      (a_vrng b) (a_fast b) pc pp nc np) as UL.
    cbn [app length] in UL. change (m_budget (inmem pad rest b)) with (a_budget b) in UL. change (m_cmp (inmem pad rest b)) with (a_cmp b) in UL.
    change (st_of pad rest (a_ncls b) (inmem pad rest b) (a_rows b) (a_weights b) (a_outputs b)
      (repeat 0 (outs_of (length (a_rows b)) - length (a_outputs b))) (a_vrng b) (a_fast b)) with (inmem pad rest b) in UL.
    destruct (avx_update_loop bo boost (a_budget b) (a_cmp b) (a_lmem b) lits pc pp nc np (a_rows b) (a_weights b) (a_outputs b) (a_counts b) (a_vrng b) (a_fast b))
      as [[[[rows1 wss1] outs1] r1] fast1].
    destruct UL as (U1 & U2 & U3 & U4 & U5 & U6 & U7); auto.
    rewrite U1. split.
    + f_equal. unfold st_of, inmem.
      cbn [m_nlit m_lmem m_ncl m_ncls m_wmem m_mask m_clauses m_weights m_outputs m_counts m_votes m_budget m_cmp m_vrng m_fast
         a_nlit a_lmem a_mask a_ncls a_rows a_weights a_outputs a_counts a_votes a_budget a_cmp a_vrng a_fast].
      rewrite U5. f_equal. unfold widen. rewrite U7, Ho. reflexivity.
    + destruct Sh. constructor; cbn [a_nlit a_lmem a_mask a_ncls a_rows a_weights a_outputs a_counts a_votes a_budget a_cmp a_vrng a_fast]; auto; try lia.
      all: rewrite U5; auto.
Qed.

Lemma state_eq : forall c off, window c (2 * a_nlit b) off (length (a_rows b)) ->
  imp_set_state (concat c) off (inmem pad rest b) = Ret (inmem pad rest (with_rows (map2 (put_row (a_nlit b) (a_lmem b)) (skipn off c) (a_rows b)) b)) /\
  vshape bo pad (with_rows (map2 (put_row (a_nlit b) (a_lmem b)) (skipn off c) (a_rows b)) b).
Proof.
  intros c off (W1 & W2 & W3). destruct geom as (q & Eq & Hq & HnL).
  pose proof (vs_rows _ _ _ Sh) as Hr. pose proof (vs_fits _ _ _ Sh) as (F1 & F2 & F3 & F4 & F5). rewrite <- (vs_lmem _ _ _ Sh) in F2.
  assert (LS : (length (a_rows b) <= length (skipn off c))%nat) by (rewrite skipn_length; lia).
  assert (L2 : length (map2 (put_row (a_nlit b) (a_lmem b)) (skipn off c) (a_rows b)) = length (a_rows b)).
  { clear - LS. revert LS. generalize (skipn off c). induction (a_rows b) as [|r rows IH]; intros [|s l] H; cbn [map2 length] in *; try lia. rewrite IH; lia. }
  pose proof (set_state_loop rest (a_lmem b) (a_nlit b) (length (a_rows b)) HnL F2 (a_rows b) [] off (firstn off c) (skipn off c)) as SL.
  cbn [app length] in SL. rewrite firstn_skipn in SL. split.
  - unfold imp_set_state. cbn [inmem m_ncl m_nlit m_lmem m_clauses]. rewrite SL; auto.
    + cbn [bindR]. f_equal. unfold m_store, inmem, with_rows.
      cbn [m_nlit m_lmem m_ncl m_ncls m_wmem m_mask m_clauses m_weights m_outputs m_counts m_votes m_budget m_cmp m_vrng m_fast
         a_nlit a_lmem a_mask a_ncls a_rows a_weights a_outputs a_counts a_votes a_budget a_cmp a_vrng a_fast].
      rewrite L2. reflexivity.
    + rewrite firstn_length. lia.
  - destruct Sh. constructor; cbn [with_rows a_nlit a_lmem a_mask a_ncls a_rows a_weights a_outputs a_counts a_votes a_budget a_cmp a_vrng a_fast]; auto; try lia.
    + assert (WS : Forall (fun r => length r = (2 * a_nlit b)%nat) (skipn off c)).
      { clear - W1. apply Forall_forall. intros x Hx. rewrite Forall_forall in W1. apply W1. rewrite <- (firstn_skipn off c). apply in_or_app. auto. }
      clear - HnL Hr WS. revert WS. generalize (skipn off c). induction (a_rows b) as [|r rows IH]; intros [|s l] H; cbn [map2]; constructor.
      * apply put_row_len; auto. { exact (Forall_inv Hr). } { exact (Forall_inv H). }
      * apply IH. { exact (Forall_inv_tail Hr). } { exact (Forall_inv_tail H). }
    + rewrite L2. auto.
Qed.
Lemma get_state_eq : forall d off, window d (2 * a_nlit b) off (length (a_rows b)) ->
  imp_get_state (concat d) off (inmem pad rest b) =
    Ret (concat (firstn off d ++ map (own_row (a_nlit b) (a_lmem b)) (a_rows b) ++ skipn (off + length (a_rows b)) d)).
Proof.
  intros d off (W1 & W2 & W3). destruct geom as (q & Eq & Hq & HnL).
  pose proof (vs_rows _ _ _ Sh) as Hr. pose proof (vs_fits _ _ _ Sh) as (F1 & F2 & F3 & F4 & F5). rewrite <- (vs_lmem _ _ _ Sh) in F2.
  pose proof (get_state_loop rest (a_lmem b) (a_nlit b) (length (a_rows b)) HnL F2 (a_rows b) [] off (firstn off d) (skipn off d)) as SL.
  cbn [app length] in SL. rewrite firstn_skipn in SL.
  unfold imp_get_state. cbn [inmem m_ncl m_nlit m_lmem m_clauses]. rewrite SL; auto.
  - rewrite <- skipn_add. reflexivity.
  - rewrite firstn_length. lia.
  - rewrite skipn_length. lia.
Qed.
Lemma wts_eq : forall w off, window w (a_ncls b) off (length (a_rows b)) ->
  imp_set_wts (concat w) off (inmem pad rest b) = Ret (inmem pad rest (with_weights (firstn (length (a_rows b)) (skipn off w)) b)) /\
  vshape bo pad (with_weights (firstn (length (a_rows b)) (skipn off w)) b).
Proof.
  intros w off (W1 & W2 & W3). pose proof (vs_width _ _ _ Sh) as Hw. pose proof (vs_weights _ _ _ Sh) as Hn.
  pose proof (vs_fits _ _ _ Sh) as (F1 & F2 & F3 & F4 & F5).
  pose proof (set_wts_loop (wmem_of pad (a_ncls b)) (a_ncls b) (length (a_rows b)) (wmem_ge pad (a_ncls b)) F5 (a_weights b) [] off (firstn off w) (skipn off w)) as SL.
  cbn [app length] in SL. rewrite firstn_skipn, Hn in SL. split.
  - unfold imp_set_wts. cbn [inmem m_ncl m_ncls m_wmem m_weights]. rewrite SL; auto.
    + rewrite firstn_length. lia.
    + rewrite skipn_length. lia.
  - destruct Sh. constructor; cbn [with_weights a_nlit a_lmem a_mask a_ncls a_rows a_weights a_outputs a_counts a_votes a_budget a_cmp a_vrng a_fast]; auto.
    + rewrite firstn_length, skipn_length. lia.
    + clear - W1. apply Forall_forall. intros x Hx. rewrite Forall_forall in W1. apply W1.
      rewrite <- (firstn_skipn off w). apply in_or_app. right. rewrite <- (firstn_skipn (length (a_rows b)) (skipn off w)). apply in_or_app. auto.
Qed.
Lemma get_wts_eq : forall d off, window d (a_ncls b) off (length (a_rows b)) ->
  imp_get_wts (concat d) off (inmem pad rest b) = Ret (concat (firstn off d ++ a_weights b ++ skipn (off + length (a_rows b)) d)).
Proof.
  intros d off (W1 & W2 & W3). pose proof (vs_width _ _ _ Sh) as Hw. pose proof (vs_weights _ _ _ Sh) as Hn.
  pose proof (vs_fits _ _ _ Sh) as (F1 & F2 & F3 & F4 & F5).
  pose proof (get_wts_loop (wmem_of pad (a_ncls b)) (a_ncls b) (length (a_rows b)) (wmem_ge pad (a_ncls b)) F5 (a_weights b) [] off (firstn off d) (skipn off d)) as SL.
  cbn [app length] in SL. rewrite firstn_skipn, Hn in SL.
  unfold imp_get_wts. cbn [inmem m_ncl m_ncls m_wmem m_weights]. rewrite SL; auto.
  - rewrite <- skipn_add. reflexivity.
  - rewrite firstn_length. lia.
  - rewrite skipn_length. lia.
Qed.
End calls.

Theorem call_eq : forall bo boost pad rest b c, vshape bo pad b -> vcall_ok (a_nlit b) (length (a_rows b)) (a_ncls b) c ->
  vi_call bo boost (inmem pad rest b) c = Ret (inmem pad rest (v_call bo boost b c)) /\ vshape bo pad (v_call bo boost b c) /\
  a_nlit (v_call bo boost b c) = a_nlit b /\ length (a_rows (v_call bo boost b c)) = length (a_rows b) /\ a_ncls (v_call bo boost b c) = a_ncls b.
Proof.
  intros bo boost pad rest b c Sh Hc. pose proof (vs_lmem _ _ _ Sh) as Hm.
  destruct c as [l|l|l pc pp nc np|st off|w off]; cbn [vcall_ok vi_call v_call] in *.
  - unfold imp_vtrain. rewrite (set_eq bo pad rest b Sh) by lia. cbn [bindR]. pose proof (train_shape bo pad b Sh l) as S1.
    rewrite (votes_eq bo pad rest _ S1). split; [reflexivity|]. split; [apply count_votes_shape; exact S1|]. auto.
  - unfold imp_vtest. rewrite (eval_eq bo pad rest b Sh) by lia. cbn [bindR]. pose proof (eval_shape bo pad b Sh l) as S1.
    rewrite (votes_eq bo pad rest _ S1). split; [reflexivity|]. split; [apply count_votes_shape; exact S1|]. auto.
  - destruct Hc as (C1 & C2 & C3). unfold avx_upd.
    destruct (update_eq bo boost pad rest b Sh l pc pp nc np) as [U1 U2]; auto; [lia|]. split; [exact U1|]. split; [exact U2|].
    clear U1. pose proof (vs_outputs _ _ _ U2) as O2. pose proof (vs_outputs _ _ _ Sh) as O1.
    assert (LL : forall rows wss outs counts r fast, length (fst (fst (fst (fst (avx_update_loop bo boost (a_budget b) (a_cmp b) (a_lmem b) l pc pp nc np rows wss outs counts r fast))))) = length rows).
    { intros rows. induction rows as [|row rows IH]; intros wss outs counts r fast; [reflexivity|]. cbn [avx_update_loop].
      destruct wss as [|ws wss]; [reflexivity|]. destruct outs as [|o outs]; [reflexivity|].
      destruct (avx_update_clause bo boost (a_budget b) (a_cmp b) (a_lmem b) l pc pp nc np row ws o (hd 0 counts) r fast) as [[[[r1 w1] o1] v1] f1].
      specialize (IH wss outs (tl counts) v1 f1).
      destruct (avx_update_loop bo boost (a_budget b) (a_cmp b) (a_lmem b) l pc pp nc np rows wss outs (tl counts) v1 f1) as [[[[x1 x2] x3] x4] x5].
      cbn [fst length] in *. lia. }
    specialize (LL (a_rows b) (a_weights b) (a_outputs b) (a_counts b) (a_vrng b) (a_fast b)).
    unfold avx_train_update. destruct (avx_update_loop bo boost (a_budget b) (a_cmp b) (a_lmem b) l pc pp nc np (a_rows b) (a_weights b) (a_outputs b) (a_counts b) (a_vrng b) (a_fast b)) as [[[[x1 x2] x3] x4] x5].
    cbn [fst a_nlit a_rows a_ncls] in *. auto.
  - destruct (state_eq bo pad rest b Sh st off Hc) as [U1 U2]. split; [exact U1|]. split; [exact U2|].
    cbn [with_rows a_nlit a_rows a_ncls]. split; [reflexivity|]. split; [|reflexivity].
    destruct Hc as (W1 & W2 & W3). assert (LS : (length (a_rows b) <= length (skipn off st))%nat) by (rewrite skipn_length; lia).
    clear - LS. revert LS. generalize (skipn off st). generalize (put_row (a_nlit b) (a_lmem b)). intros f.
    induction (a_rows b) as [|r rows IH]; intros [|s l] H; cbn [map2 length] in *; try lia. rewrite IH; lia.
  - destruct (wts_eq bo pad rest b Sh w off Hc) as [U1 U2]. split; [exact U1|]. split; [exact U2|]. auto.
Qed.
Theorem calls_eq : forall bo boost pad rest cs b, vshape bo pad b -> Forall (vcall_ok (a_nlit b) (length (a_rows b)) (a_ncls b)) cs ->
  vi_calls bo boost cs (inmem pad rest b) = Ret (inmem pad rest (fold_left (v_call bo boost) cs b)) /\ vshape bo pad (fold_left (v_call bo boost) cs b).
Proof.
  intros bo boost pad rest cs. induction cs as [|c cs IH]; intros b Sh HF; cbn [vi_calls fold_left]; [auto|].
  destruct (call_eq bo boost pad rest b c Sh (Forall_inv HF)) as (E1 & E2 & E3 & E4 & E5). rewrite E1. cbn [bindR].
  apply IH; auto. rewrite E3, E4, E5. exact (Forall_inv_tail HF).
Qed.

(** ** Initialisation *)

#[local] Ltac asc := repeat first [rewrite <- !app_assoc | progress cbn [app]]; reflexivity.

Lemma set_ix_at : forall (a b m : list Z) x v i, m = a ++ x :: b -> length a = i -> set_ix i v m = Ret (a ++ v :: b).
Proof. intros a b m x v i -> <-. apply set_ix_mid. Qed.

Lemma fill_const : forall v c m a, fold_ix (length m) (length a) (fun i (m : list Z) => set_ix i v m) (a ++ m ++ c) = Ret (a ++ repeat v (length m) ++ c).
Proof.
  intros v c m. induction m as [|x m IH]; intros a; cbn [length fold_ix repeat app]; auto.
  rewrite set_ix_mid. cbn [bindR]. specialize (IH (a ++ [v])). rewrite app_length in IH. cbn [length] in IH.
  replace (length a + 1)%nat with (S (length a)) in IH by lia. rewrite <- !app_assoc in IH. exact IH.
Qed.
Lemma fresh_len : forall n j, length (fresh n j) = n.
Proof. intros. unfold fresh. rewrite map_length, seq_length. reflexivity. Qed.

Lemma mask_eq : forall jm nlit, Z.of_nat (lmem_of nlit) <= int_max -> imp_mask jm nlit = Ret (lmem_of nlit, mask_of nlit).
Proof.
  intros jm nlit H. unfold imp_mask, lmem_of, mask_of in *.
  pose proof (fill_const (-1) [] (fresh 32 jm) []) as E. cbn [app length] in E. rewrite !app_nil_r, fresh_len in E. rewrite E. cbn [bindR].
  pose proof (Nat.mod_upper_bound nlit 32 ltac:(lia)) as U. destruct (nlit mod 32 =? 0)%nat; [reflexivity|].
  rewrite int_ok by exact H. cbn [bindR].
  assert (E2 : repeat (-1) 32 = repeat (-1) (nlit mod 32) ++ repeat (-1) (32 - nlit mod 32) ++ []).
  { rewrite app_nil_r, <- repeat_app. f_equal. lia. }
  rewrite E2.
  pose proof (fill_const 0 [] (repeat (-1) (32 - nlit mod 32)) (repeat (-1) (nlit mod 32))) as E3. rewrite !repeat_length in E3.
  rewrite E3. cbn [bindR]. rewrite app_nil_r. reflexivity.
Qed.

Lemma init_lits_len : forall m r, length (fst (fst (avx_init_lits m r))) = m /\ length (snd (fst (avx_init_lits m r))) = m.
Proof.
  intros m. induction m as [|m IH]; intros r; [auto|]. cbn [avx_init_lits]. destruct (next_u r) as [u r1]. destruct (next_u r1) as [v r2].
  specialize (IH r2). destruct (avx_init_lits m r2) as [[p q] r']. cbn [fst snd length] in *. lia.
Qed.

Section init.
Variables (L n : nat) (A B : list Z).
Hypothesis HnL : (n <= L)%nat.
Hypothesis HI : Z.of_nat (2 * L) <= int_max.

Lemma init_lits_loop : forall p2 q2 p1 q1 pp qp r, length q1 = length p1 -> length q2 = length p2 -> (length p1 + length p2 + length pp)%nat = L ->
  (length p1 + length p2)%nat = n ->
  fold_ix (length p2) (length p1) (fun literal_k s =>
     let '(u, r) := next_u (snd s) in
     bindR (set_ix (length A + literal_k) (if Qlt_bool (1#2) u then 0 else -1) (fst s)) (fun cl =>
     let '(v, r) := next_u r in
     bindR (int_ (literal_k + L)) (fun neg =>
     bindR (set_ix (length A + neg) (if Qlt_bool (1#2) v then 0 else -1) cl) (fun cl => Ret (cl, r)))))
    (A ++ (p1 ++ p2 ++ pp) ++ (q1 ++ q2 ++ qp) ++ B, r) =
  Ret (let '(p, q, r') := avx_init_lits (length p2) r in (A ++ (p1 ++ p ++ pp) ++ (q1 ++ q ++ qp) ++ B, r')).
Proof.
  intros p2. induction p2 as [|x p2 IH]; intros q2 p1 q1 pp qp r H1 H2 H3 H4; destruct q2 as [|y q2]; try discriminate; [reflexivity|].
  cbn [length fold_ix avx_init_lits fst snd] in *. destruct (next_u r) as [u r1].
  set (b1 := if Qlt_bool (1 # 2) u then 0 else -1).
  rewrite (set_ix_at (A ++ p1) (p2 ++ pp ++ (q1 ++ (y :: q2) ++ qp) ++ B) _ x b1).
  2:{ asc. }
  2:{ rewrite app_length. reflexivity. }
  cbn [bindR]. destruct (next_u r1) as [v r2]. set (b2 := if Qlt_bool (1 # 2) v then 0 else -1).
  rewrite int_ok by lia. cbn [bindR].
  rewrite (set_ix_at (A ++ (p1 ++ b1 :: p2 ++ pp) ++ q1) (q2 ++ qp ++ B) _ y b2).
  2:{ asc. }
  2:{ rewrite !app_length. cbn [length]. rewrite app_length. lia. }
  cbn [bindR].
  pose proof (IH q2 (p1 ++ [b1]) (q1 ++ [b2]) pp qp r2) as I1. rewrite !app_length in I1. cbn [length] in I1.
  replace (length p1 + 1)%nat with (S (length p1)) in I1 by lia.
  match goal with |- fold_ix _ _ _ (?m, _) = _ => replace m with (A ++ ((p1 ++ [b1]) ++ p2 ++ pp) ++ ((q1 ++ [b2]) ++ q2 ++ qp) ++ B) end.
  2:{ asc. }
  rewrite I1 by lia. destruct (avx_init_lits (length p2) r2) as [[p q] r']. f_equal. f_equal.
  asc.
Qed.
Lemma init_filler_loop : forall p2 q2 p1 q1, length q1 = length p1 -> length q2 = length p2 -> (length p1 + length p2)%nat = L ->
  fold_ix (length p2) (length p1) (fun filler cl =>
     bindR (set_ix (length A + filler) (-109) cl) (fun cl => bindR (int_ (filler + L)) (fun neg => set_ix (length A + neg) (-111) cl)))
    (A ++ (p1 ++ p2) ++ (q1 ++ q2) ++ B) =
  Ret (A ++ (p1 ++ repeat (-109) (length p2)) ++ (q1 ++ repeat (-111) (length p2)) ++ B).
Proof.
  intros p2. induction p2 as [|x p2 IH]; intros q2 p1 q1 H1 H2 H3; destruct q2 as [|y q2]; try discriminate; [reflexivity|].
  cbn [length fold_ix repeat] in *.
  rewrite (set_ix_at (A ++ p1) (p2 ++ (q1 ++ (y :: q2)) ++ B) _ x (-109)).
  2:{ asc. }
  2:{ rewrite app_length. reflexivity. }
  cbn [bindR]. rewrite int_ok by lia. cbn [bindR].
  rewrite (set_ix_at (A ++ (p1 ++ (-109) :: p2) ++ q1) (q2 ++ B) _ y (-111)).
  2:{ asc. }
  2:{ rewrite !app_length. cbn [length]. lia. }
  cbn [bindR].
  pose proof (IH q2 (p1 ++ [-109]) (q1 ++ [-111])) as I1. rewrite !app_length in I1. cbn [length] in I1.
  replace (length p1 + 1)%nat with (S (length p1)) in I1 by lia.
  match goal with |- fold_ix _ _ _ ?m = _ => replace m with (A ++ ((p1 ++ [-109]) ++ p2) ++ ((q1 ++ [-111]) ++ q2) ++ B) end.
  2:{ asc. }
  rewrite I1 by lia. f_equal. asc.
Qed.
End init.

Lemma init_clause_eq : forall n A B row r k, length A = (k * (lmem_of n * 2))%nat -> length row = (2 * lmem_of n)%nat ->
  Z.of_nat ((k + 1) * (lmem_of n * 2)) <= int_max ->
  imp_init_clause n (lmem_of n) k (A ++ row ++ B, r) =
    Ret (A ++ fst (avx_init_row n r) ++ B, snd (avx_init_row n r)) /\ length (fst (avx_init_row n r)) = (2 * lmem_of n)%nat.
Proof.
  intros n A B row r k HA Hr HI. destruct (lmem_mod n) as (q & _ & HnL & _). set (L := lmem_of n) in *.
  assert (B1 : Z.of_nat (2 * L) <= int_max).
  { eapply Z.le_trans; [|exact HI]. apply inj_le. rewrite Nat.mul_add_distr_r. lia. }
  assert (B2 : Z.of_nat (k * (L * 2)) <= int_max).
  { eapply Z.le_trans; [|exact HI]. apply inj_le. apply Nat.mul_le_mono_r. lia. }
  unfold imp_init_clause. rewrite (int_ok (L * 2)) by lia. cbn [bindR]. rewrite (int_ok (k * (L * 2))) by exact B2. cbn [bindR]. rewrite <- HA.
  assert (ER : row = (firstn n row ++ slice row n (L - n)) ++ (slice row L n ++ slice row (L + n) (L - n))).
  { assert (X : forall a m, slice row a m ++ skipn (a + m) row = skipn a row).
    { intros a m. unfold slice. rewrite skipn_add. apply firstn_skipn. }
    rewrite <- app_assoc.
    assert (Y : slice row (L + n) (L - n) = skipn (L + n) row) by (unfold slice; apply firstn_all2; rewrite skipn_length; lia).
    rewrite Y, X. replace L with (n + (L - n))%nat at 2 by lia. rewrite X. symmetry. apply firstn_skipn. }
  rewrite ER. set (pj := firstn n row). set (pf := slice row n (L - n)). set (nj := slice row L n). set (nf := slice row (L + n) (L - n)).
  assert (L1 : length pj = n) by (unfold pj; rewrite firstn_length; lia).
  assert (L2 : length pf = (L - n)%nat) by (apply slice_len2; lia).
  assert (L3 : length nj = n) by (apply slice_len2; lia).
  assert (L4 : length nf = (L - n)%nat) by (apply slice_len2; lia).
  pose proof (init_lits_loop L n A B HnL B1 pj nj [] [] pf nf r) as IL. cbn [app length] in IL. rewrite L1 in IL.
  match goal with |- bindR (fold_ix n 0 ?f ?s) _ = _ /\ _ => replace s with (A ++ (pj ++ pf) ++ (nj ++ nf) ++ B, r) by (rewrite <- !app_assoc; reflexivity) end.
  rewrite IL by lia. clear IL. cbn [bindR]. unfold avx_init_row.
  pose proof (init_lits_len n r) as [I1 I2]. destruct (avx_init_lits n r) as [[p qn] r']. cbn [fst snd] in *.
  pose proof (init_filler_loop L n A B HnL B1 pf nf p qn) as IF. rewrite L2, I1 in IF. rewrite IF by lia. cbn [bindR fst snd].
  fold L. split.
  - asc.
  - rewrite !app_length, !repeat_length. lia.
Qed.

Lemma init_rows_loop : forall n ncl tail T P r, Forall (fun r => length r = (2 * lmem_of n)%nat) (P ++ T) -> length (P ++ T) = ncl ->
  Z.of_nat (ncl * (lmem_of n * 2)) <= int_max ->
  fold_ix (length T) (length P) (imp_init_clause n (lmem_of n)) (concat (P ++ T) ++ tail, r) =
    Ret (concat (P ++ fst (avx_init_rows n (length T) r)) ++ tail, snd (avx_init_rows n (length T) r)) /\
  length (fst (avx_init_rows n (length T) r)) = length T /\
  Forall (fun r => length r = (2 * lmem_of n)%nat) (fst (avx_init_rows n (length T) r)).
Proof.
  intros n ncl tail T. induction T as [|row T IH]; intros P r HF HN HI; [cbn [length fold_ix avx_init_rows fst snd]; auto|].
  cbn [length fold_ix avx_init_rows].
  assert (HP : Forall (fun r => length r = (2 * lmem_of n)%nat) P) by (apply Forall_app in HF; apply HF).
  assert (HT : Forall (fun r => length r = (2 * lmem_of n)%nat) (row :: T)) by (apply Forall_app in HF; apply HF).
  rewrite row_at.
  destruct (init_clause_eq n (concat P) (concat T ++ tail) row r (length P)) as [C1 C2].
  { rewrite (concat_len (2 * lmem_of n)) by auto. lia. } { exact (Forall_inv HT). }
  { eapply Z.le_trans; [|exact HI]. apply inj_le. apply Nat.mul_le_mono_r. rewrite <- HN, app_length. cbn [length]. lia. }
  rewrite C1. cbn [bindR]. destruct (avx_init_row n r) as [row1 r1]. cbn [fst snd] in *. rewrite <- row_at.
  specialize (IH (P ++ [row1]) r1). rewrite <- !app_assoc in IH. cbn [app] in IH. 
  replace (length (P ++ [row1])) with (S (length P)) in IH by (rewrite app_length; cbn [length]; lia).
  destruct IH as (J1 & J2 & J3).
  { apply Forall_app. split; auto. constructor; auto. exact (Forall_inv_tail HT). }
  { rewrite <- HN, !app_length. reflexivity. } { exact HI. }
  rewrite J1. destruct (avx_init_rows n (length T) r1) as [t r2]. cbn [fst snd length] in *. split; [asc|]. split; [lia|constructor; auto].
Qed.

(** Weights: the rows start as zeros. *)
Lemma init_wrow_loop : forall WA WB base m w1 w2 tail r, length WA = base -> length w2 = m ->
  Z.of_nat (base + length w1 + m) <= int_max ->
  fold_ix m (length w1) (fun class_i s =>
     let '(u, r) := next_u (snd s) in
     bindR (int_ (base + class_i)) (fun o => bindR (set_ix o (if Qlt_bool (1#2) u then 1 else -1) (fst s)) (fun ws => Ret (ws, r))))
    (WA ++ (w1 ++ w2 ++ tail) ++ WB, r) =
  Ret (WA ++ (w1 ++ fst (init_weight_row m r) ++ tail) ++ WB, snd (init_weight_row m r)) /\ length (fst (init_weight_row m r)) = m.
Proof.
  intros WA WB base m. induction m as [|m IH]; intros w1 w2 tail r HW H2 HI; destruct w2 as [|x w2]; try discriminate; [auto|].
  cbn [length fold_ix init_weight_row fst snd] in *. destruct (next_u r) as [u r1].
  rewrite int_ok by lia. cbn [bindR]. set (v := if Qlt_bool (1 # 2) u then 1 else -1).
  rewrite (set_ix_at (WA ++ w1) (w2 ++ tail ++ WB) _ x v).
  2:{ asc. }
  2:{ rewrite app_length. lia. }
  cbn [bindR].
  destruct (IH (w1 ++ [v]) w2 tail r1) as [E1 E2]; auto.
  { rewrite app_length. cbn [length]. lia. }
  rewrite app_length in E1. cbn [length] in E1. replace (length w1 + 1)%nat with (S (length w1)) in E1 by lia.
  match goal with |- fold_ix _ _ _ (?m, _) = _ /\ _ => replace m with (WA ++ ((w1 ++ [v]) ++ w2 ++ tail) ++ WB) end.
  2:{ asc. }
  rewrite E1. destruct (init_weight_row m r1) as [w r2]. cbn [fst snd length] in *. split; [|lia].
  f_equal. f_equal. asc.
Qed.

Lemma init_weights_loop : forall pad ncls m P r, Forall (fun w => length w = ncls) P ->
  Z.of_nat ((length P + m) * wmem_of pad ncls) <= int_max ->
  fold_ix m (length P) (fun clause_k s =>
    fold_ix ncls 0 (fun class_i s =>
      let '(u, r) := next_u (snd s) in
      bindR (int_ (clause_k * wmem_of pad ncls + class_i)) (fun o => bindR (set_ix o (if Qlt_bool (1#2) u then 1 else -1) (fst s)) (fun ws => Ret (ws, r)))) s)
    (concat (map (widen (wmem_of pad ncls)) P) ++ repeat 0 (m * wmem_of pad ncls), r) =
  Ret (concat (map (widen (wmem_of pad ncls)) (P ++ fst (init_weights ncls m r))), snd (init_weights ncls m r)) /\
  length (fst (init_weights ncls m r)) = m /\ Forall (fun w => length w = ncls) (fst (init_weights ncls m r)).
Proof.
  intros pad ncls m. set (W := wmem_of pad ncls). assert (HW : (ncls <= W)%nat) by apply wmem_ge. induction m as [|m IH]; intros P r HP HI.
  - cbn [fold_ix init_weights fst snd Nat.mul repeat length]. rewrite !app_nil_r. auto.
  - cbn [fold_ix init_weights].
    pose proof (wlen W ncls HW P HP) as LP.
    assert (B1 : (length P * W + 0 + ncls <= (length P + S m) * W)%nat) by (rewrite Nat.mul_add_distr_r; cbn [Nat.mul]; lia).
    destruct (init_wrow_loop (concat (map (widen W) P)) (repeat 0 (m * W)) (length P * W) ncls [] (repeat 0 ncls) (repeat 0 (W - ncls)) r LP) as [E1 E2].
    { apply repeat_length. } { cbn [length]. lia. }
    cbn [length app] in E1.
    replace (repeat 0 (S m * W)) with ((repeat 0 ncls ++ repeat 0 (W - ncls)) ++ repeat 0 (m * W)).
    2:{ rewrite <- !repeat_app. f_equal. cbn [Nat.mul]. lia. }
    rewrite E1. cbn [bindR]. destruct (init_weight_row ncls r) as [w r1]. cbn [fst snd] in *.
    destruct (IH (P ++ [w]) r1) as (J1 & J2 & J3).
    { apply Forall_app. split; auto. } { rewrite app_length. cbn [length]. replace (length P + 1 + m)%nat with (length P + S m)%nat by lia. exact HI. }
    rewrite app_length in J1. cbn [length] in J1. replace (length P + 1)%nat with (S (length P)) in J1 by lia.
    match goal with |- fold_ix _ _ _ (?x, _) = _ /\ _ => replace x with (concat (map (widen W) (P ++ [w])) ++ repeat 0 (m * W)) end.
    2:{ rewrite map_app, concat_app. cbn [map concat]. unfold widen at 2. rewrite E2, app_nil_r. asc. }
    rewrite J1. destruct (init_weights ncls m r1) as [t r2]. cbn [fst snd length] in *. split; [asc|]. split; [lia|constructor; auto].
Qed.

Lemma carve : forall w n (mem : list Z), (n * w <= length mem)%nat ->
  exists rows tail, mem = concat rows ++ tail /\ length rows = n /\ Forall (fun r => length r = w) rows.
Proof.
  intros w n. induction n as [|n IH]; intros mem H.
  - exists [], mem. auto.
  - cbn [Nat.mul] in H. destruct (IH (skipn w mem)) as (rows & tail & E1 & E2 & E3); [rewrite skipn_length; lia|].
    exists (firstn w mem :: rows), tail. cbn [concat length]. split; [|split; [lia|]].
    + rewrite <- app_assoc, <- E1. symmetry. apply firstn_skipn.
    + constructor; auto. rewrite firstn_length. lia.
Qed.

Theorem init_eq : forall (bo pad : bool) vec_of fast_of jm jc jk nlit ncl ncls budget sv seed, seed <> 0 -> fits pad nlit ncl ncls ->
  exists rest b, avx_initialize vec_of fast_of (if bo then fresh ncl jk else []) nlit ncl ncls budget sv seed = Some b /\
  imp_initialize bo pad vec_of fast_of jm jc jk nlit ncl ncls budget sv seed = Ret (Some (inmem pad rest b)) /\
  a_nlit b = nlit /\ length (a_rows b) = ncl /\ a_ncls b = ncls /\
  ((0 < nlit)%nat -> vrng_ok (vec_of seed) -> vshape bo pad b).
Proof.
  intros bo pad vec_of fast_of jm jc jk nlit ncl ncls budget sv seed Hs F. pose proof F as (F1 & F2 & F3 & F4 & F5).
  unfold imp_initialize, avx_initialize. destruct (Z.eqb_spec seed 0) as [E|_]; [contradiction|].
  rewrite mask_eq by exact F1. cbn [bindR fst snd].
  assert (F2' : Z.of_nat (ncl * (lmem_of nlit * 2)) <= int_max) by (rewrite Nat.mul_assoc; exact F2).
  rewrite (int_ok (ncl * lmem_of nlit)) by lia. cbn [bindR]. rewrite int_ok by exact F2. cbn [bindR].
  assert (SM : exists x, safe_mem (ncl * lmem_of nlit * 2) = Ret x /\ (ncl * (2 * lmem_of nlit) <= x)%nat).
  { unfold safe_mem. destruct (Nat.ltb_spec (ncl * lmem_of nlit * 2) 32); [exists 32%nat; split; [reflexivity|lia]|].
    destruct (lmem_mod nlit) as (q & Eq & _).
    assert (M : ((ncl * lmem_of nlit * 2) mod 32 = 0)%nat) by (apply Nat.mod_divide; [lia|]; exists (ncl * q * 2)%nat; rewrite Eq; lia).
    rewrite M. cbn [Nat.ltb Nat.leb]. eexists. split; [reflexivity|lia]. }
  destruct SM as (x & E1 & E2). rewrite E1. cbn [bindR].
  rewrite (int_ok ((ncl / 128 + 1) * 128)) by exact F3. cbn [bindR].
  assert (EW : (if pad then int_ ((ncls / 128 + 1) * 128) else Ret ncls) = Ret (wmem_of pad ncls)).
  { unfold wmem_of in *. destruct pad; [apply int_ok; exact F4|reflexivity]. }
  rewrite EW. cbn [bindR]. rewrite int_ok by exact F5. cbn [bindR].
  destruct (carve (2 * lmem_of nlit) ncl (fresh x jc)) as (rows0 & rest & R1 & R2 & R3); [rewrite fresh_len; exact E2|].
  rewrite R1.
  pose proof (init_rows_loop nlit ncl rest rows0 (@nil (list Z)) (fast_of seed)) as IR. cbn [app length] in IR. rewrite R2 in IR.
  destruct IR as (I1 & I2 & I3); auto. rewrite I1. cbn [bindR fst snd].
  destruct (avx_init_rows nlit ncl (fast_of seed)) as [rows f]. cbn [fst snd] in *.
  pose proof (init_weights_loop pad ncls ncl (@nil (list Z)) f) as IW. cbn [app length map concat Nat.add] in IW.
  destruct IW as (W1 & W2 & W3); auto. unfold imp_init_weights. rewrite W1. cbn [bindR fst snd].
  destruct (init_weights ncls ncl f) as [ws f']. cbn [fst snd] in *.
  exists rest. eexists. split; [reflexivity|]. split.
  - do 2 f_equal. unfold inmem. cbn [a_nlit a_lmem a_mask a_ncls a_rows a_weights a_outputs a_counts a_votes a_budget a_cmp a_vrng a_fast].
    rewrite I2. f_equal.
    + unfold widen, outs_of. rewrite repeat_length, <- repeat_app. f_equal. pose proof (outs_ge ncl). unfold outs_of in *. lia.
    + unfold widen. rewrite repeat_length, <- repeat_app. f_equal. pose proof (wmem_ge pad ncls). lia.
  - cbn [a_nlit a_rows a_ncls]. split; [reflexivity|]. split; [exact I2|]. split; [reflexivity|]. intros Hp Hv.
    constructor; cbn [a_nlit a_lmem a_mask a_ncls a_rows a_weights a_outputs a_counts a_votes a_budget a_cmp a_vrng a_fast]; auto; try lia.
    + unfold mask_of. pose proof (Nat.mod_upper_bound nlit 32 ltac:(lia)). destruct (nlit mod 32 =? 0)%nat; [reflexivity|].
      rewrite app_length, !repeat_length. lia.
    + rewrite repeat_length. lia.
    + intros Eb. rewrite Eb. rewrite fresh_len. lia.
    + apply repeat_length.
    + rewrite I2. exact F.
Qed.

Theorem init_overflow : forall bo pad vec_of fast_of jm jc jk nlit ncl ncls budget sv seed, seed <> 0 ->
  Z.of_nat nlit <= int_max -> Z.of_nat ncls <= int_max -> ~ fits pad nlit ncl ncls ->
  imp_initialize bo pad vec_of fast_of jm jc jk nlit ncl ncls budget sv seed = Wild.
Proof.
  intros bo pad vec_of fast_of jm jc jk nlit ncl ncls budget sv seed Hs Hn Hk NF.
  assert (W : forall n, int_max < Z.of_nat n -> int_ n = Wild).
  { intros m H. unfold int_. unfold int_max in H. destruct (Z.leb_spec (Z.of_nat m) 2147483647); [lia|reflexivity]. }
  unfold imp_initialize. destruct (Z.eqb_spec seed 0) as [E|_]; [contradiction|].
  destruct (Z.le_gt_cases (Z.of_nat (lmem_of nlit)) int_max) as [F1|F1].
  2:{ unfold imp_mask, lmem_of in *. pose proof (fill_const (-1) [] (fresh 32 jm) []) as E. cbn [app length] in E. rewrite !app_nil_r, fresh_len in E. rewrite E. cbn [bindR].
      destruct (nlit mod 32 =? 0)%nat; [lia|]. rewrite W by lia. reflexivity. }
  rewrite mask_eq by exact F1. cbn [bindR fst snd].
  destruct (Z.le_gt_cases (Z.of_nat (ncl * lmem_of nlit * 2)) int_max) as [F2|F2].
  2:{ destruct (Z.le_gt_cases (Z.of_nat (ncl * lmem_of nlit)) int_max) as [F|F].
      - rewrite int_ok by exact F. cbn [bindR]. rewrite W by lia. reflexivity.
      - rewrite W by lia. reflexivity. }
  rewrite (int_ok (ncl * lmem_of nlit)) by lia. cbn [bindR]. rewrite int_ok by exact F2. cbn [bindR].
  assert (SM : exists x, safe_mem (ncl * lmem_of nlit * 2) = Ret x).
  { unfold safe_mem. destruct (Nat.ltb_spec (ncl * lmem_of nlit * 2) 32); [eauto|].
    destruct (lmem_mod nlit) as (q & Eq & _).
    assert (M : ((ncl * lmem_of nlit * 2) mod 32 = 0)%nat) by (apply Nat.mod_divide; [lia|]; exists (ncl * q * 2)%nat; rewrite Eq; lia).
    rewrite M. eexists. reflexivity. }
  destruct SM as (x & E1). rewrite E1. cbn [bindR].
  destruct (Z.le_gt_cases (Z.of_nat (outs_of ncl)) int_max) as [F3|F3]; [|unfold outs_of in F3; rewrite W by lia; reflexivity].
  rewrite (int_ok ((ncl / 128 + 1) * 128)) by exact F3. cbn [bindR].
  destruct (Z.le_gt_cases (Z.of_nat (wmem_of pad ncls)) int_max) as [F4|F4].
  2:{ unfold wmem_of in *. destruct pad; [rewrite W by lia; reflexivity|lia]. }
  assert (EW : (if pad then int_ ((ncls / 128 + 1) * 128) else Ret ncls) = Ret (wmem_of pad ncls)).
  { unfold wmem_of in *. destruct pad; [apply int_ok; exact F4|reflexivity]. }
  rewrite EW. cbn [bindR].
  destruct (Z.le_gt_cases (Z.of_nat (ncl * wmem_of pad ncls)) int_max) as [F5|F5].
  - exfalso. apply NF. repeat split; auto.
  - rewrite W by lia. reflexivity.
Qed.

(** ** Example buffer *)

Lemma new_buffer_eq : forall jb n, Z.of_nat ((n / 32 + 1) * 32) <= int_max -> imp_new_buffer jb n = Ret (repeat 0 ((n / 32 + 1) * 32)).
Proof.
  intros jb n H. unfold imp_new_buffer. rewrite int_ok by exact H. cbn [bindR].
  pose proof (fill_const 0 [] (fresh ((n / 32 + 1) * 32) jb) []) as E. cbn [app length] in E. rewrite !app_nil_r, fresh_len in E. exact E.
Qed.
Lemma buffer_room : forall n, (lmem_of n <= (n / 32 + 1) * 32)%nat.
Proof.
  intros n. unfold lmem_of. pose proof (Nat.div_mod n 32 ltac:(lia)). pose proof (Nat.mod_upper_bound n 32 ltac:(lia)).
  destruct (n mod 32 =? 0)%nat; lia.
Qed.
Lemma prepare_eq : forall (data : list (list Z)) n index buf x, Forall (fun r => length r = n) data -> nth_error data index = Some x ->
  length buf = ((n / 32 + 1) * 32)%nat -> Z.of_nat (index * n) <= int_max ->
  exists buf', imp_prepare (concat data) n index buf = Ret buf' /\ buffer_of n x buf' /\ length buf' = length buf.
Proof.
  intros data n index buf x HF Hx Hb HI. pose proof (buffer_room n) as BR. destruct (lmem_mod n) as (q & _ & HnL & _).
  destruct (nth_error_split data index Hx) as (P & T & ED & EL). subst data.
  assert (HP : Forall (fun r => length r = n) P) by (apply Forall_app in HF; apply HF).
  assert (Hxl : length x = n) by (apply Forall_app in HF; destruct HF as [_ HF]; exact (Forall_inv HF)).
  unfold imp_prepare. rewrite int_ok by exact HI. cbn [bindR].
  pose proof (cpy_mid [] buf [] (concat P) x (concat T) 0 0 n) as C. cbn [app length Nat.add firstn] in C. rewrite !app_nil_r, Nat.add_0_r in C.
  rewrite concat_app. cbn [concat].
  replace (index * n)%nat with (length (concat P)) by (rewrite (concat_len n) by auto; rewrite EL; reflexivity).
  rewrite C by lia. eexists. split; [reflexivity|].
  assert (Es : slice x 0 n = x) by (unfold slice; cbn [skipn]; apply firstn_all2; lia). rewrite Es.
  assert (LB : length (x ++ skipn n buf) = length buf) by (rewrite app_length, skipn_length; lia).
  split; [|exact LB]. split; [exact Hxl|]. split; [lia|].
  rewrite firstn_app, Hxl, Nat.sub_diag. cbn [firstn]. rewrite app_nil_r. apply firstn_all2. lia.
Qed.
