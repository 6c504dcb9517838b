(** Memory safety of the NEON block: feedback. *)
From Coq Require Import ZArith List Bool QArith Lia ZifyBool.
From Verif Require Import Base BaseProofs Spec ModelDense ModelLayout ModelAvx2 ModelNeon SpecAvx2 SpecNeon ModelSparse ModelSparseImp ModelAvx2Imp
  SpecAvx2Imp ModelNeonImp SpecNeonImp ProofsLayout ProofsSparseImp ProofsAvx2Imp ProofsAvx2ImpB ProofsNeonImp ProofsNeonImpB.
Import ListNotations.
Open Scope Z_scope.

Lemma nsplit_at : forall (ws : list Z) pc, (pc < length ws)%nat -> exists a b, ws = a ++ nth pc ws 0 :: b /\ length a = pc.
Proof.
  intros ws pc H. exists (firstn pc ws), (skipn (S pc) ws). split.
  - rewrite <- (firstn_skipn pc ws) at 1. f_equal.
    revert ws H. induction pc as [|pc IH]; intros [|x ws] H; cbn [length] in *; try lia; cbn [skipn nth]; auto. apply IH. lia.
  - rewrite firstn_length. lia.
Qed.

Section upd.
Variables (bo boost : bool) (lits rest wrest : list Z) (L q ncls ncl : nat).
Hypothesis HL : L = (q * 16)%nat.
Hypothesis Hl : (L <= length lits)%nat.
Hypothesis HI2 : Z.of_nat (2 * L) <= int_max.
Hypothesis HIc : Z.of_nat (ncl * L * 2) <= int_max.
Hypothesis HIw : Z.of_nat (ncl * ncls) <= int_max.

Lemma nclause_update_eq : forall s A row B WA w WB target output, aligned32 (length A) = Ret (length A) -> length row = (2 * L)%nat ->
  nvrng_ok (m_vrng s) -> m_clauses s = A ++ row ++ B -> m_weights s = WA ++ w :: WB -> m_lmem s = L ->
  let u := neon_clause_update boost (m_cmp s) L row w target lits output (m_vrng s) in
  nimp_clause_update boost lits (length A) (length WA) target output s =
    Ret (m_store s (A ++ fst (fst u) ++ B) (WA ++ snd (fst u) :: WB) (snd u)) /\
  length (fst (fst u)) = (2 * L)%nat /\ nvrng_ok (snd u).
Proof.
  intros s A row B WA w WB target output HA Hr Hv Hc Hw Hm. cbv zeta.
  unfold nimp_clause_update, neon_clause_update. rewrite Hw, ix_mid. cbn [bindR]. rewrite Hm, Hc.
  set (sign := if w >=? 0 then 1 else -1).
  destruct (target * sign >? 0).
  - destruct (output =? 1).
    + rewrite set_ix_mid. cbn [bindR]. rewrite HA. cbn [bindR].
      destruct (nt1a_eq A B L q HL HI2 boost (m_cmp s) lits row (m_vrng s) Hl Hr Hv) as (E1 & E2 & E3). rewrite E1. cbn [bindR].
      destruct (neon_t1a boost (m_cmp s) lits L row (m_vrng s)) as [row' r']. cbn [fst snd] in *. auto.
    + rewrite HA. cbn [bindR]. destruct (nt1b_eq A B L q HL HI2 (m_cmp s) row (m_vrng s) Hr Hv) as (E1 & E2 & E3). rewrite E1. cbn [bindR].
      destruct (neon_t1b (m_cmp s) L row (m_vrng s)) as [row' r']. cbn [fst snd] in *. auto.
  - destruct ((target * sign <? 0) && (output =? 1)).
    + rewrite set_ix_mid. cbn [bindR]. rewrite HA. cbn [bindR].
      destruct (nt2_eq A B L q HL HI2 lits row Hl Hr) as (E1 & E2). rewrite E1. cbn [bindR fst snd]. auto.
    + cbn [fst snd]. rewrite <- Hc, <- Hw, m_store_same. auto.
Qed.

(** The state during the loop. *)
Definition nst_of (s : vimp) (rows wss : list (list Z)) (outs pd : list Z) (r : vrng) (fast : rng) : vimp :=
  mkV (m_nlit s) (m_lmem s) (m_ncl s) (m_ncls s) (m_wmem s) (m_mask s) (concat rows ++ rest) (concat wss ++ wrest)
      (outs ++ pd) (m_counts s) (m_votes s) (m_budget s) (m_cmp s) r fast.


Lemma ndraw_update_eq : forall s P row T WP ws WT outs pd r fast target output c,
  Forall (fun r => length r = (2 * L)%nat) P -> length row = (2 * L)%nat -> nvrng_ok r -> m_lmem s = L ->
  Forall (fun w => length w = ncls) WP -> length ws = ncls -> length WP = length P -> (c < ncls)%nat ->
  let u := neon_clause_update boost (m_cmp s) L row (nth c ws 0) target lits output r in
  nimp_clause_update boost lits (length P * (L * 2)) (length P * ncls + c) target output
     (nst_of s (P ++ row :: T) (WP ++ ws :: WT) outs pd r fast) =
    Ret (nst_of s (P ++ fst (fst u) :: T) (WP ++ set_nth c (snd (fst u)) ws :: WT) outs pd (snd u) fast) /\
  length (fst (fst u)) = (2 * L)%nat /\ length (set_nth c (snd (fst u)) ws) = ncls /\ nvrng_ok (snd u).
Proof.
  intros s P row T WP ws WT outs pd r fast target output c HP Hr Hv Hm HWP Hws HWl Hc. cbv zeta.
  destruct (nptr_ok L q HL P HP) as [HPl HA].
  destruct (nsplit_at ws c ltac:(lia)) as (a & b & Ews & Ha).
  assert (LP : length (concat WP) = (length P * ncls)%nat) by (rewrite (concat_len ncls) by auto; rewrite HWl; reflexivity).
  assert (EW : forall w', concat (WP ++ (a ++ w' :: b) :: WT) ++ wrest = (concat WP ++ a) ++ w' :: (b ++ concat WT ++ wrest)).
  { intros w'. rewrite concat_app. cbn [concat]. rewrite <- !app_assoc. reflexivity. }
  pose proof (nclause_update_eq (nst_of s (P ++ row :: T) (WP ++ ws :: WT) outs pd r fast) (concat P) row (concat T ++ rest)
    (concat WP ++ a) (nth c ws 0) (b ++ concat WT ++ wrest) target output HA Hr Hv) as CU.
  cbn [nst_of m_clauses m_weights m_lmem m_cmp m_vrng] in CU.
  specialize (CU (row_at rest P T row)). rewrite <- EW, <- Ews in CU. specialize (CU eq_refl Hm). cbv zeta in CU.
  rewrite HPl, app_length, LP, Ha in CU. destruct CU as (E1 & E2 & E3). rewrite E1.
  assert (SN : forall w', set_nth c w' ws = a ++ w' :: b) by (intros w'; rewrite Ews at 1; rewrite <- Ha; apply set_mid).
  split; [|split; [exact E2|split; [rewrite set_nth_length; exact Hws|exact E3]]].
  f_equal. unfold m_store, nst_of. cbn. rewrite SN, EW, row_at. reflexivity.
Qed.

Lemma nupdate_clause_eq : forall s P row T WP ws WT oP o oT pd cP cT r fast pc pp nc np,
  Forall (fun r => length r = (2 * L)%nat) P -> length row = (2 * L)%nat -> nvrng_ok r -> m_lmem s = L -> m_ncls s = ncls ->
  Forall (fun w => length w = ncls) WP -> length ws = ncls -> length WP = length P -> (pc < ncls)%nat -> (nc < ncls)%nat ->
  length oP = length P -> m_counts s = cP ++ cT -> (bo = true -> length cP = length P /\ (0 < length cT)%nat) -> (length P < ncl)%nat ->
  let '(row1, ws1, o1, r1, fast1) := neon_update_clause bo boost (m_budget s) (m_cmp s) L lits pc pp nc np row ws o (hd 0 cT) r fast in
  nimp_update_clause bo boost lits pc pp nc np (length P) (nst_of s (P ++ row :: T) (WP ++ ws :: WT) (oP ++ o :: oT) pd r fast) =
    Ret (nst_of s (P ++ row1 :: T) (WP ++ ws1 :: WT) (oP ++ o1 :: oT) pd r1 fast1) /\
  length row1 = (2 * L)%nat /\ length ws1 = ncls /\ nvrng_ok r1.
Proof.
  intros s P row T WP ws WT oP o oT pd cP cT r fast pc pp nc np HP Hr Hv Hm Hwm HWP Hws HWl Hpc Hnc HoP Hcs Hcn Hk.
  assert (B1 : (length P * (L * 2) <= ncl * L * 2)%nat) by (rewrite <- Nat.mul_assoc; apply Nat.mul_le_mono_r; lia).
  assert (B2 : (length P * ncls <= ncl * ncls)%nat) by (apply Nat.mul_le_mono_r; lia).
  set (o1 := if bo && (hd 0 cT >? m_budget s) then 0 else o).
  assert (EO : (if bo then bindR (ix (m_counts s) (length P)) (fun n => if n >? m_budget s then set_ix (length P) 0 ((oP ++ o :: oT) ++ pd) else Ret ((oP ++ o :: oT) ++ pd))
    else Ret ((oP ++ o :: oT) ++ pd)) = Ret ((oP ++ o1 :: oT) ++ pd)).
  { unfold o1. destruct bo; [|reflexivity]. destruct (Hcn eq_refl) as [C1 C2]. destruct cT as [|c0 cT]; [cbn [length] in C2; lia|].
    rewrite Hcs, <- C1, ix_mid. cbn [bindR hd andb]. destruct (c0 >? m_budget s); [|reflexivity].
    rewrite C1, <- HoP. rewrite <- !app_assoc. cbn [app]. apply set_ix_mid. }
  assert (IXO : forall rows wss r' f', ix (m_outputs (nst_of s rows wss (oP ++ o1 :: oT) pd r' f')) (length P) = Ret o1).
  { intros rows wss r' f'. cbn [nst_of m_outputs]. rewrite <- HoP, <- app_assoc. cbn [app]. apply ix_mid. }
  assert (E1 : nimp_update_clause bo boost lits pc pp nc np (length P) (nst_of s (P ++ row :: T) (WP ++ ws :: WT) (oP ++ o :: oT) pd r fast) =
    let '(d, fast1) := draw_lt fast pp in
    bindR (if d then nimp_clause_update boost lits (length P * (L * 2)) (length P * ncls + pc) 1 o1 (nst_of s (P ++ row :: T) (WP ++ ws :: WT) (oP ++ o1 :: oT) pd r fast1)
           else Ret (nst_of s (P ++ row :: T) (WP ++ ws :: WT) (oP ++ o1 :: oT) pd r fast1)) (fun s =>
    let '(d, r) := draw_lt (m_fast s) np in
    if d then bindR (ix (m_outputs s) (length P)) (fun o => nimp_clause_update boost lits (length P * (L * 2)) (length P * ncls + nc) (-1) o (m_set_fast s r))
    else Ret (m_set_fast s r))).
  { unfold nimp_update_clause.
    change (m_lmem (nst_of s (P ++ row :: T) (WP ++ ws :: WT) (oP ++ o :: oT) pd r fast)) with (m_lmem s).
    change (m_ncls (nst_of s (P ++ row :: T) (WP ++ ws :: WT) (oP ++ o :: oT) pd r fast)) with (m_ncls s).
    change (m_counts (nst_of s (P ++ row :: T) (WP ++ ws :: WT) (oP ++ o :: oT) pd r fast)) with (m_counts s).
    change (m_budget (nst_of s (P ++ row :: T) (WP ++ ws :: WT) (oP ++ o :: oT) pd r fast)) with (m_budget s).
    change (m_outputs (nst_of s (P ++ row :: T) (WP ++ ws :: WT) (oP ++ o :: oT) pd r fast)) with ((oP ++ o :: oT) ++ pd).
    rewrite Hm, Hwm.
    rewrite (int_ok (L * 2)) by lia. cbn [bindR]. rewrite (int_ok (length P * (L * 2))) by lia. cbn [bindR].
    rewrite (int_ok (length P * ncls)) by lia. cbn [bindR]. rewrite EO. cbn [bindR]. cbv zeta.
    change (m_set_outputs (nst_of s (P ++ row :: T) (WP ++ ws :: WT) (oP ++ o :: oT) pd r fast) ((oP ++ o1 :: oT) ++ pd) (m_counts s)) with
      (nst_of s (P ++ row :: T) (WP ++ ws :: WT) (oP ++ o1 :: oT) pd r fast).
    rewrite IXO. cbn [bindR].
    change (m_fast (nst_of s (P ++ row :: T) (WP ++ ws :: WT) (oP ++ o1 :: oT) pd r fast)) with fast.
    destruct (draw_lt fast pp) as [d fast1].
    change (m_set_fast (nst_of s (P ++ row :: T) (WP ++ ws :: WT) (oP ++ o1 :: oT) pd r fast) fast1) with
      (nst_of s (P ++ row :: T) (WP ++ ws :: WT) (oP ++ o1 :: oT) pd r fast1). reflexivity. }
  rewrite E1. clear E1 EO. unfold neon_update_clause. fold o1. destruct (draw_lt fast pp) as [d fast1].
  pose (u := neon_clause_update boost (m_cmp s) L row (nth pc ws 0) 1 lits o1 r).
  pose (row1 := if d then fst (fst u) else row). pose (ws1 := if d then set_nth pc (snd (fst u)) ws else ws). pose (r1 := if d then snd u else r).
  assert (S1 : (if d then nimp_clause_update boost lits (length P * (L * 2)) (length P * ncls + pc) 1 o1 (nst_of s (P ++ row :: T) (WP ++ ws :: WT) (oP ++ o1 :: oT) pd r fast1)
           else Ret (nst_of s (P ++ row :: T) (WP ++ ws :: WT) (oP ++ o1 :: oT) pd r fast1)) =
    Ret (nst_of s (P ++ row1 :: T) (WP ++ ws1 :: WT) (oP ++ o1 :: oT) pd r1 fast1) /\
    length row1 = (2 * L)%nat /\ length ws1 = ncls /\ nvrng_ok r1).
  { unfold row1, ws1, r1. destruct d; [|auto].
    apply (ndraw_update_eq s P row T WP ws WT (oP ++ o1 :: oT) pd r fast1 1 o1 pc); auto. }
  destruct S1 as (S1 & R1 & W1 & V1). rewrite S1. cbn [bindR].
  assert (EM : (if d then let '(row', w', r') := neon_clause_update boost (m_cmp s) L row (nth pc ws 0) 1 lits o1 r in (row', set_nth pc w' ws, r') else (row, ws, r)) = (row1, ws1, r1)).
  { unfold row1, ws1, r1, u. destruct d; [|reflexivity]. destruct (neon_clause_update boost (m_cmp s) L row (nth pc ws 0) 1 lits o1 r) as [[x y] z]. reflexivity. }
  rewrite EM. clear EM.
  change (m_fast (nst_of s (P ++ row1 :: T) (WP ++ ws1 :: WT) (oP ++ o1 :: oT) pd r1 fast1)) with fast1.
  rewrite IXO. cbn [bindR]. destruct (draw_lt fast1 np) as [d2 fast2].
  change (m_set_fast (nst_of s (P ++ row1 :: T) (WP ++ ws1 :: WT) (oP ++ o1 :: oT) pd r1 fast1) fast2) with
      (nst_of s (P ++ row1 :: T) (WP ++ ws1 :: WT) (oP ++ o1 :: oT) pd r1 fast2).
  destruct d2.
  - pose proof (ndraw_update_eq s P row1 T WP ws1 WT (oP ++ o1 :: oT) pd r1 fast2 (-1) o1 nc HP R1 V1 Hm HWP W1 HWl Hnc) as D2. cbv zeta in D2.
    destruct (neon_clause_update boost (m_cmp s) L row1 (nth nc ws1 0) (-1) lits o1 r1) as [[row2 w2] r2]. cbn [fst snd] in D2. exact D2.
  - split; [reflexivity|auto].
Qed.

Lemma nupdate_loop_eq : forall s T P WP WT oP oT pd cP cT r fast pc pp nc np,
  Forall (fun r => length r = (2 * L)%nat) (P ++ T) -> nvrng_ok r -> m_lmem s = L -> m_ncls s = ncls ->
  Forall (fun w => length w = ncls) (WP ++ WT) -> length WP = length P -> length WT = length T -> (pc < ncls)%nat -> (nc < ncls)%nat ->
  length oP = length P -> length oT = length T -> m_counts s = cP ++ cT -> (bo = true -> length cP = length P /\ length cT = length T) ->
  length (P ++ T) = ncl ->
  let '(rows1, wss1, outs1, r1, fast1) := neon_update_loop bo boost (m_budget s) (m_cmp s) L lits pc pp nc np T WT oT cT r fast in
  fold_ix (length T) (length P) (nimp_update_clause bo boost lits pc pp nc np) (nst_of s (P ++ T) (WP ++ WT) (oP ++ oT) pd r fast) =
    Ret (nst_of s (P ++ rows1) (WP ++ wss1) (oP ++ outs1) pd r1 fast1) /\
  Forall (fun r => length r = (2 * L)%nat) (P ++ rows1) /\ Forall (fun w => length w = ncls) (WP ++ wss1) /\ nvrng_ok r1 /\
  length rows1 = length T /\ length wss1 = length T /\ length outs1 = length T.
Proof.
  intros s T. induction T as [|row T IH]; intros P WP WT oP oT pd cP cT r fast pc pp nc np HF Hv Hm Hwm HWF HW1 HW2 Hpc Hnc HoP HoT Hcs Hcn Hk.
  - destruct WT; [|discriminate]. destruct oT; [|discriminate]. cbn [neon_update_loop length fold_ix]. split; [reflexivity|auto 8].
  - destruct WT as [|ws WT]; [discriminate|]. destruct oT as [|o oT]; [discriminate|]. cbn [length] in *. cbn [neon_update_loop fold_ix].
    assert (HP : Forall (fun r => length r = (2 * L)%nat) P) by (apply Forall_app in HF; apply HF).
    assert (HT : Forall (fun r => length r = (2 * L)%nat) (row :: T)) by (apply Forall_app in HF; apply HF).
    assert (HWP : Forall (fun w => length w = ncls) WP) by (apply Forall_app in HWF; apply HWF).
    assert (HWT : Forall (fun w => length w = ncls) (ws :: WT)) by (apply Forall_app in HWF; apply HWF).
    assert (Hk2 : (length P < ncl)%nat) by (rewrite app_length in Hk; cbn [length] in Hk; lia).
    pose proof (nupdate_clause_eq s P row T WP ws WT oP o oT pd cP cT r fast pc pp nc np HP (Forall_inv HT) Hv Hm Hwm HWP (Forall_inv HWT) HW1 Hpc Hnc HoP Hcs) as U.
    assert (Hcn2 : bo = true -> length cP = length P /\ (0 < length cT)%nat) by (intros Eb; destruct (Hcn Eb); split; lia).
    specialize (U Hcn2 Hk2).
    destruct (neon_update_clause bo boost (m_budget s) (m_cmp s) L lits pc pp nc np row ws o (hd 0 cT) r fast) as [[[[row1 ws1] o1] r1] fast1].
    destruct U as (U1 & U2 & U3 & U4). rewrite U1. cbn [bindR].
    assert (exists c1 c2, m_counts s = c1 ++ c2 /\ tl cT = c2 /\ (bo = true -> length c1 = length (P ++ [row1]) /\ length c2 = length T)) as (c1 & c2 & C1 & C2 & C3).
    { destruct cT as [|c0 cT].
      - exists (m_counts s), []. rewrite app_nil_r. split; [reflexivity|]. split; [reflexivity|]. intros Eb. destruct (Hcn Eb). cbn [length] in *. lia.
      - exists (cP ++ [c0]), cT. split; [rewrite <- app_assoc; exact Hcs|]. split; [reflexivity|]. intros Eb. destruct (Hcn Eb). rewrite !app_length. cbn [length] in *. lia. }
    pose proof (IH (P ++ [row1]) (WP ++ [ws1]) WT (oP ++ [o1]) oT pd c1 c2 r1 fast1 pc pp nc np) as I1.
    rewrite C2. destruct (neon_update_loop bo boost (m_budget s) (m_cmp s) L lits pc pp nc np T WT oT c2 r1 fast1) as [[[[rows2 wss2] outs2] r2] fast2].
    rewrite <- !app_assoc in I1. cbn [app] in I1.
    assert (LS : length (P ++ [row1]) = S (length P)) by (rewrite app_length; cbn [length]; lia). rewrite LS in *.
    assert (X : forall A (a b c : A) l m, length (l ++ a :: m) = length (l ++ b :: m)) by (intros; rewrite !app_length; reflexivity).
    destruct I1 as (I1 & I2 & I3 & I4 & I5 & I6 & I7); auto; try (rewrite ?app_length; cbn [length]; lia).
    + apply Forall_app. split; auto. constructor; auto. exact (Forall_inv_tail HT).
    + apply Forall_app. split; auto. constructor; auto. exact (Forall_inv_tail HWT).
    + rewrite (X _ row1 row) by exact row. exact Hk.
    + split; [exact I1|]. cbn [length]. auto 10.
Qed.
End upd.
