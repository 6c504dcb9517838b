(** Memory of the AVX2 convolutional block: feedback. *)
From Coq Require Import ZArith List Bool QArith Lia ZifyBool.
From Verif Require Import Base BaseProofs Spec ModelDense ModelLayout ModelAvx2 ModelConv ModelConvAvx2 SpecAvx2 ModelSparse ModelSparseImp ModelAvx2Imp
  ModelConvAvx2Imp SpecAvx2Imp SpecConvAvx2Imp ProofsLayout ProofsSparseImp ProofsAvx2Imp ProofsAvx2ImpB ProofsAvx2ImpC ProofsConvAvx2Imp ProofsConvAvx2ImpB.
Import ListNotations.
Open Scope Z_scope.

Definition lp_of (ap n : nat) : nat := Z.to_nat ((Z.of_nat ap * Z.of_nat n) mod 2 ^ 32).
Definition front (bo : bool) (k : nat) (s : vimp) : R (list Z) :=
  if bo then n <- ix (m_counts s) k; if n >? m_budget s then set_ix k 0 (m_outputs s) else Ret (m_outputs s) else Ret (m_outputs s).

Lemma xupd_at : forall bo boost lits active pc pp nc np k s ap, ix active k = Ret ap -> (lp_of ap (m_nlit s) mod 32 = 0)%nat ->
  imp_xupdate_clause bo boost lits active pc pp nc np k s = imp_vupdate_clause bo boost (skipn (lp_of ap (m_nlit s)) lits) pc pp nc np k s.
Proof.
  intros bo boost lits active pc pp nc np k s ap HA HM. unfold imp_xupdate_clause, imp_vupdate_clause.
  apply bindR_ext; intros two. apply bindR_ext; intros row. apply bindR_ext; intros wrow. rewrite HA. cbn [bindR]. cbv zeta. fold (lp_of ap (m_nlit s)).
  apply bindR_ext; intros outs. cbn [m_set_outputs m_fast m_outputs]. destruct (draw_lt (m_fast s) pp) as [d r].
  match goal with |- bindR ?a ?f = bindR ?b ?g => assert (E : a = b) end.
  { destruct d; [|reflexivity]. apply bindR_ext; intros o. apply clause_update_at. exact HM. }
  rewrite E. apply bindR_ext; intros s2. destruct (draw_lt (m_fast s2) np) as [d2 r2]. destruct d2; [|reflexivity].
  apply bindR_ext; intros o. apply clause_update_at. exact HM.
Qed.

Lemma keeps_outputs : forall boost lits row wp target output s s', imp_vclause_update boost lits row wp target output s = Ret s' ->
  m_outputs s' = m_outputs s /\ m_fast s' = m_fast s.
Proof.
  intros boost lits row wp target output s s'. unfold imp_vclause_update. destruct (ix (m_weights s) wp) as [w| |]; cbn [bindR]; try discriminate. cbv zeta.
  destruct (_ >? 0).
  - destruct (output =? 1).
    + destruct (set_ix _ _ _) as [ws| |]; cbn [bindR]; try discriminate. destruct (fold_ix _ _ _ _) as [c| |]; cbn [bindR]; try discriminate.
      intros E. inversion E. auto.
    + destruct (fold_ix _ _ _ _) as [c| |]; cbn [bindR]; try discriminate. intros E. inversion E. auto.
  - destruct (_ && _).
    + destruct (set_ix _ _ _) as [ws| |]; cbn [bindR]; try discriminate. destruct (fold_ix _ _ _ _) as [c| |]; cbn [bindR]; try discriminate.
      intros E. inversion E. auto.
    + intros E. inversion E. auto.
Qed.

(** When the pointer is not used it does not matter. *)
Lemma xupd_unused : forall bo boost lits lits' active pc pp nc np k s ap outs o, ix active k = Ret ap -> front bo k s = Ret outs -> ix outs k = Ret o ->
  (let '(d1, r1) := draw_lt (m_fast s) pp in let '(d2, _) := draw_lt r1 np in (d1 || d2) && (o =? 1)) = false ->
  imp_xupdate_clause bo boost lits active pc pp nc np k s = imp_vupdate_clause bo boost lits' pc pp nc np k s.
Proof.
  intros bo boost lits lits' active pc pp nc np k s ap outs o HA HF HO HN. unfold imp_xupdate_clause, imp_vupdate_clause.
  apply bindR_ext; intros two. apply bindR_ext; intros row. apply bindR_ext; intros wrow. rewrite HA. cbn [bindR]. cbv zeta.
  fold (front bo k s). rewrite HF. cbn [bindR m_set_outputs m_fast m_outputs]. rewrite HO. cbn [bindR].
  destruct (draw_lt (m_fast s) pp) as [d1 r1]. destruct (o =? 1) eqn:EO.
  - destruct d1; [destruct (draw_lt r1 np); discriminate|]. cbn [bindR m_set_fast m_fast].
    destruct (draw_lt r1 np) as [d2 r2]. cbn [orb] in HN. rewrite andb_true_r in HN. subst d2. reflexivity.
  - match goal with |- bindR ?a ?f = bindR ?b ?g => assert (E : a = b) end.
    { destruct d1; [|reflexivity]. apply clause_update_silent. exact EO. }
    rewrite E. clear E.
    match goal with |- bindR ?a ?f = bindR ?b ?g => destruct b as [s2| |] eqn:E2; try reflexivity end. cbn [bindR].
    assert (M : m_outputs s2 = outs).
    { destruct d1; [apply keeps_outputs in E2; destruct E2 as [E2 _]; exact E2|inversion E2; reflexivity]. }
    rewrite M, HO. cbn [bindR]. destruct (draw_lt (m_fast s2) np) as [d2 r2]. destruct d2; [|reflexivity]. apply clause_update_silent. exact EO.
Qed.

(** A misaligned pointer that is used. *)
Lemma xupd_bad : forall bo boost lits active pc pp nc np k s ap outs, ix active k = Ret ap -> front bo k s = Ret outs -> ix outs k = Ret 1 ->
  (lp_of ap (m_nlit s) mod 32 <> 0)%nat -> (0 < m_lmem s / 32)%nat ->
  (let '(d1, r1) := draw_lt (m_fast s) pp in let '(d2, _) := draw_lt r1 np in d1 || d2) = true ->
  (exists two row wrow, int_ (m_lmem s * 2) = Ret two /\ int_ (k * two) = Ret row /\ int_ (k * m_wmem s) = Ret wrow) ->
  imp_xupdate_clause bo boost lits active pc pp nc np k s = Wild.
Proof.
  intros bo boost lits active pc pp nc np k s ap outs HA HF HO HM HL HN (two & row & wrow & I1 & I2 & I3). unfold imp_xupdate_clause.
  rewrite I1. cbn [bindR]. rewrite I2. cbn [bindR]. rewrite I3. cbn [bindR]. rewrite HA. cbn [bindR]. cbv zeta. fold (lp_of ap (m_nlit s)).
  fold (front bo k s). rewrite HF. cbn [bindR m_set_outputs m_fast m_outputs]. rewrite HO. cbn [bindR].
  destruct (draw_lt (m_fast s) pp) as [d1 r1]. destruct d1.
  - rewrite clause_update_bad; auto.
  - cbn [bindR m_set_fast m_fast]. destruct (draw_lt r1 np) as [d2 r2]. cbn [orb] in HN. subst d2.
    change (m_outputs (m_set_fast (m_set_outputs s outs (m_counts s)) r1)) with outs. rewrite HO. cbn [bindR].
    rewrite clause_update_bad; auto.
Qed.

(** The same on lists. *)
Lemma avx_silent : forall boost cmp L row w target lits lits' o r, (o =? 1) = false ->
  avx_clause_update boost cmp L row w target lits o r = avx_clause_update boost cmp L row w target lits' o r.
Proof. intros. unfold avx_clause_update. now rewrite H, andb_false_r. Qed.
Lemma avx_unused : forall bo boost bud cmp L lits lits' pc pp nc np row ws o c c' r fast, (bo = true -> c' = c) ->
  (let '(d1, r1) := draw_lt fast pp in let '(d2, _) := draw_lt r1 np in (d1 || d2) && ((if bo && (c >? bud) then 0 else o) =? 1)) = false ->
  avx_update_clause bo boost bud cmp L lits pc pp nc np row ws o c r fast = avx_update_clause bo boost bud cmp L lits' pc pp nc np row ws o c' r fast.
Proof.
  intros bo boost bud cmp L lits lits' pc pp nc np row ws o c c' r fast HC. unfold avx_update_clause.
  assert (E : (if bo && (c' >? bud) then 0 else o) = (if bo && (c >? bud) then 0 else o)) by (destruct bo; [rewrite HC by reflexivity; reflexivity|reflexivity]).
  rewrite E. clear E. set (o1 := if bo && (c >? bud) then 0 else o). destruct (draw_lt fast pp) as [d1 r1]. destruct (draw_lt r1 np) as [d2 r2]. intros HN.
  destruct (o1 =? 1) eqn:EO.
  - rewrite andb_true_r in HN. destruct d1; [discriminate|]. cbn [orb] in HN. subst d2. reflexivity.
  - rewrite (avx_silent boost cmp L row (nth pc ws 0) 1 lits lits' o1 r EO). destruct d1.
    + destruct (avx_clause_update boost cmp L row (nth pc ws 0) 1 lits' o1 r) as [[row1 w1] r3]. destruct d2; [|reflexivity].
      rewrite (avx_silent boost cmp L row1 _ (-1) lits lits' o1 r3 EO). reflexivity.
    + destruct d2; [|reflexivity]. rewrite (avx_silent boost cmp L row _ (-1) lits lits' o1 r EO). reflexivity.
Qed.
Lemma avx_count : forall bo boost bud cmp L lits pc pp nc np row ws o c c' r fast, (bo = true -> c' = c) ->
  avx_update_clause bo boost bud cmp L lits pc pp nc np row ws o c r fast = avx_update_clause bo boost bud cmp L lits pc pp nc np row ws o c' r fast.
Proof. intros. unfold avx_update_clause. destruct bo; [rewrite H by reflexivity; reflexivity|reflexivity]. Qed.

Section upd.
Variables (bo boost pad : bool) (lits rest : list Z) (n np L q ncls ncl : nat).
Hypothesis HL : L = (q * 32)%nat.
Hypothesis Hq : (0 < q)%nat.
Hypothesis Hlen : forall k, (k < np)%nat -> patch_aligned n k = true -> (k * n + L <= length lits)%nat.
Hypothesis Hint : Z.of_nat (np * n) <= int_max.
Hypothesis HI2 : Z.of_nat (2 * L) <= int_max.
Let W := wmem_of pad ncls.
Hypothesis HIc : Z.of_nat (ncl * L * 2) <= int_max.
Hypothesis HIw : Z.of_nat (ncl * W) <= int_max.
Hypothesis HW : (ncls <= W)%nat.

Lemma lp_ok : forall ap, (ap < np)%nat -> lp_of ap n = (ap * n)%nat.
Proof.
  intros ap H. unfold lp_of. assert ((ap * n <= np * n)%nat) by (apply Nat.mul_le_mono_r; lia). unfold int_max in Hint.
  rewrite <- Nat2Z.inj_mul. rewrite Z.mod_small by lia. apply Nat2Z.id.
Qed.

Lemma xupdate_clause_eq : forall s P row T WP ws WT oP o oT pd cP c cT aP a aT r fast pc pp nc npq,
  Forall (fun r => length r = (2 * L)%nat) P -> length row = (2 * L)%nat -> vrng_ok r -> m_lmem s = L -> m_wmem s = W -> m_nlit s = n ->
  Forall (fun w => length w = ncls) WP -> length ws = ncls -> length WP = length P -> (pc < ncls)%nat -> (nc < ncls)%nat ->
  length oP = length P -> length cP = length P -> length aP = length P -> m_counts s = (if bo then cP ++ c :: cT else []) -> (length P < ncl)%nat ->
  silent_or_ok np o a ->
  imp_xupdate_clause bo boost lits (aP ++ a :: aT) pc pp nc npq (length P) (st_of pad rest ncls s (P ++ row :: T) (WP ++ ws :: WT) (oP ++ o :: oT) pd r fast) =
    match xc_update_clause bo boost (m_budget s) (m_cmp s) n L lits pc pp nc npq row ws o c a r fast with
    | None => Wild
    | Some (row1, ws1, o1, r1, fast1) => Ret (st_of pad rest ncls s (P ++ row1 :: T) (WP ++ ws1 :: WT) (oP ++ o1 :: oT) pd r1 fast1)
    end /\
  forall row1 ws1 o1 r1 fast1, xc_update_clause bo boost (m_budget s) (m_cmp s) n L lits pc pp nc npq row ws o c a r fast = Some (row1, ws1, o1, r1, fast1) ->
    length row1 = (2 * L)%nat /\ length ws1 = ncls /\ vrng_ok r1.
Proof.
  intros s P row T WP ws WT oP o oT pd cP c cT aP a aT r fast pc pp nc npq HP Hr Hv Hm Hwm Hn HWP Hws HWl Hpc Hnc HoP HcP HaP Hcs Hk HS.
  set (st := st_of pad rest ncls s (P ++ row :: T) (WP ++ ws :: WT) (oP ++ o :: oT) pd r fast).
  set (o1 := if bo && (c >? m_budget s) then 0 else o).
  assert (HA : ix (aP ++ a :: aT) (length P) = Ret a) by (rewrite <- HaP; apply ix_mid).
  assert (HF : front bo (length P) st = Ret ((oP ++ o1 :: oT) ++ pd)).
  { unfold front, st, o1. cbn [st_of m_counts m_budget m_outputs]. rewrite Hcs. destruct bo; [|reflexivity]. rewrite <- HcP, ix_mid. cbn [bindR andb].
    destruct (c >? m_budget s); [|reflexivity]. rewrite HcP, <- HoP, <- !app_assoc. cbn [app]. apply set_ix_mid. }
  assert (HO : ix ((oP ++ o1 :: oT) ++ pd) (length P) = Ret o1) by (rewrite <- HoP, <- app_assoc; cbn [app]; apply ix_mid).
  assert (HN : m_nlit st = n) by exact Hn. assert (HFa : m_fast st = fast) by reflexivity.
  assert (U : forall lits', (L <= length lits')%nat ->
    let '(row1, ws1, o2, r1, fast1) := avx_update_clause bo boost (m_budget s) (m_cmp s) L lits' pc pp nc npq row ws o c r fast in
    imp_vupdate_clause bo boost lits' pc pp nc npq (length P) st =
      Ret (st_of pad rest ncls s (P ++ row1 :: T) (WP ++ ws1 :: WT) (oP ++ o2 :: oT) pd r1 fast1) /\
    length row1 = (2 * L)%nat /\ length ws1 = ncls /\ vrng_ok r1).
  { intros lits' Hl. pose (c' := if bo then c else 0).
    rewrite (avx_count bo boost (m_budget s) (m_cmp s) L lits' pc pp nc npq row ws o c c' r fast) by (unfold c'; intros ->; reflexivity).
    pose proof (update_clause_eq bo boost pad lits' rest L q ncls ncl HL Hl HI2 HIc HIw HW s P row T WP ws WT oP o oT pd
      (if bo then cP else []) (if bo then c :: cT else []) r fast pc pp nc npq HP Hr Hv Hm Hwm HWP Hws HWl Hpc Hnc HoP) as X.
    replace (hd 0 (if bo then c :: cT else [])) with c' in X by (unfold c'; destruct bo; reflexivity). apply X.
    - rewrite Hcs. destruct bo; reflexivity.
    - intros ->. cbn [length]. lia.
    - exact Hk. }
  unfold xc_update_clause. fold o1. destruct (draw_lt fast pp) as [d1 r1] eqn:D1. destruct (draw_lt r1 npq) as [d2 r2] eqn:D2.
  destruct ((d1 || d2) && (o1 =? 1)) eqn:ND.
  - apply andb_true_iff in ND. destruct ND as [ND NO]. apply Z.eqb_eq in NO. rewrite andb_true_l.
    assert (EO : o = 1) by (unfold o1 in NO; destruct (bo && (c >? m_budget s)); [discriminate|exact NO]).
    destruct HS as [HS|[_ HS]]; [rewrite HS in EO; discriminate|].
    destruct (patch_aligned n a) eqn:PA; cbn [negb].
    + assert (HM : (lp_of a (m_nlit st) mod 32 = 0)%nat) by (rewrite HN, lp_ok by exact HS; unfold patch_aligned in PA; apply Nat.eqb_eq in PA; exact PA).
      rewrite (xupd_at bo boost lits _ pc pp nc npq (length P) st a HA HM). rewrite HN, lp_ok by exact HS. fold (patch_mem n lits a).
      specialize (U (patch_mem n lits a)). assert (Hl : (L <= length (patch_mem n lits a))%nat) by (unfold patch_mem; rewrite skipn_length; specialize (Hlen a HS PA); lia).
      specialize (U Hl). destruct (avx_update_clause _ _ _ _ _ _ _ _ _ _ _ _ _ _ _ _) as [[[[row1 ws1] o2] r3] fast1]. destruct U as (U1 & U2 & U3 & U4).
      split; [exact U1|]. intros a1 a2 a3 a4 a5 E. injection E as <- <- <- <- <-. auto.
    + split; [|discriminate]. apply (xupd_bad bo boost lits _ pc pp nc npq (length P) st a ((oP ++ o1 :: oT) ++ pd)); auto.
      * rewrite HO, NO. reflexivity.
      * rewrite HN, lp_ok by exact HS. unfold patch_aligned in PA. apply Nat.eqb_neq in PA. exact PA.
      * change (m_lmem st) with (m_lmem s). rewrite Hm, HL, Nat.div_mul by lia. exact Hq.
      * rewrite HFa, D1, D2. exact ND.
      * change (m_lmem st) with (m_lmem s). change (m_wmem st) with (m_wmem s). rewrite Hm, Hwm.
        assert (B1 : (length P * (L * 2) <= ncl * L * 2)%nat) by (rewrite <- Nat.mul_assoc; apply Nat.mul_le_mono_r; lia).
        assert (B2 : (length P * W <= ncl * W)%nat) by (apply Nat.mul_le_mono_r; lia).
        exists (L * 2)%nat, (length P * (L * 2))%nat, (length P * W)%nat. split; [apply int_ok; lia|]. split; apply int_ok; lia.
  - rewrite andb_false_l.
    rewrite (xupd_unused bo boost lits (repeat 0 L) _ pc pp nc npq (length P) st a _ o1 HA HF HO) by (rewrite HFa, D1, D2; exact ND).
    rewrite (avx_unused bo boost (m_budget s) (m_cmp s) L (patch_mem n lits a) (repeat 0 L) pc pp nc npq row ws o c c r fast) by (auto; rewrite D1, D2; exact ND).
    specialize (U (repeat 0 L)). rewrite repeat_length in U. specialize (U (le_n _)).
    destruct (avx_update_clause _ _ _ _ _ _ _ _ _ _ _ _ _ _ _ _) as [[[[row1 ws1] o2] r3] fast1]. destruct U as (U1 & U2 & U3 & U4).
    split; [exact U1|]. intros a1 a2 a3 a4 a5 E. injection E as <- <- <- <- <-. auto.
Qed.

Lemma xupdate_loop_eq : forall s pc pp nc npq T P WP WT oP oT pd cP cT aP aT r fast,
  Forall (fun r => length r = (2 * L)%nat) (P ++ T) -> vrng_ok r -> m_lmem s = L -> m_wmem s = W -> m_nlit s = n ->
  Forall (fun w => length w = ncls) (WP ++ WT) -> length WP = length P -> length WT = length T -> (pc < ncls)%nat -> (nc < ncls)%nat ->
  length oP = length P -> length oT = length T -> length cP = length P -> length cT = length T -> length aP = length P -> length aT = length T ->
  m_counts s = (if bo then cP ++ cT else []) -> length (P ++ T) = ncl -> Forall2 (silent_or_ok np) oT aT ->
  fold_ix (length T) (length P) (imp_xupdate_clause bo boost lits (aP ++ aT) pc pp nc npq) (st_of pad rest ncls s (P ++ T) (WP ++ WT) (oP ++ oT) pd r fast) =
    match xc_update_loop bo boost (m_budget s) (m_cmp s) n L lits pc pp nc npq T WT oT cT aT r fast with
    | None => Wild
    | Some (rows1, wss1, outs1, r1, fast1) => Ret (st_of pad rest ncls s (P ++ rows1) (WP ++ wss1) (oP ++ outs1) pd r1 fast1)
    end /\
  forall rows1 wss1 outs1 r1 fast1, xc_update_loop bo boost (m_budget s) (m_cmp s) n L lits pc pp nc npq T WT oT cT aT r fast = Some (rows1, wss1, outs1, r1, fast1) ->
    Forall (fun r => length r = (2 * L)%nat) rows1 /\ Forall (fun w => length w = ncls) wss1 /\ vrng_ok r1 /\
    length rows1 = length T /\ length wss1 = length T /\ length outs1 = length T.
Proof.
  intros s pc pp nc npq T. induction T as [|row T IH]; intros P WP WT oP oT pd cP cT aP aT r fast HF Hv Hm Hwm Hn HWF HW1 HW2 Hpc Hnc HoP HoT HcP HcT HaP HaT Hcs Hk HS.
  - destruct WT; [|discriminate]. destruct oT; [|discriminate]. cbn [xc_update_loop length fold_ix]. split; [reflexivity|].
    intros a1 a2 a3 a4 a5 E. inversion E; subst. auto 10.
  - destruct WT as [|ws WT]; [discriminate|]. destruct oT as [|o oT]; [discriminate|]. destruct cT as [|c cT]; [discriminate|]. destruct aT as [|a aT]; [discriminate|].
    cbn [length] in *. cbn [xc_update_loop fold_ix hd tl].
    assert (HP : Forall (fun r => length r = (2 * L)%nat) P) by (apply Forall_app in HF; apply HF).
    assert (HT : Forall (fun r => length r = (2 * L)%nat) (row :: T)) by (apply Forall_app in HF; apply HF).
    assert (HWP : Forall (fun w => length w = ncls) WP) by (apply Forall_app in HWF; apply HWF).
    assert (HWT : Forall (fun w => length w = ncls) (ws :: WT)) by (apply Forall_app in HWF; apply HWF).
    assert (Hk2 : (length P < ncl)%nat) by (rewrite app_length in Hk; cbn [length] in Hk; lia).
    assert (HS1 : silent_or_ok np o a) by (inversion HS; assumption). assert (HS2 : Forall2 (silent_or_ok np) oT aT) by (inversion HS; assumption).
    destruct (xupdate_clause_eq s P row T WP ws WT oP o oT pd cP c cT aP a aT r fast pc pp nc npq HP (Forall_inv HT) Hv Hm Hwm Hn HWP (Forall_inv HWT)
      HW1 Hpc Hnc HoP HcP HaP Hcs Hk2 HS1) as (U1 & U2).
    rewrite U1. clear U1. destruct (xc_update_clause bo boost (m_budget s) (m_cmp s) n L lits pc pp nc npq row ws o c a r fast) as [[[[[row1 ws1] o1] r1] fast1]|]; cbn [bindR].
    2:{ split; [reflexivity|discriminate]. }
    destruct (U2 _ _ _ _ _ eq_refl) as (V1 & V2 & V3).
    destruct (IH (P ++ [row1]) (WP ++ [ws1]) WT (oP ++ [o1]) oT pd (cP ++ [c]) cT (aP ++ [a]) aT r1 fast1) as (I1 & I2); auto;
      try (rewrite ?app_length; cbn [length]; lia).
    + rewrite <- app_assoc. apply Forall_app. split; auto. constructor; auto. exact (Forall_inv_tail HT).
    + rewrite <- app_assoc. apply Forall_app. split; auto. constructor; auto. exact (Forall_inv_tail HWT).
    + rewrite <- app_assoc. exact Hcs.
    + rewrite !app_length in *. cbn [length] in *. lia.
    + replace (length (P ++ [row1])) with (S (length P)) in I1 by (rewrite app_length; cbn [length]; lia).
      rewrite <- !app_assoc in I1. cbn [app] in I1. rewrite I1. clear I1.
      destruct (xc_update_loop bo boost (m_budget s) (m_cmp s) n L lits pc pp nc npq T WT oT cT aT r1 fast1) as [[[[[rows2 wss2] outs2] r2] fast2]|].
      2:{ split; [reflexivity|discriminate]. }
      destruct (I2 _ _ _ _ _ eq_refl) as (J1 & J2 & J3 & J4 & J5 & J6). split; [rewrite <- ?app_assoc; reflexivity|].
      intros a1 a2 a3 a4 a5 E. inversion E; subst. cbn [length]. auto 12.
Qed.
End upd.
