(** Memory safety of the NEON block: the loops over the clauses. *)
From Coq Require Import ZArith List Bool QArith Lia ZifyBool.
From Verif Require Import Base BaseProofs Spec ModelDense ModelLayout ModelAvx2 ModelNeon SpecAvx2 SpecNeon ModelSparse ModelSparseImp ModelAvx2Imp
  SpecAvx2Imp ModelNeonImp SpecNeonImp ProofsLayout ProofsSparseImp ProofsAvx2Imp ProofsAvx2ImpB ProofsNeonImp.
Import ListNotations.
Open Scope Z_scope.

Lemma nptr_ok : forall L q, L = (q * 16)%nat -> forall (P : list (list Z)), Forall (fun r => length r = (2 * L)%nat) P ->
  length (concat P) = (length P * (L * 2))%nat /\ aligned32 (length (concat P)) = Ret (length (concat P)).
Proof.
  intros L q HL P HP. rewrite (concat_len (2 * L)) by auto. split; [lia|]. unfold aligned32.
  replace (length P * (2 * L))%nat with ((length P * q) * 32)%nat by (rewrite HL; lia). rewrite Nat.mod_mul by lia. reflexivity.
Qed.
Lemma ndiv_q : forall L q, L = (q * 16)%nat -> (L / 16)%nat = q.
Proof. intros L q ->. apply Nat.div_mul. lia. Qed.
Lemma nlast_ok : forall L q, L = (q * 16)%nat -> (0 < q)%nat -> nlast_chunk L = Ret (q - 1)%nat.
Proof. intros L q HL Hq. unfold nlast_chunk. rewrite (ndiv_q L q HL). destruct (Nat.eqb_spec q 0); [lia|reflexivity]. Qed.

(** If the same steps succeed, the same loop does. *)
Lemma fold_mono : forall S (b1 b2 : nat -> S -> R S) n i s x, (forall i s y, b1 i s = Ret y -> b2 i s = Ret y) ->
  fold_ix n i b1 s = Ret x -> fold_ix n i b2 s = Ret x.
Proof.
  intros S b1 b2 n. induction n as [|n IH]; intros i s x H E; cbn [fold_ix] in *; auto.
  destruct (b1 i s) as [y| |] eqn:Eb; cbn [bindR] in E; try discriminate. rewrite (H i s y Eb). cbn [bindR]. apply IH; auto.
Qed.
Lemma ix_more : forall A (l t : list A) i x, ix l i = Ret x -> ix (l ++ t) i = Ret x.
Proof.
  intros A l t i x. unfold ix. destruct (nth_error l i) as [y|] eqn:E; [|discriminate].
  rewrite nth_error_app1; [rewrite E; auto|]. apply nth_error_Some. rewrite E. discriminate.
Qed.

Section outputs.
Variables (lits mmem mask rest : list Z) (L q : nat).
Hypothesis HL : L = (q * 16)%nat.
Hypothesis Hq : (0 < q)%nat.
Hypothesis Hl : (L <= length lits)%nat.
Hypothesis Hmask : nvld mmem 0 0 = Ret mask.

Lemma nset_clause_eq : forall P row T s0 oP o oT cP c cT,
  Forall (fun r => length r = (2 * L)%nat) P -> length row = (2 * L)%nat ->
  Z.of_nat (length (P ++ row :: T) * L * 2) <= int_max ->
  m_clauses s0 = concat (P ++ row :: T) ++ rest -> m_lmem s0 = L -> m_mask s0 = mmem -> length oP = length P -> length cP = length P ->
  nimp_set_clause true lits (q - 1) (length P) (m_set_outputs s0 (oP ++ o :: oT) (cP ++ c :: cT)) =
    Ret (m_set_outputs s0 (oP ++ fst (neon_set_output lits L mask row) :: oT) (cP ++ snd (neon_set_output lits L mask row) :: cT)).
Proof.
  intros P row T s0 oP o oT cP c cT HP Hr HI Hc Hm Hk HoP HcP.
  assert (HN : (length P + 1 <= length (P ++ row :: T))%nat) by (rewrite app_length; cbn [length]; lia).
  assert (HI2 : Z.of_nat (2 * L) <= int_max).
  { eapply Z.le_trans; [|exact HI]. apply inj_le. rewrite <- Nat.mul_assoc. rewrite (Nat.mul_comm L 2).
    transitivity (1 * (2 * L))%nat; [lia|]. apply Nat.mul_le_mono_r. lia. }
  assert (HI3 : Z.of_nat (length P * (L * 2)) <= int_max).
  { eapply Z.le_trans; [|exact HI]. apply inj_le. rewrite <- Nat.mul_assoc. apply Nat.mul_le_mono_r. lia. }
  destruct (nptr_ok L q HL P HP) as [HPl _]. rewrite row_at in Hc.
  unfold nimp_set_clause. cbn [m_set_outputs m_outputs m_lmem m_clauses m_counts m_nlit m_ncl m_ncls m_wmem m_mask m_weights m_votes m_budget m_cmp m_vrng m_fast].
  rewrite <- HoP at 1. rewrite set_ix_mid. cbn [bindR]. rewrite <- HcP at 1. rewrite set_ix_mid. cbn [bindR]. rewrite Hm, Hk.
  rewrite (int_ok (L * 2)) by lia. cbn [bindR]. rewrite (int_ok (length P * (L * 2))) by lia. cbn [bindR].
  rewrite <- HPl, Hc.
  rewrite (nset_chunks_eq (concat P) (concat T ++ rest) L q HL HI2 lits row Hl Hr) by lia.
  cbn [bindR].
  unfold neon_set_output. rewrite (ndiv_q L q HL). destruct (nset_chunks lits row L 0 (q - 1) 0) as [n f]. cbn [fst snd].
  assert (OC : (if f then Ret (0, n) else nimp_set_reminder lits (concat P ++ row ++ concat T ++ rest) (length (concat P)) L mmem (q - 1) n) =
     Ret (if f then (0, n) else nset_reminder lits row L mask (q - 1) n)).
  { destruct f; [reflexivity|]. apply (nset_reminder_eq (concat P) (concat T ++ rest) L q HL HI2); auto; lia. }
  rewrite OC. cbn [bindR].
  assert (V : let oc := (if f then (0, n) else nset_reminder lits row L mask (q - 1) n) in fst oc = 0 \/ fst oc = 1).
  { destruct f; cbn [fst]; auto. unfold nset_reminder. destruct (v_any _); cbn [fst]; auto. destruct (v_any _); cbn [fst]; auto. }
  cbv zeta in V. destruct (if f then (0, n) else nset_reminder lits row L mask (q - 1) n) as [v cnt]. cbn [fst snd] in *.
  assert (OO : (if v =? 0 then set_ix (length P) 0 (oP ++ 1 :: oT) else Ret (oP ++ 1 :: oT)) = Ret (oP ++ v :: oT)).
  { rewrite <- HoP. destruct V as [-> | ->]; cbn [Z.eqb]; [apply set_ix_mid|reflexivity]. }
  rewrite OO. cbn [bindR]. rewrite <- HcP, set_ix_mid. reflexivity.
Qed.
Lemma nset_loop : forall T P s0 oP oT pd cP cT,
  Forall (fun r => length r = (2 * L)%nat) (P ++ T) -> Z.of_nat (length (P ++ T) * L * 2) <= int_max ->
  m_clauses s0 = concat (P ++ T) ++ rest -> m_lmem s0 = L -> m_mask s0 = mmem -> length oP = length P -> length oT = length T ->
  length cP = length P -> length cT = length T ->
  fold_ix (length T) (length P) (nimp_set_clause true lits (q - 1)) (m_set_outputs s0 (oP ++ oT ++ pd) (cP ++ cT)) =
    Ret (m_set_outputs s0 (oP ++ map fst (map (neon_set_output lits L mask) T) ++ pd) (cP ++ map snd (map (neon_set_output lits L mask) T))).
Proof.
  intros T. induction T as [|row T IH]; intros P s0 oP oT pd cP cT HF HI Hc Hm Hk H1 H2 H3 H4.
  - destruct oT; [|discriminate]. destruct cT; [|discriminate]. reflexivity.
  - destruct oT as [|o oT]; [discriminate|]. destruct cT as [|c cT]; [discriminate|]. cbn [length] in H2, H4. cbn [length fold_ix app].
    assert (HP : Forall (fun r => length r = (2 * L)%nat) P) by (apply Forall_app in HF; apply HF).
    assert (Hr : length row = (2 * L)%nat) by (apply Forall_app in HF; destruct HF as [_ HF]; exact (Forall_inv HF)).
    rewrite (nset_clause_eq P row T); auto. cbn [bindR].
    assert (EA : P ++ row :: T = (P ++ [row]) ++ T) by (rewrite <- app_assoc; reflexivity). rewrite EA in *.
    set (r0 := neon_set_output lits L mask row).
    replace (S (length P)) with (length (P ++ [row])) by (rewrite app_length; cbn [length]; lia).
    replace (oP ++ fst r0 :: oT ++ pd) with ((oP ++ [fst r0]) ++ oT ++ pd) by (rewrite <- app_assoc; reflexivity).
    replace (cP ++ snd r0 :: cT) with ((cP ++ [snd r0]) ++ cT) by (rewrite <- app_assoc; reflexivity).
    rewrite (IH (P ++ [row]) s0 (oP ++ [fst r0]) oT pd (cP ++ [snd r0]) cT); auto.
    * cbn [map]. fold r0. rewrite <- !app_assoc. reflexivity.
    * rewrite !app_length. cbn [length]. lia.
    * rewrite !app_length. cbn [length]. lia.
Qed.

Lemma neval_clause_eq : forall P row T s0 oP o oT c0 act,
  Forall (fun r => length r = (2 * L)%nat) P -> length row = (2 * L)%nat ->
  Z.of_nat (length (P ++ row :: T) * L * 2) <= int_max ->
  m_clauses s0 = concat (P ++ row :: T) ++ rest -> m_lmem s0 = L -> m_mask s0 = mmem -> length oP = length P ->
  nimp_eval_clause lits (q - 1) (length P) (m_set_outputs s0 (oP ++ o :: oT) c0, act) =
    Ret (m_set_outputs s0 (oP ++ fst (neon_eval_clause lits L mask row act) :: oT) c0, snd (neon_eval_clause lits L mask row act)).
Proof.
  intros P row T s0 oP o oT c0 act HP Hr HI Hc Hm Hk HoP.
  assert (HN : (length P + 1 <= length (P ++ row :: T))%nat) by (rewrite app_length; cbn [length]; lia).
  assert (HI2 : Z.of_nat (2 * L) <= int_max).
  { eapply Z.le_trans; [|exact HI]. apply inj_le. rewrite <- Nat.mul_assoc. rewrite (Nat.mul_comm L 2).
    transitivity (1 * (2 * L))%nat; [lia|]. apply Nat.mul_le_mono_r. lia. }
  assert (HI3 : Z.of_nat (length P * (L * 2)) <= int_max).
  { eapply Z.le_trans; [|exact HI]. apply inj_le. rewrite <- Nat.mul_assoc. apply Nat.mul_le_mono_r. lia. }
  destruct (nptr_ok L q HL P HP) as [HPl _]. rewrite row_at in Hc.
  unfold nimp_eval_clause. cbn [m_set_outputs m_outputs m_lmem m_clauses m_counts m_nlit m_ncl m_ncls m_wmem m_mask m_weights m_votes m_budget m_cmp m_vrng m_fast].
  rewrite <- HoP at 1. rewrite set_ix_mid. cbn [bindR]. rewrite Hm, Hk.
  rewrite (int_ok (L * 2)) by lia. cbn [bindR]. rewrite (int_ok (length P * (L * 2))) by lia. cbn [bindR].
  rewrite <- HPl, Hc.
  rewrite (neval_chunks_eq (concat P) (concat T ++ rest) L q HL HI2 lits row Hl Hr) by lia.
  cbn [bindR].
  unfold neon_eval_clause. rewrite (ndiv_q L q HL). destruct (neval_chunks lits row L 0 (q - 1) act) as [n f]. cbn [fst snd].
  assert (OC : (if f then Ret (0, n) else nimp_eval_reminder lits (concat P ++ row ++ concat T ++ rest) (length (concat P)) L mmem (q - 1) n) =
     Ret (if f then (0, n) else neval_reminder lits row L mask (q - 1) n)).
  { destruct f; [reflexivity|]. apply (neval_reminder_eq (concat P) (concat T ++ rest) L q HL HI2); auto; lia. }
  rewrite OC. cbn [bindR].
  assert (V : let oc := (if f then (0, n) else neval_reminder lits row L mask (q - 1) n) in fst oc = 0 \/ fst oc = 1).
  { destruct f; cbn [fst]; auto. unfold neval_reminder. destruct (v_any _); cbn [fst]; auto. destruct (v_any _); cbn [fst]; auto.
    destruct (_ || _); auto. }
  cbv zeta in V. destruct (if f then (0, n) else neval_reminder lits row L mask (q - 1) n) as [v a]. cbn [fst snd] in *.
  assert (OO : (if v =? 0 then set_ix (length P) 0 (oP ++ 1 :: oT) else Ret (oP ++ 1 :: oT)) = Ret (oP ++ v :: oT)).
  { rewrite <- HoP. destruct V as [-> | ->]; cbn [Z.eqb]; [apply set_ix_mid|reflexivity]. }
  rewrite OO. reflexivity.
Qed.
Lemma neval_loop : forall T P s0 oP oT pd c0 act,
  Forall (fun r => length r = (2 * L)%nat) (P ++ T) -> Z.of_nat (length (P ++ T) * L * 2) <= int_max ->
  m_clauses s0 = concat (P ++ T) ++ rest -> m_lmem s0 = L -> m_mask s0 = mmem -> length oP = length P -> length oT = length T ->
  exists act', fold_ix (length T) (length P) (nimp_eval_clause lits (q - 1)) (m_set_outputs s0 (oP ++ oT ++ pd) c0, act) =
    Ret (m_set_outputs s0 (oP ++ neon_eval_loop lits L mask T act ++ pd) c0, act').
Proof.
  intros T. induction T as [|row T IH]; intros P s0 oP oT pd c0 act HF HI Hc Hm Hk H1 H2.
  - destruct oT; [|discriminate]. exists act. reflexivity.
  - destruct oT as [|o oT]; [discriminate|]. cbn [length] in H2. cbn [length fold_ix app neon_eval_loop].
    assert (HP : Forall (fun r => length r = (2 * L)%nat) P) by (apply Forall_app in HF; apply HF).
    assert (Hr : length row = (2 * L)%nat) by (apply Forall_app in HF; destruct HF as [_ HF]; exact (Forall_inv HF)).
    rewrite (neval_clause_eq P row T); auto. cbn [bindR].
    assert (EA : P ++ row :: T = (P ++ [row]) ++ T) by (rewrite <- app_assoc; reflexivity). rewrite EA in *.
    destruct (neon_eval_clause lits L mask row act) as [r0 a0]. cbn [fst snd].
    replace (S (length P)) with (length (P ++ [row])) by (rewrite app_length; cbn [length]; lia).
    replace (oP ++ r0 :: oT ++ pd) with ((oP ++ [r0]) ++ oT ++ pd) by (rewrite <- app_assoc; reflexivity).
    destruct (IH (P ++ [row]) s0 (oP ++ [r0]) oT pd c0 a0) as (a1 & E); auto.
    { rewrite !app_length. cbn [length]. lia. }
    exists a1. rewrite E. rewrite <- !app_assoc. reflexivity.
Qed.
End outputs.

(** ** Votes *)

Lemma widen_all : forall n (ws : list (list Z)), Forall (fun w => length w = n) ws -> map (widen n) ws = ws.
Proof.
  intros n ws H. induction H as [|w ws Hw _ IH]; cbn [map]; auto. rewrite IH. f_equal. unfold widen. rewrite Hw, Nat.sub_diag. cbn [repeat]. apply app_nil_r.
Qed.
Lemma nvote_loop : forall ncls wrest tail ws outs pd votes, Forall (fun w => length w = ncls) ws ->
  Z.of_nat (length ws * ncls) <= int_max -> length votes = ncls -> length outs = length ws ->
  fold_ix (length ws) 0 (fun clause_k votes =>
     bindR (ix (outs ++ pd) clause_k) (fun o =>
     if o =? 1 then fold_ix ncls 0 (fun class_k votes =>
        bindR (int_ (clause_k * ncls + class_k)) (fun i =>
        bindR (ix (concat ws ++ wrest) i) (fun to_add =>
        bindR (ix votes class_k) (fun v => set_ix class_k (wrap16 (v + to_add)) votes)))) votes
     else Ret votes)) (votes ++ tail) = Ret (count_votes_loop outs ws votes ++ tail).
Proof.
  intros ncls wrest tail ws outs pd votes HF HI HV HO.
  pose proof (vote_loop false ncls tail ws [] [] outs pd votes HF HI (le_n _) HV eq_refl HO) as VL. cbn [app length wmem_of] in VL.
  rewrite (widen_all ncls ws HF) in VL.
  eapply fold_mono; [|exact VL]. cbv beta. intros i s y. destruct (ix (outs ++ pd) i) as [o| |]; cbn [bindR]; try discriminate.
  destruct (o =? 1); [|auto]. apply fold_mono. intros k s1 y1.
  destruct (int_ (i * ncls + k)) as [j| |]; cbn [bindR]; try discriminate.
  destruct (ix (concat ws) j) as [w| |] eqn:E; cbn [bindR]; try discriminate. rewrite (ix_more _ _ wrest _ _ E). cbn [bindR]. auto.
Qed.
