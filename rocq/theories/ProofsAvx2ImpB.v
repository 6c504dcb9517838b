(** Memory safety of the AVX2 block: the loops over the clauses. *)
From Coq Require Import ZArith List Bool QArith Lia ZifyBool.
From Verif Require Import Base BaseProofs Spec ModelDense ModelLayout ModelAvx2 SpecAvx2 ModelSparse ModelSparseImp ModelAvx2Imp
  SpecAvx2Imp ProofsLayout ProofsSparseImp ProofsAvx2Imp.
Import ListNotations.
Open Scope Z_scope.

Lemma concat_len : forall n (rows : list (list Z)), Forall (fun r => length r = n) rows -> length (concat rows) = (length rows * n)%nat.
Proof. intros n rows H. induction H as [|r rows Hr _ IH]; cbn [concat length]; auto. rewrite app_length, IH, Hr. lia. Qed.
Lemma widen_len : forall n l, (length l <= n)%nat -> length (widen n l) = n.
Proof. intros n l H. unfold widen. rewrite app_length, repeat_length. lia. Qed.
Lemma ix_mid : forall A (a b : list A) x, ix (a ++ x :: b) (length a) = Ret x.
Proof. intros A a b x. apply ix_some. rewrite nth_error_app2 by lia. rewrite Nat.sub_diag. reflexivity. Qed.
Lemma set_ix_mid : forall A (a b : list A) x v, set_ix (length a) v (a ++ x :: b) = Ret (a ++ v :: b).
Proof. intros A a b x v. rewrite set_ix_ok by (rewrite app_length; cbn [length]; lia). f_equal. apply set_mid. Qed.
Lemma m_store_same : forall s, m_store s (m_clauses s) (m_weights s) (m_vrng s) = s.
Proof. intros []. reflexivity. Qed.

Lemma ptr_ok : forall L q, L = (q * 32)%nat -> forall (P : list (list Z)), Forall (fun r => length r = (2 * L)%nat) P ->
  length (concat P) = (length P * (L * 2))%nat /\ exists p, length (concat P) = (p * 32)%nat.
Proof.
  intros L q HL P HP. rewrite (concat_len (2 * L)) by auto. split; [lia|]. exists (length P * 2 * q)%nat. rewrite HL. lia.
Qed.
Lemma row_at : forall rest (P T : list (list Z)) row, concat (P ++ row :: T) ++ rest = concat P ++ row ++ (concat T ++ rest).
Proof. intros rest P T row. rewrite concat_app. cbn [concat]. rewrite <- !app_assoc. reflexivity. Qed.

Lemma div_q : forall L q, L = (q * 32)%nat -> (L / 32)%nat = q.
Proof. intros L q ->. apply Nat.div_mul. lia. Qed.
Lemma last_ok : forall L q, L = (q * 32)%nat -> (0 < q)%nat -> last_chunk L = Ret (q - 1)%nat.
Proof. intros L q HL Hq. unfold last_chunk. rewrite (div_q L q HL). destruct (Nat.eqb_spec q 0); [lia|reflexivity]. Qed.

Section outputs.
Variables (bo : bool) (lits mask rest : list Z) (L q : nat).
Hypothesis HL : L = (q * 32)%nat.
Hypothesis Hq : (0 < q)%nat.
Hypothesis Hl : (L <= length lits)%nat.

Lemma vset_clause_eq : forall P row T s0 oP o oT cP cT,
  Forall (fun r => length r = (2 * L)%nat) P -> length row = (2 * L)%nat ->
  Z.of_nat (length (P ++ row :: T) * L * 2) <= int_max ->
  m_clauses s0 = concat (P ++ row :: T) ++ rest -> m_lmem s0 = L -> length oP = length P ->
  (bo = true -> length cP = length P /\ (0 < length cT)%nat) ->
  imp_vset_clause bo lits mask (q - 1) (length P) (m_set_outputs s0 (oP ++ o :: oT) (cP ++ cT)) =
    Ret (m_set_outputs s0 (oP ++ fst (avx_set_output lits L mask row) :: oT)
       (if bo then cP ++ match snd (avx_set_output lits L mask row) with Some n => n | None => hd 0 cT end :: tl cT else cP ++ cT)).
Proof.
  intros P row T s0 oP o oT cP cT HP Hr HI Hc Hm HoP Hcn.
  assert (HN : (length P + 1 <= length (P ++ row :: T))%nat) by (rewrite app_length; cbn [length]; lia).
  assert (HI2 : Z.of_nat (2 * L) <= int_max).
  { eapply Z.le_trans; [|exact HI]. apply inj_le. rewrite <- Nat.mul_assoc. rewrite (Nat.mul_comm L 2).
    transitivity (1 * (2 * L))%nat; [lia|]. apply Nat.mul_le_mono_r. lia. }
  assert (HI3 : Z.of_nat (length P * (L * 2)) <= int_max).
  { eapply Z.le_trans; [|exact HI]. apply inj_le. rewrite <- Nat.mul_assoc. apply Nat.mul_le_mono_r. lia. }
  destruct (ptr_ok L q HL P HP) as [HPl HA]. rewrite row_at in Hc.
  unfold imp_vset_clause. cbn [m_set_outputs m_outputs m_lmem m_clauses m_counts m_nlit m_ncl m_ncls m_wmem m_mask m_weights m_votes m_budget m_cmp m_vrng m_fast].
  rewrite <- HoP. rewrite set_ix_mid. cbn [bindR]. rewrite HoP. rewrite Hm.
  rewrite (int_ok (L * 2)) by lia. cbn [bindR]. rewrite (int_ok (length P * (L * 2))) by lia. cbn [bindR].
  rewrite <- HPl, Hc.
  rewrite (set_chunks_eq (concat P) (concat T ++ rest) L q HL HA HI2 lits row Hl Hr) by lia.
  cbn [bindR].
  unfold avx_set_output. rewrite (div_q L q HL). destruct (set_chunks lits row L 0 (q - 1) 0) as [n f]. cbn [fst snd].
  assert (OC : (if f then Ret (0, Some n) else imp_set_reminder lits (concat P ++ row ++ concat T ++ rest) (length (concat P)) L mask (q - 1) n) =
     Ret (if f then (0, Some n) else set_reminder lits row L mask (q - 1) n)).
  { destruct f; [reflexivity|]. apply (set_reminder_eq (concat P) (concat T ++ rest) L q HL HA HI2); auto; lia. }
  rewrite OC. cbn [bindR].
  assert (V : let oc := (if f then (0, Some n) else set_reminder lits row L mask (q - 1) n) in fst oc = 0 \/ fst oc = 1).
  { destruct f; cbn [fst]; auto. unfold set_reminder. destruct (v_any _); cbn [fst]; auto. destruct (v_any _); cbn [fst]; auto. }
  cbv zeta in V. destruct (if f then (0, Some n) else set_reminder lits row L mask (q - 1) n) as [v cnt]. cbn [fst snd] in *.
  assert (OO : (if v =? 0 then set_ix (length oP) 0 (oP ++ 1 :: oT) else Ret (oP ++ 1 :: oT)) = Ret (oP ++ v :: oT)).
  { destruct V as [-> | ->]; cbn [Z.eqb]; [apply set_ix_mid|reflexivity]. }
  rewrite <- HoP, OO. cbn [bindR].
  destruct bo.
  - destruct (Hcn eq_refl) as [C1 C2]. destruct cT as [|c0 cT]; [cbn [length] in C2; lia|]. cbn [hd tl].
    rewrite HoP, <- C1. destruct cnt; [rewrite set_ix_mid|]; reflexivity.
  - destruct cnt; reflexivity.
Qed.

Lemma vset_loop : forall T P s0 oP oT pd cP cT,
  Forall (fun r => length r = (2 * L)%nat) (P ++ T) -> Z.of_nat (length (P ++ T) * L * 2) <= int_max ->
  m_clauses s0 = concat (P ++ T) ++ rest -> m_lmem s0 = L -> length oP = length P -> length oT = length T ->
  (bo = true -> length cP = length P /\ length cT = length T) ->
  fold_ix (length T) (length P) (imp_vset_clause bo lits mask (q - 1)) (m_set_outputs s0 (oP ++ oT ++ pd) (cP ++ cT)) =
    Ret (m_set_outputs s0 (oP ++ map fst (map (avx_set_output lits L mask) T) ++ pd)
       (cP ++ (if bo then map2 (fun r old => match snd r with Some c => c | None => old end) (map (avx_set_output lits L mask) T) cT else cT))).
Proof.
  intros T. induction T as [|row T IH]; intros P s0 oP oT pd cP cT HF HI Hc Hm H1 H2 H3.
  - destruct oT; [|discriminate]. cbn [length fold_ix map app map2]. do 3 f_equal. destruct bo; [|reflexivity]. destruct (H3 eq_refl) as [_ C2]. destruct cT; [reflexivity|discriminate].
  - destruct oT as [|o oT]; [discriminate|]. cbn [length] in H2. cbn [length fold_ix app].
    assert (HP : Forall (fun r => length r = (2 * L)%nat) P) by (apply Forall_app in HF; apply HF).
    assert (Hr : length row = (2 * L)%nat) by (apply Forall_app in HF; destruct HF as [_ HF]; exact (Forall_inv HF)).
    rewrite (vset_clause_eq P row T); auto.
    2:{ intros Eb. destruct (H3 Eb) as [C1 C2]. cbn [length] in C2. split; [auto|lia]. }
    cbn [bindR].
    assert (EA : P ++ row :: T = (P ++ [row]) ++ T) by (rewrite <- app_assoc; reflexivity). rewrite EA in *.
    set (r0 := avx_set_output lits L mask row).
    replace (S (length P)) with (length (P ++ [row])) by (rewrite app_length; cbn [length]; lia).
    replace (oP ++ fst r0 :: oT ++ pd) with ((oP ++ [fst r0]) ++ oT ++ pd) by (rewrite <- app_assoc; reflexivity).
    destruct bo eqn:Eb.
    + destruct (H3 eq_refl) as [C1 C2]. destruct cT as [|c0 cT]; [discriminate|]. cbn [hd tl length] in *.
      set (n0 := match snd r0 with Some n => n | None => c0 end).
      replace (cP ++ n0 :: cT) with ((cP ++ [n0]) ++ cT) by (rewrite <- app_assoc; reflexivity).
      rewrite (IH (P ++ [row]) s0 (oP ++ [fst r0]) oT pd (cP ++ [n0]) cT); auto.
      * cbn [map map2]. fold r0. rewrite <- !app_assoc. reflexivity.
      * rewrite !app_length. cbn [length]. lia.
      * intros _. rewrite !app_length. cbn [length]. lia.
    + rewrite (IH (P ++ [row]) s0 (oP ++ [fst r0]) oT pd cP cT); auto.
      * cbn [map]. fold r0. rewrite <- !app_assoc. reflexivity.
      * rewrite !app_length. cbn [length]. lia.
      * intros; discriminate.
Qed.

Lemma veval_clause_eq : forall P row T s0 oP o oT c0,
  Forall (fun r => length r = (2 * L)%nat) P -> length row = (2 * L)%nat ->
  Z.of_nat (length (P ++ row :: T) * L * 2) <= int_max ->
  m_clauses s0 = concat (P ++ row :: T) ++ rest -> m_lmem s0 = L -> length oP = length P ->
  imp_veval_clause lits mask (q - 1) (length P) (m_set_outputs s0 (oP ++ o :: oT) c0) =
    Ret (m_set_outputs s0 (oP ++ avx_eval_output lits L mask row :: oT) c0).
Proof.
  intros P row T s0 oP o oT c0 HP Hr HI Hc Hm HoP.
  assert (HN : (length P + 1 <= length (P ++ row :: T))%nat) by (rewrite app_length; cbn [length]; lia).
  assert (HI2 : Z.of_nat (2 * L) <= int_max).
  { eapply Z.le_trans; [|exact HI]. apply inj_le. rewrite <- Nat.mul_assoc. rewrite (Nat.mul_comm L 2).
    transitivity (1 * (2 * L))%nat; [lia|]. apply Nat.mul_le_mono_r. lia. }
  assert (HI3 : Z.of_nat (length P * (L * 2)) <= int_max).
  { eapply Z.le_trans; [|exact HI]. apply inj_le. rewrite <- Nat.mul_assoc. apply Nat.mul_le_mono_r. lia. }
  destruct (ptr_ok L q HL P HP) as [HPl HA]. rewrite row_at in Hc.
  unfold imp_veval_clause. cbn [m_set_outputs m_outputs m_lmem m_clauses m_counts m_nlit m_ncl m_ncls m_wmem m_mask m_weights m_votes m_budget m_cmp m_vrng m_fast].
  rewrite <- HoP. rewrite set_ix_mid. cbn [bindR]. rewrite HoP. rewrite Hm.
  rewrite (int_ok (L * 2)) by lia. cbn [bindR]. rewrite (int_ok (length P * (L * 2))) by lia. cbn [bindR].
  rewrite <- HPl, Hc.
  rewrite (eval_chunks_eq (concat P) (concat T ++ rest) L q HL HA HI2 lits row Hl Hr) by lia.
  cbn [bindR].
  unfold avx_eval_output. rewrite (div_q L q HL). destruct (eval_chunks lits row L 0 (q - 1) false) as [n f]. cbn [fst snd].
  assert (OC : (if f then Ret 0 else imp_eval_reminder lits (concat P ++ row ++ concat T ++ rest) (length (concat P)) L mask (q - 1) n) =
     Ret (if f then 0 else eval_reminder lits row L mask (q - 1) n)).
  { destruct f; [reflexivity|]. apply (eval_reminder_eq (concat P) (concat T ++ rest) L q HL HA HI2); auto; lia. }
  rewrite OC. cbn [bindR].
  assert (V : let oc := (if f then 0 else eval_reminder lits row L mask (q - 1) n) in oc = 0 \/ oc = 1).
  { destruct f; auto. unfold eval_reminder. destruct (v_any _); auto. destruct (v_any _); auto. destruct (_ || _); auto. }
  cbv zeta in V. destruct (if f then 0 else eval_reminder lits row L mask (q - 1) n) as [| v | v] eqn:Ev;
    destruct V as [V|V]; try discriminate; cbn [Z.eqb].
  - rewrite <- HoP, set_ix_mid. reflexivity.
  - rewrite V. reflexivity.
Qed.
Lemma veval_loop : forall T P s0 oP oT pd c0,
  Forall (fun r => length r = (2 * L)%nat) (P ++ T) -> Z.of_nat (length (P ++ T) * L * 2) <= int_max ->
  m_clauses s0 = concat (P ++ T) ++ rest -> m_lmem s0 = L -> length oP = length P -> length oT = length T ->
  fold_ix (length T) (length P) (imp_veval_clause lits mask (q - 1)) (m_set_outputs s0 (oP ++ oT ++ pd) c0) =
    Ret (m_set_outputs s0 (oP ++ map (avx_eval_output lits L mask) T ++ pd) c0).
Proof.
  intros T. induction T as [|row T IH]; intros P s0 oP oT pd c0 HF HI Hc Hm H1 H2.
  - destruct oT; [|discriminate]. reflexivity.
  - destruct oT as [|o oT]; [discriminate|]. cbn [length] in H2. cbn [length fold_ix app].
    assert (HP : Forall (fun r => length r = (2 * L)%nat) P) by (apply Forall_app in HF; apply HF).
    assert (Hr : length row = (2 * L)%nat) by (apply Forall_app in HF; destruct HF as [_ HF]; exact (Forall_inv HF)).
    rewrite (veval_clause_eq P row T); auto. cbn [bindR].
    assert (EA : P ++ row :: T = (P ++ [row]) ++ T) by (rewrite <- app_assoc; reflexivity). rewrite EA in *.
    set (r0 := avx_eval_output lits L mask row).
    replace (S (length P)) with (length (P ++ [row])) by (rewrite app_length; cbn [length]; lia).
    replace (oP ++ r0 :: oT ++ pd) with ((oP ++ [r0]) ++ oT ++ pd) by (rewrite <- app_assoc; reflexivity).
    rewrite (IH (P ++ [row]) s0 (oP ++ [r0]) oT pd c0); auto.
    * cbn [map]. fold r0. rewrite <- !app_assoc. reflexivity.
    * rewrite !app_length. cbn [length]. lia.
Qed.
End outputs.

(** ** Votes *)

Lemma vote_row : forall WA WB base tail w2 w1 v1 v2, length WA = base -> Z.of_nat (base + length w1 + length w2) <= int_max ->
  length v1 = length w1 -> length v2 = length w2 ->
  fold_ix (length w2) (length w1) (fun class_k votes =>
     bindR (int_ (base + class_k)) (fun i => bindR (ix (WA ++ (w1 ++ w2) ++ WB) i) (fun to_add =>
     bindR (ix votes class_k) (fun v => set_ix class_k (wrap16 (v + to_add)) votes)))) (v1 ++ v2 ++ tail) =
  Ret (v1 ++ map2 (fun v t => wrap16 (v + t)) v2 w2 ++ tail).
Proof.
  intros WA WB base tail w2. induction w2 as [|w w2 IH]; intros w1 v1 v2 HW HI H1 H2; destruct v2 as [|v v2]; try discriminate; [reflexivity|].
  cbn [length] in *. cbn [fold_ix map2]. rewrite int_ok by lia. cbn [bindR].
  assert (E : ix (WA ++ (w1 ++ w :: w2) ++ WB) (base + length w1) = Ret w).
  { rewrite <- HW, <- app_length. rewrite <- (app_assoc w1). rewrite app_assoc. cbn [app]. apply ix_mid. }
  rewrite E. cbn [bindR]. rewrite <- H1. cbn [app]. rewrite ix_mid. cbn [bindR]. rewrite set_ix_mid. cbn [bindR].
  replace (v1 ++ wrap16 (v + w) :: v2 ++ tail) with ((v1 ++ [wrap16 (v + w)]) ++ v2 ++ tail) by (rewrite <- app_assoc; reflexivity).
  replace (w1 ++ w :: w2) with ((w1 ++ [w]) ++ w2) by (rewrite <- app_assoc; reflexivity).
  replace (S (length v1)) with (length (w1 ++ [w])) by (rewrite app_length; cbn [length]; lia).
  rewrite IH; auto.
  - rewrite <- !app_assoc. reflexivity.
  - rewrite app_length. cbn [length]. lia.
  - rewrite !app_length. cbn [length]. lia.
Qed.

Lemma vote_loop : forall pad ncls tail wT wP oP oT pd votes, Forall (fun w => length w = ncls) (wP ++ wT) ->
  Z.of_nat (length (wP ++ wT) * wmem_of pad ncls) <= int_max -> (ncls <= wmem_of pad ncls)%nat -> length votes = ncls ->
  length oP = length wP -> length oT = length wT ->
  fold_ix (length wT) (length wP) (fun clause_k votes =>
     bindR (ix (oP ++ oT ++ pd) clause_k) (fun o =>
     if o =? 1 then fold_ix ncls 0 (fun class_k votes =>
        bindR (int_ (clause_k * wmem_of pad ncls + class_k)) (fun i =>
        bindR (ix (concat (map (widen (wmem_of pad ncls)) (wP ++ wT))) i) (fun to_add =>
        bindR (ix votes class_k) (fun v => set_ix class_k (wrap16 (v + to_add)) votes)))) votes
     else Ret votes)) (votes ++ tail) = Ret (count_votes_loop oT wT votes ++ tail).
Proof.
  intros pad ncls tail wT. set (W := wmem_of pad ncls). induction wT as [|w wT IH]; intros wP oP oT pd votes HF HI HW HV H1 H2.
  - destruct oT; [|discriminate]. reflexivity.
  - destruct oT as [|o oT]; [discriminate|]. cbn [length] in *. cbn [fold_ix count_votes_loop].
    assert (E : ix (oP ++ (o :: oT) ++ pd) (length wP) = Ret o) by (rewrite <- H1; cbn [app]; apply ix_mid).
    rewrite E. cbn [bindR].
    assert (Fw : length w = ncls) by (apply Forall_app in HF; destruct HF as [_ HF]; exact (Forall_inv HF)).
    assert (FP : Forall (fun w => length w = ncls) wP) by (apply Forall_app in HF; apply HF).
    assert (LP : length (concat (map (widen W) wP)) = (length wP * W)%nat).
    { rewrite (concat_len W).
      - rewrite map_length. reflexivity.
      - apply Forall_map. eapply Forall_impl; [|exact FP]. cbv beta. intros a Ha. apply widen_len. lia. }
    set (votes1 := if o =? 1 then map2 (fun v t => wrap16 (v + t)) votes w else votes).
    assert (V1 : length votes1 = ncls) by (unfold votes1; destruct (o =? 1); auto; apply map2_len; auto).
    match goal with |- bindR ?m _ = _ => assert (S1 : m = Ret (votes1 ++ tail)) end.
    { unfold votes1. destruct (o =? 1); [|reflexivity].
      pose proof (vote_row (concat (map (widen W) wP)) (repeat 0 (W - ncls) ++ concat (map (widen W) wT)) (length wP * W) tail w [] [] votes LP) as VR.
      cbn [length app] in VR. rewrite Fw in VR. rewrite <- VR; auto.
      - rewrite map_app, concat_app. cbn [map concat]. unfold widen at 2. rewrite Fw. rewrite <- !app_assoc. reflexivity.
      - eapply Z.le_trans; [|exact HI]. apply inj_le. rewrite app_length. cbn [length]. rewrite Nat.mul_add_distr_r. cbn [Nat.mul]. lia. }
    rewrite S1. cbn [bindR].
    pose proof (IH (wP ++ [w]) (oP ++ [o]) oT pd votes1) as IH'. rewrite <- !app_assoc in IH'. cbn [app] in *.
    rewrite !app_length in IH'. cbn [length] in IH'. replace (length wP + 1)%nat with (S (length wP)) in IH' by lia.
    rewrite app_length in HI. cbn [length] in HI. apply IH'; auto; lia.
Qed.
