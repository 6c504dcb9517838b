(** Memory of the AVX2 convolutional block: clause outputs. *)
From Coq Require Import ZArith List Bool QArith Lia ZifyBool.
From Verif Require Import Base BaseProofs Spec ModelDense ModelLayout ModelAvx2 ModelConv ModelConvAvx2 SpecAvx2 ModelSparse ModelSparseImp ModelAvx2Imp
  ModelConvAvx2Imp SpecAvx2Imp SpecConvAvx2Imp ProofsLayout ProofsSparseImp ProofsAvx2Imp ProofsAvx2ImpB ProofsAvx2ImpC ProofsConvAvx2Imp.
Import ListNotations.
Open Scope Z_scope.

Definition fired (st : list nat) : Z := match st with [] => 0 | _ => 1 end.
Definition of_opt {A} (o : option A) : R A := match o with Some a => Ret a | None => Wild end.

Lemma steps_none : forall bo n L mask lits row ks, fold_left (xc_patch_step bo n L mask lits row) ks None = None.
Proof. intros. induction ks; auto. Qed.

Lemma bindR_assoc : forall A B C (m : R A) (f : A -> R B) (g : B -> R C), bindR (bindR m f) g = bindR m (fun a => bindR (f a) g).
Proof. intros A B C [a| |] f g; reflexivity. Qed.

Section outputs.
Variables (bo : bool) (lits mask rest : list Z) (n np L q : nat).
Hypothesis HL : L = (q * 32)%nat.
Hypothesis Hq : (0 < q)%nat.
Hypothesis Hlen : forall k, (k < np)%nat -> patch_aligned n k = true -> (k * n + L <= length lits)%nat.
Hypothesis Hint : Z.of_nat (np * n) <= int_max.

Lemma off_int : forall k, (k < np)%nat -> int_ (k * n) = Ret (k * n)%nat.
Proof. intros k H. apply int_ok. eapply Z.le_trans; [|exact Hint]. apply inj_le. apply Nat.mul_le_mono_r. lia. Qed.

Section row.
Variables (A B row : list Z).
Hypothesis HAp : exists p, length A = (p * 32)%nat.
Hypothesis HI2 : Z.of_nat (2 * L) <= int_max.
Hypothesis Hr : length row = (2 * L)%nat.

Lemma patch_out_eq : forall k, (k < np)%nat ->
  bindR (imp_xset_chunks lits (k * n) (A ++ row ++ B) (length A) L 0 (q - 1) 0)
        (fun c => if snd c then Ret None else imp_xset_reminder lits (k * n) (A ++ row ++ B) (length A) L mask (q - 1) (fst c)) =
  if patch_aligned n k then Ret (xc_patch_output (patch_mem n lits k) L mask row) else Wild.
Proof.
  intros k Hk. destruct (patch_aligned n k) eqn:PA.
  - assert (HM : ((k * n) mod 32 = 0)%nat) by (unfold patch_aligned in PA; apply Nat.eqb_eq in PA; exact PA).
    assert (Hl : (L <= length (patch_mem n lits k))%nat) by (unfold patch_mem; rewrite skipn_length; specialize (Hlen k Hk PA); lia).
    rewrite (set_chunks_at lits (k * n) HM). fold (patch_mem n lits k).
    rewrite (set_chunks_eq A B L q HL HAp HI2 (patch_mem n lits k) row Hl Hr) by lia. cbn [bindR].
    unfold xc_patch_output. rewrite (div_q L q HL). destruct (set_chunks (patch_mem n lits k) row L 0 (q - 1) 0) as [c f]. cbn [fst snd].
    destruct f; [reflexivity|]. rewrite (set_reminder_at lits (k * n) HM). fold (patch_mem n lits k).
    rewrite (set_reminder_eq A B L q HL HAp HI2 (patch_mem n lits k) row Hl Hr) by lia. cbn [bindR].
    destruct (set_reminder (patch_mem n lits k) row L mask (q - 1) c) as [o st]. reflexivity.
  - apply set_bad. unfold patch_aligned in PA. apply Nat.eqb_neq in PA. exact PA.
Qed.
Lemma patch_eval_eq : forall k, (k < np)%nat ->
  bindR (imp_xeval_chunks lits (k * n) (A ++ row ++ B) (length A) L 0 (q - 1) false)
        (fun c => if snd c then Ret 0 else imp_xeval_reminder lits (k * n) (A ++ row ++ B) (length A) L mask (q - 1) (fst c)) =
  if patch_aligned n k then Ret (avx_eval_output (patch_mem n lits k) L mask row) else Wild.
Proof.
  intros k Hk. destruct (patch_aligned n k) eqn:PA.
  - assert (HM : ((k * n) mod 32 = 0)%nat) by (unfold patch_aligned in PA; apply Nat.eqb_eq in PA; exact PA).
    assert (Hl : (L <= length (patch_mem n lits k))%nat) by (unfold patch_mem; rewrite skipn_length; specialize (Hlen k Hk PA); lia).
    rewrite (eval_chunks_at lits (k * n) HM). fold (patch_mem n lits k).
    rewrite (eval_chunks_eq A B L q HL HAp HI2 (patch_mem n lits k) row Hl Hr) by lia. cbn [bindR].
    unfold avx_eval_output. rewrite (div_q L q HL). destruct (eval_chunks (patch_mem n lits k) row L 0 (q - 1) false) as [c f]. cbn [fst snd].
    destruct f; [reflexivity|]. rewrite (eval_reminder_at lits (k * n) HM). fold (patch_mem n lits k).
    rewrite (eval_reminder_eq A B L q HL HAp HI2 (patch_mem n lits k) row Hl Hr) by lia. reflexivity.
  - apply eval_bad. unfold patch_aligned in PA. apply Nat.eqb_neq in PA. exact PA.
Qed.

Lemma patch_loop : forall s j k oP oT storage ppc, m_nlit s = n -> m_clauses s = A ++ row ++ B -> m_lmem s = L ->
  (j + k = np)%nat -> length ppc = np ->
  fold_ix j k (imp_xset_patch bo lits mask (q - 1) s (length oP) (length A)) (oP ++ fired storage :: oT, storage, ppc) =
  match fold_left (xc_patch_step bo n L mask lits row) (seq k j) (Some (storage, ppc)) with
  | None => Wild
  | Some (st', ppc') => Ret (oP ++ fired st' :: oT, st', ppc')
  end /\
  forall st' ppc', fold_left (xc_patch_step bo n L mask lits row) (seq k j) (Some (storage, ppc)) = Some (st', ppc') ->
    length ppc' = np /\ (length st' <= length storage + j)%nat /\ forall p, In p st' -> In p storage \/ (p < np)%nat.
Proof.
  intros s j. induction j as [|j IH]; intros k oP oT storage ppc E1 E2 E3 EK LP; cbn [fold_ix seq fold_left].
  - split; [reflexivity|]. intros st' ppc' E. inversion E; subst. split; [auto|]. split; [lia|auto].
  - unfold imp_xset_patch at 1. rewrite E1, E2, E3. rewrite off_int by lia. cbn [bindR].
    rewrite <- (bindR_assoc _ _ _ (imp_xset_chunks _ _ _ _ _ _ _ _)). rewrite patch_out_eq by lia.
    cbn [xc_patch_step]. destruct (patch_aligned n k); cbn [bindR].
    2:{ rewrite steps_none. split; [reflexivity|discriminate]. }
    destruct (xc_patch_output (patch_mem n lits k) L mask row) as [count|]; cbn [bindR].
    + rewrite set_ix_mid. cbn [bindR].
      assert (EP : (if bo then set_ix k count ppc else Ret ppc) = Ret (if bo then set_nth k count ppc else ppc)).
      { destruct bo; [|reflexivity]. apply set_ix_ok. lia. }
      rewrite EP. cbn [bindR].
      replace (oP ++ 1 :: oT) with (oP ++ fired (storage ++ [k]) :: oT) by (destruct storage; reflexivity).
      destruct (IH (S k) oP oT (storage ++ [k]) (if bo then set_nth k count ppc else ppc)) as (I1 & I2); auto; [lia|destruct bo; [rewrite set_nth_length|]; auto|].
      split; [exact I1|]. intros st' ppc' E. destruct (I2 _ _ E) as (J1 & J0 & J2). split; [exact J1|].
      split; [rewrite app_length in J0; cbn [length] in J0; lia|]. intros p IN. destruct (J2 p IN) as [X|X]; [|auto].
      apply in_app_or in X. destruct X as [X|[X|[]]]; [auto|]. right. lia.
    + destruct (IH (S k) oP oT storage ppc) as (I1 & I2); auto; [lia|]. split; [exact I1|]. intros st' ppc' E.
      destruct (I2 _ _ E) as (J1 & J0 & J2). split; [exact J1|]. split; [lia|exact J2].
Qed.

Lemma eval_patch_loop : forall s j k oP oT, m_nlit s = n -> m_clauses s = A ++ row ++ B -> m_lmem s = L -> (j + k = np)%nat ->
  imp_xeval_patches lits mask (q - 1) s (length oP) (length A) j k (oP ++ 0 :: oT) =
  match xc_eval_patches n L mask lits row (seq k j) with Some o => Ret (oP ++ o :: oT) | None => Wild end.
Proof.
  intros s j. induction j as [|j IH]; intros k oP oT E1 E2 E3 EK; cbn [imp_xeval_patches seq xc_eval_patches]; [reflexivity|].
  rewrite E1, E2, E3. rewrite off_int by lia. cbn [bindR].
  rewrite <- (bindR_assoc _ _ _ (imp_xeval_chunks _ _ _ _ _ _ _ _)). rewrite patch_eval_eq by lia.
  destruct (patch_aligned n k); cbn [bindR]; [|reflexivity].
  destruct (avx_eval_output (patch_mem n lits k) L mask row =? 1); [apply set_ix_mid|]. rewrite <- (IH (S k)); auto; try lia.
Qed.
End row.

Definition xst (s0 : vimp) (outs cnts : list Z) (act : list nat) (ppc : list Z) (r : rng) : ximp :=
  mkXi (m_set_outputs s0 outs (if bo then cnts else [])) np act ppc r.

Lemma geo : forall (P : list (list Z)) row T, length row = (2 * L)%nat -> Z.of_nat (length (P ++ row :: T) * L * 2) <= int_max ->
  Z.of_nat (2 * L) <= int_max /\ Z.of_nat (length P * (L * 2)) <= int_max.
Proof.
  intros P row T Hr HI. assert (HN : (length P + 1 <= length (P ++ row :: T))%nat) by (rewrite app_length; cbn [length]; lia). split.
  - eapply Z.le_trans; [|exact HI]. apply inj_le. rewrite <- Nat.mul_assoc. rewrite (Nat.mul_comm L 2).
    transitivity (1 * (2 * L))%nat; [lia|]. apply Nat.mul_le_mono_r. lia.
  - eapply Z.le_trans; [|exact HI]. apply inj_le. rewrite <- Nat.mul_assoc. apply Nat.mul_le_mono_r. lia.
Qed.

Lemma xset_clause_eq : forall P row T s0 oP o oT cP c cT aP a aT ppc r,
  Forall (fun r => length r = (2 * L)%nat) P -> length row = (2 * L)%nat ->
  Z.of_nat (length (P ++ row :: T) * L * 2) <= int_max ->
  m_clauses s0 = concat (P ++ row :: T) ++ rest -> m_lmem s0 = L -> m_nlit s0 = n ->
  length oP = length P -> length cP = length P -> length aP = length P -> length ppc = np ->
  imp_xset_clause bo lits mask (q - 1) (length P) (xst s0 (oP ++ o :: oT) (cP ++ c :: cT) (aP ++ a :: aT) ppc r) =
    match xc_clause_output bo n L np mask lits row a c ppc r with
    | None => Wild
    | Some (o', a', c', ppc', r') => Ret (xst s0 (oP ++ o' :: oT) (cP ++ c' :: cT) (aP ++ a' :: aT) ppc' r')
    end /\
  forall o' a' c' ppc' r', xc_clause_output bo n L np mask lits row a c ppc r = Some (o', a', c', ppc', r') ->
    length ppc' = np /\ (o' = 0 \/ o' = 1 /\ (a' < np)%nat).
Proof.
  intros P row T s0 oP o oT cP c cT aP a aT ppc r HP Hr HI Hc Hm Hn LO LC LA LP.
  destruct (geo P row T Hr HI) as [HI2 HI3]. destruct (ptr_ok L q HL P HP) as [HPl HA]. rewrite row_at in Hc.
  unfold imp_xset_clause, xc_clause_output, xc_patches, xst.
  cbn [xi_v xi_np xi_active xi_ppc xi_rng m_set_outputs m_outputs m_lmem m_clauses m_counts m_nlit m_ncl m_ncls m_wmem m_mask m_weights m_votes m_budget m_cmp m_vrng m_fast].
  rewrite <- LO at 1. rewrite set_ix_mid. cbn [bindR]. rewrite Hm.
  rewrite (int_ok (L * 2)) by lia. cbn [bindR]. rewrite (int_ok (length P * (L * 2))) by lia. cbn [bindR]. rewrite <- HPl.
  match goal with |- context [imp_xset_patch bo lits mask (q - 1) ?s _ _] =>
    destruct (patch_loop (concat P) (concat T ++ rest) row HA HI2 Hr s np 0 oP oT [] ppc) as (PL & PS) end;
    [exact Hn|exact Hc|exact Hm|lia|exact LP|].
  cbn [fired] in PL. rewrite LO in PL. rewrite PL. clear PL.
  destruct (fold_left (xc_patch_step bo n L mask lits row) (seq 0 np) (Some ([], ppc))) as [[st' ppc']|]; cbn [bindR].
  2:{ split; [reflexivity|discriminate]. }
  destruct (PS _ _ eq_refl) as (S1 & S2 & S3). cbn [length Nat.add] in S2.
  destruct st' as [|p0 st'].
  - cbn [fired]. split; [reflexivity|]. intros o' a' c' ppc2 r' E. inversion E; subst. auto.
  - cbn [fired]. destruct (pick_index (length (p0 :: st')) r) as [i r1] eqn:PK.
    assert (IL : (i < length (p0 :: st'))%nat).
    { unfold pick_index in PK. destruct (next_u r) as [u r0]. injection PK as PK1 _. cbn [length pred] in *. lia. }
    destruct (nth_error (p0 :: st') i) as [p|] eqn:EN; [|apply nth_error_None in EN; lia].
    assert (EX : ix (p0 :: st') i = Ret p) by (unfold ix; now rewrite EN). rewrite EX. cbn [bindR].
    assert (ENp : nth i (p0 :: st') O = p) by (apply nth_error_nth with (d := O) in EN; exact EN). rewrite ENp.
    rewrite <- LA at 1. rewrite set_ix_mid. cbn [bindR].
    assert (EC : (if bo then bindR (ix ppc' i) (fun n0 => set_ix (length P) n0 (if bo then cP ++ c :: cT else [])) else Ret (if bo then cP ++ c :: cT else [])) =
      Ret (if bo then cP ++ (if bo then nth i ppc' 0 else c) :: cT else [])).
    { destruct bo; [|reflexivity]. assert (IX : ix ppc' i = Ret (nth i ppc' 0)).
      { unfold ix. rewrite (nth_error_nth' ppc' 0) by lia. reflexivity. }
      rewrite IX. cbn [bindR]. rewrite <- LC. apply set_ix_mid. }
    rewrite EC. cbn [bindR]. split; [reflexivity|]. intros o' a' c' ppc2 r' E. inversion E; subst. split; [auto|]. right. split; [reflexivity|].
    destruct (S3 (nth i (p0 :: st') O)) as [[]|X]; [|exact X]. eapply nth_error_In. exact EN.
Qed.

Definition silent_or_ok (o : Z) (a : nat) : Prop := o = 0 \/ o = 1 /\ (a < np)%nat.

Lemma xset_loop : forall T P s0 oP oT pd cP cT aP aT ppc r,
  Forall (fun r => length r = (2 * L)%nat) (P ++ T) -> Z.of_nat (length (P ++ T) * L * 2) <= int_max ->
  m_clauses s0 = concat (P ++ T) ++ rest -> m_lmem s0 = L -> m_nlit s0 = n ->
  length oP = length P -> length oT = length T -> length cP = length P -> length cT = length T ->
  length aP = length P -> length aT = length T -> length ppc = np ->
  fold_ix (length T) (length P) (imp_xset_clause bo lits mask (q - 1)) (xst s0 (oP ++ oT ++ pd) (cP ++ cT) (aP ++ aT) ppc r) =
    match xc_output_loop bo n L np mask lits T aT cT ppc r with
    | None => Wild
    | Some (os, aps, cnts, ppc', r') => Ret (xst s0 (oP ++ os ++ pd) (cP ++ cnts) (aP ++ aps) ppc' r')
    end /\
  forall os aps cnts ppc' r', xc_output_loop bo n L np mask lits T aT cT ppc r = Some (os, aps, cnts, ppc', r') ->
    length os = length T /\ length aps = length T /\ length cnts = length T /\ length ppc' = np /\ Forall2 silent_or_ok os aps.
Proof.
  intros T. induction T as [|row T IH]; intros P s0 oP oT pd cP cT aP aT ppc r HF HI Hc Hm Hn LO1 LO2 LC1 LC2 LA1 LA2 LP.
  - destruct oT; [|discriminate]. destruct cT; [|discriminate]. destruct aT; [|discriminate]. cbn [length fold_ix xc_output_loop]. split; [reflexivity|].
    intros os aps cnts ppc' r' E. inversion E; subst. auto 10.
  - destruct oT as [|o oT]; [discriminate|]. destruct cT as [|c cT]; [discriminate|]. destruct aT as [|a aT]; [discriminate|].
    cbn [length] in LO2, LC2, LA2. cbn [length fold_ix app xc_output_loop].
    assert (HP : Forall (fun r => length r = (2 * L)%nat) P) by (apply Forall_app in HF; apply HF).
    assert (Hr : length row = (2 * L)%nat) by (apply Forall_app in HF; destruct HF as [_ HF]; exact (Forall_inv HF)).
    destruct (xset_clause_eq P row T s0 oP o (oT ++ pd) cP c cT aP a aT ppc r HP Hr HI Hc Hm Hn LO1 LC1 LA1 LP) as (C1 & C2).
    rewrite C1. clear C1. destruct (xc_clause_output bo n L np mask lits row a c ppc r) as [[[[[o' a'] c'] ppc1] r1]|]; cbn [bindR].
    2:{ split; [reflexivity|discriminate]. }
    destruct (C2 _ _ _ _ _ eq_refl) as (D1 & D2).
    assert (EA : P ++ row :: T = (P ++ [row]) ++ T) by (rewrite <- app_assoc; reflexivity). rewrite EA in *.
    replace (S (length P)) with (length (P ++ [row])) by (rewrite app_length; cbn [length]; lia).
    replace (oP ++ o' :: oT ++ pd) with ((oP ++ [o']) ++ oT ++ pd) by (rewrite <- app_assoc; reflexivity).
    replace (cP ++ c' :: cT) with ((cP ++ [c']) ++ cT) by (rewrite <- app_assoc; reflexivity).
    replace (aP ++ a' :: aT) with ((aP ++ [a']) ++ aT) by (rewrite <- app_assoc; reflexivity).
    destruct (IH (P ++ [row]) s0 (oP ++ [o']) oT pd (cP ++ [c']) cT (aP ++ [a']) aT ppc1 r1) as (I1 & I2); auto; try (rewrite !app_length; cbn [length]; lia).
    rewrite I1. clear I1. destruct (xc_output_loop bo n L np mask lits T aT cT ppc1 r1) as [[[[[os aps] cnts] ppc2] r2]|].
    2:{ split; [reflexivity|discriminate]. }
    destruct (I2 _ _ _ _ _ eq_refl) as (J1 & J2 & J3 & J4 & J5). split; [rewrite <- !app_assoc; reflexivity|].
    intros os0 aps0 cnts0 ppc0 r0 E. inversion E; subst. cbn [length]. auto 10.
Qed.

Lemma xeval_clause_eq : forall P row T s0 oP o oT c0,
  Forall (fun r => length r = (2 * L)%nat) P -> length row = (2 * L)%nat ->
  Z.of_nat (length (P ++ row :: T) * L * 2) <= int_max ->
  m_clauses s0 = concat (P ++ row :: T) ++ rest -> m_lmem s0 = L -> m_nlit s0 = n -> length oP = length P ->
  imp_xeval_clause np lits mask (q - 1) (length P) (m_set_outputs s0 (oP ++ o :: oT) c0) =
    match xc_eval_patches n L mask lits row (seq 0 np) with
    | None => Wild
    | Some o' => Ret (m_set_outputs s0 (oP ++ o' :: oT) c0)
    end.
Proof.
  intros P row T s0 oP o oT c0 HP Hr HI Hc Hm Hn LO.
  destruct (geo P row T Hr HI) as [HI2 HI3]. destruct (ptr_ok L q HL P HP) as [HPl HA]. rewrite row_at in Hc.
  unfold imp_xeval_clause. cbn [m_set_outputs m_outputs m_lmem m_clauses m_counts m_nlit m_ncl m_ncls m_wmem m_mask m_weights m_votes m_budget m_cmp m_vrng m_fast].
  rewrite <- LO at 1. rewrite set_ix_mid. cbn [bindR]. rewrite Hm.
  rewrite (int_ok (L * 2)) by lia. cbn [bindR]. rewrite (int_ok (length P * (L * 2))) by lia. cbn [bindR]. rewrite <- HPl, <- LO.
  rewrite (eval_patch_loop (concat P) (concat T ++ rest) row HA HI2 Hr) by (auto; lia).
  destruct (xc_eval_patches n L mask lits row (seq 0 np)); reflexivity.
Qed.
Lemma xeval_loop : forall T P s0 oP oT pd c0,
  Forall (fun r => length r = (2 * L)%nat) (P ++ T) -> Z.of_nat (length (P ++ T) * L * 2) <= int_max ->
  m_clauses s0 = concat (P ++ T) ++ rest -> m_lmem s0 = L -> m_nlit s0 = n -> length oP = length P -> length oT = length T ->
  fold_ix (length T) (length P) (imp_xeval_clause np lits mask (q - 1)) (m_set_outputs s0 (oP ++ oT ++ pd) c0) =
    match xc_eval_loop n L np mask lits T with
    | None => Wild
    | Some os => Ret (m_set_outputs s0 (oP ++ os ++ pd) c0)
    end /\
  forall os, xc_eval_loop n L np mask lits T = Some os -> length os = length T.
Proof.
  intros T. induction T as [|row T IH]; intros P s0 oP oT pd c0 HF HI Hc Hm Hn LO1 LO2.
  - destruct oT; [|discriminate]. cbn [length fold_ix xc_eval_loop]. split; [reflexivity|]. intros os E. inversion E. reflexivity.
  - destruct oT as [|o oT]; [discriminate|]. cbn [length] in LO2. cbn [length fold_ix app xc_eval_loop].
    assert (HP : Forall (fun r => length r = (2 * L)%nat) P) by (apply Forall_app in HF; apply HF).
    assert (Hr : length row = (2 * L)%nat) by (apply Forall_app in HF; destruct HF as [_ HF]; exact (Forall_inv HF)).
    rewrite (xeval_clause_eq P row T) by auto. destruct (xc_eval_patches n L mask lits row (seq 0 np)) as [o'|]; cbn [bindR].
    2:{ split; [reflexivity|discriminate]. }
    assert (EA : P ++ row :: T = (P ++ [row]) ++ T) by (rewrite <- app_assoc; reflexivity). rewrite EA in *.
    replace (S (length P)) with (length (P ++ [row])) by (rewrite app_length; cbn [length]; lia).
    replace (oP ++ o' :: oT ++ pd) with ((oP ++ [o']) ++ oT ++ pd) by (rewrite <- app_assoc; reflexivity).
    destruct (IH (P ++ [row]) s0 (oP ++ [o']) oT pd c0) as (I1 & I2); auto; try (rewrite !app_length; cbn [length]; lia).
    rewrite I1. destruct (xc_eval_loop n L np mask lits T) as [os|].
    2:{ split; [reflexivity|discriminate]. }
    split; [rewrite <- !app_assoc; reflexivity|]. intros os0 E. inversion E; subst. cbn [length]. now rewrite (I2 _ eq_refl).
Qed.
End outputs.
