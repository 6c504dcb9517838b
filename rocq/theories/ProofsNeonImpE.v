(** Memory safety of the NEON block: initialisation. *)
From Coq Require Import ZArith List Bool QArith Lia ZifyBool.
From Verif Require Import Base BaseProofs Spec ModelDense ModelLayout ModelAvx2 ModelNeon SpecAvx2 SpecNeon ModelSparse ModelSparseImp ModelAvx2Imp
  SpecAvx2Imp ModelNeonImp SpecNeonImp ProofsLayout ProofsSparseImp ProofsAvx2Imp ProofsAvx2ImpB ProofsAvx2ImpD ProofsAvx2ImpE
  ProofsNeonImp ProofsNeonImpB ProofsNeonImpC ProofsNeonImpD.
Import ListNotations.
Open Scope Z_scope.

#[local] Ltac asc := repeat first [rewrite <- !app_assoc | progress cbn [app]]; reflexivity.

Lemma int_bad : forall n, int_max < Z.of_nat n -> int_ n = Wild.
Proof. intros m H. unfold int_. unfold int_max in H. destruct (Z.leb_spec (Z.of_nat m) 2147483647); [lia|reflexivity]. Qed.

(** ** Allocation *)

Lemma nsafe_ok : forall m, 0 <= m -> m <= int_max - 31 -> exists x, nsafe_mem m = Ret x /\ m <= Z.of_nat x /\ Z.of_nat x <= int_max.
Proof.
  intros m H0 H. unfold nsafe_mem, int_max in *. destruct (Z.ltb_spec m 32); [exists 32%nat; split; [reflexivity|lia]|].
  pose proof (Z.mod_pos_bound m 32 ltac:(lia)). destruct (Z.ltb_spec 0 (m mod 32)).
  - exists (Z.to_nat (m + (32 - m mod 32))). split; [|lia]. apply int_ok. unfold int_max. lia.
  - exists (Z.to_nat m). split; [reflexivity|lia].
Qed.
Lemma nsafe_clauses : forall k, Z.of_nat (k * 32) <= int_max -> exists x, nsafe_mem (Z.of_nat (k * 32)) = Ret x /\ (k * 32 <= x)%nat.
Proof.
  intros k H. unfold nsafe_mem. destruct (Z.ltb_spec (Z.of_nat (k * 32)) 32); [exists 32%nat; split; [reflexivity|lia]|].
  rewrite Nat2Z.inj_mul. rewrite Z.mod_mul by lia. cbn [Z.ltb Z.compare]. eexists. split; [reflexivity|]. lia.
Qed.
(** A size of two bytes each that does not fit gives no allocation or 32 bytes. *)
Lemma nsafe_bad : forall n, 0 <= n <= int_max -> int_max - 31 < 2 * n -> nsafe_mem (wrap32 (2 * n)) = Wild \/ nsafe_mem (wrap32 (2 * n)) = Ret 32%nat.
Proof.
  intros n Hn H. unfold int_max in *. destruct (Z.le_gt_cases (2 * n) 2147483647) as [H1|H1].
  - left. assert (E : wrap32 (2 * n) = 2 * n) by (unfold wrap32, wrap; change (2 ^ (32 - 1)) with 2147483648; change (2 ^ 32) with 4294967296; rewrite Z.mod_small; lia).
    rewrite E. unfold nsafe_mem. destruct (Z.ltb_spec (2 * n) 32); [lia|].
    assert (M : 0 < (2 * n) mod 32 /\ 2 * n - (2 * n) mod 32 >= 2147483616).
    { pose proof (Z.div_mod (2 * n) 32 ltac:(lia)). pose proof (Z.mod_pos_bound (2 * n) 32 ltac:(lia)). lia. }
    destruct (Z.ltb_spec 0 ((2 * n) mod 32)); [|lia]. apply int_bad. unfold int_max. pose proof (Z.mod_pos_bound (2 * n) 32 ltac:(lia)). lia.
  - right. assert (E : wrap32 (2 * n) = 2 * n - 4294967296).
    { unfold wrap32, wrap. change (2 ^ (32 - 1)) with 2147483648. change (2 ^ 32) with 4294967296.
      replace (2 * n + 2147483648) with ((2 * n - 2147483648) + 1 * 4294967296) by lia. rewrite Z.mod_add by lia. rewrite Z.mod_small; lia. }
    rewrite E. unfold nsafe_mem. destruct (Z.ltb_spec (2 * n - 4294967296) 32); [reflexivity|lia].
Qed.
Lemma wrap32_fits : forall n, 0 <= n -> n <= int_max -> wrap32 n = n.
Proof.
  intros n H0 H. unfold int_max in H. unfold wrap32, wrap. change (2 ^ (32 - 1)) with 2147483648. change (2 ^ 32) with 4294967296. rewrite Z.mod_small; lia.
Qed.

(** ** The mask *)

Lemma nmask_eq : forall jm nlit, Z.of_nat (nlmem_of nlit) <= int_max -> exists tl, nimp_mask jm nlit = Ret (nlmem_of nlit, nmask_of nlit ++ tl).
Proof.
  intros jm nlit H. unfold nimp_mask, nlmem_of, nmask_of in *. change (nsafe_mem 16) with (@Ret nat 32%nat). cbn [bindR].
  exists (skipn 16 (fresh 32 jm)). rewrite <- (firstn_skipn 16 (fresh 32 jm)) at 1.
  set (tl := skipn 16 (fresh 32 jm)).
  assert (L0 : length (firstn 16 (fresh 32 jm)) = 16%nat) by (rewrite firstn_length, fresh_len; reflexivity).
  pose proof (fill_const (-1) tl (firstn 16 (fresh 32 jm)) []) as E. rewrite L0 in E. cbn [app length] in E. rewrite E. cbn [bindR].
  pose proof (Nat.mod_upper_bound nlit 16 ltac:(lia)) as U. destruct (nlit mod 16 =? 0)%nat; [reflexivity|].
  rewrite int_ok by exact H. cbn [bindR].
  assert (E2 : repeat (-1) 16 = repeat (-1) (nlit mod 16) ++ repeat (-1) (16 - nlit mod 16)).
  { rewrite <- repeat_app. f_equal. lia. }
  rewrite E2, <- app_assoc.
  pose proof (fill_const 0 tl (repeat (-1) (16 - nlit mod 16)) (repeat (-1) (nlit mod 16))) as E3. rewrite !repeat_length in E3.
  rewrite E3. cbn [bindR]. rewrite <- app_assoc. reflexivity.
Qed.

(** ** Clauses *)

Lemma ninit_lits_len : forall m r, length (fst (fst (neon_init_lits m r))) = m /\ length (snd (fst (neon_init_lits m r))) = m.
Proof.
  intros m. induction m as [|m IH]; intros r; [auto|]. cbn [neon_init_lits]. destruct (next_u r) as [u r1]. destruct (next_u r1) as [v r2].
  specialize (IH r2). destruct (neon_init_lits m r2) as [[p q] r']. cbn [fst snd length] in *. lia.
Qed.

Section init.
Variables (L n : nat) (A B : list Z).
Hypothesis HnL : (n <= L)%nat.
Hypothesis HI : Z.of_nat (2 * L) <= int_max.

Lemma ninit_lits_loop : forall p2 q2 p1 q1 pp qp r, length q1 = length p1 -> length q2 = length p2 -> (length p1 + length p2 + length pp)%nat = L ->
  (length p1 + length p2)%nat = n ->
  fold_ix (length p2) (length p1) (fun literal_k s =>
     let '(u, r) := next_u (snd s) in
     bindR (set_ix (length A + literal_k) (if Qle_bool u (1#2) then -1 else 0) (fst s)) (fun cl =>
     let '(v, r) := next_u r in
     bindR (int_ (literal_k + L)) (fun neg =>
     bindR (set_ix (length A + neg) (if Qle_bool v (1#2) then -1 else 0) cl) (fun cl => Ret (cl, r)))))
    (A ++ (p1 ++ p2 ++ pp) ++ (q1 ++ q2 ++ qp) ++ B, r) =
  Ret (let '(p, q, r') := neon_init_lits (length p2) r in (A ++ (p1 ++ p ++ pp) ++ (q1 ++ q ++ qp) ++ B, r')).
Proof.
  intros p2. induction p2 as [|x p2 IH]; intros q2 p1 q1 pp qp r H1 H2 H3 H4; destruct q2 as [|y q2]; try discriminate; [reflexivity|].
  cbn [length fold_ix neon_init_lits fst snd] in *. destruct (next_u r) as [u r1].
  set (b1 := if Qle_bool u (1 # 2) then -1 else 0).
  rewrite (set_ix_at (A ++ p1) (p2 ++ pp ++ (q1 ++ (y :: q2) ++ qp) ++ B) _ x b1).
  2:{ asc. }
  2:{ rewrite app_length. reflexivity. }
  cbn [bindR]. destruct (next_u r1) as [v r2]. set (b2 := if Qle_bool v (1 # 2) then -1 else 0).
  rewrite int_ok by lia. cbn [bindR].
  rewrite (set_ix_at (A ++ (p1 ++ b1 :: p2 ++ pp) ++ q1) (q2 ++ qp ++ B) _ y b2).
  2:{ asc. }
  2:{ rewrite !app_length. cbn [length]. rewrite app_length. lia. }
  cbn [bindR].
  pose proof (IH q2 (p1 ++ [b1]) (q1 ++ [b2]) pp qp r2) as I1. rewrite !app_length in I1. cbn [length] in I1.
  replace (length p1 + 1)%nat with (S (length p1)) in I1 by lia.
  match goal with |- fold_ix _ _ _ (?m, _) = _ => replace m with (A ++ ((p1 ++ [b1]) ++ p2 ++ pp) ++ ((q1 ++ [b2]) ++ q2 ++ qp) ++ B) end.
  2:{ asc. }
  rewrite I1 by lia. destruct (neon_init_lits (length p2) r2) as [[p q] r']. f_equal. f_equal.
  asc.
Qed.
End init.

Lemma ninit_clause_eq : forall n A B row r k, length A = (k * (nlmem_of n * 2))%nat -> length row = (2 * nlmem_of n)%nat ->
  Z.of_nat ((k + 1) * (nlmem_of n * 2)) <= int_max ->
  nimp_init_clause n (nlmem_of n) k (A ++ row ++ B, r) =
    Ret (A ++ fst (neon_init_row n r) ++ B, snd (neon_init_row n r)) /\ length (fst (neon_init_row n r)) = (2 * nlmem_of n)%nat.
Proof.
  intros n A B row r k HA Hr HI. destruct (nlmem_mod n) as (q & _ & HnL & _). set (L := nlmem_of n) in *.
  assert (B1 : Z.of_nat (2 * L) <= int_max).
  { eapply Z.le_trans; [|exact HI]. apply inj_le. rewrite Nat.mul_add_distr_r. lia. }
  assert (B2 : Z.of_nat (k * (L * 2)) <= int_max).
  { eapply Z.le_trans; [|exact HI]. apply inj_le. apply Nat.mul_le_mono_r. lia. }
  unfold nimp_init_clause. rewrite (int_ok (L * 2)) by lia. cbn [bindR]. rewrite (int_ok (k * (L * 2))) by exact B2. cbn [bindR]. rewrite <- HA.
  assert (ER : row = (firstn n row ++ slice row n (L - n)) ++ (slice row L n ++ slice row (L + n) (L - n))).
  { assert (X : forall a m, slice row a m ++ skipn (a + m) row = skipn a row).
    { intros a m. unfold slice. rewrite skipn_add. apply firstn_skipn. }
    rewrite <- app_assoc.
    assert (Y : slice row (L + n) (L - n) = skipn (L + n) row) by (unfold slice; apply firstn_all2; rewrite skipn_length; lia).
    rewrite Y, X. replace L with (n + (L - n))%nat at 2 by lia. rewrite X. symmetry. apply firstn_skipn. }
  rewrite ER. set (pj := firstn n row). set (pf := slice row n (L - n)). set (nj := slice row L n). set (nf := slice row (L + n) (L - n)).
  assert (L1 : length pj = n) by (unfold pj; rewrite firstn_length; lia).
  assert (L2 : length pf = (L - n)%nat) by (apply slice_len2; lia).
  assert (L3 : length nj = n) by (apply slice_len2; lia).
  assert (L4 : length nf = (L - n)%nat) by (apply slice_len2; lia).
  pose proof (ninit_lits_loop L n A B HnL B1 pj nj [] [] pf nf r) as IL. cbn [app length] in IL. rewrite L1 in IL.
  match goal with |- bindR (fold_ix n 0 ?f ?s) _ = _ /\ _ => replace s with (A ++ (pj ++ pf) ++ (nj ++ nf) ++ B, r) by (rewrite <- !app_assoc; reflexivity) end.
  rewrite IL by lia. clear IL. cbn [bindR]. unfold neon_init_row.
  pose proof (ninit_lits_len n r) as [I1 I2]. destruct (neon_init_lits n r) as [[p qn] r']. cbn [fst snd] in *.
  pose proof (init_filler_loop L n A B HnL B1 pf nf p qn) as IF. rewrite L2, I1 in IF. rewrite IF by lia. cbn [bindR fst snd].
  fold L. split.
  - asc.
  - rewrite !app_length, !repeat_length. lia.
Qed.
Lemma ninit_rows_loop : forall n ncl tail T P r, Forall (fun r => length r = (2 * nlmem_of n)%nat) (P ++ T) -> length (P ++ T) = ncl ->
  Z.of_nat (ncl * (nlmem_of n * 2)) <= int_max ->
  fold_ix (length T) (length P) (nimp_init_clause n (nlmem_of n)) (concat (P ++ T) ++ tail, r) =
    Ret (concat (P ++ fst (neon_init_rows n (length T) r)) ++ tail, snd (neon_init_rows n (length T) r)) /\
  length (fst (neon_init_rows n (length T) r)) = length T /\
  Forall (fun r => length r = (2 * nlmem_of n)%nat) (fst (neon_init_rows n (length T) r)).
Proof.
  intros n ncl tail T. induction T as [|row T IH]; intros P r HF HN HI; [cbn [length fold_ix neon_init_rows fst snd]; auto|].
  cbn [length fold_ix neon_init_rows].
  assert (HP : Forall (fun r => length r = (2 * nlmem_of n)%nat) P) by (apply Forall_app in HF; apply HF).
  assert (HT : Forall (fun r => length r = (2 * nlmem_of n)%nat) (row :: T)) by (apply Forall_app in HF; apply HF).
  rewrite row_at.
  destruct (ninit_clause_eq n (concat P) (concat T ++ tail) row r (length P)) as [C1 C2].
  { rewrite (concat_len (2 * nlmem_of n)) by auto. lia. } { exact (Forall_inv HT). }
  { eapply Z.le_trans; [|exact HI]. apply inj_le. apply Nat.mul_le_mono_r. rewrite <- HN, app_length. cbn [length]. lia. }
  rewrite C1. cbn [bindR]. destruct (neon_init_row n r) as [row1 r1]. cbn [fst snd] in *. rewrite <- row_at.
  specialize (IH (P ++ [row1]) r1). rewrite <- !app_assoc in IH. cbn [app] in IH.
  replace (length (P ++ [row1])) with (S (length P)) in IH by (rewrite app_length; cbn [length]; lia).
  destruct IH as (J1 & J2 & J3).
  { apply Forall_app. split; auto. constructor; auto. exact (Forall_inv_tail HT). }
  { rewrite <- HN, !app_length. reflexivity. } { exact HI. }
  rewrite J1. destruct (neon_init_rows n (length T) r1) as [t r2]. cbn [fst snd length] in *. split; [asc|]. split; [lia|constructor; auto].
Qed.

(** ** Weights: one loop over all of them *)

Lemma weight_row_app : forall a b r, init_weight_row (a + b) r =
  (fst (init_weight_row a r) ++ fst (init_weight_row b (snd (init_weight_row a r))), snd (init_weight_row b (snd (init_weight_row a r)))).
Proof.
  intros a. induction a as [|a IH]; intros b r; cbn [Nat.add init_weight_row fst snd app].
  - destruct (init_weight_row b r). reflexivity.
  - destruct (next_u r) as [u r1]. rewrite (IH b r1). destruct (init_weight_row a r1) as [t r2]. cbn [fst snd app]. reflexivity.
Qed.
Lemma weight_row_len : forall a r, length (fst (init_weight_row a r)) = a.
Proof.
  intros a. induction a as [|a IH]; intros r; cbn [init_weight_row]; auto. destruct (next_u r) as [u r1]. specialize (IH r1).
  destruct (init_weight_row a r1). cbn [fst length] in *. lia.
Qed.
Lemma weights_flat : forall ncls ncl r, concat (fst (init_weights ncls ncl r)) = fst (init_weight_row (ncl * ncls) r) /\
  snd (init_weights ncls ncl r) = snd (init_weight_row (ncl * ncls) r) /\
  length (fst (init_weights ncls ncl r)) = ncl /\ Forall (fun w => length w = ncls) (fst (init_weights ncls ncl r)).
Proof.
  intros ncls ncl. induction ncl as [|ncl IH]; intros r; [cbn; auto|]. cbn [Nat.mul]. rewrite weight_row_app. cbn [init_weights].
  pose proof (weight_row_len ncls r) as L. destruct (init_weight_row ncls r) as [w r1]. cbn [fst snd] in *.
  destruct (IH r1) as (I1 & I2 & I3 & I4). destruct (init_weights ncls ncl r1) as [t r2]. cbn [fst snd concat length] in *.
  split; [rewrite I1; reflexivity|]. split; [exact I2|]. split; [lia|constructor; auto].
Qed.
Lemma weights_loop : forall tail w2 w1 r,
  fold_ix (length w2) (length w1) (fun k s =>
    let '(u, r) := next_u (snd s) in
    bindR (set_ix k (if Qlt_bool (1#2) u then 1 else -1) (fst s)) (fun ws => Ret (ws, r))) (w1 ++ w2 ++ tail, r) =
  Ret (w1 ++ fst (init_weight_row (length w2) r) ++ tail, snd (init_weight_row (length w2) r)).
Proof.
  intros tail w2. induction w2 as [|x w2 IH]; intros w1 r; cbn [length fold_ix init_weight_row fst snd]; [reflexivity|].
  destruct (next_u r) as [u r1]. cbn [app]. rewrite set_ix_mid. cbn [bindR]. set (v := if Qlt_bool (1 # 2) u then 1 else -1).
  specialize (IH (w1 ++ [v]) r1). rewrite app_length in IH. cbn [length] in IH. replace (length w1 + 1)%nat with (S (length w1)) in IH by lia.
  rewrite <- !app_assoc in IH. cbn [app] in IH. rewrite IH. destruct (init_weight_row (length w2) r1) as [t r2]. cbn [fst snd]. asc.
Qed.
Lemma weights_out : forall d n i ws r, (length ws = i + d)%nat -> (d < n)%nat ->
  fold_ix n i (fun k s =>
    let '(u, r) := next_u (snd s) in
    bindR (set_ix k (if Qlt_bool (1#2) u then 1 else -1) (fst s)) (fun ws => Ret (ws, r))) (ws, r) = Wild.
Proof.
  intros d. induction d as [|d IH]; intros n i ws r HL Hn; (destruct n as [|n]; [lia|]); cbn [fold_ix fst snd].
  - destruct (next_u r) as [u r1]. unfold set_ix at 1. destruct (Nat.ltb_spec i (length ws)); [lia|reflexivity].
  - destruct (next_u r) as [u r1]. rewrite set_ix_ok by lia. cbn [bindR]. apply IH; [|lia]. rewrite set_nth_length. lia.
Qed.

Theorem ninit_eq : forall (bo : bool) vec_of std_of fast_of jm jc jk jw jv nlit ncl ncls budget sv seed, seed <> 0 -> nfits nlit ncl ncls ->
  exists h b, neon_initialize vec_of std_of fast_of (if bo then fresh ncl jk else []) nlit ncl ncls budget sv seed = Some b /\
  nimp_initialize bo vec_of std_of fast_of jm jc jk jw jv nlit ncl ncls budget sv seed = Ret (Some (in_neon h b)) /\
  a_nlit b = nlit /\ length (a_rows b) = ncl /\ a_ncls b = ncls /\
  ((0 < nlit)%nat -> nvrng_ok (vec_of seed) -> nshape bo b).
Proof.
  intros bo vec_of std_of fast_of jm jc jk jw jv nlit ncl ncls budget sv seed Hs F. pose proof F as (F1 & F2 & F3 & F4 & F5).
  unfold nimp_initialize, neon_initialize. destruct (Z.eqb_spec seed 0) as [E|_]; [contradiction|].
  destruct (nmask_eq jm nlit F1) as (mtl & EM). rewrite EM. cbn [bindR fst snd].
  assert (F2' : Z.of_nat (ncl * (nlmem_of nlit * 2)) <= int_max) by (rewrite Nat.mul_assoc; exact F2).
  rewrite (int_ok (ncl * nlmem_of nlit)) by lia. cbn [bindR]. rewrite int_ok by exact F2. cbn [bindR].
  assert (SM : exists x, nsafe_mem (Z.of_nat (ncl * nlmem_of nlit * 2)) = Ret x /\ (ncl * (2 * nlmem_of nlit) <= x)%nat).
  { destruct (nlmem_mod nlit) as (q & Eq & _). assert (E : (ncl * nlmem_of nlit * 2 = ncl * q * 32)%nat) by (rewrite Eq; lia).
    rewrite E in *. destruct (nsafe_clauses (ncl * q) F2) as (x & X1 & X2). exists x. split; [exact X1|lia]. }
  destruct SM as (x & E1 & E2). rewrite E1. cbn [bindR].
  rewrite (int_ok ((ncl / 64 + 1) * 64)) by exact F3. cbn [bindR]. rewrite (int_ok (ncl * ncls)) by lia. cbn [bindR].
  rewrite wrap32_fits by lia. destruct (nsafe_ok (2 * Z.of_nat (ncl * ncls))) as (wb & W1 & W2 & _); [lia|lia|]. rewrite W1. cbn [bindR].
  rewrite wrap32_fits by lia. destruct (nsafe_ok (2 * Z.of_nat ncls)) as (vb & V1 & V2 & _); [lia|lia|]. rewrite V1. cbn [bindR].
  assert (V3 : (ncls <= vb / 2)%nat) by (apply Nat.div_le_lower_bound; lia).
  assert (W3 : (ncl * ncls <= wb / 2)%nat) by (apply Nat.div_le_lower_bound; lia).
  destruct (Nat.leb_spec ncls (vb / 2)); [|lia]. cbn [negb].
  destruct (carve (2 * nlmem_of nlit) ncl (fresh x jc)) as (rows0 & rest & R1 & R2 & R3); [rewrite fresh_len; exact E2|].
  rewrite R1.
  pose proof (ninit_rows_loop nlit ncl rest rows0 (@nil (list Z)) (std_of seed)) as IR. cbn [app length] in IR. rewrite R2 in IR.
  destruct IR as (I1 & I2 & I3); auto. rewrite I1. cbn [bindR fst snd].
  destruct (neon_init_rows nlit ncl (std_of seed)) as [rows f]. cbn [fst snd] in *.
  unfold nimp_init_weights. rewrite (int_ok (ncl * ncls)) by lia. cbn [bindR].
  set (wj := fresh (wb / 2) jw). assert (WL : length wj = (wb / 2)%nat) by apply fresh_len.
  pose proof (weights_loop (skipn (ncl * ncls) wj) (firstn (ncl * ncls) wj) [] f) as WLo. cbn [app length] in WLo.
  rewrite firstn_skipn in WLo. rewrite firstn_length, WL, Nat.min_l in WLo by exact W3. rewrite WLo. cbn [bindR fst snd].
  destruct (weights_flat ncls ncl f) as (G1 & _ & G3 & G4). rewrite <- G1.
  destruct (init_weights ncls ncl f) as [ws f']. cbn [fst snd] in *.
  exists (mkBehind mtl rest (skipn (ncl * ncls) wj) (skipn ncls (fresh (vb / 2) jv))). eexists. split; [reflexivity|]. split.
  - do 2 f_equal. unfold in_neon. cbn [a_nlit a_lmem a_mask a_ncls a_rows a_weights a_outputs a_counts a_votes a_budget a_cmp a_vrng a_fast bh_mask bh_clauses bh_weights bh_votes].
    rewrite I2. f_equal.
    unfold widen, nouts_of. rewrite repeat_length, <- repeat_app. f_equal. pose proof (nouts_ge ncl). unfold nouts_of in *. lia.
  - cbn [a_nlit a_rows a_ncls]. split; [reflexivity|]. split; [exact I2|]. split; [reflexivity|]. intros Hp Hv.
    constructor; cbn [a_nlit a_lmem a_mask a_ncls a_rows a_weights a_outputs a_counts a_votes a_budget a_cmp a_vrng a_fast]; auto; try lia.
    + unfold nmask_of. pose proof (Nat.mod_upper_bound nlit 16 ltac:(lia)). destruct (nlit mod 16 =? 0)%nat; [reflexivity|].
      rewrite app_length, !repeat_length. lia.
    + rewrite repeat_length. lia.
    + destruct bo; [rewrite fresh_len; lia|reflexivity].
    + apply repeat_length.
    + rewrite I2. exact F.
Qed.

Theorem ninit_overflow : forall bo vec_of std_of fast_of jm jc jk jw jv nlit ncl ncls budget sv seed, seed <> 0 ->
  Z.of_nat nlit <= int_max -> Z.of_nat ncls <= int_max -> ~ nfits nlit ncl ncls ->
  nimp_initialize bo vec_of std_of fast_of jm jc jk jw jv nlit ncl ncls budget sv seed = Wild.
Proof.
  intros bo vec_of std_of fast_of jm jc jk jw jv nlit ncl ncls budget sv seed Hs Hn Hk NF.
  unfold nimp_initialize. destruct (Z.eqb_spec seed 0) as [E|_]; [contradiction|].
  destruct (Z.le_gt_cases (Z.of_nat (nlmem_of nlit)) int_max) as [F1|F1].
  2:{ unfold nimp_mask, nlmem_of in *. change (nsafe_mem 16) with (@Ret nat 32%nat). cbn [bindR].
      rewrite <- (firstn_skipn 16 (fresh 32 jm)) at 1.
      assert (L0 : length (firstn 16 (fresh 32 jm)) = 16%nat) by (rewrite firstn_length, fresh_len; reflexivity).
      pose proof (fill_const (-1) (skipn 16 (fresh 32 jm)) (firstn 16 (fresh 32 jm)) []) as E. rewrite L0 in E. cbn [app length] in E. rewrite E. cbn [bindR].
      destruct (nlit mod 16 =? 0)%nat; [lia|]. rewrite int_bad by lia. reflexivity. }
  destruct (nmask_eq jm nlit F1) as (mtl & EM). rewrite EM. cbn [bindR fst snd].
  destruct (Z.le_gt_cases (Z.of_nat (ncl * nlmem_of nlit * 2)) int_max) as [F2|F2].
  2:{ destruct (Z.le_gt_cases (Z.of_nat (ncl * nlmem_of nlit)) int_max) as [F|F].
      - rewrite int_ok by exact F. cbn [bindR]. rewrite int_bad by lia. reflexivity.
      - rewrite int_bad by lia. reflexivity. }
  assert (F2' : Z.of_nat (ncl * (nlmem_of nlit * 2)) <= int_max) by (rewrite Nat.mul_assoc; exact F2).
  rewrite (int_ok (ncl * nlmem_of nlit)) by lia. cbn [bindR]. rewrite int_ok by exact F2. cbn [bindR].
  assert (SM : exists x, nsafe_mem (Z.of_nat (ncl * nlmem_of nlit * 2)) = Ret x /\ (ncl * (2 * nlmem_of nlit) <= x)%nat).
  { destruct (nlmem_mod nlit) as (q & Eq & _). assert (E : (ncl * nlmem_of nlit * 2 = ncl * q * 32)%nat) by (rewrite Eq; lia).
    rewrite E in *. destruct (nsafe_clauses (ncl * q) F2) as (x & X1 & X2). exists x. split; [exact X1|lia]. }
  destruct SM as (x & E1 & E2). rewrite E1. cbn [bindR].
  destruct (Z.le_gt_cases (Z.of_nat (nouts_of ncl)) int_max) as [F3|F3]; [|unfold nouts_of in F3; rewrite int_bad by lia; reflexivity].
  rewrite (int_ok ((ncl / 64 + 1) * 64)) by exact F3. cbn [bindR].
  destruct (Z.le_gt_cases (Z.of_nat (ncl * ncls)) int_max) as [F0|F0]; [|rewrite int_bad by lia; reflexivity].
  rewrite (int_ok (ncl * ncls)) by exact F0. cbn [bindR].
  destruct (Z.le_gt_cases (2 * Z.of_nat (ncl * ncls)) (int_max - 31)) as [F4|F4].
  - rewrite wrap32_fits by lia. destruct (nsafe_ok (2 * Z.of_nat (ncl * ncls))) as (wb & W1 & W2 & _); [lia|lia|]. rewrite W1. cbn [bindR].
    destruct (Z.le_gt_cases (2 * Z.of_nat ncls) (int_max - 31)) as [F5|F5].
    + exfalso. apply NF. repeat split; auto.
    + destruct (nsafe_bad (Z.of_nat ncls)) as [E|E]; [lia|lia| |]; rewrite E; cbn [bindR]; [reflexivity|].
      change (32 / 2)%nat with 16%nat. destruct (Nat.leb_spec ncls 16); [unfold int_max in F5; lia|reflexivity].
  - destruct (nsafe_bad (Z.of_nat (ncl * ncls))) as [E|E]; [lia|lia| |]; rewrite E; cbn [bindR]; [reflexivity|].
    destruct (nsafe_mem (wrap32 (2 * Z.of_nat ncls))) as [vb| |] eqn:EV; cbn [bindR].
    2:{ exfalso. revert EV. unfold nsafe_mem, int_. destruct (_ <? 32); [discriminate|]. destruct (0 <? _); [|discriminate]. destruct (_ <=? _); discriminate. }
    2:{ reflexivity. }
    destruct (Nat.leb_spec ncls (vb / 2)); [|reflexivity]. cbn [negb].
    destruct (carve (2 * nlmem_of nlit) ncl (fresh x jc)) as (rows0 & rest & R1 & R2 & R3); [rewrite fresh_len; exact E2|].
    rewrite R1.
    pose proof (ninit_rows_loop nlit ncl rest rows0 (@nil (list Z)) (std_of seed)) as IR. cbn [app length] in IR. rewrite R2 in IR.
    destruct IR as (I1 & I2 & I3); auto. rewrite I1. cbn [bindR fst snd].
    unfold nimp_init_weights. rewrite (int_ok (ncl * ncls)) by exact F0. cbn [bindR].
    rewrite (weights_out 16); [reflexivity|rewrite fresh_len; reflexivity|]. unfold int_max in F4. lia.
Qed.

Lemma nbuffer_room : forall n, (nlmem_of n <= (n / 32 + 1) * 32)%nat.
Proof.
  intros n. unfold nlmem_of. pose proof (Nat.div_mod n 32 ltac:(lia)). pose proof (Nat.mod_upper_bound n 32 ltac:(lia)).
  pose proof (Nat.div_mod n 16 ltac:(lia)). pose proof (Nat.mod_upper_bound n 16 ltac:(lia)). destruct (n mod 16 =? 0)%nat; lia.
Qed.
