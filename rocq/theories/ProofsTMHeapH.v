(** Copying the state of the scalar machine to and from a numpy array. *)
From Coq Require Import ZArith List Bool QArith Lia ZifyBool.
From Verif Require Import Base ModelHeap ModelDense ModelFeedback ModelTMHeap SpecHeap ProofsHeap
  ProofsTMHeap ProofsTMHeapB ProofsTMHeapC ProofsTMHeapD ProofsTMHeapE ProofsTMHeapG.
Import ListNotations.
Open Scope Z_scope.

Lemma cut : forall A n (l : list A) m, length l = (n + m)%nat ->
  exists p q, l = p ++ q /\ length p = n /\ length q = m.
Proof.
  intros A n l m L. exists (firstn n l), (skipn n l). rewrite firstn_skipn, firstn_length, skipn_length.
  split; [reflexivity|]. lia.
Qed.

Lemma get_state_loop : forall nlit off ia ic s, ia <> ic -> hs_nlit s = Z.of_nat nlit -> hs_lmem s = Z.of_nat nlit ->
  hs_clauses s = start ic ->
  forall cs dd dm A B h, Forall (clen nlit) dd -> Forall (clen nlit) cs ->
  Z.of_nat ((off + length dd + length cs) * nlit * 2) <= int_max -> Z.of_nat (off + length dd + length cs) <= int_max ->
  length A = (off * nlit * 2)%nat -> length dm = (length cs * nlit * 2)%nat ->
  cells h ia (A ++ map Some (flat_clauses dd) ++ dm ++ B) -> holds h ic (flat_clauses (dd ++ cs)) ->
  exists h', mloop (length cs) (Z.of_nat (length dd)) (fun i _ =>
    a <- imul i (hs_lmem s) ;; src_o <- imul a 2 ;;
    io <- iadd i (Z.of_nat off) ;; b <- imul io (hs_nlit s) ;; dst_o <- imul b 2 ;;
    mcopy (start ia) dst_o (hs_clauses s) src_o (hs_nlit s) ;;;
    d2 <- iadd dst_o (hs_nlit s) ;; s2 <- iadd src_o (hs_lmem s) ;;
    mcopy (start ia) d2 (hs_clauses s) s2 (hs_nlit s)) tt h = Some (tt, h') /\
   cells h' ia (A ++ map Some (flat_clauses (dd ++ cs)) ++ B) /\ only [ia] h h'.
Proof.
  intros nlit off ia ic s NE N1 N2 N3. rewrite N1, N2, N3.
  induction cs as [|c cs IH]; intros dd dm A B h FD FC I1 I2 LA LD CA CC.
  - destruct dm; [|cbn [length] in LD; lia]. exists h. split; [reflexivity|]. split; [|apply only_refl]. now rewrite app_nil_r.
  - pose proof (Forall_inv FC) as [P1 P2]. pose proof (Forall_inv_tail FC) as FC'. cbn [length] in *.
    destruct (cut _ nlit dm (nlit + length cs * nlit * 2)) as (d1 & dm1 & -> & L1 & Lx); [lia|].
    destruct (cut _ nlit dm1 (length cs * nlit * 2)) as (d2 & dm2 & -> & L2 & L3); [lia|].
    assert (FL : length (flat_clauses dd) = (length dd * (nlit * 2))%nat) by (eapply flat_len; eauto).
    assert (SR : flat_clauses (dd ++ c :: cs) = flat_clauses dd ++ cl_pos c ++ cl_neg c ++ flat_clauses cs).
    { unfold flat_clauses. rewrite map_app, concat_app. cbn [map concat]. now rewrite <- !app_assoc. }
    unfold holds in CC. rewrite SR in CC.
    assert (B1 : (length dd * nlit * 2 <= (off + length dd + S (length cs)) * nlit * 2)%nat) by (apply Nat.mul_le_mono_r, Nat.mul_le_mono_r; lia).
    assert (B2 : ((length dd + off) * nlit * 2 + nlit <= (off + length dd + S (length cs)) * nlit * 2)%nat).
    { replace (off + length dd + S (length cs))%nat with ((length dd + off) + 1 + length cs)%nat by lia. 
      rewrite !Nat.mul_add_distr_r. lia. }
    assert (B3 : (length dd * nlit * 2 + nlit <= (off + length dd + S (length cs)) * nlit * 2)%nat).
    { rewrite !Nat.mul_add_distr_r in *. lia. }
    destruct (mcopy_ok (cl_pos c) d1 ia ic h (A ++ map Some (flat_clauses dd)) (d2 ++ dm2 ++ B)
       (map Some (flat_clauses dd)) (map Some (cl_neg c ++ flat_clauses cs))
       (Z.of_nat (length dd + off) * Z.of_nat nlit * 2) (Z.of_nat (length dd) * Z.of_nat nlit * 2) (Z.of_nat nlit))
      as (h1 & E1 & C1 & U1); auto.
    { rewrite <- !app_assoc in *. exact CA. }
    { rewrite <- !map_app. exact CC. }
    { congruence. }
    { rewrite app_length, map_length, FL, LA. lia. }
    { rewrite map_length, FL. lia. }
    assert (CC1 : cells h1 ic (map Some (flat_clauses dd ++ cl_pos c ++ cl_neg c ++ flat_clauses cs))).
    { eapply cells_one; [exact U1|auto|exact CC]. }
    destruct (mcopy_ok (cl_neg c) d2 ia ic h1 (A ++ map Some (flat_clauses dd ++ cl_pos c)) (dm2 ++ B)
       (map Some (flat_clauses dd ++ cl_pos c)) (map Some (flat_clauses cs))
       (Z.of_nat (length dd + off) * Z.of_nat nlit * 2 + Z.of_nat nlit) (Z.of_nat (length dd) * Z.of_nat nlit * 2 + Z.of_nat nlit) (Z.of_nat nlit))
      as (h2 & E2 & C2 & U2); auto.
    { rewrite map_app, <- !app_assoc in *. exact C1. }
    { rewrite <- !map_app, <- app_assoc. exact CC1. }
    { congruence. }
    { rewrite app_length, map_length, app_length, FL, LA, P1. lia. }
    { rewrite map_length, app_length, FL, P1. lia. }
    destruct (IH (dd ++ [c]) dm2 A B h2) as (h3 & E3 & C3 & U3); auto.
    { apply Forall_app. split; auto. constructor; auto. split; auto. }
    { rewrite app_length. cbn [length]. replace (off + (length dd + 1) + length cs)%nat with (off + length dd + S (length cs))%nat by lia. exact I1. }
    { rewrite app_length. cbn [length]. lia. }
    { unfold flat_clauses. rewrite map_app, concat_app. cbn [map concat]. rewrite app_nil_r. fold (flat_clauses dd).
      rewrite !map_app in *. rewrite <- !app_assoc in *. exact C2. }
    { rewrite <- app_assoc. cbn [app]. unfold holds. rewrite SR. eapply cells_one; [exact U2|auto|exact CC1]. }
    exists h3. rewrite <- app_assoc in C3. cbn [app] in C3. split; [|split; [exact C3|eapply only_trans; [eapply only_trans|]; eauto]].
    cbn [mloop].
    assert (F1 : bind (imul (Z.of_nat (length dd)) (Z.of_nat nlit)) (fun a => src_o <- imul a 2 ;;
        io <- iadd (Z.of_nat (length dd)) (Z.of_nat off) ;; b <- imul io (Z.of_nat nlit) ;; dst_o <- imul b 2 ;;
        mcopy (start ia) dst_o (start ic) src_o (Z.of_nat nlit) ;;;
        d2 <- iadd dst_o (Z.of_nat nlit) ;; s2 <- iadd src_o (Z.of_nat nlit) ;;
        mcopy (start ia) d2 (start ic) s2 (Z.of_nat nlit)) h = Some (tt, h2)).
    { erewrite bind_some by (apply imul_ok; lia). erewrite bind_some by (apply imul_ok; lia).
      erewrite bind_some by (apply iadd_ok; lia).
      replace (Z.of_nat (length dd) + Z.of_nat off) with (Z.of_nat (length dd + off)) by lia.
      erewrite bind_some by (apply imul_ok; lia). erewrite bind_some by (apply imul_ok; lia).
      erewrite bind_some by exact E1.
      erewrite bind_some by (apply iadd_ok; lia). erewrite bind_some by (apply iadd_ok; lia). exact E2. }
    erewrite bind_some by exact F1.
    rewrite app_length in E3. cbn [length] in E3.
    replace (Z.of_nat (length dd) + 1) with (Z.of_nat (length dd + 1)) by lia. exact E3.
Qed.

Lemma get_weights_loop : forall ncls off ia iw s, ia <> iw -> hs_ncls s = Z.of_nat ncls -> hs_wmem s = Z.of_nat ncls ->
  hs_weights s = start iw ->
  forall ws dd dm A B h, Forall (fun w : list Z => length w = ncls) dd -> Forall (fun w => length w = ncls) ws ->
  Z.of_nat ((off + length dd + length ws) * ncls) <= int_max -> Z.of_nat (off + length dd + length ws) <= int_max ->
  length A = (off * ncls)%nat -> length dm = (length ws * ncls)%nat ->
  cells h ia (A ++ map Some (concat dd) ++ dm ++ B) -> holds h iw (concat (dd ++ ws)) ->
  exists h', mloop (length ws) (Z.of_nat (length dd)) (fun i _ =>
    src_o <- imul i (hs_wmem s) ;;
    io <- iadd i (Z.of_nat off) ;; dst_o <- imul io (hs_ncls s) ;;
    mcopy (start ia) dst_o (hs_weights s) src_o (hs_ncls s)) tt h = Some (tt, h') /\
   cells h' ia (A ++ map Some (concat (dd ++ ws)) ++ B) /\ only [ia] h h'.
Proof.
  intros ncls off ia iw s NE N1 N2 N3. rewrite N1, N2, N3.
  induction ws as [|w ws IH]; intros dd dm A B h FD FC I1 I2 LA LD CA CC.
  - destruct dm; [|cbn [length] in LD; lia]. exists h. split; [reflexivity|]. split; [|apply only_refl]. now rewrite app_nil_r.
  - inversion FC as [|? ? P1 FC']; subst. cbn [length] in *.
    destruct (cut _ (length w) dm (length ws * length w)) as (d1 & dm1 & -> & L1 & Lx); [lia|].
    assert (FL : length (concat dd) = (length dd * length w)%nat) by (apply concat_len; auto).
    unfold holds in CC. rewrite concat_app in CC. cbn [concat] in CC.
    assert (B2 : ((length dd + off) * length w + length w <= (off + length dd + S (length ws)) * length w)%nat).
    { replace (off + length dd + S (length ws))%nat with ((length dd + off) + 1 + length ws)%nat by lia.
      rewrite !Nat.mul_add_distr_r. lia. }
    assert (B3 : (length dd * length w <= (length dd + off) * length w)%nat) by (apply Nat.mul_le_mono_r; lia).
    destruct (mcopy_ok w d1 ia iw h (A ++ map Some (concat dd)) (dm1 ++ B)
       (map Some (concat dd)) (map Some (concat ws))
       (Z.of_nat (length dd + off) * Z.of_nat (length w)) (Z.of_nat (length dd) * Z.of_nat (length w)) (Z.of_nat (length w)))
      as (h1 & E1 & C1 & U1); auto.
    { rewrite <- !app_assoc in *. exact CA. }
    { rewrite <- !map_app. exact CC. }
    { rewrite app_length, map_length, FL, LA. lia. }
    { rewrite map_length, FL. lia. }
    destruct (IH (dd ++ [w]) dm1 A B h1) as (h3 & E3 & C3 & U3); auto.
    { apply Forall_app. split; auto. }
    { rewrite app_length. cbn [length]. replace (off + (length dd + 1) + length ws)%nat with (off + length dd + S (length ws))%nat by lia. exact I1. }
    { rewrite app_length. cbn [length]. lia. }
    { rewrite concat_app. cbn [concat]. rewrite app_nil_r. rewrite !map_app in *. rewrite <- !app_assoc in *. exact C1. }
    { rewrite <- app_assoc. cbn [app]. unfold holds. rewrite concat_app. cbn [concat]. eapply cells_one; [exact U1|auto|exact CC]. }
    exists h3. rewrite <- app_assoc in C3. cbn [app] in C3. split; [|split; [exact C3|eapply only_trans; eauto]].
    cbn [mloop].
    assert (F1 : bind (imul (Z.of_nat (length dd)) (Z.of_nat (length w))) (fun src_o =>
        io <- iadd (Z.of_nat (length dd)) (Z.of_nat off) ;; dst_o <- imul io (Z.of_nat (length w)) ;;
        mcopy (start ia) dst_o (start iw) src_o (Z.of_nat (length w))) h = Some (tt, h1)).
    { erewrite bind_some by (apply imul_ok; lia). erewrite bind_some by (apply iadd_ok; lia).
      replace (Z.of_nat (length dd) + Z.of_nat off) with (Z.of_nat (length dd + off)) by lia.
      erewrite bind_some by (apply imul_ok; lia). exact E1. }
    erewrite bind_some by exact F1.
    rewrite app_length in E3. cbn [length] in E3.
    replace (Z.of_nat (length dd) + 1) with (Z.of_nat (length dd + 1)) by lia. exact E3.
Qed.

(** The other direction: [cs] is what the array holds at clause offset [off];
    [dm] what the machine still holds for the clauses not copied yet. *)
Lemma set_state_loop : forall nlit off ia ic s, ia <> ic -> hs_nlit s = Z.of_nat nlit -> hs_lmem s = Z.of_nat nlit ->
  hs_clauses s = start ic ->
  forall cs dd dm A B h, Forall (clen nlit) dd -> Forall (clen nlit) cs ->
  Z.of_nat ((off + length dd + length cs) * nlit * 2) <= int_max -> Z.of_nat (off + length dd + length cs) <= int_max ->
  Z.of_nat (nlit * 2) <= int_max ->
  length A = (off * nlit * 2)%nat -> length dm = (length cs * nlit * 2)%nat ->
  cells h ic (map Some (flat_clauses dd) ++ dm) -> cells h ia (A ++ map Some (flat_clauses (dd ++ cs)) ++ B) ->
  exists h', mloop (length cs) (Z.of_nat (length dd)) (fun i _ =>
    io <- iadd i (Z.of_nat off) ;; w <- imul (hs_nlit s) 2 ;; src_o <- imul io w ;;
    m <- imul (hs_lmem s) 2 ;; dst_o <- imul i m ;;
    mcopy (hs_clauses s) dst_o (start ia) src_o (hs_nlit s) ;;;
    d2 <- iadd dst_o (hs_lmem s) ;; s2 <- iadd src_o (hs_nlit s) ;;
    mcopy (hs_clauses s) d2 (start ia) s2 (hs_nlit s)) tt h = Some (tt, h') /\
   holds h' ic (flat_clauses (dd ++ cs)) /\ only [ic] h h'.
Proof.
  intros nlit off ia ic s NE N1 N2 N3. rewrite N1, N2, N3.
  induction cs as [|c cs IH]; intros dd dm A B h FD FC I1 I2 I3 LA LD CC CA.
  - destruct dm; [|cbn [length] in LD; lia]. exists h. split; [reflexivity|]. split; [|apply only_refl].
    rewrite app_nil_r in *. exact CC.
  - pose proof (Forall_inv FC) as [P1 P2]. pose proof (Forall_inv_tail FC) as FC'. cbn [length] in *.
    destruct (cut _ nlit dm (nlit + length cs * nlit * 2)) as (d1 & dm1 & -> & L1 & Lx); [lia|].
    destruct (cut _ nlit dm1 (length cs * nlit * 2)) as (d2 & dm2 & -> & L2 & L3); [lia|].
    assert (FL : length (flat_clauses dd) = (length dd * (nlit * 2))%nat) by (eapply flat_len; eauto).
    assert (SR : flat_clauses (dd ++ c :: cs) = flat_clauses dd ++ cl_pos c ++ cl_neg c ++ flat_clauses cs).
    { unfold flat_clauses. rewrite map_app, concat_app. cbn [map concat]. now rewrite <- !app_assoc. }
    rewrite SR in CA.
    assert (B2 : ((length dd + off) * (nlit * 2) + nlit <= (off + length dd + S (length cs)) * nlit * 2)%nat).
    { replace (off + length dd + S (length cs))%nat with ((length dd + off) + 1 + length cs)%nat by lia.
      rewrite !Nat.mul_add_distr_r. lia. }
    assert (B3 : (length dd * (nlit * 2) + nlit <= (off + length dd + S (length cs)) * nlit * 2)%nat).
    { rewrite !Nat.mul_add_distr_r in *. lia. }
    destruct (mcopy_ok (cl_pos c) d1 ic ia h (map Some (flat_clauses dd)) (d2 ++ dm2)
       (A ++ map Some (flat_clauses dd)) (map Some (cl_neg c ++ flat_clauses cs) ++ B)
       (Z.of_nat (length dd) * (Z.of_nat nlit * 2)) (Z.of_nat (length dd + off) * (Z.of_nat nlit * 2)) (Z.of_nat nlit))
      as (h1 & E1 & C1 & U1); auto.
    { rewrite !map_app in *. rewrite <- !app_assoc in *. exact CA. }
    { congruence. }
    { rewrite map_length, FL. lia. }
    { rewrite app_length, map_length, FL, LA. lia. }
    assert (CA1 : cells h1 ia (A ++ map Some (flat_clauses dd ++ cl_pos c ++ cl_neg c ++ flat_clauses cs) ++ B)).
    { eapply cells_one; [exact U1|auto|exact CA]. }
    destruct (mcopy_ok (cl_neg c) d2 ic ia h1 (map Some (flat_clauses dd ++ cl_pos c)) dm2
       (A ++ map Some (flat_clauses dd ++ cl_pos c)) (map Some (flat_clauses cs) ++ B)
       (Z.of_nat (length dd) * (Z.of_nat nlit * 2) + Z.of_nat nlit) (Z.of_nat (length dd + off) * (Z.of_nat nlit * 2) + Z.of_nat nlit) (Z.of_nat nlit))
      as (h2 & E2 & C2 & U2); auto.
    { rewrite map_app, <- !app_assoc in *. exact C1. }
    { rewrite !map_app in *. rewrite <- !app_assoc in *. exact CA1. }
    { congruence. }
    { rewrite map_length, app_length, FL, P1. lia. }
    { rewrite app_length, map_length, app_length, FL, LA, P1. lia. }
    destruct (IH (dd ++ [c]) dm2 A B h2) as (h3 & E3 & C3 & U3); auto.
    { apply Forall_app. split; auto. constructor; auto. split; auto. }
    { rewrite app_length. cbn [length]. replace (off + (length dd + 1) + length cs)%nat with (off + length dd + S (length cs))%nat by lia. exact I1. }
    { rewrite app_length. cbn [length]. lia. }
    { unfold flat_clauses. rewrite map_app, concat_app. cbn [map concat]. rewrite app_nil_r. fold (flat_clauses dd).
      rewrite !map_app in *. rewrite <- !app_assoc in *. exact C2. }
    { rewrite <- app_assoc. cbn [app]. rewrite SR. eapply cells_one; [exact U2|auto|exact CA1]. }
    exists h3. rewrite <- app_assoc in C3. cbn [app] in C3. split; [|split; [exact C3|eapply only_trans; [eapply only_trans|]; eauto]].
    cbn [mloop].
    assert (F1 : bind (iadd (Z.of_nat (length dd)) (Z.of_nat off)) (fun io => w <- imul (Z.of_nat nlit) 2 ;; src_o <- imul io w ;;
        m <- imul (Z.of_nat nlit) 2 ;; dst_o <- imul (Z.of_nat (length dd)) m ;;
        mcopy (start ic) dst_o (start ia) src_o (Z.of_nat nlit) ;;;
        d2 <- iadd dst_o (Z.of_nat nlit) ;; s2 <- iadd src_o (Z.of_nat nlit) ;;
        mcopy (start ic) d2 (start ia) s2 (Z.of_nat nlit)) h = Some (tt, h2)).
    { erewrite bind_some by (apply iadd_ok; lia).
      replace (Z.of_nat (length dd) + Z.of_nat off) with (Z.of_nat (length dd + off)) by lia.
      erewrite bind_some by (apply imul_ok; lia). erewrite bind_some by (apply imul_ok; lia).
      erewrite bind_some by (apply imul_ok; lia). erewrite bind_some by (apply imul_ok; lia).
      erewrite bind_some by exact E1.
      erewrite bind_some by (apply iadd_ok; lia). erewrite bind_some by (apply iadd_ok; lia). exact E2. }
    erewrite bind_some by exact F1.
    rewrite app_length in E3. cbn [length] in E3.
    replace (Z.of_nat (length dd) + 1) with (Z.of_nat (length dd + 1)) by lia. exact E3.
Qed.

Lemma set_weights_loop : forall ncls off ia iw s, ia <> iw -> hs_ncls s = Z.of_nat ncls -> hs_wmem s = Z.of_nat ncls ->
  hs_weights s = start iw ->
  forall ws dd dm A B h, Forall (fun w : list Z => length w = ncls) dd -> Forall (fun w => length w = ncls) ws ->
  Z.of_nat ((off + length dd + length ws) * ncls) <= int_max -> Z.of_nat (off + length dd + length ws) <= int_max ->
  length A = (off * ncls)%nat -> length dm = (length ws * ncls)%nat ->
  cells h iw (map Some (concat dd) ++ dm) -> cells h ia (A ++ map Some (concat (dd ++ ws)) ++ B) ->
  exists h', mloop (length ws) (Z.of_nat (length dd)) (fun i _ =>
    io <- iadd i (Z.of_nat off) ;; src_o <- imul io (hs_ncls s) ;;
    dst_o <- imul i (hs_wmem s) ;;
    mcopy (hs_weights s) dst_o (start ia) src_o (hs_ncls s)) tt h = Some (tt, h') /\
   holds h' iw (concat (dd ++ ws)) /\ only [iw] h h'.
Proof.
  intros ncls off ia iw s NE N1 N2 N3. rewrite N1, N2, N3.
  induction ws as [|w ws IH]; intros dd dm A B h FD FC I1 I2 LA LD CC CA.
  - destruct dm; [|cbn [length] in LD; lia]. exists h. split; [reflexivity|]. split; [|apply only_refl].
    rewrite app_nil_r in *. exact CC.
  - inversion FC as [|? ? P1 FC']; subst. cbn [length] in *.
    destruct (cut _ (length w) dm (length ws * length w)) as (d1 & dm1 & -> & L1 & Lx); [lia|].
    assert (FL : length (concat dd) = (length dd * length w)%nat) by (apply concat_len; auto).
    rewrite concat_app in CA. cbn [concat] in CA.
    assert (B2 : ((length dd + off) * length w + length w <= (off + length dd + S (length ws)) * length w)%nat).
    { replace (off + length dd + S (length ws))%nat with ((length dd + off) + 1 + length ws)%nat by lia.
      rewrite !Nat.mul_add_distr_r. lia. }
    assert (B3 : (length dd * length w <= (length dd + off) * length w)%nat) by (apply Nat.mul_le_mono_r; lia).
    destruct (mcopy_ok w d1 iw ia h (map Some (concat dd)) dm1
       (A ++ map Some (concat dd)) (map Some (concat ws) ++ B)
       (Z.of_nat (length dd) * Z.of_nat (length w)) (Z.of_nat (length dd + off) * Z.of_nat (length w)) (Z.of_nat (length w)))
      as (h1 & E1 & C1 & U1); auto.
    { rewrite !map_app in *. rewrite <- !app_assoc in *. exact CA. }
    { rewrite map_length, FL. lia. }
    { rewrite app_length, map_length, FL, LA. lia. }
    destruct (IH (dd ++ [w]) dm1 A B h1) as (h3 & E3 & C3 & U3); auto.
    { apply Forall_app. split; auto. }
    { rewrite app_length. cbn [length]. replace (off + (length dd + 1) + length ws)%nat with (off + length dd + S (length ws))%nat by lia. exact I1. }
    { rewrite app_length. cbn [length]. lia. }
    { rewrite concat_app. cbn [concat]. rewrite app_nil_r. rewrite !map_app in *. rewrite <- !app_assoc in *. exact C1. }
    { rewrite <- app_assoc. cbn [app]. rewrite concat_app. cbn [concat]. eapply cells_one; [exact U1|auto|exact CA]. }
    exists h3. rewrite <- app_assoc in C3. cbn [app] in C3. split; [|split; [exact C3|eapply only_trans; eauto]].
    cbn [mloop].
    assert (F1 : bind (iadd (Z.of_nat (length dd)) (Z.of_nat off)) (fun io =>
        src_o <- imul io (Z.of_nat (length w)) ;; dst_o <- imul (Z.of_nat (length dd)) (Z.of_nat (length w)) ;;
        mcopy (start iw) dst_o (start ia) src_o (Z.of_nat (length w))) h = Some (tt, h1)).
    { erewrite bind_some by (apply iadd_ok; lia).
      replace (Z.of_nat (length dd) + Z.of_nat off) with (Z.of_nat (length dd + off)) by lia.
      erewrite bind_some by (apply imul_ok; lia). erewrite bind_some by (apply imul_ok; lia). exact E1. }
    erewrite bind_some by exact F1.
    rewrite app_length in E3. cbn [length] in E3.
    replace (Z.of_nat (length dd) + 1) with (Z.of_nat (length dd + 1)) by lia. exact E3.
Qed.

(** The constructor of the input block: a zeroed buffer with room for an
    example. *)
Lemma new_input_ok : forall nlit h, exists inp h', h_new_input (Z.of_nat nlit) h = Some (inp, h') /\
  in_nlit inp = Z.of_nat nlit /\ in_cur inp = start (length h) /\ is_buffer h' (length h) nlit /\
  (forall id, (id < length h)%nat -> nth_error h' id = nth_error h id) /\ kinds h' = kinds h ++ [Some KMalloc].
Proof.
  intros nlit h. unfold h_new_input. set (mem := (Z.of_nat nlit / 32 + 1) * 32).
  assert (GE : Z.of_nat nlit <= mem).
  { unfold mem. pose proof (Z.div_mod (Z.of_nat nlit) 32 ltac:(lia)). pose proof (Z.mod_pos_bound (Z.of_nat nlit) 32 ltac:(lia)). lia. }
  destruct (0 <=? mem) eqn:E; [|lia]. erewrite bind_some by reflexivity.
  destruct (mset_ok (h ++ [Some (mkChunk KMalloc (repeat None (Z.to_nat mem)))]) (length h) _ (Z.to_nat mem) 0 (halloc_cells _ _ _))
    as (h3 & E3 & C4 & U3); [rewrite repeat_length; lia|].
  unfold mset in E3. rewrite Nat2Z.id in E3. 
  erewrite bind_some by exact E3.
  eexists. exists h3. split; [reflexivity|]. cbn [in_nlit in_cur]. split; [reflexivity|]. split; [reflexivity|].
  split; [|split].
  - eexists. split; [exact C4|]. rewrite app_length, repeat_length. lia.
  - intros id L. rewrite (only_kept _ _ _ (length h) U3) by (first [exact L|intros ? [<-|[]]; lia]).
    now rewrite nth_error_app1.
  - transitivity (kinds (h ++ [Some (mkChunk KMalloc (repeat None (Z.to_nat mem)))])).
    + eapply (keeps_mset (start (length h)) 0 (Z.of_nat (Z.to_nat mem))). unfold mset. rewrite Nat2Z.id. exact E3.
    + unfold kinds. now rewrite map_app.
Qed.
