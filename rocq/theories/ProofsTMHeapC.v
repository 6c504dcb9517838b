(** Clause outputs and votes of all clauses on the heap. *)
From Coq Require Import ZArith List Bool QArith Lia ZifyBool.
From Verif Require Import Base ModelHeap ModelDense ModelFeedback ModelTMHeap SpecHeap ProofsHeap ProofsTMHeap ProofsTMHeapB.
Import ListNotations.
Open Scope Z_scope.

Lemma store_cell_mid : forall h id a x b off i v, cells h id (a ++ x :: b) -> off + i = Z.of_nat (length a) ->
  exists h', store_at (Some (mkAddr id off)) i v h = Some (tt, h') /\ cells h' id (a ++ Some v :: b) /\ only [id] h h'.
Proof.
  intros h id a x b off i v C E. destruct (store_at_ok h id _ off i v C) as (h' & S & C' & U).
  - rewrite app_length. cbn [length]. lia.
  - exists h'. split; [exact S|]. split; [|exact U].
    rewrite E, Nat2Z.id, hset_mid in C'. exact C'.
Qed.

(** lia must not split on the inequations between allocation numbers. *)
Ltac nlia := repeat match goal with
  | H : ?a <> ?b |- _ => match type of a with nat => clear H end
  | H : _ = true -> _ |- _ => clear H
  end; lia.

Lemma nodup4 : forall bo i, NoDup (owned bo i) ->
  i_clauses i <> i_outputs i /\ i_clauses i <> i_votes i /\ i_clauses i <> i_weights i /\
  i_outputs i <> i_votes i /\ i_outputs i <> i_weights i /\ i_votes i <> i_weights i /\
  (bo = true -> i_clauses i <> i_counts i /\ i_outputs i <> i_counts i /\
                i_votes i <> i_counts i /\ i_weights i <> i_counts i).
Proof.
  intros bo i N. unfold owned in N.
  inversion N as [|a1 l1 N1 R1]; subst. inversion R1 as [|a2 l2 N2 R2]; subst.
  inversion R2 as [|a3 l3 N3 R3]; subst. inversion R3 as [|a4 l4 N4 R4]; subst.
  cbn [In] in *. destruct bo; cbn [In] in *; intuition congruence.
Qed.

Lemma cells_one : forall h h' id id' cs, only [id] h h' -> id <> id' -> cells h id' cs -> cells h' id' cs.
Proof. intros. eapply only_cells; [exact H| |exact H1]. intros [E|[]]. auto. Qed.

Lemma only1 : forall (a : nat) l h h', only [a] h h' -> In a l -> only l h h'.
Proof. intros. eapply only_incl; [exact H|]. intros x [E|[]]. now subst. Qed.

Lemma concat_len : forall (ws : list (list Z)) n, Forall (fun w => length w = n) ws ->
  length (concat ws) = (length ws * n)%nat.
Proof. intros ws n F. induction F; [reflexivity|]. cbn [concat length]. rewrite app_length. nlia. Qed.

Lemma map2_len : forall A B C (f : A -> B -> C) a b, length a = length b -> length (map2 f a b) = length a.
Proof. induction a; destruct b; cbn [map2 length]; intros; try discriminate; [reflexivity|]. rewrite IHa; [reflexivity|]. now injection H. Qed.

Lemma il_ne : forall bo i il, ~ In il (owned bo i) ->
  il <> i_clauses i /\ il <> i_outputs i /\ il <> i_votes i /\ il <> i_weights i /\
  (bo = true -> il <> i_counts i).
Proof. intros bo i il Hil. unfold owned in Hil. cbn [In] in Hil. destruct bo; cbn [In] in Hil; intuition congruence. Qed.

(** the allocations training outputs may change *)
Definition out_ids (bo : bool) (i : ids) : list nat := i_outputs i :: (if bo then [i_counts i] else []).
Lemma out_ids_other : forall bo i id, id <> i_outputs i -> (bo = true -> id <> i_counts i) -> ~ In id (out_ids bo i).
Proof. intros bo i id A B. unfold out_ids. destruct bo; cbn [In]; intuition congruence. Qed.

Section Outputs.
  Variables (bo : bool) (i : ids) (s : hstate) (nlit ncl ncls : nat).
  Hypothesis W : wf_obj bo i s nlit ncl ncls.
  Variable il : nat.
  Hypothesis Hil : ~ In il (owned bo i).
  Variables (lits : list Z) (rest : list (option Z)).
  Hypothesis Llits : length lits = nlit.

  Lemma h_halves_ok : forall h cd c cs,
    Forall (clen nlit) (cd ++ c :: cs) -> length (cd ++ c :: cs) = ncl ->
    holds h (i_clauses i) (flat_clauses (cd ++ c :: cs)) ->
    h_halves s (Z.of_nat (length cd)) h =
      Some ((run (i_clauses i) (flat_clauses cd) 0, run (i_clauses i) (flat_clauses cd) nlit), h).
  Proof.
    intros h cd c cs F L H. pose proof (wo_fits _ _ _ _ _ _ W) as (F1 & F2 & F3 & F4 & F5).
    assert (Fd : Forall (clen nlit) cd) by (apply Forall_app in F; tauto).
    pose proof (flat_len nlit cd Fd) as Ld. pose proof (flat_len nlit _ F) as La.
    rewrite L in La. rewrite app_length in L. cbn [length] in L.
    unfold h_halves. rewrite (wo_nlit _ _ _ _ _ _ W).
    rewrite (wo_pc _ _ _ _ _ _ W).
    assert (B : (length cd * (nlit * 2) + nlit + nlit <= ncl * nlit * 2)%nat) by (subst ncl; nia).
    erewrite bind_some by (apply imul_ok; lia).
    erewrite bind_some by (apply imul_ok; nia).
    unfold start.
    erewrite bind_some by (eapply padd_ok; [exact H|rewrite map_length, La; nia]).
    erewrite bind_some by (apply iadd_ok; nia).
    erewrite bind_some by (eapply padd_ok; [exact H|rewrite map_length, La; nia]).
    unfold ret, run. rewrite Ld. repeat (f_equal; try nia).
  Qed.

  Lemma train_clause_ok : forall h cd c cs od o os nd x nr,
    Forall (clen nlit) (cd ++ c :: cs) -> length (cd ++ c :: cs) = ncl -> length od = length cd ->
    holds h (i_clauses i) (flat_clauses (cd ++ c :: cs)) ->
    holds h (i_outputs i) (od ++ o :: os) ->
    (bo = true -> length nd = length cd /\ cells h (i_counts i) (nd ++ x :: nr)) ->
    cells h il (map Some lits ++ rest) ->
    exists h', h_train_clause bo (start il) s (Z.of_nat (length cd)) tt h = Some (tt, h') /\
      holds h' (i_outputs i) (od ++ fst (set_output bo lits c) :: os) /\
      (bo = true -> cells h' (i_counts i) (nd ++ Some (snd (set_output bo lits c)) :: nr)) /\
      only (out_ids bo i) h h'.
  Proof.
    intros h cd c cs od o os nd x nr F L LO HC HO HN C.
    pose proof (nodup4 _ _ (wo_distinct _ _ _ _ _ _ W)) as (D1 & D2 & D3 & D4 & D5 & D6 & D7).
    destruct (il_ne bo i il Hil) as (I1 & I2 & I3 & I4 & I5).
    assert (Fc : clen nlit c) by (apply Forall_app in F; destruct F as [_ F]; now inversion F).
    destruct Fc as [Lp Lq].
    unfold h_train_clause. rewrite (wo_po _ _ _ _ _ _ W).
    destruct (store_at_mid h (i_outputs i) od o os 0 (Z.of_nat (length cd)) 1 HO) as (h1 & E1 & H1 & U1); [exact (f_equal Z.of_nat (eq_sym LO))|].
    unfold start at 1. erewrite bind_some by exact E1.
    assert (HC1 : holds h1 (i_clauses i) (flat_clauses (cd ++ c :: cs))) by (eapply cells_one; eauto).
    assert (C1 : cells h1 il (map Some lits ++ rest)) by (eapply cells_one; eauto).
    erewrite bind_some by (eapply h_halves_ok; eauto).
    rewrite flat_mid in HC1.
    destruct (set_loop (i_clauses i) (i_outputs i) il (flat_clauses cd) (flat_clauses cs) od os
                (start (i_outputs i)) (start il) (Z.of_nat (length cd)) D1 I2 eq_refl eq_refl
                (f_equal Z.of_nat (eq_sym LO)) bo (cl_pos c) [] [] (cl_neg c) [] lits rest 0 0 h1)
      as (oo & p1 & p2 & pc & nc & h2 & S1 & S2 & S3 & S4);
      [reflexivity|reflexivity|congruence|congruence|exact HC1|exact H1|exact C1|].
    rewrite (wo_nlit _ _ _ _ _ _ W), Nat2Z.id. cbn [fst snd].
    rewrite Lp in S2. cbn [app length] in S2. rewrite Lp, Nat.add_0_r in S2.
    erewrite bind_some by exact S2.
    unfold set_output. rewrite S1. cbn [fst snd].
    destruct bo eqn:B.
    - destruct (HN eq_refl) as (Ln & Cn).
      rewrite (wo_pl _ _ _ _ _ _ W eq_refl).
      destruct (D7 eq_refl) as (D71 & D72 & D73 & D74).
      assert (Cn2 : cells h2 (i_counts i) (nd ++ x :: nr)).
      { eapply cells_one; [exact S4|auto|]. eapply cells_one; [exact U1|auto|]. exact Cn. }
      destruct (store_cell_mid h2 (i_counts i) nd x nr 0 (Z.of_nat (length cd)) (pc + nc) Cn2) as (h3 & E3 & H3 & U3); [nlia|].
      exists h3. split; [exact E3|]. split; [eapply cells_one; [exact U3|auto|]; exact S3|]. split.
      + intros _. exact H3.
      + eapply only_trans; [|eapply only1; [exact U3|unfold out_ids; cbn [In]; auto]].
        eapply only_trans; eapply only1; eauto; unfold out_ids; cbn [In]; auto.
    - exists h2. split; [reflexivity|]. split; [exact S3|]. split; [discriminate|].
      eapply only_trans; eauto.
  Qed.

  Lemma train_loop_ok : forall cs cd od os nd nr h,
    Forall (clen nlit) (cd ++ cs) -> length (cd ++ cs) = ncl ->
    length od = length cd -> length os = length cs ->
    holds h (i_clauses i) (flat_clauses (cd ++ cs)) ->
    holds h (i_outputs i) (od ++ os) ->
    (bo = true -> length nd = length cd /\ length nr = length cs /\ cells h (i_counts i) (nd ++ nr)) ->
    cells h il (map Some lits ++ rest) ->
    exists h', mloop (length cs) (Z.of_nat (length cd)) (h_train_clause bo (start il) s) tt h = Some (tt, h') /\
      holds h' (i_outputs i) (od ++ map fst (map (set_output bo lits) cs)) /\
      (bo = true -> cells h' (i_counts i) (nd ++ map Some (map snd (map (set_output bo lits) cs)))) /\
      only (out_ids bo i) h h'.
  Proof.
    induction cs as [|c cs IH]; intros cd od os nd nr h F L LO LS HC HO HN C.
    - destruct os; [|discriminate]. exists h. split; [reflexivity|]. split; [exact HO|]. split; [|apply only_refl].
      intros B. destruct (HN B) as (_ & Ln & Cn). destruct nr; [|discriminate]. exact Cn.
    - destruct os as [|o os]; [discriminate|].
      pose proof (nodup4 _ _ (wo_distinct _ _ _ _ _ _ W)) as (D1 & D2 & D3 & D4 & D5 & D6 & D7).
      destruct (il_ne bo i il Hil) as (I1 & I2 & I3 & I4 & I5).
      destruct (train_clause_ok h cd c cs od o os nd (hd None nr) (tl nr)) as (h1 & E1 & H1 & N1 & U1); auto.
      { intros B. destruct (HN B) as (Ln & Lr & Cn). destruct nr as [|x nr]; [discriminate|]. auto. }
      destruct (IH (cd ++ [c]) (od ++ [fst (set_output bo lits c)]) os
                   (nd ++ [Some (snd (set_output bo lits c))]) (tl nr) h1) as (h' & E & H' & N' & U').
      + now rewrite <- app_assoc.
      + now rewrite <- app_assoc.
      + rewrite !app_length. cbn [length]. nlia.
      + cbn [length] in LS. nlia.
      + rewrite <- app_assoc. eapply only_cells; [exact U1| |exact HC]. apply out_ids_other; auto. intros B. now destruct (D7 B).
      + rewrite <- app_assoc. exact H1.
      + intros B. destruct (HN B) as (Ln & Lr & Cn). destruct nr as [|x nr]; [discriminate|].
        cbn [tl]. rewrite !app_length. cbn [length] in *. split; [nlia|]. split; [nlia|].
        rewrite <- app_assoc. cbn [app]. now apply N1.
      + eapply only_cells; [exact U1| |exact C]. apply out_ids_other; auto.
      + exists h'. split; [|split; [|split]].
        * cbn [length mloop]. erewrite bind_some by exact E1.
          rewrite app_length in E. cbn [length] in E.
          replace (Z.of_nat (length cd) + 1) with (Z.of_nat (length cd + 1)) by nlia. exact E.
        * cbn [map]. rewrite <- app_assoc in H'. exact H'.
        * intros B. cbn [map]. specialize (N' B). rewrite <- app_assoc in N'. exact N'.
        * eapply only_trans; eauto.
  Qed.

  Lemma eval_clause_ok : forall h cd c cs od o os,
    Forall (clen nlit) (cd ++ c :: cs) -> length (cd ++ c :: cs) = ncl -> length od = length cd ->
    holds h (i_clauses i) (flat_clauses (cd ++ c :: cs)) ->
    holds h (i_outputs i) (od ++ o :: os) ->
    cells h il (map Some lits ++ rest) ->
    exists h', h_eval_clause (start il) s (Z.of_nat (length cd)) tt h = Some (tt, h') /\
      holds h' (i_outputs i) (od ++ eval_output lits c :: os) /\ only [i_outputs i] h h'.
  Proof.
    intros h cd c cs od o os F L LO HC HO C.
    pose proof (nodup4 _ _ (wo_distinct _ _ _ _ _ _ W)) as (D1 & D2 & D3 & D4 & D5 & D6 & D7).
    destruct (il_ne bo i il Hil) as (I1 & I2 & I3 & I4 & I5).
    assert (Fc : clen nlit c) by (apply Forall_app in F; destruct F as [_ F]; now inversion F).
    destruct Fc as [Lp Lq].
    unfold h_eval_clause. rewrite (wo_po _ _ _ _ _ _ W).
    destruct (store_at_mid h (i_outputs i) od o os 0 (Z.of_nat (length cd)) 1 HO) as (h1 & E1 & H1 & U1); [exact (f_equal Z.of_nat (eq_sym LO))|].
    unfold start at 1. erewrite bind_some by exact E1.
    assert (HC1 : holds h1 (i_clauses i) (flat_clauses (cd ++ c :: cs))) by (eapply cells_one; eauto).
    assert (C1 : cells h1 il (map Some lits ++ rest)) by (eapply cells_one; eauto).
    erewrite bind_some by (eapply h_halves_ok; eauto).
    rewrite flat_mid in HC1.
    destruct (eval_loop (i_clauses i) (i_outputs i) il (flat_clauses cd) (flat_clauses cs) od os
                (start (i_outputs i)) (start il) (Z.of_nat (length cd)) D1 I2 eq_refl eq_refl
                (f_equal Z.of_nat (eq_sym LO)) (cl_pos c) [] [] (cl_neg c) [] lits rest true h1)
      as (oo & p1 & p2 & em & h2 & S1 & S2 & S3 & S4);
      [reflexivity|reflexivity|congruence|congruence|exact HC1|exact H1|exact C1|].
    rewrite (wo_nlit _ _ _ _ _ _ W), Nat2Z.id. cbn [fst snd].
    rewrite Lp in S2. cbn [app length] in S2. rewrite Lp, Nat.add_0_r in S2.
    erewrite bind_some by exact S2.
    unfold eval_output. rewrite S1. cbn [snd]. destruct em.
    - destruct (store_at_mid h2 (i_outputs i) od oo os 0 (Z.of_nat (length cd)) 0 S3) as (h3 & E3 & H3 & U3); [nlia|].
      exists h3. split; [exact E3|]. split; [exact H3|]. eapply only_trans; [|exact U3]. eapply only_trans; eauto.
    - exists h2. split; [reflexivity|]. split; [exact S3|]. eapply only_trans; eauto.
  Qed.

  Lemma eval_loop_ok : forall cs cd od os h,
    Forall (clen nlit) (cd ++ cs) -> length (cd ++ cs) = ncl ->
    length od = length cd -> length os = length cs ->
    holds h (i_clauses i) (flat_clauses (cd ++ cs)) ->
    holds h (i_outputs i) (od ++ os) ->
    cells h il (map Some lits ++ rest) ->
    exists h', mloop (length cs) (Z.of_nat (length cd)) (h_eval_clause (start il) s) tt h = Some (tt, h') /\
      holds h' (i_outputs i) (od ++ map (eval_output lits) cs) /\ only [i_outputs i] h h'.
  Proof.
    induction cs as [|c cs IH]; intros cd od os h F L LO LS HC HO C.
    - destruct os; [|discriminate]. exists h. split; [reflexivity|]. split; [exact HO|]. apply only_refl.
    - destruct os as [|o os]; [discriminate|].
      pose proof (nodup4 _ _ (wo_distinct _ _ _ _ _ _ W)) as (D1 & D2 & D3 & D4 & D5 & D6 & D7).
      destruct (il_ne bo i il Hil) as (I1 & I2 & I3 & I4 & I5).
      destruct (eval_clause_ok h cd c cs od o os) as (h1 & E1 & H1 & U1); auto.
      destruct (IH (cd ++ [c]) (od ++ [eval_output lits c]) os h1) as (h' & E & H' & U').
      + now rewrite <- app_assoc.
      + now rewrite <- app_assoc.
      + rewrite !app_length. cbn [length]. nlia.
      + cbn [length] in LS. nlia.
      + rewrite <- app_assoc. eapply cells_one; [exact U1| |exact HC]. auto.
      + rewrite <- app_assoc. exact H1.
      + eapply cells_one; [exact U1| |exact C]. auto.
      + exists h'. split; [|split].
        * cbn [length mloop]. erewrite bind_some by exact E1.
          rewrite app_length in E. cbn [length] in E.
          replace (Z.of_nat (length cd) + 1) with (Z.of_nat (length cd + 1)) by nlia. exact E.
        * cbn [map]. rewrite <- app_assoc in H'. exact H'.
        * eapply only_trans; eauto.
  Qed.

End Outputs.

(** ** Votes *)
Section Votes.
  Variables (bo : bool) (i : ids) (s : hstate) (nlit ncl ncls : nat).
  Hypothesis W : wf_obj bo i s nlit ncl ncls.

  Lemma vote_row_ok : forall vs vd ws wd wpre wpost ck h,
    holds h (i_votes i) (vd ++ vs) -> holds h (i_weights i) (wpre ++ (wd ++ ws) ++ wpost) ->
    length vd = length wd -> length vs = length ws -> length (vd ++ vs) = ncls ->
    length wpre = (ck * ncls)%nat -> (ck < ncl)%nat ->
    exists h', mloop (length vs) (Z.of_nat (length vd)) (h_vote_class s (Z.of_nat ck)) tt h = Some (tt, h') /\
      holds h' (i_votes i) (vd ++ map2 (fun v t => wrap16 (v + t)) vs ws) /\ only [i_votes i] h h'.
  Proof.
    pose proof (nodup4 _ _ (wo_distinct _ _ _ _ _ _ W)) as (D1 & D2 & D3 & D4 & D5 & D6 & D7).
    pose proof (wo_fits _ _ _ _ _ _ W) as (F1 & F2 & F3 & F4 & F5).
    induction vs as [|v vs IH]; intros vd ws wd wpre wpost ck h HV HW L1 L2 L3 L4 Lk.
    - exists h. split; [reflexivity|]. split; [exact HV|apply only_refl].
    - destruct ws as [|w ws]; [discriminate|].
      cbn [length mloop map2]. unfold h_vote_class at 1. rewrite (wo_ncls _ _ _ _ _ _ W).
      rewrite app_length in L3. cbn [length] in L3.
      assert (B : (ck * ncls + length vd < ncl * ncls)%nat) by nia.
      rewrite (wo_pw _ _ _ _ _ _ W), (wo_pv _ _ _ _ _ _ W). unfold start.
      unfold bind at 1. unfold bind at 1. rewrite imul_ok by nlia.
      unfold bind at 1. rewrite iadd_ok by nlia.
      unfold bind at 1.
      erewrite (load_at_mid h (i_weights i) (wpre ++ wd) w (ws ++ wpost));
        [|replace ((wpre ++ wd) ++ w :: ws ++ wpost) with (wpre ++ (wd ++ w :: ws) ++ wpost) by listeq; exact HW
         |rewrite app_length; nlia].
      unfold bind at 1. erewrite load_at_mid by (first [exact HV|nlia]).
      destruct (store_at_mid h (i_votes i) vd v vs 0 (Z.of_nat (length vd)) (wrap16 (v + w)) HV) as (h1 & E1 & H1 & U1); [nlia|].
      rewrite E1.
      destruct (IH (vd ++ [wrap16 (v + w)]) ws (wd ++ [w]) wpre wpost ck h1) as (h' & E & H' & U').
      + rewrite <- app_assoc. exact H1.
      + rewrite <- (app_assoc wd). eapply cells_one; [exact U1|auto|]. exact HW.
      + rewrite !app_length. cbn [length]. nlia.
      + cbn [length] in L2. nlia.
      + rewrite !app_length. cbn [length]. nlia.
      + auto.
      + auto.
      + exists h'. split; [|split].
        * rewrite app_length in E. cbn [length] in E.
          replace (Z.of_nat (length vd) + 1) with (Z.of_nat (length vd + 1)) by nlia. exact E.
        * rewrite <- app_assoc in H'. exact H'.
        * eapply only_trans; eauto.
  Qed.

  Lemma vote_loop_ok : forall os od ws wd vs h,
    holds h (i_outputs i) (od ++ os) -> holds h (i_weights i) (concat (wd ++ ws)) ->
    holds h (i_votes i) vs ->
    length od = length wd -> length os = length ws -> length (wd ++ ws) = ncl ->
    Forall (fun w => length w = ncls) (wd ++ ws) -> length vs = ncls ->
    exists h', mloop (length os) (Z.of_nat (length od)) (h_vote_clause s) tt h = Some (tt, h') /\
      holds h' (i_votes i) (count_votes_loop os ws vs) /\ only [i_votes i] h h'.
  Proof.
    pose proof (nodup4 _ _ (wo_distinct _ _ _ _ _ _ W)) as (D1 & D2 & D3 & D4 & D5 & D6 & D7).
    induction os as [|o os IH]; intros od ws wd vs h HO HW HV L1 L2 L3 F LV.
    - exists h. split; [reflexivity|]. split; [exact HV|apply only_refl].
    - destruct ws as [|w ws]; [discriminate|].
      cbn [length mloop count_votes_loop]. unfold h_vote_clause at 1.
      rewrite (wo_po _ _ _ _ _ _ W), (wo_ncls _ _ _ _ _ _ W), Nat2Z.id. unfold start.
      unfold bind at 1. unfold bind at 1. erewrite load_at_mid by (first [exact HO|nlia]).
      assert (ST : exists h1, (if o =? 1 then mloop ncls 0 (h_vote_class s (Z.of_nat (length od))) tt else ret tt) h = Some (tt, h1) /\
         holds h1 (i_votes i) (if o =? 1 then map2 (fun v t => wrap16 (v + t)) vs w else vs) /\ only [i_votes i] h h1).
      { destruct (o =? 1); [|exists h; split; [reflexivity|]; split; [exact HV|apply only_refl]].
        destruct (vote_row_ok vs [] w [] (concat wd) (concat ws) (length od) h) as (h1 & E1 & H1 & U1).
        - exact HV.
        - rewrite concat_app in HW. cbn [concat] in HW. exact HW.
        - reflexivity.
        - apply Forall_app in F. destruct F as [_ F]. inversion F. congruence.
        - exact LV.
        - apply Forall_app in F. destruct F as [F _]. rewrite (concat_len _ _ F). congruence.
        - rewrite app_length in L3. cbn [length] in L3. nlia.
        - exists h1. rewrite LV in E1. split; [exact E1|]. split; [exact H1|exact U1]. }
      destruct ST as (h1 & E1 & H1 & U1). rewrite E1.
      destruct (IH (od ++ [o]) ws (wd ++ [w]) (if o =? 1 then map2 (fun v t => wrap16 (v + t)) vs w else vs) h1)
        as (h' & E & H' & U').
      + rewrite <- app_assoc. eapply cells_one; [exact U1|auto|]. exact HO.
      + rewrite <- app_assoc. eapply cells_one; [exact U1|auto|]. exact HW.
      + exact H1.
      + rewrite !app_length. cbn [length]. nlia.
      + cbn [length] in L2. nlia.
      + now rewrite <- app_assoc.
      + now rewrite <- app_assoc.
      + destruct (o =? 1); [|exact LV]. rewrite map2_len; [exact LV|].
        apply Forall_app in F. destruct F as [_ F]. inversion F. congruence.
      + exists h'. split; [|split; [exact H'|eapply only_trans; eauto]].
        rewrite app_length in E. cbn [length] in E.
        replace (Z.of_nat (length od) + 1) with (Z.of_nat (length od + 1)) by nlia. exact E.
  Qed.

  Lemma count_votes_ok : forall os ws vs h,
    holds h (i_outputs i) os -> holds h (i_weights i) (concat ws) -> holds h (i_votes i) vs ->
    length os = length ws -> length ws = ncl -> Forall (fun w => length w = ncls) ws -> length vs = ncls ->
    exists h', h_count_votes s h = Some (tt, h') /\
      holds h' (i_votes i) (count_votes_loop os ws (repeat 0 ncls)) /\ only [i_votes i] h h'.
  Proof.
    intros os ws vs h HO HW HV L1 L2 F LV.
    pose proof (nodup4 _ _ (wo_distinct _ _ _ _ _ _ W)) as (D1 & D2 & D3 & D4 & D5 & D6 & D7).
    unfold h_count_votes. rewrite (wo_pv _ _ _ _ _ _ W), (wo_ncls _ _ _ _ _ _ W), (wo_ncl _ _ _ _ _ _ W), Nat2Z.id.
    destruct (mset_ok h (i_votes i) _ ncls 0 HV) as (h1 & E1 & H1 & U1); [rewrite map_length; nlia|].
    erewrite bind_some by exact E1.
    rewrite skipn_all2 in H1 by (rewrite map_length; nlia). rewrite app_nil_r in H1.
    destruct (vote_loop_ok os [] ws [] (repeat 0 ncls) h1) as (h' & E & H' & U'); auto.
    - eapply cells_one; [exact U1|auto|]. exact HO.
    - eapply cells_one; [exact U1|auto|]. exact HW.
    - red. replace (map Some (repeat 0 ncls)) with (repeat (Some 0) ncls); [exact H1|].
      clear. induction ncls; cbn [repeat map]; congruence.
    - apply repeat_length.
    - exists h'. rewrite L1, L2 in E. split; [exact E|]. split; [exact H'|eapply only_trans; eauto].
  Qed.
End Votes.
