(** All clauses of a convolutional block: outputs, evaluation, update. *)
From Coq Require Import ZArith List Bool QArith Lia ZifyBool.
From Verif Require Import Base ModelHeap ModelDense ModelFeedback ModelExecutor ModelConv ModelTMHeap ModelConvHeap SpecHeap SpecConvHeap
  ProofsHeap ProofsTMHeap ProofsTMHeapB ProofsTMHeapC ProofsTMHeapD ProofsTMHeapE ProofsConvHeap.
Import ListNotations.
Open Scope Z_scope.

Definition kept (x x' : option Z) : Prop := x <> None -> x' <> None.
Lemma kept_refl : forall l, Forall2 kept l l.
Proof. induction l; constructor; auto. red. auto. Qed.

(** Feedback to a silent clause does not read literals. *)
Section Silent.
  Variables (bo : bool) (i : ids) (s : hstate) (nlit ncl ncls : nat).
  Hypothesis W : wf_obj bo i s nlit ncl ncls.

  Lemma clause_update_silent : forall boost h cd c cs wa w wb target out r lits lptr,
    out <> 1 -> clen nlit c ->
    holds h (i_clauses i) (flat_clauses (cd ++ c :: cs)) ->
    holds h (i_weights i) (wa ++ w :: wb) ->
    exists c' w' r' h',
      clause_update boost (hs_s_inv s) (hs_s_min1_inv s) c w target lits out r = (c', w', r') /\
      h_clause_update boost s (rp (i_clauses i) (flat_clauses cd))
        (Some (mkAddr (i_weights i) (Z.of_nat (length wa)))) target lptr out r h = Some (r', h') /\
      clen nlit c' /\
      holds h' (i_clauses i) (flat_clauses (cd ++ c' :: cs)) /\
      holds h' (i_weights i) (wa ++ w' :: wb) /\ only (cw i) h h'.
  Proof.
    intros boost h cd c cs wa w wb target out r lits lptr NO [Lp Lq] HC HW.
    pose proof (nodup4 _ _ (wo_distinct _ _ _ _ _ _ W)) as (_ & _ & D3 & _ & _ & _ & _).
    assert (NL : hs_nlit s = Z.of_nat (length (cl_pos c))) by (rewrite Lp; apply (wo_nlit _ _ _ _ _ _ W)).
    rewrite flat_mid in HC.
    unfold clause_update, h_clause_update.
    erewrite bind_some by (eapply load_mid; [exact HW|reflexivity]). cbv zeta.
    replace (out =? 1) with false by nlia. rewrite andb_false_r.
    destruct (target * (if w >=? 0 then 1 else -1) >? 0).
    - destruct (h_type1b_ok (i_clauses i) (S (i_clauses i)) (flat_clauses cd) (flat_clauses cs) (Nat.neq_succ_diag_r _) s
                  (cl_pos c) (cl_neg c) r h NL) as (p' & q' & r' & h' & T & E & H' & U');
        [congruence|exact HC|].
      exists (mkClause p' q'), w, r', h'.
      rewrite T. split; [reflexivity|]. split; [exact E|].
      apply type1b_len in T. split; [red; cbn [cl_pos cl_neg]; nlia|].
      split; [rewrite flat_mid; exact H'|]. split; [eapply cells_one; [exact U'|auto|exact HW]|].
      eapply only1; eauto; unfold cw; cbn [In]; auto.
    - exists c, w, r, h. split; [reflexivity|]. split; [reflexivity|]. split; [red; auto|].
      split; [rewrite flat_mid; exact HC|]. split; [exact HW|apply only_refl].
  Qed.

  Lemma half_silent : forall boost h cd c cs wd ws wr k target out r (d : bool) pa pb lits lptr,
    out <> 1 -> clen nlit c -> (k < ncls)%nat -> length ws = ncls ->
    Forall (fun w => length w = ncls) wd -> length wd = length cd ->
    holds h (i_clauses i) (flat_clauses (cd ++ c :: cs)) ->
    holds h (i_weights i) (concat (wd ++ ws :: wr)) ->
    holds h (i_outputs i) (pa ++ out :: pb) -> length pa = length cd ->
    exists c' ws' r' h',
      (if d then
         let '(c', w', r') := clause_update boost (hs_s_inv s) (hs_s_min1_inv s) c (nth k ws 0) target lits out r in
         (c', set_nth k w' ws, r')
       else (c, ws, r)) = (c', ws', r') /\
      (if d then
         wp <- padd (Some (mkAddr (i_weights i) (Z.of_nat (length cd * ncls)))) (Z.of_nat k) ;;
         o <- load_at (hs_outputs s) (Z.of_nat (length cd)) ;;
         h_clause_update boost s (rp (i_clauses i) (flat_clauses cd)) wp target lptr o r
       else ret r) h = Some (r', h') /\
      clen nlit c' /\ length ws' = ncls /\
      holds h' (i_clauses i) (flat_clauses (cd ++ c' :: cs)) /\
      holds h' (i_weights i) (concat (wd ++ ws' :: wr)) /\ only (cw i) h h'.
  Proof.
    intros boost h cd c cs wd ws wr k target out r d pa pb lits lptr NO Lc Lk Lw Fd Ld HC HW HO LP.
    destruct d.
    2: { exists c, ws, r, h. split; [reflexivity|]. split; [reflexivity|].
         split; [auto|]. split; [auto|]. split; [auto|]. split; [auto|apply only_refl]. }
    destruct (split_at _ ws k 0) as (a & b & Es & La); [nlia|].
    assert (HW2 : holds h (i_weights i) ((concat wd ++ a) ++ nth k ws 0 :: (b ++ concat wr))).
    { replace ((concat wd ++ a) ++ nth k ws 0 :: b ++ concat wr) with (concat (wd ++ ws :: wr)); [exact HW|].
      rewrite concat_app. cbn [concat]. rewrite Es at 1. listeq. }
    assert (LL : length (concat wd ++ a) = (length cd * ncls + k)%nat).
    { rewrite app_length, (concat_len _ _ Fd). nlia. }
    destruct (clause_update_silent boost h cd c cs (concat wd ++ a) (nth k ws 0) (b ++ concat wr) target out r lits lptr NO Lc HC HW2)
      as (c' & w' & r' & h' & T & E & Lc' & HC' & HW' & U').
    exists c', (set_nth k w' ws), r', h'.
    rewrite T. split; [reflexivity|]. split; [|split; [auto|split; [rewrite hset_length; auto|split; [auto|split; [|auto]]]]].
    - erewrite bind_some by (eapply padd_ok; [exact HW2|rewrite map_length, app_length, LL; cbn [length]; nlia]).
      rewrite (wo_po _ _ _ _ _ _ W). unfold start at 1.
      erewrite bind_some by (eapply load_at_mid; [exact HO|nlia]).
      rewrite LL in E. rewrite <- Nat2Z.inj_add. exact E.
    - replace (set_nth k w' ws) with (a ++ w' :: b).
      + rewrite concat_app. cbn [concat].
        replace (concat wd ++ (a ++ w' :: b) ++ concat wr) with ((concat wd ++ a) ++ w' :: b ++ concat wr) by listeq.
        exact HW'.
      + rewrite Es, <- La, hset_mid. reflexivity.
  Qed.
End Silent.

Section Kernels.
  Variables (bo : bool) (i : ids) (c : hconv) (nlit ncl ncls np ia ip : nat) (j : junk).
  Hypothesis W : wf_obj bo i (hc_s c) nlit ncl ncls.
  Hypothesis ND : NoDup (ia :: ip :: owned bo i).
  Hypothesis Hnp : hc_np c = Z.of_nat np.
  Hypothesis Hfit : Z.of_nat (np * nlit) <= int_max.
  Hypothesis Pa : hc_active c = start ia.
  Hypothesis Pp : hc_ppc c = start ip.
  Variable il : nat.
  Hypothesis Hil : ~ In il (conv_ids bo i ia ip).
  Variables (lits : list Z) (rest : list (option Z)).
  Hypothesis Llits : length lits = (np * nlit)%nat.

  Notation ja := (fun k => Z.of_nat (j_active j k)).

  Lemma cset_all_ok : forall strict cs cd od os aa ab na nb pcs r h aps,
    Forall (clen nlit) (cd ++ cs) -> length (cd ++ cs) = ncl -> length od = length cd -> length os = length cs ->
    length aa = length cd -> length ab = length cs -> length na = length cd -> length nb = length cs ->
    holds h (i_clauses i) (flat_clauses (cd ++ cs)) ->
    holds h (i_outputs i) (od ++ os) ->
    cells h ia (aa ++ ab) -> Forall (in_patches np) ab ->
    (bo = true -> cells h (i_counts i) (na ++ nb)) ->
    cells h ip pcs -> length pcs = np -> (strict = true -> bo = true -> forall m, nth_error pcs m <> Some None) ->
    cells h il (map Some lits ++ rest) ->
    fill_from ja (length cd) ab = map Z.of_nat aps ->
    exists os' aps' ab' nb' pcs' r' h',
      conv_output_loop bo nlit np lits cs aps (fill_from (j_counts j) (length cd) nb) (fill (j_ppc j) pcs) r =
        (os', aps', fill_from (j_counts j) (length cd) nb', fill (j_ppc j) pcs', r') /\
      mloop (length cs) (Z.of_nat (length cd)) (h_cset_clause strict bo j (start il) c) r h = Some (r', h') /\
      holds h' (i_outputs i) (od ++ os') /\ length os' = length cs /\
      cells h' ia (aa ++ ab') /\ length ab' = length cs /\ Forall (in_patches np) ab' /\
      fill_from ja (length cd) ab' = map Z.of_nat aps' /\
      Forall2 (fun o x => o = 1 -> x <> None) os' ab' /\ Forall2 kept ab ab' /\
      (bo = true -> cells h' (i_counts i) (na ++ nb')) /\ length nb' = length cs /\ Forall2 kept nb nb' /\
      cells h' ip pcs' /\ length pcs' = np /\
      (forall m a, nth_error pcs m = Some (Some a) -> exists b, nth_error pcs' m = Some (Some b)) /\
      only (cset_ids bo i ia ip) h h'.
  Proof.
    intros strict. pose proof (nodup4 _ _ (wo_distinct _ _ _ _ _ _ W)) as (D1 & D2 & D3 & D4 & D5 & D6 & D7).
    destruct (conv_distinct _ _ _ _ ND) as (X1 & X2 & X3 & _).
    destruct (il_ne bo i ip X2) as (Y1 & Y2 & Y3 & Y4 & Y5).
    destruct (il_ne bo i ia X1) as (Z1 & Z2 & Z3 & Z4 & Z5).
    destruct (other_ids _ _ _ _ _ Hil) as (I0 & I6 & I7). destruct (il_ne bo i il I0) as (I1 & I2 & I3 & I4 & I5).
    induction cs as [|cl cs IH]; intros cd od os aa ab na nb pcs r h aps F L LO LS LA LB LN LM HC HO CA FA CN CP LP HS C EA.
    - destruct os; [|discriminate]. destruct ab; [|discriminate]. destruct nb; [|discriminate].
      destruct aps; [|discriminate].
      exists [], [], [], [], pcs, r, h. split; [reflexivity|]. split; [reflexivity|]. split; [auto|]. split; [auto|].
      split; [auto|]. split; [auto|]. split; [auto|]. split; [auto|]. split; [constructor|]. split; [constructor|].
      split; [auto|]. split; [auto|]. split; [constructor|]. split; [auto|]. split; [auto|]. split; [eauto|apply only_refl].
    - destruct os as [|o os]; [discriminate|]. destruct ab as [|x ab]; [discriminate|]. destruct nb as [|y nb]; [discriminate|].
      destruct aps as [|ap aps]; [discriminate|]. cbn [fill_from map] in EA. injection EA as EA1 EA2.
      pose proof (Forall_inv FA) as FA1. pose proof (Forall_inv_tail FA) as FA2.
      destruct (cset_clause_ok bo i c nlit ncl ncls np ia ip j W ND Hnp Hfit Pa Pp il Hil lits rest Llits strict h cd cl cs od o os
                  aa x ab na y nb pcs r) with (ap := ap)
        as (o' & ap' & x' & y' & pcs1 & r1 & h1 & T1 & E1 & HO1 & CA1 & IX1 & SX1 & R1 & K1 & CN1 & K2 & CP1 & LP1 & M1 & U1); auto.
      destruct (IH (cd ++ [cl]) (od ++ [o']) os (aa ++ [x']) ab (na ++ [y']) nb pcs1 r1 h1 aps)
        as (os2 & aps2 & ab2 & nb2 & pcs2 & r2 & h2 & T2 & E2 & HO2 & LO2 & CA2 & LA2 & FA2' & EA2' & R2 & K3 & CN2 & LN2 & K4 & CP2 & LP2 & M2 & U2).
      + now rewrite <- app_assoc.
      + now rewrite <- app_assoc.
      + rewrite !app_length. cbn [length]. nlia.
      + cbn [length] in LS. nlia.
      + rewrite !app_length. cbn [length]. nlia.
      + cbn [length] in LB. nlia.
      + rewrite !app_length. cbn [length]. nlia.
      + cbn [length] in LM. nlia.
      + rewrite <- app_assoc. eapply only_cells; [exact U1| |exact HC].
        unfold cset_ids. cbn [In]. destruct bo; cbn [In]; [destruct (D7 eq_refl)|]; intuition congruence.
      + rewrite <- app_assoc. exact HO1.
      + rewrite <- app_assoc. exact CA1.
      + exact FA2.
      + intros B. rewrite <- app_assoc. now apply CN1.
      + exact CP1.
      + exact LP1.
      + intros ST B m N. destruct (nth_error pcs m) as [[a|]|] eqn:NP.
        * destruct (M1 m a NP). congruence.
        * exact (HS ST B m NP).
        * apply nth_error_None in NP. assert (m < length pcs1)%nat by (apply nth_error_Some; congruence). nlia.
      + eapply only_cells; [exact U1| |exact C]. unfold cset_ids. cbn [In]. destruct bo; cbn [In]; [specialize (I5 eq_refl)|]; intuition congruence.
      + rewrite app_length. cbn [length]. rewrite Nat.add_1_r. exact EA2.
      + exists (o' :: os2), (ap' :: aps2), (x' :: ab2), (y' :: nb2), pcs2, r2, h2.
        rewrite app_length in T2, E2, EA2'. cbn [length] in T2, E2, EA2'. rewrite Nat.add_1_r in T2, EA2'.
        cbn [conv_output_loop fill_from]. rewrite T1, T2. split; [reflexivity|].
        split.
        { cbn [length mloop]. erewrite bind_some by exact E1.
          replace (Z.of_nat (length cd) + 1) with (Z.of_nat (length cd + 1)) by nlia. exact E2. }
        split; [rewrite <- app_assoc in HO2; exact HO2|]. split; [cbn [length]; congruence|].
        split; [rewrite <- app_assoc in CA2; exact CA2|]. split; [cbn [length]; congruence|].
        split; [constructor; auto|]. split; [cbn [map]; rewrite SX1, EA2'; reflexivity|].
        split; [constructor; auto|]. split; [constructor; auto|].
        split; [intros B; specialize (CN2 B); rewrite <- app_assoc in CN2; exact CN2|]. split; [cbn [length]; congruence|].
        split; [constructor; auto|]. split; [auto|]. split; [auto|].
        split; [intros m a N; destruct (M1 m a N); eauto|]. eapply only_trans; eauto.
  Qed.

  (** Evaluation *)
  Lemma ceval_patches_ok : forall n k h cd cl cs od os,
    (k + n <= np)%nat -> Forall (clen nlit) (cd ++ cl :: cs) -> length (cd ++ cl :: cs) = ncl -> length od = length cd ->
    holds h (i_clauses i) (flat_clauses (cd ++ cl :: cs)) ->
    holds h (i_outputs i) (od ++ 0 :: os) ->
    cells h il (map Some lits ++ rest) ->
    exists h', mfor n (Z.of_nat k) (h_ceval_patch (start il) c (Z.of_nat (length cd))) tt h = Some (tt, h') /\
      holds h' (i_outputs i) (od ++ conv_eval_patches nlit lits cl (seq k n) :: os) /\ only [i_outputs i] h h'.
  Proof.
    induction n as [|n IH]; intros k h cd cl cs od os K F L LO HC HO C.
    - exists h. split; [reflexivity|]. split; [exact HO|apply only_refl].
    - assert (Fc : clen nlit cl) by (apply Forall_app in F; destruct F as [_ F]; now inversion F).
      destruct Fc as [Lpos Lneg].
      destruct (at_patch bo i c nlit ncl ncls np W Hfit il lits rest Llits h k C) as (lpre & rest' & C' & Ll & Lpt & E0); [nlia|].
      assert (HCr := HC). rewrite flat_mid in HCr.
      destruct (ceval_loop (i_clauses i) il (flat_clauses cd) (flat_clauses cs) lpre rest' (cl_pos cl) [] [] (cl_neg cl) []
                  (patch nlit lits k) true h) as (p1 & p2 & out & em & E1 & E2);
        [reflexivity|reflexivity|congruence|congruence|exact HCr|exact C'|].
      cbn [app length] in E1. rewrite Lpos, Nat.add_0_r in E1.
      cbn [mfor seq conv_eval_patches]. rewrite E2.
      assert (ST : h_ceval_patch (start il) c (Z.of_nat (length cd)) (Z.of_nat k) tt h =
        ((let out := if em then false else out in
          if out then store_at (hs_outputs (hc_s c)) (Z.of_nat (length cd)) 1 ;;; ret (true, tt) else ret (false, tt)) h)).
      { unfold h_ceval_patch.
        erewrite bind_some by (eapply (h_halves_ok bo i (hc_s c) nlit ncl ncls W); eauto).
        rewrite E0. cbn [fst snd].
        rewrite (wo_nlit _ _ _ _ _ _ W), Nat2Z.id. erewrite bind_some by exact E1. reflexivity. }
      unfold bind at 1. rewrite ST. cbv zeta. destruct (if em then false else out).
      + rewrite (wo_po _ _ _ _ _ _ W).
        destruct (store_at_mid h (i_outputs i) od 0 os 0 (Z.of_nat (length cd)) 1 HO) as (h1 & S1 & H1 & U1); [nlia|].
        unfold start at 1. unfold bind at 1. rewrite S1. cbn [fst snd ret].
        exists h1. split; [reflexivity|]. split; auto.
      + unfold ret at 1. cbn [fst snd].
        destruct (IH (S k) h cd cl cs od os) as (h' & E & H' & U'); auto; [nlia|].
        exists h'. replace (Z.of_nat k + 1) with (Z.of_nat (S k)) by nlia. auto.
  Qed.

  Lemma ceval_all_ok : forall cs cd od os h,
    Forall (clen nlit) (cd ++ cs) -> length (cd ++ cs) = ncl -> length od = length cd -> length os = length cs ->
    holds h (i_clauses i) (flat_clauses (cd ++ cs)) ->
    holds h (i_outputs i) (od ++ os) ->
    cells h il (map Some lits ++ rest) ->
    exists h', mloop (length cs) (Z.of_nat (length cd)) (h_ceval_clause (start il) c) tt h = Some (tt, h') /\
      holds h' (i_outputs i) (od ++ map (fun cl => conv_eval_patches nlit lits cl (seq 0 np)) cs) /\ only [i_outputs i] h h'.
  Proof.
    pose proof (nodup4 _ _ (wo_distinct _ _ _ _ _ _ W)) as (D1 & D2 & D3 & D4 & D5 & D6 & D7).
    destruct (other_ids _ _ _ _ _ Hil) as (I0 & I6 & I7). destruct (il_ne bo i il I0) as (I1 & I2 & I3 & I4 & I5).
    induction cs as [|cl cs IH]; intros cd od os h F L LO LS HC HO C.
    - destruct os; [|discriminate]. exists h. split; [reflexivity|]. split; [exact HO|]. apply only_refl.
    - destruct os as [|o os]; [discriminate|].
      destruct (store_at_mid h (i_outputs i) od o os 0 (Z.of_nat (length cd)) 0 HO) as (h0 & S0 & H0 & U0); [nlia|].
      destruct (ceval_patches_ok np 0 h0 cd cl cs od os) as (h1 & E1 & H1 & U1); auto.
      { eapply cells_one; [exact U0|auto|exact HC]. }
      { eapply cells_one; [exact U0|auto|exact C]. }
      assert (U01 : only [i_outputs i] h h1) by (eapply only_trans; eauto).
      destruct (IH (cd ++ [cl]) (od ++ [conv_eval_patches nlit lits cl (seq 0 np)]) os h1) as (h' & E & H' & U').
      + now rewrite <- app_assoc.
      + now rewrite <- app_assoc.
      + rewrite !app_length. cbn [length]. nlia.
      + cbn [length] in LS. nlia.
      + rewrite <- app_assoc. eapply cells_one; [exact U01| |exact HC]. auto.
      + rewrite <- app_assoc. exact H1.
      + eapply cells_one; [exact U01| |exact C]. auto.
      + exists h'. split; [|split].
        * cbn [length mloop]. unfold h_ceval_clause at 1. rewrite (wo_po _ _ _ _ _ _ W). unfold start at 1.
          unfold bind at 1 2. rewrite S0. rewrite Hnp, Nat2Z.id. change (Z.of_nat 0) with 0 in E1. rewrite E1.
          rewrite app_length in E. cbn [length] in E.
          replace (Z.of_nat (length cd) + 1) with (Z.of_nat (length cd + 1)) by nlia. exact E.
        * cbn [map]. rewrite <- app_assoc in H'. exact H'.
        * eapply only_trans; eauto.
  Qed.

  (** Update *)
  Lemma patch_ptr_ok : forall strict h x k, cells h il (map Some lits ++ rest) -> in_patches np x -> (strict = true -> x <> None) ->
    exists p, h_patch_ptr strict (start il) (seen ja k x) (hs_nlit (hc_s c)) h = Some (p, h) /\
      (x <> None -> exists lpre rest', p = lp il lpre /\
         cells h il (lpre ++ map Some (patch nlit lits (Z.to_nat (seen ja k x))) ++ rest') /\
         length (patch nlit lits (Z.to_nat (seen ja k x))) = nlit).
  Proof.
    intros strict h x k C IX ST. rewrite (wo_nlit _ _ _ _ _ _ W). unfold h_patch_ptr.
    destruct x as [a|].
    - cbn [seen in_patches] in *.
      destruct (at_patch bo i c nlit ncl ncls np W Hfit il lits rest Llits h (Z.to_nat a) C) as (lpre & rest' & C' & Ll & Lpt & E0); [nlia|].
      assert (B : (Z.to_nat a * nlit <= np * nlit)%nat) by (apply Nat.mul_le_mono_r; nlia).
      unfold int_max in Hfit.
      assert (EM : (a * Z.of_nat nlit) mod 2 ^ 32 = Z.of_nat (length lpre)).
      { rewrite Ll. rewrite Z.mod_small; nlia. }
      exists (lp il lpre). split.
      + rewrite EM. destruct strict.
        * unfold start, lp. replace (Z.of_nat (length lpre)) with (0 + Z.of_nat (length lpre)) at 2 by nlia.
          eapply padd_ok; [exact C|]. rewrite app_length, map_length. nlia.
        * reflexivity.
      + intros _. exists lpre, rest'. auto.
    - destruct strict; [exfalso; now apply ST|]. eexists. split; [reflexivity|]. intros N. now destruct N.
  Qed.

  Lemma cupdate_body_ok : forall strict boost pc pp nc npr h cd cl cs wd ws wr pa o pb aa x ab na y nb r f,
    (pc < ncls)%nat -> (nc < ncls)%nat ->
    Forall (clen nlit) (cd ++ cl :: cs) -> length (cd ++ cl :: cs) = ncl ->
    Forall (fun w => length w = ncls) (wd ++ ws :: wr) -> length wd = length cd -> length wr = length cs ->
    length pa = length cd -> length aa = length cd -> length na = length cd ->
    holds h (i_clauses i) (flat_clauses (cd ++ cl :: cs)) ->
    holds h (i_weights i) (concat (wd ++ ws :: wr)) ->
    holds h (i_outputs i) (pa ++ o :: pb) ->
    cells h ia (aa ++ x :: ab) -> in_patches np x -> (strict = true -> x <> None) -> (o = 1 -> x <> None) ->
    (bo = true -> cells h (i_counts i) (na ++ y :: nb) /\ (strict = true -> y <> None)) ->
    cells h il (map Some lits ++ rest) ->
    exists c' ws' o' r' f' h',
      train_update_clause bo boost (hs_budget (hc_s c)) (hs_s_inv (hc_s c)) (hs_s_min1_inv (hc_s c))
        (patch nlit lits (Z.to_nat (seen ja (length cd) x))) pc pp nc npr cl ws o (seen (j_counts j) (length cd) y) r f =
        (c', ws', o', r', f') /\
      h_cupdate_body strict bo boost j c (start il) (Z.of_nat pc) pp (Z.of_nat nc) npr (Z.of_nat (nlit * 2))
        (Z.of_nat (length cd)) (r, f) h = Some ((r', f'), h') /\
      clen nlit c' /\ length ws' = ncls /\
      holds h' (i_clauses i) (flat_clauses (cd ++ c' :: cs)) /\
      holds h' (i_weights i) (concat (wd ++ ws' :: wr)) /\
      holds h' (i_outputs i) (pa ++ o' :: pb) /\ only (upd_ids i) h h'.
  Proof.
    intros strict boost pc pp nc npr h cd cl cs wd ws wr pa o pb aa x ab na y nb r f
      Lpc Lnc F L FW LW LR LP LA LN HC HW HO CA IX SX OX HN C.
    pose proof (nodup4 _ _ (wo_distinct _ _ _ _ _ _ W)) as (D1 & D2 & D3 & D4 & D5 & D6 & D7).
    destruct (other_ids _ _ _ _ _ Hil) as (I0 & I6 & I7). destruct (il_ne bo i il I0) as (I1 & I2 & I3 & I4 & I5).
    pose proof (wo_fits _ _ _ _ _ _ W) as (F1 & F2 & F3 & F4 & F5).
    assert (Fd : Forall (clen nlit) cd) by (apply Forall_app in F; tauto).
    assert (Fc : clen nlit cl) by (apply Forall_app in F; destruct F as [_ F]; now inversion F).
    pose proof (flat_len nlit cd Fd) as Ld. pose proof (flat_len nlit _ F) as La.
    rewrite L in La. rewrite app_length in L. cbn [length] in L.
    assert (FWd : Forall (fun w => length w = ncls) wd) by (apply Forall_app in FW; tauto).
    assert (Lws : length ws = ncls) by (apply Forall_app in FW; destruct FW as [_ FW]; now inversion FW).
    assert (LWa : length (concat (wd ++ ws :: wr)) = (ncl * ncls)%nat).
    { rewrite (concat_len _ _ FW), app_length. cbn [length]. f_equal. nlia. }
    assert (B1 : (length cd * (nlit * 2) <= ncl * nlit * 2)%nat)
      by (rewrite <- Nat.mul_assoc; apply Nat.mul_le_mono_r; clear - L; nlia).
    assert (B2 : (length cd * ncls <= ncl * ncls)%nat) by (apply Nat.mul_le_mono_r; clear - L; nlia).
    unfold h_cupdate_body, train_update_clause. rewrite (wo_pc _ _ _ _ _ _ W), (wo_pw _ _ _ _ _ _ W), (wo_ncls _ _ _ _ _ _ W).
    erewrite bind_some by (apply imul_ok; nlia).
    unfold start at 1.
    erewrite bind_some by (eapply padd_ok; [exact HC|rewrite map_length, La; nlia]).
    erewrite bind_some by (apply imul_ok; nlia).
    unfold start at 1.
    erewrite bind_some by (eapply padd_ok; [exact HW|rewrite map_length, LWa; nlia]).
    rewrite Pa, !Nat2Z.id. unfold start at 1.
    assert (NX : nth_error (aa ++ x :: ab) (Z.to_nat (0 + Z.of_nat (length cd))) = Some x).
    { rewrite Z.add_0_l, Nat2Z.id, <- LA. apply hnth_mid. }
    unfold bind at 1. rewrite (load_any_ok strict _ h ia _ 0 (Z.of_nat (length cd)) x CA ltac:(nlia) NX SX).
    fold (seen ja (length cd) x).
    destruct (patch_ptr_ok strict h x (length cd) C IX SX) as (p & EP & HP).
    unfold bind at 1. rewrite EP.
    (* the budget *)
    assert (STB : exists h1,
      (if bo then n <- load_any strict (j_counts j (length cd)) (hs_counts (hc_s c)) (Z.of_nat (length cd)) ;;
                  if n >? hs_budget (hc_s c) then store_at (hs_outputs (hc_s c)) (Z.of_nat (length cd)) 0 else ret tt
       else ret tt) h = Some (tt, h1) /\
      holds h1 (i_outputs i) (pa ++ (if bo && (seen (j_counts j) (length cd) y >? hs_budget (hc_s c)) then 0 else o) :: pb) /\ only [i_outputs i] h h1).
    { destruct bo.
      - destruct (HN eq_refl) as (Hn & Sn). rewrite (wo_pl _ _ _ _ _ _ W eq_refl), (wo_po _ _ _ _ _ _ W).
        assert (NY : nth_error (na ++ y :: nb) (Z.to_nat (0 + Z.of_nat (length cd))) = Some y).
        { rewrite Z.add_0_l, Nat2Z.id, <- LN. apply hnth_mid. }
        unfold start at 1. unfold bind at 1. rewrite (load_any_ok strict _ h _ _ 0 (Z.of_nat (length cd)) y Hn ltac:(nlia) NY Sn).
        fold (seen (j_counts j) (length cd) y).
        cbn [andb]. destruct (seen (j_counts j) (length cd) y >? hs_budget (hc_s c)).
        + eapply store_at_mid; [exact HO|nlia].
        + exists h. split; [reflexivity|]. split; [exact HO|apply only_refl].
      - exists h. split; [reflexivity|]. split; [exact HO|apply only_refl]. }
    destruct STB as (h1 & E1 & HO1 & U1). erewrite bind_some by exact E1.
    set (o1 := if bo && (seen (j_counts j) (length cd) y >? hs_budget (hc_s c)) then 0 else o) in *. cbv zeta.
    assert (HC1 : holds h1 (i_clauses i) (flat_clauses (cd ++ cl :: cs))) by (eapply cells_one; [exact U1|auto|exact HC]).
    assert (HW1 : holds h1 (i_weights i) (concat (wd ++ ws :: wr))) by (eapply cells_one; [exact U1|auto|exact HW]).
    assert (OX1 : o1 = 1 -> x <> None).
    { unfold o1. destruct (bo && (seen (j_counts j) (length cd) y >? hs_budget (hc_s c))); [discriminate|exact OX]. }
    replace (0 + Z.of_nat (length cd) * Z.of_nat (nlit * 2)) with (Z.of_nat (length (flat_clauses cd))) by nlia.
    fold (rp (i_clauses i) (flat_clauses cd)).
    replace (0 + Z.of_nat (length cd) * Z.of_nat ncls) with (Z.of_nat (length cd * ncls)) by nlia.
    set (pl := patch nlit lits (Z.to_nat (seen ja (length cd) x))) in *.
    assert (HALF : forall g cx wx k target rr (d : bool),
      clen nlit cx -> (k < ncls)%nat -> length wx = ncls ->
      holds g (i_clauses i) (flat_clauses (cd ++ cx :: cs)) -> holds g (i_weights i) (concat (wd ++ wx :: wr)) ->
      holds g (i_outputs i) (pa ++ o1 :: pb) -> (forall id cs0, id = il -> cells h il cs0 -> cells g id cs0) ->
      exists c' ws' r' h',
        (if d then
           let '(c', w', r') := clause_update boost (hs_s_inv (hc_s c)) (hs_s_min1_inv (hc_s c)) cx (nth k wx 0) target pl o1 rr in
           (c', set_nth k w' wx, r')
         else (cx, wx, rr)) = (c', ws', r') /\
        (if d then
           wp <- padd (Some (mkAddr (i_weights i) (Z.of_nat (length cd * ncls)))) (Z.of_nat k) ;;
           o <- load_at (hs_outputs (hc_s c)) (Z.of_nat (length cd)) ;;
           h_clause_update boost (hc_s c) (rp (i_clauses i) (flat_clauses cd)) wp target p o rr
         else ret rr) g = Some (r', h') /\
        clen nlit c' /\ length ws' = ncls /\
        holds h' (i_clauses i) (flat_clauses (cd ++ c' :: cs)) /\
        holds h' (i_weights i) (concat (wd ++ ws' :: wr)) /\ only (cw i) g h').
    { intros g cx wx k target rr d Lc Lk Lw HCg HWg HOg Cg. destruct (Z.eq_dec o1 1) as [EO|NO].
      - destruct (HP (OX1 EO)) as (lpre & rest' & Ep & C' & Lpt). rewrite Ep.
        destruct (half_ok bo i (hc_s c) nlit ncl ncls W il I0 pl lpre rest' Lpt boost g cd cx cs wd wx wr k target o1 rr d pa pb)
          as (c2 & ws2 & r2 & h2 & G); auto.
        exists c2, ws2, r2, h2. exact G.
      - destruct (half_silent bo i (hc_s c) nlit ncl ncls W boost g cd cx cs wd wx wr k target o1 rr d pa pb pl p)
          as (c2 & ws2 & r2 & h2 & G); auto.
        exists c2, ws2, r2, h2. exact G. }
    destruct (draw_lt f pp) as [d f1].
    destruct (HALF h1 cl ws pc 1 r d) as (c2 & ws2 & r2 & h2 & T2 & E2 & Lc2 & Lw2 & HC2 & HW2 & U2); auto.
    { intros id cs0 -> X. eapply cells_one; [exact U1|auto|exact X]. }
    rewrite T2. erewrite bind_some by exact E2.
    assert (HO2 : holds h2 (i_outputs i) (pa ++ o1 :: pb)).
    { eapply only_cells; [exact U2| |exact HO1]. unfold cw. cbn [In]. intuition congruence. }
    destruct (draw_lt f1 npr) as [d2 f2].
    destruct (HALF h2 c2 ws2 nc (-1) r2 d2) as (c3 & ws3 & r3 & h3 & T3 & E3 & Lc3 & Lw3 & HC3 & HW3 & U3); auto.
    { intros id cs0 -> X. eapply only_cells; [exact U2| |eapply cells_one; [exact U1|auto|exact X]].
      unfold cw. cbn [In]. intuition congruence. }
    rewrite T3. erewrite bind_some by exact E3.
    exists c3, ws3, o1, r3, f2, h3. split; [reflexivity|]. split; [reflexivity|]. split; [auto|]. split; [auto|].
    split; [auto|]. split; [auto|]. split.
    - eapply only_cells; [exact U3| |exact HO2]. unfold cw. cbn [In]. intuition congruence.
    - eapply only_trans; [eapply only1; [exact U1|unfold upd_ids; cbn [In]; auto]|].
      assert (incl (cw i) (upd_ids i)) by (unfold cw, upd_ids; intros z [X|[X|[]]]; cbn [In]; auto).
      eapply only_trans; eapply only_incl; eauto.
  Qed.

  Lemma cupdate_all_ok : forall strict boost pc pp nc npr cs cd wd wss pa os aa ab na nb h r f aps,
    (pc < ncls)%nat -> (nc < ncls)%nat ->
    Forall (clen nlit) (cd ++ cs) -> length (cd ++ cs) = ncl ->
    Forall (fun w => length w = ncls) (wd ++ wss) -> length wd = length cd -> length wss = length cs ->
    length pa = length cd -> length os = length cs -> length aa = length cd -> length ab = length cs ->
    length na = length cd -> length nb = length cs ->
    holds h (i_clauses i) (flat_clauses (cd ++ cs)) ->
    holds h (i_weights i) (concat (wd ++ wss)) ->
    holds h (i_outputs i) (pa ++ os) ->
    cells h ia (aa ++ ab) -> Forall (in_patches np) ab -> (strict = true -> Forall (fun x => x <> None) ab) ->
    Forall2 (fun o x => o = 1 -> x <> None) os ab ->
    (bo = true -> cells h (i_counts i) (na ++ nb) /\ (strict = true -> Forall (fun y => y <> None) nb)) ->
    cells h il (map Some lits ++ rest) ->
    fill_from ja (length cd) ab = map Z.of_nat aps ->
    exists cs' wss' os' r' f' h',
      conv_update_loop bo boost (hs_budget (hc_s c)) (hs_s_inv (hc_s c)) (hs_s_min1_inv (hc_s c)) nlit lits pc pp nc npr
        cs wss os (fill_from (j_counts j) (length cd) nb) aps r f = (cs', wss', os', r', f') /\
      mloop (length cs) (Z.of_nat (length cd))
        (h_cupdate_body strict bo boost j c (start il) (Z.of_nat pc) pp (Z.of_nat nc) npr (Z.of_nat (nlit * 2))) (r, f) h =
        Some ((r', f'), h') /\
      Forall (clen nlit) cs' /\ length cs' = length cs /\
      Forall (fun w => length w = ncls) wss' /\ length wss' = length cs /\ length os' = length cs /\
      holds h' (i_clauses i) (flat_clauses (cd ++ cs')) /\
      holds h' (i_weights i) (concat (wd ++ wss')) /\
      holds h' (i_outputs i) (pa ++ os') /\ only (upd_ids i) h h'.
  Proof.
    intros strict.
    pose proof (nodup4 _ _ (wo_distinct _ _ _ _ _ _ W)) as (D1 & D2 & D3 & D4 & D5 & D6 & D7).
    destruct (conv_distinct _ _ _ _ ND) as (X1 & X2 & X3 & _).
    destruct (il_ne bo i ia X1) as (Z1 & Z2 & Z3 & Z4 & Z5).
    destruct (other_ids _ _ _ _ _ Hil) as (I0 & I6 & I7). destruct (il_ne bo i il I0) as (I1 & I2 & I3 & I4 & I5).
    intros boost pc pp nc npr. induction cs as [|cl cs IH];
      intros cd wd wss pa os aa ab na nb h r f aps Lpc Lnc F L FW LW LW2 LP LS LA LB LN LM HC HW HO CA FA SA OA HN C EA.
    - destruct wss; [|discriminate]. destruct os; [|discriminate].
      exists [], [], [], r, f, h. split; [reflexivity|]. split; [reflexivity|]. split; [constructor|]. split; [reflexivity|].
      split; [constructor|]. split; [reflexivity|]. split; [reflexivity|]. split; [auto|]. split; [auto|]. split; [auto|apply only_refl].
    - destruct wss as [|ws wss]; [discriminate|]. destruct os as [|o os]; [discriminate|].
      destruct ab as [|x ab]; [discriminate|]. destruct nb as [|y nb]; [discriminate|].
      destruct aps as [|ap aps]; [discriminate|]. cbn [fill_from map] in EA. injection EA as EA1 EA2.
      pose proof (Forall_inv FA) as FA1. pose proof (Forall_inv_tail FA) as FA2.
      inversion_clear OA as [|o0 x1 os0 ab1 OA1 OA2].
      destruct (cupdate_body_ok strict boost pc pp nc npr h cd cl cs wd ws wss pa o os aa x ab na y nb r f)
        as (c' & ws' & o' & r1 & f1 & h1 & T1 & E1 & Lc & Lw & HC1 & HW1 & HO1 & U1); auto.
      { intros ST. specialize (SA ST). now inversion SA. }
      { intros B. destruct (HN B) as [N1 N2]. split; [auto|]. intros ST. specialize (N2 ST). now inversion N2. }
      destruct (IH (cd ++ [c']) (wd ++ [ws']) wss (pa ++ [o']) os (aa ++ [x]) ab (na ++ [y]) nb h1 r1 f1 aps)
        as (cs2 & wss2 & os2 & r2 & f2 & h2 & T2 & E2 & G1 & G2 & G3 & G4 & G5 & HC2 & HW2 & HO2 & U2).
      + auto.
      + auto.
      + rewrite <- app_assoc. apply Forall_app in F. destruct F as [Fa Fb]. inversion Fb; subst.
        apply Forall_app. split; auto. cbn [app]. constructor; auto.
      + rewrite app_length in *. cbn [length] in *. rewrite app_length. cbn [length]. nlia.
      + rewrite <- app_assoc. apply Forall_app in FW. destruct FW as [Fa Fb]. inversion Fb; subst.
        apply Forall_app. split; auto. cbn [app]. constructor; auto.
      + rewrite !app_length. cbn [length]. nlia.
      + cbn [length] in LW2. nlia.
      + rewrite !app_length. cbn [length]. nlia.
      + cbn [length] in LS. nlia.
      + rewrite !app_length. cbn [length]. nlia.
      + cbn [length] in LB. nlia.
      + rewrite !app_length. cbn [length]. nlia.
      + cbn [length] in LM. nlia.
      + rewrite <- app_assoc. exact HC1.
      + rewrite <- app_assoc. exact HW1.
      + rewrite <- app_assoc. exact HO1.
      + rewrite <- app_assoc. eapply only_cells; [exact U1| |exact CA]. apply upd_other; auto.
      + exact FA2.
      + intros ST. specialize (SA ST). now inversion SA.
      + exact OA2.
      + intros B. destruct (HN B) as (N1 & N2). split.
        * rewrite <- app_assoc. cbn [app]. eapply only_cells; [exact U1| |exact N1].
          destruct (D7 B) as (D71 & D72 & D73 & D74). apply upd_other; auto.
        * intros ST. specialize (N2 ST). now inversion N2.
      + eapply only_cells; [exact U1| |exact C]. apply upd_other; auto.
      + rewrite app_length. cbn [length]. rewrite Nat.add_1_r. exact EA2.
      + exists (c' :: cs2), (ws' :: wss2), (o' :: os2), r2, f2, h2.
        rewrite app_length in T2, E2. cbn [length] in T2, E2. rewrite Nat.add_1_r in T2.
        cbn [conv_update_loop length mloop fill_from hd tl].
        rewrite EA1, Nat2Z.id in T1. rewrite T1, T2. split; [reflexivity|].
        split.
        { erewrite bind_some by exact E1.
          replace (Z.of_nat (length cd) + 1) with (Z.of_nat (length cd + 1)) by nlia. exact E2. }
        split; [constructor; auto|]. split; [congruence|]. split; [constructor; auto|]. split; [congruence|]. split; [congruence|].
        split; [rewrite <- app_assoc in HC2; exact HC2|]. split; [rewrite <- app_assoc in HW2; exact HW2|].
        split; [rewrite <- app_assoc in HO2; exact HO2|]. eapply only_trans; eauto.
  Qed.
End Kernels.
