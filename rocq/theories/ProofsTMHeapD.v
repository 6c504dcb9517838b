(** The update of the clauses on the heap. *)
From Coq Require Import ZArith List Bool QArith Lia ZifyBool.
From Verif Require Import Base ModelHeap ModelDense ModelFeedback ModelTMHeap SpecHeap ProofsHeap ProofsTMHeap ProofsTMHeapB ProofsTMHeapC.
Import ListNotations.
Open Scope Z_scope.

Lemma split_at : forall A (l : list A) k d, (k < length l)%nat ->
  exists a b, l = a ++ nth k l d :: b /\ length a = k.
Proof.
  intros A l k d L. destruct (nth_split l d L) as (a & b & E & La). eauto.
Qed.

(** the allocations an update may change *)
Definition upd_ids (i : ids) : list nat := [i_clauses i; i_outputs i; i_weights i].
Lemma upd_other : forall i id, id <> i_clauses i -> id <> i_outputs i -> id <> i_weights i -> ~ In id (upd_ids i).
Proof. intros. unfold upd_ids. cbn [In]. intuition congruence. Qed.

Section Feedback.
  Variables (bo : bool) (i : ids) (s : hstate) (nlit ncl ncls : nat).
  Hypothesis W : wf_obj bo i s nlit ncl ncls.
  Variable il : nat.
  Hypothesis Hil : ~ In il (owned bo i).
  Variables (lits : list Z) (lpre rest : list (option Z)).
  Hypothesis Llits : length lits = nlit.

  Definition cw : list nat := [i_clauses i; i_weights i].

  Lemma clause_update_ok : forall boost h cd c cs wa w wb target out r,
    clen nlit c ->
    holds h (i_clauses i) (flat_clauses (cd ++ c :: cs)) ->
    holds h (i_weights i) (wa ++ w :: wb) ->
    cells h il (lpre ++ map Some lits ++ rest) ->
    exists c' w' r' h',
      clause_update boost (hs_s_inv s) (hs_s_min1_inv s) c w target lits out r = (c', w', r') /\
      h_clause_update boost s (rp (i_clauses i) (flat_clauses cd))
        (Some (mkAddr (i_weights i) (Z.of_nat (length wa)))) target (lp il lpre) out r h = Some (r', h') /\
      clen nlit c' /\
      holds h' (i_clauses i) (flat_clauses (cd ++ c' :: cs)) /\
      holds h' (i_weights i) (wa ++ w' :: wb) /\ only cw h h'.
  Proof.
    intros boost h cd c cs wa w wb target out r [Lp Lq] HC HW C.
    pose proof (nodup4 _ _ (wo_distinct _ _ _ _ _ _ W)) as (_ & _ & D3 & _ & _ & _ & _).
    destruct (il_ne bo i il Hil) as (I1 & _ & _ & I4 & _).
    assert (NL : hs_nlit s = Z.of_nat (length (cl_pos c))) by (rewrite Lp; apply (wo_nlit _ _ _ _ _ _ W)).
    rewrite flat_mid in HC.
    unfold clause_update, h_clause_update.
    erewrite bind_some by (eapply load_mid; [exact HW|reflexivity]). cbv zeta.
    destruct (target * (if w >=? 0 then 1 else -1) >? 0).
    - destruct (out =? 1).
      + destruct (store_mid h (i_weights i) wa w wb (Z.of_nat (length wa))
                    (wrap16 (w + (if w >=? 0 then 1 else -1))) HW eq_refl) as (h1 & E1 & H1 & U1).
        destruct (h_type1a_ok (i_clauses i) il (flat_clauses cd) (flat_clauses cs) lpre (not_eq_sym I1) boost s
                    (cl_pos c) (cl_neg c) lits rest r h1 NL) as (p' & q' & r' & h' & T & E & H' & U');
          [congruence|congruence|eapply cells_one; [exact U1|auto|exact HC]|eapply cells_one; [exact U1|auto|exact C]|].
        exists (mkClause p' q'), (wrap16 (w + (if w >=? 0 then 1 else -1))), r', h'.
        rewrite T. split; [reflexivity|]. split; [erewrite bind_some by exact E1; exact E|].
        apply type1a_len in T. split; [red; cbn [cl_pos cl_neg]; lia|].
        split; [rewrite flat_mid; exact H'|]. split; [eapply cells_one; [exact U'|auto|exact H1]|].
        eapply only_trans; eapply only1; eauto; unfold cw; cbn [In]; auto.
      + destruct (h_type1b_ok (i_clauses i) il (flat_clauses cd) (flat_clauses cs) (not_eq_sym I1) s
                    (cl_pos c) (cl_neg c) r h NL) as (p' & q' & r' & h' & T & E & H' & U');
          [congruence|exact HC|].
        exists (mkClause p' q'), w, r', h'.
        rewrite T. split; [reflexivity|]. split; [exact E|].
        apply type1b_len in T. split; [red; cbn [cl_pos cl_neg]; lia|].
        split; [rewrite flat_mid; exact H'|]. split; [eapply cells_one; [exact U'|auto|exact HW]|].
        eapply only1; eauto; unfold cw; cbn [In]; auto.
    - destruct ((target * (if w >=? 0 then 1 else -1) <? 0) && (out =? 1)).
      + destruct (store_mid h (i_weights i) wa w wb (Z.of_nat (length wa))
                    (wrap16 (w - (if w >=? 0 then 1 else -1))) HW eq_refl) as (h1 & E1 & H1 & U1).
        destruct (h_type2_ok (i_clauses i) il (flat_clauses cd) (flat_clauses cs) lpre (not_eq_sym I1) s
                    (cl_pos c) (cl_neg c) lits rest h1 NL) as (p' & q' & h' & T & E & H' & U');
          [congruence|congruence|eapply cells_one; [exact U1|auto|exact HC]|eapply cells_one; [exact U1|auto|exact C]|].
        exists (mkClause p' q'), (wrap16 (w - (if w >=? 0 then 1 else -1))), r, h'.
        rewrite T. split; [reflexivity|].
        split; [erewrite bind_some by exact E1; erewrite bind_some by exact E; reflexivity|].
        apply type2_len in T. split; [red; cbn [cl_pos cl_neg]; lia|].
        split; [rewrite flat_mid; exact H'|]. split; [eapply cells_one; [exact U'|auto|exact H1]|].
        eapply only_trans; eapply only1; eauto; unfold cw; cbn [In]; auto.
      + exists c, w, r, h. split; [reflexivity|]. split; [reflexivity|]. split; [red; auto|].
        split; [rewrite flat_mid; exact HC|]. split; [exact HW|apply only_refl].
  Qed.

  (** One of the two draws of the clause loop: class [cl], target [target]. *)
  Lemma half_ok : forall boost h cd c cs wd ws wr k target out r (d : bool) pa pb,
    clen nlit c -> (k < ncls)%nat -> length ws = ncls ->
    Forall (fun w => length w = ncls) wd -> length wd = length cd ->
    holds h (i_clauses i) (flat_clauses (cd ++ c :: cs)) ->
    holds h (i_weights i) (concat (wd ++ ws :: wr)) ->
    holds h (i_outputs i) (pa ++ out :: pb) -> length pa = length cd ->
    cells h il (lpre ++ map Some lits ++ rest) ->
    exists c' ws' r' h',
      (if d then
         let '(c', w', r') := clause_update boost (hs_s_inv s) (hs_s_min1_inv s) c (nth k ws 0) target lits out r in
         (c', set_nth k w' ws, r')
       else (c, ws, r)) = (c', ws', r') /\
      (if d then
         wp <- padd (Some (mkAddr (i_weights i) (Z.of_nat (length cd * ncls)))) (Z.of_nat k) ;;
         o <- load_at (hs_outputs s) (Z.of_nat (length cd)) ;;
         h_clause_update boost s (rp (i_clauses i) (flat_clauses cd)) wp target (lp il lpre) o r
       else ret r) h = Some (r', h') /\
      clen nlit c' /\ length ws' = ncls /\
      holds h' (i_clauses i) (flat_clauses (cd ++ c' :: cs)) /\
      holds h' (i_weights i) (concat (wd ++ ws' :: wr)) /\ only cw h h'.
  Proof.
    intros boost h cd c cs wd ws wr k target out r d pa pb Lc Lk Lw Fd Ld HC HW HO LP C.
    destruct d.
    2: { exists c, ws, r, h. split; [reflexivity|]. split; [reflexivity|].
         split; [auto|]. split; [auto|]. split; [auto|]. split; [auto|apply only_refl]. }
    destruct (split_at _ ws k 0) as (a & b & Es & La); [lia|].
    assert (HW2 : holds h (i_weights i) ((concat wd ++ a) ++ nth k ws 0 :: (b ++ concat wr))).
    { replace ((concat wd ++ a) ++ nth k ws 0 :: b ++ concat wr) with (concat (wd ++ ws :: wr)); [exact HW|].
      rewrite concat_app. cbn [concat]. rewrite Es at 1. listeq. }
    assert (LL : length (concat wd ++ a) = (length cd * ncls + k)%nat).
    { rewrite app_length, (concat_len _ _ Fd). lia. }
    destruct (clause_update_ok boost h cd c cs (concat wd ++ a) (nth k ws 0) (b ++ concat wr) target out r Lc HC HW2 C)
      as (c' & w' & r' & h' & T & E & Lc' & HC' & HW' & U').
    exists c', (set_nth k w' ws), r', h'.
    rewrite T. split; [reflexivity|]. split; [|split; [auto|split; [rewrite hset_length; auto|split; [auto|split; [|auto]]]]].
    - erewrite bind_some by (eapply padd_ok; [exact HW2|rewrite map_length, app_length, LL; cbn [length]; lia]).
      rewrite (wo_po _ _ _ _ _ _ W). unfold start at 1.
      erewrite bind_some by (eapply load_at_mid; [exact HO|lia]).
      rewrite LL in E. rewrite <- Nat2Z.inj_add. exact E.
    - replace (set_nth k w' ws) with (a ++ w' :: b).
      + rewrite concat_app. cbn [concat].
        replace (concat wd ++ (a ++ w' :: b) ++ concat wr) with ((concat wd ++ a) ++ w' :: b ++ concat wr) by listeq.
        exact HW'.
      + rewrite Es, <- La, hset_mid. reflexivity.
  Qed.

End Feedback.

Section Update.
  Variables (bo : bool) (i : ids) (s : hstate) (nlit ncl ncls : nat).
  Hypothesis W : wf_obj bo i s nlit ncl ncls.
  Variable il : nat.
  Hypothesis Hil : ~ In il (owned bo i).
  Variables (lits : list Z) (rest : list (option Z)).
  Hypothesis Llits : length lits = nlit.

  Lemma update_body_ok : forall boost pc pp nc np h cd c cs wd ws wr pa o pb na n nb r f,
    (pc < ncls)%nat -> (nc < ncls)%nat ->
    Forall (clen nlit) (cd ++ c :: cs) -> length (cd ++ c :: cs) = ncl ->
    Forall (fun w => length w = ncls) (wd ++ ws :: wr) -> length wd = length cd -> length wr = length cs ->
    length pa = length cd -> (bo = true -> length na = length cd /\ holds h (i_counts i) (na ++ n :: nb)) ->
    holds h (i_clauses i) (flat_clauses (cd ++ c :: cs)) ->
    holds h (i_weights i) (concat (wd ++ ws :: wr)) ->
    holds h (i_outputs i) (pa ++ o :: pb) ->
    cells h il (map Some lits ++ rest) ->
    exists c' ws' o' r' f' h',
      train_update_clause bo boost (hs_budget s) (hs_s_inv s) (hs_s_min1_inv s) lits pc pp nc np c ws o n r f =
        (c', ws', o', r', f') /\
      h_update_body bo boost s (start il) (Z.of_nat pc) pp (Z.of_nat nc) np (Z.of_nat (nlit * 2))
        (Z.of_nat (length cd)) (r, f) h = Some ((r', f'), h') /\
      clen nlit c' /\ length ws' = ncls /\
      holds h' (i_clauses i) (flat_clauses (cd ++ c' :: cs)) /\
      holds h' (i_weights i) (concat (wd ++ ws' :: wr)) /\
      holds h' (i_outputs i) (pa ++ o' :: pb) /\ only (upd_ids i) h h'.
  Proof.
    intros boost pc pp nc np h cd c cs wd ws wr pa o pb na n nb r f Lpc Lnc F L FW LW LR LP HN HC HW HO C.
    pose proof (nodup4 _ _ (wo_distinct _ _ _ _ _ _ W)) as (D1 & D2 & D3 & D4 & D5 & D6 & D7).
    destruct (il_ne bo i il Hil) as (I1 & I2 & I3 & I4 & I5).
    pose proof (wo_fits _ _ _ _ _ _ W) as (F1 & F2 & F3 & F4 & F5).
    assert (Fd : Forall (clen nlit) cd) by (apply Forall_app in F; tauto).
    assert (Fc : clen nlit c) by (apply Forall_app in F; destruct F as [_ F]; now inversion F).
    pose proof (flat_len nlit cd Fd) as Ld. pose proof (flat_len nlit _ F) as La.
    rewrite L in La. rewrite app_length in L. cbn [length] in L.
    assert (FWd : Forall (fun w => length w = ncls) wd) by (apply Forall_app in FW; tauto).
    assert (Lws : length ws = ncls) by (apply Forall_app in FW; destruct FW as [_ FW]; now inversion FW).
    assert (LWa : length (concat (wd ++ ws :: wr)) = (ncl * ncls)%nat).
    { rewrite (concat_len _ _ FW), app_length. cbn [length]. f_equal. nlia. }
    assert (B1 : (length cd * (nlit * 2) <= ncl * nlit * 2)%nat)
      by (rewrite <- Nat.mul_assoc; apply Nat.mul_le_mono_r; clear - L; lia).
    assert (B2 : (length cd * ncls <= ncl * ncls)%nat) by (apply Nat.mul_le_mono_r; clear - L; lia).
    unfold h_update_body, train_update_clause. rewrite (wo_pc _ _ _ _ _ _ W), (wo_pw _ _ _ _ _ _ W), (wo_ncls _ _ _ _ _ _ W).
    erewrite bind_some by (apply imul_ok; nlia).
    unfold start at 1.
    erewrite bind_some by (eapply padd_ok; [exact HC|rewrite map_length, La; nlia]).
    erewrite bind_some by (apply imul_ok; nlia).
    unfold start at 1.
    erewrite bind_some by (eapply padd_ok; [exact HW|rewrite map_length, LWa; nlia]).
    (* the budget *)
    assert (ST : exists h1,
      (if bo then c0 <- load_at (hs_counts s) (Z.of_nat (length cd)) ;;
                  if c0 >? hs_budget s then store_at (hs_outputs s) (Z.of_nat (length cd)) 0 else ret tt
       else ret tt) h = Some (tt, h1) /\
      holds h1 (i_outputs i) (pa ++ (if bo && (n >? hs_budget s) then 0 else o) :: pb) /\ only [i_outputs i] h h1).
    { destruct bo.
      - destruct (HN eq_refl) as (Ln & Hn). rewrite (wo_pl _ _ _ _ _ _ W eq_refl), (wo_po _ _ _ _ _ _ W).
        unfold start at 1. erewrite bind_some by (eapply load_at_mid; [exact Hn|nlia]).
        cbn [andb]. destruct (n >? hs_budget s).
        + eapply store_at_mid; [exact HO|nlia].
        + exists h. split; [reflexivity|]. split; [exact HO|apply only_refl].
      - exists h. split; [reflexivity|]. split; [exact HO|apply only_refl]. }
    destruct ST as (h1 & E1 & HO1 & U1). erewrite bind_some by exact E1.
    set (o1 := if bo && (n >? hs_budget s) then 0 else o) in *. cbv zeta.
    assert (HC1 : holds h1 (i_clauses i) (flat_clauses (cd ++ c :: cs))) by (eapply cells_one; [exact U1|auto|exact HC]).
    assert (HW1 : holds h1 (i_weights i) (concat (wd ++ ws :: wr))) by (eapply cells_one; [exact U1|auto|exact HW]).
    assert (C1 : cells h1 il (map Some lits ++ rest)) by (eapply cells_one; [exact U1|auto|exact C]).
    replace (0 + Z.of_nat (length cd) * Z.of_nat (nlit * 2)) with (Z.of_nat (length (flat_clauses cd))) by nlia.
    fold (rp (i_clauses i) (flat_clauses cd)).
    replace (0 + Z.of_nat (length cd) * Z.of_nat ncls) with (Z.of_nat (length cd * ncls)) by nlia.
    destruct (draw_lt f pp) as [d f1].
    destruct (half_ok bo i s nlit ncl ncls W il Hil lits [] rest Llits boost h1 cd c cs wd ws wr pc 1 o1 r d pa pb) as (c2 & ws2 & r2 & h2 & T2 & E2 & Lc2 & Lw2 & HC2 & HW2 & U2); auto.
    rewrite T2. erewrite bind_some by exact E2.
    assert (HO2 : holds h2 (i_outputs i) (pa ++ o1 :: pb)).
    { eapply only_cells; [exact U2| |exact HO1]. unfold cw. cbn [In]. intuition congruence. }
    assert (C2 : cells h2 il (map Some lits ++ rest)).
    { eapply only_cells; [exact U2| |exact C1]. unfold cw. cbn [In]. intuition congruence. }
    destruct (draw_lt f1 np) as [d2 f2].
    destruct (half_ok bo i s nlit ncl ncls W il Hil lits [] rest Llits boost h2 cd c2 cs wd ws2 wr nc (-1) o1 r2 d2 pa pb) as (c3 & ws3 & r3 & h3 & T3 & E3 & Lc3 & Lw3 & HC3 & HW3 & U3); auto.
    rewrite T3. erewrite bind_some by exact E3.
    exists c3, ws3, o1, r3, f2, h3. split; [reflexivity|]. split; [reflexivity|]. split; [auto|]. split; [auto|].
    split; [auto|]. split; [auto|]. split.
    - eapply only_cells; [exact U3| |exact HO2]. unfold cw. cbn [In]. intuition congruence.
    - eapply only_trans; [eapply only1; [exact U1|unfold upd_ids; cbn [In]; auto]|].
      assert (incl (cw i) (upd_ids i)) by (unfold cw, upd_ids; intros x [X|[X|[]]]; cbn [In]; auto).
      eapply only_trans; eapply only_incl; eauto.
  Qed.

  Lemma update_loop_ok : forall boost pc pp nc np cs cd wd wss pa os na ns h r f,
    (pc < ncls)%nat -> (nc < ncls)%nat ->
    Forall (clen nlit) (cd ++ cs) -> length (cd ++ cs) = ncl ->
    Forall (fun w => length w = ncls) (wd ++ wss) -> length wd = length cd -> length wss = length cs ->
    length pa = length cd -> length os = length cs ->
    (bo = true -> length na = length cd /\ length ns = length cs /\ holds h (i_counts i) (na ++ ns)) ->
    holds h (i_clauses i) (flat_clauses (cd ++ cs)) ->
    holds h (i_weights i) (concat (wd ++ wss)) ->
    holds h (i_outputs i) (pa ++ os) ->
    cells h il (map Some lits ++ rest) ->
    exists cs' wss' os' r' f' h',
      train_update_loop bo boost (hs_budget s) (hs_s_inv s) (hs_s_min1_inv s) lits pc pp nc np cs wss os ns r f =
        (cs', wss', os', r', f') /\
      mloop (length cs) (Z.of_nat (length cd))
        (h_update_body bo boost s (start il) (Z.of_nat pc) pp (Z.of_nat nc) np (Z.of_nat (nlit * 2))) (r, f) h =
        Some ((r', f'), h') /\
      Forall (clen nlit) cs' /\ length cs' = length cs /\
      Forall (fun w => length w = ncls) wss' /\ length wss' = length cs /\ length os' = length cs /\
      holds h' (i_clauses i) (flat_clauses (cd ++ cs')) /\
      holds h' (i_weights i) (concat (wd ++ wss')) /\
      holds h' (i_outputs i) (pa ++ os') /\ only (upd_ids i) h h'.
  Proof.
    pose proof (nodup4 _ _ (wo_distinct _ _ _ _ _ _ W)) as (D1 & D2 & D3 & D4 & D5 & D6 & D7).
    destruct (il_ne bo i il Hil) as (I1 & I2 & I3 & I4 & I5).
    intros boost pc pp nc np. induction cs as [|c cs IH]; intros cd wd wss pa os na ns h r f Lpc Lnc F L FW LW LW2 LP LS HN HC HW HO C.
    - destruct wss; [|discriminate]. destruct os; [|discriminate].
      exists [], [], [], r, f, h. split; [reflexivity|]. split; [reflexivity|]. split; [constructor|]. split; [reflexivity|].
      split; [constructor|]. split; [reflexivity|]. split; [reflexivity|]. split; [auto|]. split; [auto|]. split; [auto|apply only_refl].
    - destruct wss as [|ws wss]; [discriminate|]. destruct os as [|o os]; [discriminate|].
      destruct (update_body_ok boost pc pp nc np h cd c cs wd ws wss pa o os na (hd 0 ns) (tl ns) r f)
        as (c' & ws' & o' & r1 & f1 & h1 & T1 & E1 & Lc & Lw & HC1 & HW1 & HO1 & U1); auto.
      { intros B. destruct (HN B) as (Ln & Lr & Cn). destruct ns as [|x ns]; [discriminate|]. auto. }
      destruct (IH (cd ++ [c']) (wd ++ [ws']) wss (pa ++ [o']) os (na ++ [hd 0 ns]) (tl ns) h1 r1 f1)
        as (cs2 & wss2 & os2 & r2 & f2 & h2 & T2 & E2 & G1 & G2 & G3 & G4 & G5 & HC2 & HW2 & HO2 & U2).
      + auto.
      + auto.
      + rewrite <- app_assoc. apply Forall_app in F. destruct F as [Fa Fb]. inversion Fb; subst.
        apply Forall_app. split; auto. cbn [app]. constructor; auto.
      + rewrite app_length in *. cbn [length] in *. rewrite app_length. cbn [length]. nlia.
      + rewrite <- app_assoc. apply Forall_app in FW. destruct FW as [Fa Fb]. inversion Fb; subst.
        apply Forall_app. split; auto. cbn [app]. constructor; auto.
      + rewrite !app_length. cbn [length]. nlia.
      + cbn [length] in LW2. nlia.
      + rewrite !app_length. cbn [length]. nlia.
      + cbn [length] in LS. nlia.
      + intros B. destruct (HN B) as (Ln & Lr & Cn). destruct ns as [|x ns]; [discriminate|].
        cbn [hd tl]. rewrite !app_length. cbn [length] in *. split; [nlia|]. split; [nlia|].
        rewrite <- app_assoc. cbn [app]. eapply only_cells; [exact U1| |exact Cn].
        destruct (D7 B) as (D71 & D72 & D73 & D74). apply upd_other; auto.
      + rewrite <- app_assoc. exact HC1.
      + rewrite <- app_assoc. exact HW1.
      + rewrite <- app_assoc. exact HO1.
      + eapply only_cells; [exact U1| |exact C]. apply upd_other; auto.
      + exists (c' :: cs2), (ws' :: wss2), (o' :: os2), r2, f2, h2.
        cbn [train_update_loop length mloop]. rewrite T1, T2. split; [reflexivity|].
        split.
        { erewrite bind_some by exact E1. rewrite app_length in E2. cbn [length] in E2.
          replace (Z.of_nat (length cd) + 1) with (Z.of_nat (length cd + 1)) by nlia. exact E2. }
        split; [constructor; auto|]. split; [congruence|]. split; [constructor; auto|]. split; [congruence|]. split; [congruence|].
        split; [rewrite <- app_assoc in HC2; exact HC2|]. split; [rewrite <- app_assoc in HW2; exact HW2|].
        split; [rewrite <- app_assoc in HO2; exact HO2|]. eapply only_trans; eauto.
  Qed.
End Update.
