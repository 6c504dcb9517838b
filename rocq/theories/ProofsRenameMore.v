(** Renaming the classes of sparse and convolutional machines. *)
From Coq Require Import ZArith List Bool QArith Lia Lqa ZifyBool.
From Verif Require Import Base BaseProofs Spec SpecLearning SpecRename SpecRenameMore ModelInference ModelDense ModelFeedback ModelExecutor ModelSparse ModelConv ProofsRename ProofsRenameGen.
Import ListNotations.
Open Scope Z_scope.

Section RenameMore.
  Variables (n : nat) (p : nat -> nat).
  Hypothesis Hp : renaming n p.

  Lemma rin_set : forall A (d : A) a b k v, (k < n)%nat -> renamed_in d n p a b -> renamed_in d n p (set_nth k v a) (set_nth (p k) v b).
  Proof.
    intros A d a b k v Hk [A1 [A2 A3]]. pose proof (proj1 Hp k Hk). split; [rewrite set_nth_length; exact A1|]. split; [rewrite set_nth_length; exact A2|].
    intros c Hc. destruct (Nat.eq_dec c k) as [->|N]; [rewrite !nth_set_nth_eq by lia; reflexivity|].
    rewrite !nth_set_nth_neq; auto. intros E. apply N. symmetry. apply (proj2 Hp); auto.
  Qed.
  Lemma ws_nth : forall ws ws2, Forall2 (renamed n p) ws ws2 -> forall k c, (c < n)%nat -> nth (p c) (nth k ws2 []) 0 = nth c (nth k ws []) 0.
  Proof.
    induction 1 as [|w w2 ws ws2 W _ IH]; intros k c Hc; [destruct k; cbn [nth]; destruct c, (p _); reflexivity|].
    destruct k as [|k]; cbn [nth]; [apply W; exact Hc|apply IH; exact Hc].
  Qed.
  Lemma ws_set : forall c v, (c < n)%nat -> forall ws ws2, Forall2 (renamed n p) ws ws2 -> forall k,
    Forall2 (renamed n p) (set_nth k (set_nth c v (nth k ws [])) ws) (set_nth k (set_nth (p c) v (nth k ws2 [])) ws2).
  Proof.
    intros c v Hc ws ws2 H. induction H as [|w w2 ws ws2 W F IH]; intros k; [destruct k; constructor|].
    destruct k as [|k]; cbn [nth set_nth]; constructor; auto. apply (ren_set n p Hp); auto.
  Qed.

  (** Sparse blocks. *)
  Definition sp_same (b b2 : sblock) : Prop := sblock_renamed n p b b2 /\ sp_outputs b2 = sp_outputs b.
  Lemma sp_store_ren : forall b b2 k s c al repl w r, (c < n)%nat -> sp_same b b2 -> sp_same (sp_store b k s c al repl w r) (sp_store b2 k s (p c) al repl w r).
  Proof.
    intros b b2 k s c al repl w r Hc [[R1 R2 [R3 R4] R5 R6 R7 R8 R9 R10 R11 R12 R13 R14 R15 R16 R17] E]. split; [|exact E].
    constructor; cbn [sp_store sp_nlit sp_ncl sp_ncls sp_csize sp_alsize sp_thr sp_rows sp_states sp_al sp_repl sp_weights sp_counts sp_budget sp_si sp_sm sp_fast]; auto; try congruence.
    - apply rin_set; auto.
    - apply rin_set; auto.
    - apply ws_set; auto.
  Qed.
  Lemma sp_clause_ren : forall boost dynamic x k c t b b2, (c < n)%nat -> sp_same b b2 ->
    sp_same (sp_clause_update boost dynamic x k c t b) (sp_clause_update boost dynamic x k (p c) t b2).
  Proof.
    intros boost dynamic x k c t b b2 Hc S. pose proof S as [[R1 R2 [R3 R4] R5 R6 R7 R8 R9 R10 R11 R12 R13 R14 R15 R16 R17] E].
    unfold sp_clause_update, prow_of, nrow_of, psts_of, nsts_of. rewrite E, R2, R5, R6, R7, R8, R9, R15, R16, R17, (proj2 (proj2 R10) c Hc), (proj2 (proj2 R11) c Hc), (ws_nth _ _ R12 k c Hc).
    cbv zeta. repeat match goal with |- sp_same (if ?q then _ else _) _ => destruct q end; auto; try (apply sp_store_ren; assumption).
    destruct (sp_t1b_row _ _ _) as [ps r]. destruct (sp_t1b_row _ _ r) as [ns r']. apply sp_store_ren; assumption.
  Qed.
  Lemma sp_fast_ren : forall b b2 o r, sp_same b b2 -> sp_same (sp_with_fast b o r) (sp_with_fast b2 o r).
  Proof.
    intros b b2 o r [[R1 R2 [R3 R4] R5 R6 R7 R8 R9 R10 R11 R12 R13 R14 R15 R16 R17] E]. split; [|reflexivity].
    constructor; cbn [sp_with_fast sp_nlit sp_ncl sp_ncls sp_csize sp_alsize sp_thr sp_rows sp_states sp_al sp_repl sp_weights sp_counts sp_budget sp_si sp_sm sp_fast]; auto.
  Qed.
  Lemma sp_update_ren : forall bo boost dynamic x pc pp nc np k b b2, (pc < n)%nat -> (nc < n)%nat -> sp_same b b2 ->
    sp_same (sp_update_clause bo boost dynamic x pc pp nc np b k) (sp_update_clause bo boost dynamic x (p pc) pp (p nc) np b2 k).
  Proof.
    intros bo boost dynamic x pc pp nc np k b b2 Hpc Hnc S. unfold sp_update_clause.
    rewrite (sr_counts _ _ _ _ (proj1 S)), (sr_budget _ _ _ _ (proj1 S)), (sr_fast _ _ _ _ (proj1 S)), (proj2 S).
    set (o := if bo && _ then _ else _). destruct (draw_lt (sp_fast b) pp) as [d r].
    assert (S1 : sp_same (if d then sp_clause_update boost dynamic x k pc 1 (sp_with_fast b o r) else sp_with_fast b o r)
                         (if d then sp_clause_update boost dynamic x k (p pc) 1 (sp_with_fast b2 o r) else sp_with_fast b2 o r)).
    { destruct d; [apply sp_clause_ren; auto|]; apply sp_fast_ren; exact S. }
    set (c1 := if d then sp_clause_update boost dynamic x k pc 1 _ else _) in *. set (c2 := if d then sp_clause_update boost dynamic x k (p pc) 1 _ else _) in *. clearbody c1 c2.
    rewrite (sr_fast _ _ _ _ (proj1 S1)), (proj2 S1). destruct (draw_lt (sp_fast c1) np) as [d2 r2].
    destruct d2; [apply sp_clause_ren; auto|]; apply sp_fast_ren; exact S1.
  Qed.
  Lemma sp_ren_upd : forall bo boost dynamic x pc pp nc np b b2, (pc < n)%nat -> (nc < n)%nat -> sp_same b b2 ->
    sblock_renamed n p (sp_train_update bo boost dynamic x pc pp nc np b) (sp_train_update bo boost dynamic x (p pc) pp (p nc) np b2).
  Proof.
    intros bo boost dynamic x pc pp nc np b b2 Hpc Hnc S. unfold sp_train_update. rewrite (sr_ncl _ _ _ _ (proj1 S)). generalize (seq 0 (sp_ncl b)). intros l.
    enough (H : sp_same (fold_left (sp_update_clause bo boost dynamic x pc pp nc np) l b) (fold_left (sp_update_clause bo boost dynamic x (p pc) pp (p nc) np) l b2)) by exact (proj1 H).
    revert b b2 S. induction l as [|k l IH]; intros b b2 S; cbn [fold_left]; [exact S|]. apply IH. apply sp_update_ren; auto.
  Qed.
  Lemma sp_count_ren : forall b b2, sp_same b b2 -> sp_same (sp_count_votes b) (sp_count_votes b2) /\ renamed n p (sp_votes (sp_count_votes b)) (sp_votes (sp_count_votes b2)).
  Proof.
    intros b b2 [[R1 R2 [R3 R4] R5 R6 R7 R8 R9 R10 R11 R12 R13 R14 R15 R16 R17] E]. unfold sp_count_votes, sp_with_outputs. cbn [sp_votes]. rewrite E, R3, R4.
    split; [|apply (ren_count n p Hp); [exact R12|apply ren_zero]]. split; [|reflexivity]. constructor; cbn; auto.
  Qed.
  Lemma sp_ren_train : forall bo x b b2, sblock_renamed n p b b2 -> sp_same (fst (sp_train_ex bo x b)) (fst (sp_train_ex bo x b2)) /\ renamed n p (snd (sp_train_ex bo x b)) (snd (sp_train_ex bo x b2)).
  Proof.
    intros bo x b b2 [R1 R2 [R3 R4] R5 R6 R7 R8 R9 R10 R11 R12 R13 R14 R15 R16 R17]. unfold sp_train_ex. cbn [fst snd]. apply sp_count_ren.
    unfold sp_train_output, sp_with_outputs, prow_of, nrow_of, psts_of, nsts_of. rewrite R2, R8, R9, R13. split; [|reflexivity]. constructor; cbn; auto.
  Qed.
  Lemma sp_ren_eval : forall x b b2, sblock_renamed n p b b2 -> renamed n p (snd (sp_eval_ex x b)) (snd (sp_eval_ex x b2)).
  Proof.
    intros x b b2 [R1 R2 [R3 R4] R5 R6 R7 R8 R9 R10 R11 R12 R13 R14 R15 R16 R17]. unfold sp_eval_ex. cbn [fst snd]. apply sp_count_ren.
    unfold sp_eval_set, sp_with_outputs, prow_of, nrow_of, psts_of, nsts_of. rewrite R2, R8, R9. split; [|reflexivity]. constructor; cbn; auto.
  Qed.

  (** Convolutional blocks. *)
  Definition cv_same (v v2 : cvblock) : Prop := cvblock_renamed n p v v2 /\ b_outputs (cv_b v2) = b_outputs (cv_b v).
  Lemma cv_loop_ren : forall bo boost bud si sm nlit x pc pp nc np, (pc < n)%nat -> (nc < n)%nat -> forall cs wss wss2 outs counts aps r f, Forall2 (renamed n p) wss wss2 ->
    exists cs' ws' ws2' o' r' f', conv_update_loop bo boost bud si sm nlit x pc pp nc np cs wss outs counts aps r f = (cs', ws', o', r', f') /\
      conv_update_loop bo boost bud si sm nlit x (p pc) pp (p nc) np cs wss2 outs counts aps r f = (cs', ws2', o', r', f') /\ Forall2 (renamed n p) ws' ws2'.
  Proof.
    intros bo boost bud si sm nlit x pc pp nc np Hpc Hnc. induction cs as [|c cs IH]; intros wss wss2 outs counts aps r f W.
    - cbn [conv_update_loop]. exists [], wss, wss2, outs, r, f. auto.
    - inversion W as [|w w2 ws ws2 W1 W2]; subst; cbn [conv_update_loop]; [exists (c :: cs), [], [], outs, r, f; auto|].
      destruct outs as [|o outs]; [exists (c :: cs), (w :: ws), (w2 :: ws2), [], r, f; auto|].
      destruct (ren_update_clause n p Hp bo boost bud si sm (patch nlit x (hd O aps)) pc pp nc np c w w2 o (hd 0 counts) r f Hpc Hnc W1) as [c1 [u1 [u2 [o1 [r1 [f1 [A1 [A2 A3]]]]]]]].
      rewrite A1, A2. destruct (IH ws ws2 outs (tl counts) (tl aps) r1 f1 W2) as [cs' [v1 [v2 [o' [r' [f' [B1 [B2 B3]]]]]]]]. rewrite B1, B2.
      exists (c1 :: cs'), (u1 :: v1), (u2 :: v2), (o1 :: o'), r', f'. auto.
  Qed.
  Lemma cv_ren_upd : forall bo boost x pc pp nc np v v2, (pc < n)%nat -> (nc < n)%nat -> cv_same v v2 ->
    cvblock_renamed n p (conv_update bo boost x pc pp nc np v) (conv_update bo boost x (p pc) pp (p nc) np v2).
  Proof.
    intros bo boost x pc pp nc np v v2 Hpc Hnc [[[R1 [R2 R3] R4 R5 R6 R7 R8 R9 R10 R11] [C1 [C2 C3]]] E]. unfold conv_update.
    rewrite R1, R4, R6, R7, R8, R9, R10, R11, C2, E.
    destruct (cv_loop_ren bo boost (b_budget (cv_b v)) (b_s_inv (cv_b v)) (b_s_min1_inv (cv_b v)) (b_nlit (cv_b v)) x pc pp nc np Hpc Hnc (b_clauses (cv_b v)) (b_weights (cv_b v)) (b_weights (cv_b v2)) (b_outputs (cv_b v)) (b_counts (cv_b v)) (cv_active v) (b_rng (cv_b v)) (b_fast (cv_b v)) R5)
      as [cs' [v1 [w2 [o' [r' [f' [B1 [B2 B3]]]]]]]]. rewrite B1, B2.
    split; [|cbn [cv_np cv_active cv_ppc]; auto]. cbn [cv_b]. constructor; cbn; auto.
  Qed.
  Lemma cv_count_ren : forall v v2, cv_same v v2 -> cv_same (cv_count_votes v) (cv_count_votes v2) /\ renamed n p (b_votes (cv_b (cv_count_votes v))) (b_votes (cv_b (cv_count_votes v2))).
  Proof.
    intros v v2 [[[R1 [R2 R3] R4 R5 R6 R7 R8 R9 R10 R11] [C1 [C2 C3]]] E]. unfold cv_count_votes, count_votes. cbn [cv_b b_votes]. rewrite E, R2, R3.
    split; [|apply (ren_count n p Hp); [exact R5|apply ren_zero]]. split; [|reflexivity]. split; [|cbn [cv_np cv_active cv_ppc]; auto]. cbn [cv_b]. constructor; cbn; auto.
  Qed.
  Lemma cv_ren_train : forall bo x v v2, cvblock_renamed n p v v2 -> cv_same (fst (conv_train_ex bo x v)) (fst (conv_train_ex bo x v2)) /\ renamed n p (snd (conv_train_ex bo x v)) (snd (conv_train_ex bo x v2)).
  Proof.
    intros bo x v v2 [[R1 [R2 R3] R4 R5 R6 R7 R8 R9 R10 R11] [C1 [C2 C3]]]. unfold conv_train_ex. cbn [fst snd]. apply cv_count_ren.
    unfold conv_set_output. rewrite R1, R4, R6, R10, C1, C2, C3. destruct (conv_output_loop _ _ _ _ _ _ _ _ _) as [[[[os aps] cnts] ppc] r].
    split; [|reflexivity]. split; [|cbn [cv_np cv_active cv_ppc]; auto]. cbn [cv_b]. constructor; cbn; auto.
  Qed.
  Lemma cv_ren_eval : forall x v v2, cvblock_renamed n p v v2 -> renamed n p (snd (conv_eval_ex x v)) (snd (conv_eval_ex x v2)).
  Proof.
    intros x v v2 [[R1 [R2 R3] R4 R5 R6 R7 R8 R9 R10 R11] [C1 [C2 C3]]]. unfold conv_eval_ex. cbn [fst snd]. apply cv_count_ren.
    unfold conv_eval_set. rewrite R1, R4, C1.
    split; [|reflexivity]. split; [|cbn [cv_np cv_active cv_ppc]; auto]. cbn [cv_b]. constructor; cbn; auto.
  Qed.

  (** Every block has a renamed one. *)
  Definition ren_any {A} (d : A) (v : list A) : list A := map (fun c => nth (back n p c) v d) (seq 0 n).
  Lemma ren_any_ok : forall A (d : A) v, length v = n -> renamed_in d n p v (ren_any d v).
  Proof.
    intros A d v L. split; [exact L|]. split; [unfold ren_any; rewrite map_length, seq_length; reflexivity|]. intros c Hc. pose proof (proj1 Hp c Hc) as Hpc.
    unfold ren_any. rewrite (nth_indep _ d (nth (back n p 0) v d)) by (rewrite map_length, seq_length; exact Hpc).
    rewrite (map_nth (fun e => nth (back n p e) v d)), seq_nth by exact Hpc. rewrite Nat.add_0_l, (back_eq n p Hp) by exact Hc. reflexivity.
  Qed.
  Definition ren_sblock (b : sblock) : sblock :=
    mkSB (sp_nlit b) (sp_ncl b) (sp_ncls b) (sp_csize b) (sp_alsize b) (sp_thr b) (sp_rows b) (sp_states b) (ren_any [] (sp_al b)) (ren_any O (sp_repl b))
      (map (ren_list n p) (sp_weights b)) (sp_outputs b) (sp_counts b) (sp_votes b) (sp_budget b) (sp_si b) (sp_sm b) (sp_fast b).
  Lemma ren_sblock_ok : forall b, sp_ncls b = n -> length (sp_al b) = n -> length (sp_repl b) = n -> rows_of n (sp_weights b) -> sblock_renamed n p b (ren_sblock b).
  Proof.
    intros b E L1 L2 W. constructor; cbn [ren_sblock sp_nlit sp_ncl sp_ncls sp_csize sp_alsize sp_thr sp_rows sp_states sp_al sp_repl sp_weights sp_counts sp_budget sp_si sp_sm sp_fast]; auto; try (apply ren_any_ok; assumption).
    induction W; cbn [map]; constructor; auto. apply (ren_list_renamed n p Hp). assumption.
  Qed.
End RenameMore.
