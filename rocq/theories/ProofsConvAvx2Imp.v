(** Memory of the AVX2 convolutional block: literals at a pointer. *)
From Coq Require Import ZArith List Bool QArith Lia ZifyBool.
From Verif Require Import Base BaseProofs Spec ModelDense ModelLayout ModelAvx2 ModelConv ModelConvAvx2 SpecAvx2 ModelSparse ModelSparseImp ModelAvx2Imp
  ModelConvAvx2Imp SpecAvx2Imp SpecConvAvx2Imp ProofsLayout ProofsSparseImp ProofsAvx2Imp ProofsAvx2ImpB ProofsAvx2ImpC.
Import ListNotations.
Open Scope Z_scope.

Lemma bindR_ext : forall A B (m : R A) (f g : A -> R B), (forall a, f a = g a) -> bindR m f = bindR m g.
Proof. intros A B [a| |] f g H; cbn [bindR]; auto. Qed.
Lemma fold_ix_ext : forall A (f g : nat -> A -> R A), (forall i a, f i a = g i a) -> forall n i a, fold_ix n i f a = fold_ix n i g a.
Proof. intros A f g H. induction n as [|n IH]; intros i a; cbn [fold_ix]; [reflexivity|]. rewrite H. apply bindR_ext. auto. Qed.

Section Aligned.
  Variables (lits : list Z) (lp : nat).
  Hypothesis HA : (lp mod 32 = 0)%nat.

  Lemma vld_u_at : forall off, vld_u lits lp off = vld_u (skipn lp lits) 0 off.
  Proof.
    intros off. unfold vld_u, int_. destruct (Z.of_nat off <=? 2147483647); [|reflexivity]. cbn [bindR Nat.add].
    assert (E1 : ((lp + off) mod 32 =? 0)%nat = (off mod 32 =? 0)%nat).
    { rewrite Nat.add_mod by lia. rewrite HA. cbn [Nat.add]. rewrite Nat.mod_mod by lia. reflexivity. }
    assert (E2 : (lp + off + 32 <=? length lits)%nat = (off + 32 <=? length (skipn lp lits))%nat).
    { rewrite skipn_length. destruct (Nat.leb_spec (lp + off + 32) (length lits)); destruct (Nat.leb_spec (off + 32) (length lits - lp)); auto; lia. }
    rewrite E1, E2. destruct (_ && _); [|reflexivity]. f_equal. unfold v_load_u, slice. rewrite <- skipn_add. reflexivity.
  Qed.
  Lemma set_chunk_at : forall cl row lmem chunk count, imp_xset_chunk lits lp cl row lmem chunk count = imp_set_chunk (skipn lp lits) cl row lmem chunk count.
  Proof. intros. unfold imp_xset_chunk, imp_set_chunk. now rewrite vld_u_at. Qed.
  Lemma set_chunks_at : forall k cl row lmem chunk count,
    imp_xset_chunks lits lp cl row lmem chunk k count = imp_set_chunks (skipn lp lits) cl row lmem chunk k count.
  Proof.
    induction k as [|k IH]; intros; cbn [imp_xset_chunks imp_set_chunks]; [reflexivity|]. rewrite set_chunk_at. apply bindR_ext.
    intros [n f]. cbn [fst snd]. destruct f; auto.
  Qed.
  Lemma set_reminder_at : forall cl row lmem mask chunk count,
    imp_xset_reminder lits lp cl row lmem mask chunk count =
    bindR (imp_set_reminder (skipn lp lits) cl row lmem mask chunk count) (fun r => Ret (if fst r =? 1 then snd r else None)).
  Proof.
    intros. unfold imp_xset_reminder, imp_set_reminder. rewrite vld_u_at.
    destruct (vld_u (skipn lp lits) 0 (chunk * 32)) as [l| |]; cbn [bindR]; try reflexivity.
    destruct (vld cl row (chunk * 32)) as [c| |]; cbn [bindR]; try reflexivity.
    destruct (v_any _); [reflexivity|]. destruct (vld cl row (lmem + chunk * 32)) as [c2| |]; cbn [bindR]; try reflexivity.
    destruct (v_any _); reflexivity.
  Qed.
  Lemma eval_chunk_at : forall cl row lmem chunk act, imp_xeval_chunk lits lp cl row lmem chunk act = imp_eval_chunk (skipn lp lits) cl row lmem chunk act.
  Proof. intros. unfold imp_xeval_chunk, imp_eval_chunk. now rewrite vld_u_at. Qed.
  Lemma eval_chunks_at : forall k cl row lmem chunk act,
    imp_xeval_chunks lits lp cl row lmem chunk k act = imp_eval_chunks (skipn lp lits) cl row lmem chunk k act.
  Proof.
    induction k as [|k IH]; intros; cbn [imp_xeval_chunks imp_eval_chunks]; [reflexivity|]. rewrite eval_chunk_at. apply bindR_ext.
    intros [n f]. cbn [fst snd]. destruct f; auto.
  Qed.
  Lemma eval_reminder_at : forall cl row lmem mask chunk act,
    imp_xeval_reminder lits lp cl row lmem mask chunk act = imp_eval_reminder (skipn lp lits) cl row lmem mask chunk act.
  Proof. intros. unfold imp_xeval_reminder, imp_eval_reminder. now rewrite vld_u_at. Qed.
  Lemma clause_update_at : forall boost row wp target output s,
    imp_xclause_update boost lits lp row wp target output s = imp_vclause_update boost (skipn lp lits) row wp target output s.
  Proof.
    intros. unfold imp_xclause_update, imp_vclause_update. apply bindR_ext. intros w. cbv zeta.
    assert (E1 : forall n i a, fold_ix n i (imp_xt1a_chunk boost (m_cmp s) lits lp row (m_lmem s)) a = fold_ix n i (imp_t1a_chunk boost (m_cmp s) (skipn lp lits) row (m_lmem s)) a).
    { apply fold_ix_ext. intros i [cl r]. unfold imp_xt1a_chunk, imp_t1a_chunk. now rewrite vld_u_at. }
    assert (E2 : forall n i a, fold_ix n i (imp_xt2_chunk lits lp row (m_lmem s)) a = fold_ix n i (imp_t2_chunk (skipn lp lits) row (m_lmem s)) a).
    { apply fold_ix_ext. intros i cl. unfold imp_xt2_chunk, imp_t2_chunk. now rewrite vld_u_at. }
    destruct (_ >? 0).
    - destruct (output =? 1); [|reflexivity]. apply bindR_ext. intros ws. now rewrite E1.
    - destruct (_ && _); [|reflexivity]. apply bindR_ext. intros ws. now rewrite E2.
  Qed.
End Aligned.

Section Misaligned.
  Variables (lits : list Z) (lp : nat).
  Hypothesis HA : (lp mod 32 <> 0)%nat.

  Lemma vld_u_bad : forall c, vld_u lits lp (c * 32) = Wild.
  Proof.
    intros c. unfold vld_u, int_. destruct (Z.of_nat (c * 32) <=? 2147483647); [|reflexivity]. cbn [bindR].
    rewrite Nat.mod_add by lia. destruct (Nat.eqb_spec (lp mod 32) 0); [contradiction|]. reflexivity.
  Qed.
  Lemma set_bad : forall cl row lmem mask n,
    bindR (imp_xset_chunks lits lp cl row lmem 0 n 0) (fun c => if snd c then Ret None else imp_xset_reminder lits lp cl row lmem mask n (fst c)) = Wild.
  Proof.
    intros. destruct n as [|n]; cbn [imp_xset_chunks].
    - cbn [bindR snd fst]. unfold imp_xset_reminder. now rewrite vld_u_bad.
    - unfold imp_xset_chunk. rewrite vld_u_bad. reflexivity.
  Qed.
  Lemma eval_bad : forall cl row lmem mask n,
    bindR (imp_xeval_chunks lits lp cl row lmem 0 n false) (fun c => if snd c then Ret 0 else imp_xeval_reminder lits lp cl row lmem mask n (fst c)) = Wild.
  Proof.
    intros. destruct n as [|n]; cbn [imp_xeval_chunks].
    - cbn [bindR snd fst]. unfold imp_xeval_reminder. now rewrite vld_u_bad.
    - unfold imp_xeval_chunk. rewrite vld_u_bad. reflexivity.
  Qed.
  Lemma set_ix_wild : forall A (l : list A) i v, (exists l', set_ix i v l = Ret l') \/ set_ix i v l = Wild.
  Proof. intros. unfold set_ix. destruct (i <? length l)%nat; eauto. Qed.
  Lemma ix_wild : forall A (l : list A) i, (exists v, ix l i = Ret v) \/ ix l i = Wild.
  Proof. intros. unfold ix. destruct (nth_error l i); eauto. Qed.
  Lemma clause_update_bad : forall boost row wp target s, (0 < m_lmem s / 32)%nat -> target = 1 \/ target = -1 ->
    imp_xclause_update boost lits lp row wp target 1 s = Wild.
  Proof.
    intros boost row wp target s HL HT. unfold imp_xclause_update.
    destruct (ix_wild _ (m_weights s) wp) as [[w E]|E]; rewrite E; [|reflexivity]. cbn [bindR].
    destruct (m_lmem s / 32)%nat as [|n]; [lia|]. cbn [fold_ix Z.eqb Pos.eqb]. rewrite andb_true_r.
    assert (E1 : imp_xt1a_chunk boost (m_cmp s) lits lp row (m_lmem s) 0 (m_clauses s, m_vrng s) = Wild).
    { unfold imp_xt1a_chunk. now rewrite vld_u_bad. }
    assert (E2 : imp_xt2_chunk lits lp row (m_lmem s) 0 (m_clauses s) = Wild).
    { unfold imp_xt2_chunk. now rewrite vld_u_bad. }
    rewrite E1, E2. cbn [bindR].
    destruct (target * (if w >=? 0 then 1 else -1) >? 0) eqn:G.
    - destruct (set_ix_wild _ (m_weights s) wp (wrap16 (w + (if w >=? 0 then 1 else -1)))) as [[l El]|El]; rewrite El; reflexivity.
    - replace (target * (if w >=? 0 then 1 else -1) <? 0) with true by (destruct (w >=? 0); destruct HT as [-> | ->]; cbn in *; congruence).
      destruct (set_ix_wild _ (m_weights s) wp (wrap16 (w - (if w >=? 0 then 1 else -1)))) as [[l El]|El]; rewrite El; reflexivity.
  Qed.
End Misaligned.

Lemma clause_update_silent : forall boost lits lp lits' row wp target output s, (output =? 1) = false ->
  imp_xclause_update boost lits lp row wp target output s = imp_vclause_update boost lits' row wp target output s.
Proof. intros. unfold imp_xclause_update, imp_vclause_update. apply bindR_ext. intros w. now rewrite H, andb_false_r. Qed.
