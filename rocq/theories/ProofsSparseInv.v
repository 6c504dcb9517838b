(** The sparse block stays in a legal state over all histories. *)
From Coq Require Import ZArith Arith List Bool QArith Lia ZifyBool Sorted Permutation.
From Verif Require Import Base BaseProofs Spec ModelDense ModelRuleSet ModelLayout ModelFeedback ModelExecutor
  ModelSparse SpecSparse ProofsSparse ProofsSparseSort ProofsAvx2Hist.
Import ListNotations.
Open Scope Z_scope.

Lemma Forall_set_nth : forall A (P : A -> Prop) k x l, P x -> Forall P l -> Forall P (set_nth k x l).
Proof.
  intros A P k x l Hx. revert k. induction l as [|a l IH]; intros [|k] H; cbn [set_nth]; auto; inversion H; subst; constructor; auto.
Qed.

(** ** Active literals *)

Record al_ok (n alsize : nat) (al : list nat) (repl : nat) : Prop := {
  ao_nodup : NoDup al; ao_len : (length al <= alsize)%nat; ao_lit : Forall (fun l => (l < n)%nat) al; ao_repl : (repl < alsize)%nat
}.

Lemma set_nth_In_inv : forall A k (x y : A) l, In y (set_nth k x l) -> y = x \/ In y l.
Proof.
  intros A k x y l. revert k. induction l as [|a l IH]; intros [|k] H; cbn [set_nth] in H; auto.
  - destruct H as [H|H]; [auto|right; right; auto].
  - destruct H as [H|H]; [right; left; auto|]. destruct (IH _ H); auto. right; right; auto.
Qed.

Lemma set_nth_NoDup : forall A k (x : A) l, NoDup l -> ~ In x l -> NoDup (set_nth k x l).
Proof.
  intros A k x l H. revert k. induction H as [|a l H1 H2 IH]; intros [|k] Hx; cbn [set_nth]; try constructor; auto.
  - intros C. apply Hx. now right.
  - intros C. destruct (set_nth_In_inv _ _ _ _ _ C) as [E|E]; auto. subst. apply Hx. now left.
  - apply IH. intros C. apply Hx. now right.
Qed.

Lemma update_al_ok : forall n alsize dynamic al repl lit, al_ok n alsize al repl -> (lit < n)%nat ->
  let '(al', repl') := update_al dynamic alsize al repl lit in al_ok n alsize al' repl'.
Proof.
  intros n alsize dynamic al repl lit [H1 H2 H3 H4] Hl. unfold update_al.
  destruct (Nat.ltb_spec (length al) alsize) as [A|A].
  - destruct (memb lit al) eqn:M; [constructor; auto|]. apply memb_not_In in M. constructor; auto.
    + apply (Permutation_NoDup (l := lit :: al)); [apply Permutation_cons_append|constructor; auto].
    + rewrite app_length. cbn [length]. lia.
    + apply Forall_app. split; auto.
  - destruct dynamic; [|constructor; auto]. destruct (memb lit al) eqn:M; [constructor; auto|]. apply memb_not_In in M.
    constructor.
    + apply set_nth_NoDup; auto.
    + rewrite set_nth_length. auto.
    + apply Forall_set_nth; auto.
    + destruct (Nat.eqb_spec (S repl) alsize); lia.
Qed.

(** ** Feedback keeps lengths and int8 states *)

Lemma set_wrap_ok : forall k z sts m, length sts = m -> Forall is_int8 sts ->
  length (set_nth k (wrap8 z) sts) = m /\ Forall is_int8 (set_nth k (wrap8 z) sts).
Proof. intros. split; [now rewrite set_nth_length|]. apply Forall_set_nth; auto. apply wrap8_range. Qed.

Record f_ok (n alsize lp ln : nat) (f : fb1a) : Prop := {
  fo_p : length (f_pst f) = lp; fo_n : length (f_nst f) = ln;
  fo_pi : Forall is_int8 (f_pst f); fo_ni : Forall is_int8 (f_nst f);
  fo_al : al_ok n alsize (f_al f) (f_repl f)
}.

Lemma t1a_lit_ok : forall boost dynamic n alsize si sm prow nrow lp ln f lit, f_ok n alsize lp ln f -> (lit < n)%nat ->
  f_ok n alsize lp ln (t1a_lit boost dynamic alsize si sm prow nrow f lit).
Proof.
  intros boost dynamic n alsize si sm prow nrow lp ln f lit H Hl. unfold t1a_lit.
  assert (K : f_ok n alsize lp ln
    match index_of lit prow with
    | Some k =>
        let v := nth k (f_pst f) 0 in
        if v <? 127 then
          if boost then mkF (set_nth k (wrap8 (v + 1)) (f_pst f)) (f_nst f) (f_al f) (f_repl f) (f_rng f)
          else let '(d, r) := draw_le (f_rng f) sm in
               mkF (if d then set_nth k (wrap8 (v + 1)) (f_pst f) else f_pst f) (f_nst f) (f_al f) (f_repl f) r
        else f
    | None => let '(al, repl) := update_al dynamic alsize (f_al f) (f_repl f) lit in mkF (f_pst f) (f_nst f) al repl (f_rng f)
    end).
  { destruct H as [H1 H2 H3 H4 H5]. destruct (index_of lit prow) as [k|].
    - cbv zeta. destruct (_ <? 127); [|constructor; auto]. destruct (set_wrap_ok k (nth k (f_pst f) 0 + 1) (f_pst f) lp H1 H3) as [E1 E2].
      destruct boost; [constructor; auto|]. destruct (draw_le (f_rng f) sm) as [d r]. destruct d; constructor; auto.
    - pose proof (update_al_ok n alsize dynamic (f_al f) (f_repl f) lit H5 Hl) as U. destruct (update_al dynamic alsize (f_al f) (f_repl f) lit) as [al repl].
      constructor; auto. }
  cbv zeta in K |- *. match type of K with f_ok _ _ _ _ ?X => revert K; generalize X end. clear f H. intros f [H1 H2 H3 H4 H5]. cbv zeta.
  destruct (index_of lit nrow) as [k|]; [|constructor; auto]. destruct (_ >? -127); [|constructor; auto].
  destruct (set_wrap_ok k (nth k (f_nst f) 0 - 1) (f_nst f) ln H2 H4) as [E1 E2].
  destruct (draw_le (f_rng f) si) as [d r]. destruct d; constructor; auto.
Qed.

Lemma absent_down_ok : forall si lits row sts r, Forall is_int8 sts ->
  let '(sts', r') := absent_down si lits row sts r in length sts' = length sts /\ Forall is_int8 sts'.
Proof.
  intros si lits row. induction row as [|ta row IH]; intros [|v sts] r H; cbn [absent_down]; auto.
  inversion H as [|? ? H1 H2]; subst.
  destruct (if memb ta lits then (v, r) else if v >? -127 then let '(d, r0) := draw_le r si in (if d then wrap8 (v - 1) else v, r0) else (v, r)) as [v' r1] eqn:E.
  specialize (IH sts r1 H2). destruct (absent_down si lits row sts r1) as [t r2]. destruct IH as [I1 I2]. cbn [length].
  split; [lia|]. constructor; auto. destruct (memb ta lits); [congruence|]. destruct (v >? -127); [|congruence].
  destruct (draw_le r si) as [[|] r0]; injection E as <- _; auto using wrap8_range.
Qed.

Lemma absent_up_ok : forall boost sm lits row sts r, Forall is_int8 sts ->
  let '(sts', r') := absent_up boost sm lits row sts r in length sts' = length sts /\ Forall is_int8 sts'.
Proof.
  intros boost sm lits row. induction row as [|ta row IH]; intros [|v sts] r H; cbn [absent_up]; auto.
  inversion H as [|? ? H1 H2]; subst.
  destruct (if memb ta lits then (v, r) else if v <? 127 then if boost then (wrap8 (v + 1), r) else let '(d, r0) := draw_le r sm in (if d then wrap8 (v + 1) else v, r0) else (v, r)) as [v' r1] eqn:E.
  specialize (IH sts r1 H2). destruct (absent_up boost sm lits row sts r1) as [t r2]. destruct IH as [I1 I2]. cbn [length].
  split; [lia|]. constructor; auto. destruct (memb ta lits); [congruence|]. destruct (v <? 127); [|congruence].
  destruct boost; [injection E as <- _; apply wrap8_range|].
  destruct (draw_le r sm) as [[|] r0]; injection E as <- _; auto using wrap8_range.
Qed.

Lemma sp_t1a_ok : forall boost dynamic n alsize si sm lits prow nrow lp ln f, f_ok n alsize lp ln f -> Forall (fun l => (l < n)%nat) lits ->
  f_ok n alsize lp ln (sp_t1a boost dynamic alsize si sm lits prow nrow f).
Proof.
  intros boost dynamic n alsize si sm lits prow nrow lp ln f H HL. unfold sp_t1a.
  assert (K : f_ok n alsize lp ln (fold_left (t1a_lit boost dynamic alsize si sm prow nrow) lits f)).
  { revert f H. induction HL as [|l t H1 H2 IH]; intros f H; cbn [fold_left]; auto. apply IH. apply t1a_lit_ok; auto. }
  clear H. destruct (fold_left _ lits f) as [p nn al repl r]. destruct K as [K1 K2 K3 K4 K5]. cbn [f_pst f_nst f_al f_repl f_rng] in *.
  pose proof (absent_down_ok si lits prow p r K3) as D. destruct (absent_down si lits prow p r) as [p' r1]. destruct D as [D1 D2].
  pose proof (absent_up_ok boost sm lits nrow nn r1 K4) as U. destruct (absent_up boost sm lits nrow nn r1) as [n' r2]. destruct U as [U1 U2].
  constructor; cbn [f_pst f_nst f_al f_repl]; auto; lia.
Qed.

Lemma sp_t1b_row_ok : forall si sts r, Forall is_int8 sts ->
  let '(sts', r') := sp_t1b_row si sts r in length sts' = length sts /\ Forall is_int8 sts'.
Proof.
  intros si sts. induction sts as [|v sts IH]; intros r H; cbn [sp_t1b_row]; auto. inversion H as [|? ? H1 H2]; subst.
  destruct (draw_le r si) as [d r1]. specialize (IH r1 H2). destruct (sp_t1b_row si sts r1) as [t r2]. destruct IH as [I1 I2].
  cbn [length]. split; [lia|]. constructor; auto. destruct (d && _); auto using wrap8_range.
Qed.

(** ** Rows before sorting *)

Record pre_row (n cap : nat) (row : list nat) (sts : list Z) : Prop := {
  pr_nodup : NoDup row; pr_lit : Forall (fun l => (l < n)%nat) row; pr_len : length sts = length row;
  pr_cap : (length row <= cap)%nat; pr_int : Forall is_int8 sts
}.

Lemma increasing_NoDup : forall l, increasing l -> NoDup l.
Proof.
  intros l H. induction H as [|a l H IH F]; constructor; auto. intros C. rewrite Forall_forall in F. specialize (F _ C). lia.
Qed.

Lemma row_inv_pre : forall n cap row sts, row_inv n cap row sts -> pre_row n cap row sts.
Proof. intros n cap row sts [H1 H2 H3 H4 H5]. constructor; auto. apply increasing_NoDup; auto. Qed.

Lemma pre_row_states : forall n cap row sts sts', row_inv n cap row sts -> length sts' = length sts -> Forall is_int8 sts' -> row_inv n cap row sts'.
Proof. intros n cap row sts sts' [H1 H2 H3 H4 H5] HL HI. constructor; auto. lia. Qed.

Lemma prune_row_inv : forall n cap thr row sts, row_inv n cap row sts ->
  row_inv n cap (fst (prune_clause thr row sts)) (snd (prune_clause thr row sts)).
Proof.
  intros n cap thr row sts [H1 H2 H3 H4 H5]. rewrite prune_clause_eq by auto. cbn [fst snd].
  pose proof (prune_pairs_subseq thr (combine row sts)) as S.
  pose proof (subseq_map _ _ fst _ _ S) as S1. rewrite combine_fst in S1 by lia.
  pose proof (subseq_map _ _ snd _ _ S) as S2. rewrite combine_snd in S2 by lia.
  constructor.
  - eapply subseq_sorted; eauto.
  - eapply subseq_Forall; eauto.
  - now rewrite !map_length.
  - apply subseq_length in S1. lia.
  - eapply subseq_Forall; eauto.
Qed.

Lemma sort_row_inv : forall n cap row sts, pre_row n cap row sts ->
  row_inv n cap (fst (sort_clause row sts)) (snd (sort_clause row sts)).
Proof.
  intros n cap row sts [H1 H2 H3 H4 H5]. pose proof (sort_clause_spec row sts H3 H1) as S.
  destruct (sort_clause row sts) as [row' sts']. destruct S as [S1 [S2 S3]]. cbn [fst snd].
  pose proof (Permutation_map fst S2) as P1. rewrite !combine_fst in P1 by lia.
  pose proof (Permutation_map snd S2) as P2. rewrite !combine_snd in P2 by lia.
  constructor; auto.
  - rewrite Forall_forall in *. intros x Hx. apply H2. eapply Permutation_in; eauto.
  - rewrite (Permutation_length P1). auto.
  - rewrite Forall_forall in *. intros x Hx. apply H5. eapply Permutation_in; eauto.
Qed.

Definition rows_pre (n cap : nat) (s : rows2) : Prop := pre_row n cap (r_prow s) (r_psts s) /\ pre_row n cap (r_nrow s) (r_nsts s).
Definition rows_ok (n cap : nat) (s : rows2) : Prop := row_inv n cap (r_prow s) (r_psts s) /\ row_inv n cap (r_nrow s) (r_nsts s).

Lemma pre_row_add : forall n cap row sts a z, pre_row n cap row sts -> (a < n)%nat -> memb a row = false -> (length row < cap)%nat ->
  pre_row n cap (row ++ [a]) (sts ++ [wrap8 z]).
Proof.
  intros n cap row sts a z [H1 H2 H3 H4 H5] Ha M Hc. apply memb_not_In in M. constructor.
  - apply (Permutation_NoDup (l := a :: row)); [apply Permutation_cons_append|constructor; auto].
  - apply Forall_app; auto.
  - rewrite !app_length. cbn [length]. lia.
  - rewrite app_length. cbn [length]. lia.
  - apply Forall_app; split; auto. constructor; auto. apply wrap8_range.
Qed.

Lemma t2_add_pre : forall n csize thr lits s a, rows_pre n csize s -> (a < n)%nat -> rows_pre n csize (t2_add csize thr lits s a).
Proof.
  intros n csize thr lits s a [H1 H2] Ha. unfold t2_add.
  destruct (memb a lits).
  - destruct (memb a (r_nrow s)) eqn:M; [split; auto|]. destruct (Nat.ltb_spec (length (r_nrow s)) csize); split; auto.
    cbn [r_nrow r_nsts]. apply pre_row_add; auto.
  - destruct (memb a (r_prow s)) eqn:M; [split; auto|]. destruct (Nat.ltb_spec (length (r_prow s)) csize); split; auto.
    cbn [r_prow r_psts]. apply pre_row_add; auto.
Qed.

Lemma map2_ok : forall (f : nat -> Z -> Z) row sts, (forall a v, is_int8 v -> is_int8 (f a v)) -> length sts = length row -> Forall is_int8 sts ->
  length (map2 f row sts) = length row /\ Forall is_int8 (map2 f row sts).
Proof.
  intros f row. induction row as [|a row IH]; intros [|v sts] Hf HL H; cbn [length map2] in *; try lia; auto.
  inversion H as [|? ? H1 H2]; subst. destruct (IH sts Hf ltac:(lia) H2) as [I1 I2]. split; [cbn [length]; lia|constructor; auto].
Qed.

Lemma sp_t2_pre : forall n csize thr al lits s, rows_ok n csize s -> Forall (fun l => (l < n)%nat) al -> rows_pre n csize (sp_t2 csize thr al lits s).
Proof.
  intros n csize thr al lits s [H1 H2] HA. unfold sp_t2.
  assert (K : rows_pre n csize (mkR (r_prow s) (t2_pos lits (r_prow s) (r_psts s)) (r_nrow s) (t2_neg lits (r_nrow s) (r_nsts s)))).
  { apply row_inv_pre in H1, H2. destruct H1 as [A1 A2 A3 A4 A5]. destruct H2 as [B1 B2 B3 B4 B5].
    unfold t2_pos, t2_neg. split; cbn [r_prow r_psts r_nrow r_nsts].
    - destruct (map2_ok (fun ta v => if negb (memb ta lits) && (v <? 0) then wrap8 (v + 1) else v) (r_prow s) (r_psts s)) as [C1 C2]; auto.
      { intros a v Hv. destruct (_ && _); auto using wrap8_range. } constructor; auto.
    - destruct (map2_ok (fun ta v => if memb ta lits && (v <? 0) then wrap8 (v + 1) else v) (r_nrow s) (r_nsts s)) as [C1 C2]; auto.
      { intros a v Hv. destruct (_ && _); auto using wrap8_range. } constructor; auto. }
  revert K. generalize (mkR (r_prow s) (t2_pos lits (r_prow s) (r_psts s)) (r_nrow s) (t2_neg lits (r_nrow s) (r_nsts s))). clear H1 H2 s.
  induction HA as [|a t Ha HA IH]; intros s K; cbn [fold_left]; auto. apply IH. apply t2_add_pre; auto.
Qed.

Lemma sort_rows_ok : forall n cap s, rows_pre n cap s -> rows_ok n cap (sort_rows s).
Proof.
  intros n cap s [H1 H2]. unfold sort_rows. apply sort_row_inv in H1, H2.
  destruct (sort_clause (r_prow s) (r_psts s)) as [p ps]. destruct (sort_clause (r_nrow s) (r_nsts s)) as [q qs]. split; auto.
Qed.
Lemma prune_rows_ok : forall n cap thr s, rows_ok n cap s -> rows_ok n cap (prune_rows thr s).
Proof.
  intros n cap thr s [H1 H2]. unfold prune_rows. apply (prune_row_inv n cap thr) in H1. apply (prune_row_inv n cap thr) in H2.
  destruct (prune_clause thr (r_prow s) (r_psts s)) as [p ps]. destruct (prune_clause thr (r_nrow s) (r_nsts s)) as [q qs]. split; auto.
Qed.

(** ** Updates *)

Definition same_sizes (a b : sblock) : Prop :=
  sp_ncl a = sp_ncl b /\ sp_ncls a = sp_ncls b /\ sp_csize a = sp_csize b /\ sp_alsize a = sp_alsize b /\ sp_thr a = sp_thr b.

Lemma sp_store_inv : forall n b k s c al repl w r, sp_inv n b -> (k < sp_ncl b)%nat -> rows_ok n (sp_csize b) s ->
  al_ok n (sp_alsize b) al repl -> sp_inv n (sp_store b k s c al repl w r).
Proof.
  intros n b k s c al repl w r [I1 I2 I3 IP I4 I5 I6 I7] Hk [R1 R2] [A1 A2 A3 A4].
  constructor; cbn [sp_store sp_rows sp_states sp_al sp_repl sp_ncl sp_ncls sp_csize sp_alsize]; rewrite ?set_nth_length; auto.
  - intros i Hi.
    destruct (Nat.eq_dec i (k + sp_ncl b)) as [E|E].
    + subst. rewrite !nth_set_nth_eq by (rewrite set_nth_length; lia). exact R2.
    + rewrite !(nth_set_nth_neq _ (k + sp_ncl b) i) by lia. destruct (Nat.eq_dec i k) as [F|F].
      * subst. rewrite !nth_set_nth_eq by lia. exact R1.
      * rewrite !nth_set_nth_neq by lia. auto.
  - intros c' Hc. destruct (Nat.eq_dec c' c) as [E|E].
    + subst. rewrite nth_set_nth_eq by lia. auto.
    + rewrite nth_set_nth_neq by lia. auto.
  - intros c' Hc. destruct (Nat.eq_dec c' c) as [E|E].
    + subst. rewrite nth_set_nth_eq by lia. auto.
    + rewrite nth_set_nth_neq by lia. auto.
Qed.

Lemma sp_inv_al : forall n b c, sp_inv n b -> al_ok n (sp_alsize b) (nth c (sp_al b) []) (nth c (sp_repl b) O).
Proof.
  intros n b c [I1 I2 I3 IP I4 I5 I6 I7]. destruct (Nat.lt_ge_cases c (sp_ncls b)) as [H|H].
  - destruct (I5 c H) as [A1 [A2 A3]]. constructor; auto.
  - rewrite !nth_overflow by lia. constructor; cbn [length]; try constructor; lia.
Qed.

Lemma sp_clause_update_inv : forall boost dynamic lits k c t n b, sp_inv n b -> (k < sp_ncl b)%nat -> Forall (fun l => (l < n)%nat) lits ->
  sp_inv n (sp_clause_update boost dynamic lits k c t b) /\ same_sizes (sp_clause_update boost dynamic lits k c t b) b.
Proof.
  intros boost dynamic lits k c t n b I Hk HL. pose proof (sp_inv_al n b c I) as A.
  assert (RO : rows_ok n (sp_csize b) (mkR (prow_of b k) (psts_of b k) (nrow_of b k) (nsts_of b k))).
  { split; cbn [r_prow r_psts r_nrow r_nsts]; unfold prow_of, psts_of, nrow_of, nsts_of; apply (si_row n b I); lia. }
  unfold sp_clause_update. cbv zeta. cbn [r_prow r_psts r_nrow r_nsts].
  set (w := nth c (nth k (sp_weights b) []) 0). set (o := nth k (sp_outputs b) 0). set (sg := if w >=? 0 then 1 else -1).
  destruct (t * sg >? 0).
  - destruct (o =? 1).
    + split; [|repeat split].
      destruct RO as [R1 R2]. cbn [r_prow r_psts r_nrow r_nsts] in R1, R2.
      pose proof (sp_t1a_ok boost dynamic n (sp_alsize b) (sp_si b) (sp_sm b) lits (prow_of b k) (nrow_of b k)
        (length (psts_of b k)) (length (nsts_of b k)) (mkF (psts_of b k) (nsts_of b k) (nth c (sp_al b) []) (nth c (sp_repl b) O) (sp_fast b))) as F.
      destruct F as [F1 F2 F3 F4 F5]; auto.
      { constructor; cbn [f_pst f_nst f_al f_repl]; auto; [apply (ri_int _ _ _ _ R1)|apply (ri_int _ _ _ _ R2)]. }
      apply sp_store_inv; auto. apply prune_rows_ok. split; cbn [r_prow r_psts r_nrow r_nsts]; eapply pre_row_states; eauto.
    + destruct (o =? 0); [|split; [auto|repeat split]].
      destruct RO as [R1 R2]. cbn [r_prow r_psts r_nrow r_nsts] in R1, R2.
      pose proof (sp_t1b_row_ok (sp_si b) (psts_of b k) (sp_fast b) (ri_int _ _ _ _ R1)) as T1.
      destruct (sp_t1b_row (sp_si b) (psts_of b k) (sp_fast b)) as [ps r1].
      pose proof (sp_t1b_row_ok (sp_si b) (nsts_of b k) r1 (ri_int _ _ _ _ R2)) as T2.
      destruct (sp_t1b_row (sp_si b) (nsts_of b k) r1) as [ns r2]. destruct T1 as [T1 T1']. destruct T2 as [T2 T2'].
      split; [|repeat split].
      apply sp_store_inv; auto. apply prune_rows_ok. split; cbn [r_prow r_psts r_nrow r_nsts]; eapply pre_row_states; eauto.
  - destruct (_ && _); [|split; [auto|repeat split]]. split; [|repeat split].
    apply sp_store_inv; auto. apply sort_rows_ok. apply sp_t2_pre; auto. apply (ao_lit _ _ _ _ A).
Qed.

Lemma sp_with_fast_inv : forall n b outs r, sp_inv n b -> sp_inv n (sp_with_fast b outs r).
Proof. intros n b outs r [I1 I2 I3 IP I4 I5 I6 I7]. constructor; auto. Qed.
Lemma sp_with_outputs_inv : forall n b o c v, sp_inv n b -> sp_inv n (sp_with_outputs b o c v).
Proof. intros n b o c v [I1 I2 I3 IP I4 I5 I6 I7]. constructor; auto. Qed.

Lemma same_sizes_trans : forall a b c, same_sizes a b -> same_sizes b c -> same_sizes a c.
Proof. unfold same_sizes. intuition congruence. Qed.
Lemma same_sizes_refl : forall a, same_sizes a a.
Proof. intros. repeat split. Qed.

Lemma sp_update_clause_inv : forall bo boost dynamic lits pc pp nc np k n b, sp_inv n b -> (k < sp_ncl b)%nat -> Forall (fun l => (l < n)%nat) lits ->
  sp_inv n (sp_update_clause bo boost dynamic lits pc pp nc np b k) /\ same_sizes (sp_update_clause bo boost dynamic lits pc pp nc np b k) b.
Proof.
  intros bo boost dynamic lits pc pp nc np k n b I Hk HL. unfold sp_update_clause.
  destruct (draw_lt (sp_fast b) pp) as [d r]. set (outs := if bo && _ then _ else _). clearbody outs.
  set (b1 := if d then sp_clause_update boost dynamic lits k pc 1 (sp_with_fast b outs r) else sp_with_fast b outs r).
  assert (K : sp_inv n b1 /\ same_sizes b1 b).
  { unfold b1. destruct d.
    - apply (sp_clause_update_inv boost dynamic lits k pc 1 n (sp_with_fast b outs r)); auto. apply sp_with_fast_inv; auto.
    - split; [apply sp_with_fast_inv; auto|repeat split]. }
  clearbody b1. destruct K as [K1 K2]. cbv zeta. destruct (draw_lt (sp_fast b1) np) as [d2 r2]. destruct d2.
  - destruct (sp_clause_update_inv boost dynamic lits k nc (-1) n (sp_with_fast b1 (sp_outputs b1) r2)) as [U1 U2]; auto.
    { apply sp_with_fast_inv; auto. } { cbn [sp_with_fast sp_ncl]. destruct K2 as [-> _]. auto. }
    split; auto. eapply same_sizes_trans; [exact U2|]. exact K2.
  - split; [apply sp_with_fast_inv; auto|]. exact K2.
Qed.

Lemma sp_train_update_inv : forall bo boost dynamic lits pc pp nc np n b, sp_inv n b -> Forall (fun l => (l < n)%nat) lits ->
  sp_inv n (sp_train_update bo boost dynamic lits pc pp nc np b) /\ same_sizes (sp_train_update bo boost dynamic lits pc pp nc np b) b.
Proof.
  intros bo boost dynamic lits pc pp nc np n b I HL. unfold sp_train_update.
  assert (K : forall ks b', sp_inv n b' -> same_sizes b' b -> (forall k, In k ks -> (k < sp_ncl b)%nat) ->
    sp_inv n (fold_left (sp_update_clause bo boost dynamic lits pc pp nc np) ks b') /\
    same_sizes (fold_left (sp_update_clause bo boost dynamic lits pc pp nc np) ks b') b).
  { intros ks. induction ks as [|k ks IH]; intros b' I' S' Hks; cbn [fold_left]; auto.
    destruct (sp_update_clause_inv bo boost dynamic lits pc pp nc np k n b' I') as [U1 U2]; auto.
    { destruct S' as [-> _]. apply Hks. now left. }
    apply IH; auto; [eapply same_sizes_trans; eauto|]. intros j Hj. apply Hks. now right. }
  apply K; auto using same_sizes_refl. intros k Hk. apply in_seq in Hk. lia.
Qed.

Lemma sp_train_ex_inv : forall bo lits n b, sp_inv n b -> sp_inv n (fst (sp_train_ex bo lits b)).
Proof. intros. unfold sp_train_ex. cbn [fst]. unfold sp_count_votes, sp_train_output. do 2 apply sp_with_outputs_inv. auto. Qed.
Lemma sp_eval_ex_inv : forall lits n b, sp_inv n b -> sp_inv n (fst (sp_eval_ex lits b)).
Proof. intros. unfold sp_eval_ex. cbn [fst]. unfold sp_count_votes, sp_eval_set. do 2 apply sp_with_outputs_inv. auto. Qed.

(** The executor on sparse blocks. *)
Definition sp_upd (bo boost dynamic : bool) (lits : list nat) (pc : nat) (pp : Q) (nc : nat) (np : Q) (b : sblock) : sblock :=
  sp_train_update bo boost dynamic lits pc pp nc np b.

Theorem sparse_history : forall (bo boost dynamic : bool) L (process : L -> fblock -> fblock) n calls x,
  Forall (fun c => Forall (fun d => Forall (fun l => (l < n)%nat) (fst d)) (gdata (list nat) L c)) calls ->
  Forall (fun tb => sp_inv n (snd tb)) (x_blocks x) ->
  Forall (fun tb => sp_inv n (snd tb))
    (x_blocks (grun sblock (list nat) (sp_train_ex bo) sp_eval_ex (sp_upd bo boost dynamic) L process calls x)).
Proof.
  intros bo boost dynamic L process n calls x HC HX.
  apply (grun_P sblock (list nat) (sp_train_ex bo) sp_eval_ex (sp_upd bo boost dynamic) L process (sp_inv n) (Forall (fun l => (l < n)%nat))); auto.
  - intros e b He Hb. apply sp_train_ex_inv; auto.
  - intros e b He Hb. apply sp_eval_ex_inv; auto.
  - intros e pc pp nc np b He Hb. apply sp_train_update_inv; auto.
Qed.

Lemma nth_repeat_any : forall A (x d : A) n i, (i < n)%nat -> nth i (repeat x n) d = x.
Proof. intros A x d n. induction n as [|n IH]; intros [|i] H; cbn [repeat nth]; auto; try lia. apply IH. lia. Qed.

Theorem sp_initialize_inv : forall bo fast_of junk nlit ncl ncls csize alsize thr budget si sm seed b, (1 <= alsize)%nat ->
  sp_initialize bo fast_of junk nlit ncl ncls csize alsize thr budget si sm seed = Some b ->
  sp_inv nlit b /\ sp_ncl b = ncl /\ sp_ncls b = ncls /\ sp_csize b = csize /\ sp_alsize b = alsize.
Proof.
  intros bo fast_of junk nlit ncl ncls csize alsize thr budget si sm seed b Ha H. unfold sp_initialize in H.
  destruct (seed =? 0); [discriminate|]. destruct (bo && (budget <? 1)); [discriminate|].
  destruct (init_weights ncls ncl (fast_of seed)) as [ws f]. injection H as <-.
  split; [|cbn [sp_ncl sp_ncls sp_csize sp_alsize]; auto].
  constructor; cbn [sp_rows sp_states sp_al sp_repl sp_ncl sp_ncls sp_csize sp_alsize]; rewrite ?repeat_length; auto.
  - intros i Hi. rewrite !nth_repeat_any by lia. constructor; cbn [length]; try constructor; lia.
  - intros c Hc. rewrite nth_repeat_any by lia. split; [constructor|]. split; [cbn [length]; lia|constructor].
  - intros c Hc. rewrite nth_repeat_any by lia. lia.
Qed.
