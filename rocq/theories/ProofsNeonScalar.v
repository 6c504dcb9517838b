(** The NEON block against the scalar block on the same state. *)
From Coq Require Import ZArith Arith List Bool QArith Lia ZifyBool.
From Verif Require Import Base BaseProofs Spec SpecLearning ModelInference ModelDense ModelLayout ModelFeedback ModelExecutor ModelDenseExec ModelAvx2 ModelNeon
  SpecAvx2 SpecNeon ProofsClause ProofsLayout ProofsEval ProofsStep ProofsExecutor ProofsInput ProofsAvx2 ProofsAvx2Scalar ProofsNeon.
Import ListNotations.
Open Scope Z_scope.

Lemma nlmem_of_facts : forall n, (0 < n)%nat ->
  (16 <= nlmem_of n)%nat /\ (nlmem_of n - 16 <= n <= nlmem_of n)%nat /\ nlmem_of n = (nlmem_of n / 16 * 16)%nat.
Proof.
  intros n Hn. unfold nlmem_of. pose proof (Nat.div_mod n 16 ltac:(lia)) as D.
  pose proof (Nat.mod_upper_bound n 16 ltac:(lia)) as M.
  destruct (Nat.eqb_spec (n mod 16) 0) as [E|E].
  - rewrite E in D. lia.
  - rewrite Nat.div_mul by lia. lia.
Qed.

Lemma nmask_of_lanes : forall n, (0 < n)%nat ->
  nmask_of n = map (fun i => if (nlmem_of n - 16 + i <? n)%nat then -1 else 0) (seq 0 16).
Proof.
  intros n Hn. unfold nmask_of, nlmem_of. pose proof (Nat.div_mod n 16 ltac:(lia)) as D.
  pose proof (Nat.mod_upper_bound n 16 ltac:(lia)) as M.
  destruct (Nat.eqb_spec (n mod 16) 0) as [E|E].
  - apply list_eq_seq; [apply repeat_length|]. intros i Hi. rewrite nth_repeat_lt by lia.
    rewrite E in D. replace (n - 16 + i <? n)%nat with true by (symmetry; apply Nat.ltb_lt; lia). reflexivity.
  - apply list_eq_seq; [rewrite app_length, !repeat_length; lia|]. intros i Hi.
    destruct (Nat.lt_ge_cases i (n mod 16)) as [K|K].
    + rewrite app_nth1 by (rewrite repeat_length; lia). rewrite nth_repeat_lt by lia.
      replace ((n / 16 + 1) * 16 - 16 + i <? n)%nat with true by (symmetry; apply Nat.ltb_lt; lia). reflexivity.
    + rewrite app_nth2 by (rewrite repeat_length; lia). rewrite repeat_length, nth_repeat_lt by lia.
      replace ((n / 16 + 1) * 16 - 16 + i <? n)%nat with false by (symmetry; apply Nat.ltb_ge; lia). reflexivity.
Qed.

(** ** One clause *)

Section OneClause.
  Variables (n : nat) (x lits row : list Z).
  Hypothesis Hn : (0 < n)%nat.
  Hypothesis Hbuf : nbuffer_of n x lits.
  Hypothesis Hbin : binary x.
  Hypothesis Hrow : length row = (2 * nlmem_of n)%nat.
  Notation lmem := (nlmem_of n).
  Notation cl := (row_clause n lmem row).

  Lemma nrc_pos_len : length (cl_pos cl) = n.
  Proof. pose proof (nlmem_of_facts n Hn). cbn [row_clause cl_pos]. rewrite firstn_length. lia. Qed.
  Lemma nrc_neg_len : length (cl_neg cl) = n.
  Proof. pose proof (nlmem_of_facts n Hn). cbn [row_clause cl_neg]. unfold slice. rewrite firstn_length, skipn_length. lia. Qed.

  Lemma nrc_pos_nth : forall i d, (i < n)%nat -> nth i (cl_pos cl) d = nth i row 0.
  Proof.
    intros i d Hi. rewrite (nth_indep _ d 0) by (rewrite nrc_pos_len; lia).
    cbn [row_clause cl_pos]. now rewrite nth_firstn_lt by lia.
  Qed.
  Lemma nrc_neg_nth : forall i d, (i < n)%nat -> nth i (cl_neg cl) d = nth (lmem + i) row 0.
  Proof.
    intros i d Hi. rewrite (nth_indep _ d 0) by (rewrite nrc_neg_len; lia).
    cbn [row_clause cl_neg]. unfold slice. rewrite nth_firstn_lt by lia. now rewrite nth_skipn.
  Qed.

  Lemma nlit_val : forall i, (i < n)%nat -> wrap8 (nth i lits 0) = nth i x 0 /\ (nth i x 0 = 0 \/ nth i x 0 = 1).
  Proof.
    intros i Hi. destruct Hbuf as [B1 [B2 B3]].
    assert (E : nth i lits 0 = nth i x 0).
    { rewrite <- B3. now rewrite nth_firstn_lt by lia. }
    assert (K : nth i x 0 = 0 \/ nth i x 0 = 1) by (apply nth_binary; [auto|lia]).
    rewrite E. split; [|auto]. destruct K as [K|K]; rewrite K; reflexivity.
  Qed.

  Lemma nfalsified_pair : existsb (fun j => fpos lits row j || fneg lits row lmem j) (seq 0 n) = false <-> pair_ok (cl_pos cl) (cl_neg cl) x.
  Proof.
    destruct Hbuf as [B1 _].
    assert (A : forall i, (i < n)%nat ->
       (fpos lits row i || fneg lits row lmem i = false <->
        (0 <= nth i (cl_pos cl) (-1) -> nth i x 0 <> 0) /\ (0 <= nth i (cl_neg cl) (-1) -> nth i x 0 <> 1))).
    { intros i Hi. rewrite nrc_pos_nth, nrc_neg_nth by lia. unfold fpos, fneg.
      destruct (nlit_val i Hi) as [E1 E2]. rewrite E1. lia. }
    split.
    - intros H i Hi. apply A; [lia|]. destruct (fpos lits row i || fneg lits row lmem i) eqn:F; auto.
      exfalso. rewrite <- not_true_iff_false in H. apply H. apply existsb_exists. exists i. split; [apply in_seq; lia|auto].
    - intros H. apply not_true_iff_false. intros E. apply existsb_exists in E. destruct E as [i [I1 I2]]. apply in_seq in I1.
      assert (F : fpos lits row i || fneg lits row lmem i = false) by (apply A; [lia|apply H; lia]). congruence.
  Qed.

  Lemma nincl_sum : n_incl (cl_pos cl) + n_incl (cl_neg cl) = zsum (map (fun j => ipos row j + ineg row lmem j) (seq 0 n)).
  Proof.
    rewrite (n_incl_sum (cl_pos cl) (fun i => nth i row 0) n nrc_pos_len) by (intros; apply nrc_pos_nth; auto).
    rewrite (n_incl_sum (cl_neg cl) (fun i => nth (lmem + i) row 0) n nrc_neg_len) by (intros; apply nrc_neg_nth; auto).
    generalize (seq 0 n). intros s. induction s as [|a s IH]; [reflexivity|]. cbn [map zsum].
    unfold ipos at 1, ineg at 1. lia.
  Qed.

  Lemma nact_incl : existsb (act_at row lmem) (seq 0 n) = (0 <? n_incl (cl_pos cl) + n_incl (cl_neg cl)).
  Proof.
    rewrite nincl_sum. generalize (seq 0 n). intros s.
    assert (P : forall s, 0 <= zsum (map (fun j => ipos row j + ineg row lmem j) s)).
    { clear. induction s as [|a s IH]; cbn [map zsum]; [lia|]. unfold ipos at 1, ineg at 1, b2z.
      destruct (0 <=? nth a row 0), (0 <=? nth (lmem + a) row 0); lia. }
    induction s as [|a s IH]; [reflexivity|]. cbn [map zsum existsb]. rewrite IH. specialize (P s).
    unfold act_at, ipos at 2, ineg at 2, b2z.
    destruct (0 <=? nth a row 0), (0 <=? nth (lmem + a) row 0); cbn [orb]; lia.
  Qed.

  Lemma neon_set_output_scalar : forall bo,
    fst (neon_set_output lits lmem (nmask_of n) row) = fst (set_output bo x cl) /\
    (fst (set_output bo x cl) = 1 -> snd (neon_set_output lits lmem (nmask_of n) row) = snd (set_output true x cl)).
  Proof.
    intros bo. pose proof (nlmem_of_facts n Hn) as [F1 [F2 F3]]. destruct Hbuf as [B1 [B2 B3]].
    pose proof (neon_set_output_spec lits row lmem Hrow B2 n (nmask_of n) (nmask_of_lanes n Hn) F2 F1 F3) as A.
    destruct (neon_set_output lits lmem (nmask_of n) row) as [o st]. cbn [fst snd]. destruct A as [A1 A2].
    assert (S : forall b, fst (set_output b x cl) = 1 <-> pair_ok (cl_pos cl) (cl_neg cl) x).
    { intros b. unfold set_output. apply set_output_loop_spec; rewrite ?nrc_pos_len, ?nrc_neg_len; lia. }
    setoid_rewrite <- nfalsified_pair in S.
    assert (E : o = fst (set_output bo x cl)).
    { rewrite A1. specialize (S bo).
      destruct (set_output_loop_01 bo (cl_pos cl) (cl_neg cl) x 0 0) as [K|K]; fold (set_output bo x cl) in K; rewrite K in *.
      - destruct (existsb _ (seq 0 n)); auto. exfalso. destruct S as [_ S]. specialize (S eq_refl). lia.
      - destruct (existsb _ (seq 0 n)); auto. exfalso. destruct S as [S _]. specialize (S eq_refl). discriminate. }
    split; [exact E|]. rewrite <- E. intros Ho. rewrite (A2 Ho).
    assert (T : fst (set_output true x cl) = 1). { apply S. apply S with (b := bo). rewrite <- E. auto. }
    unfold set_output in T |- *. rewrite set_output_loop_count by (rewrite ?nrc_pos_len, ?nrc_neg_len; auto).
    rewrite <- nincl_sum. lia.
  Qed.


  (** Evaluation: right on its own, up to the flag carried over. *)
  Lemma neon_eval_clause_scalar : forall act,
    neon_eval_clause lits lmem (nmask_of n) row act =
    (if fst (set_output true x cl) =? 1 then b2z (act || (0 <? n_incl (cl_pos cl) + n_incl (cl_neg cl))) else 0,
     act || (0 <? n_incl (cl_pos cl) + n_incl (cl_neg cl))).
  Proof.
    intros act. pose proof (nlmem_of_facts n Hn) as [F1 [F2 F3]]. destruct Hbuf as [B1 [B2 B3]].
    rewrite (neon_eval_clause_spec lits row lmem Hrow B2 n (nmask_of n) (nmask_of_lanes n Hn) F2 F1 F3).
    rewrite nact_incl. f_equal.
    assert (S : fst (set_output true x cl) = 1 <-> pair_ok (cl_pos cl) (cl_neg cl) x).
    { unfold set_output. apply set_output_loop_spec; rewrite ?nrc_pos_len, ?nrc_neg_len; lia. }
    rewrite <- nfalsified_pair in S.
    destruct (existsb _ (seq 0 n)).
    - destruct (Z.eqb_spec (fst (set_output true x cl)) 1) as [E|E]; [|reflexivity]. apply S in E. discriminate.
    - destruct S as [_ S]. rewrite (S eq_refl). cbn [Z.eqb Pos.eqb]. destruct (act || _); reflexivity.
  Qed.
End OneClause.

(** ** One block *)
Lemma neon_train_outputs : forall n x lits b bo si sm r, neon_ok n b -> nbuffer_of n x lits -> binary x ->
  a_outputs (neon_train_on lits b) = b_outputs (train_set_clause_output bo x (scalar_view si sm r b)).
Proof.
  intros n x lits b bo si sm r [O1 O2 O3 O4 O5] Hb Hx. unfold neon_train_on, train_set_clause_output, scalar_view.
  cbn [a_outputs b_outputs b_clauses]. rewrite !map_map. rewrite O2, O3, O4.
  apply map_ext_in. intros row Hr. rewrite Forall_forall in O5. specialize (O5 row Hr).
  apply (neon_set_output_scalar n x lits row O1 Hb Hx O5 bo).
Qed.

Lemma neon_train_counts : forall n x lits b si sm r k, neon_ok n b -> nbuffer_of n x lits -> binary x ->
  nth k (a_outputs (neon_train_on lits b)) 0 = 1 ->
  nth k (a_counts (neon_train_on lits b)) 0 =
  nth k (b_counts (train_set_clause_output true x (scalar_view si sm r b))) 0.
Proof.
  intros n x lits b si sm r k [O1 O2 O3 O4 O5] Hb Hx. unfold neon_train_on, train_set_clause_output, scalar_view.
  cbn [a_outputs a_counts b_counts b_clauses]. rewrite !map_map. rewrite O2, O3, O4.
  destruct (Nat.lt_ge_cases k (length (a_rows b))) as [Hk|Hk].
  - rewrite (nth_indep _ 0 ((fun r => fst (neon_set_output lits (nlmem_of n) (nmask_of n) r)) [])) by (rewrite map_length; auto).
    rewrite (map_nth (fun r => fst (neon_set_output lits (nlmem_of n) (nmask_of n) r))).
    intros H1. rewrite (nth_indep _ 0 ((fun r => snd (neon_set_output lits (nlmem_of n) (nmask_of n) r)) [])) by (rewrite map_length; auto).
    rewrite (map_nth (fun r => snd (neon_set_output lits (nlmem_of n) (nmask_of n) r))).
    rewrite (nth_indep (map _ (a_rows b)) 0 ((fun r => snd (set_output true x (row_clause n (nlmem_of n) r))) [])) by (rewrite map_length; auto).
    rewrite (map_nth (fun r => snd (set_output true x (row_clause n (nlmem_of n) r)))).
    rewrite Forall_forall in O5. specialize (O5 (nth k (a_rows b) []) (nth_In _ _ Hk)).
    destruct (neon_set_output_scalar n x lits _ O1 Hb Hx O5 true) as [A1 A2]. rewrite A2; [reflexivity|].
    rewrite <- A1. exact H1.
  - intros H1. rewrite nth_overflow in H1 by (rewrite map_length; auto). discriminate.
Qed.

Lemma neon_train_votes : forall n x lits b bo si sm r, neon_ok n b -> nbuffer_of n x lits -> binary x ->
  snd (neon_train_ex lits b) = snd (dense_train_ex bo x (scalar_view si sm r b)).
Proof.
  intros n x lits b bo si sm r H Hb Hx. pose proof (neon_train_outputs n x lits b bo si sm r H Hb Hx) as A.
  unfold neon_train_ex, dense_train_ex, avx_count_votes, count_votes. cbn [snd a_votes b_votes].
  rewrite A. reflexivity.
Qed.


(** The evaluation loop: clause [k] answers 1 when nothing falsifies it and it or
    a clause before it includes a literal. *)
Definition has_lit (c : clause) : bool := 0 <? n_incl (cl_pos c) + n_incl (cl_neg c).

Lemma neon_eval_loop_spec : forall n x lits rows act, (0 < n)%nat -> nbuffer_of n x lits -> binary x ->
  Forall (fun row => length row = (2 * nlmem_of n)%nat) rows ->
  length (neon_eval_loop lits (nlmem_of n) (nmask_of n) rows act) = length rows /\
  forall k, (k < length rows)%nat ->
    nth k (neon_eval_loop lits (nlmem_of n) (nmask_of n) rows act) 0 =
    if fst (set_output true x (row_clause n (nlmem_of n) (nth k rows []))) =? 1
    then b2z (act || existsb has_lit (map (row_clause n (nlmem_of n)) (firstn (S k) rows))) else 0.
Proof.
  intros n x lits rows. induction rows as [|row rows IH]; intros act Hn Hb Hx HR; cbn [neon_eval_loop length].
  - split; [reflexivity|]. intros k Hk. lia.
  - inversion HR as [|? ? H1 H2]; subst. rewrite (neon_eval_clause_scalar n x lits row Hn Hb Hx H1 act).
    destruct (IH (act || (0 <? n_incl (cl_pos (row_clause n (nlmem_of n) row)) + n_incl (cl_neg (row_clause n (nlmem_of n) row)))) Hn Hb Hx H2) as [I1 I2].
    cbn [length]. split; [lia|]. intros [|k] Hk.
    + cbn [nth firstn map existsb]. unfold has_lit. rewrite orb_false_r. reflexivity.
    + cbn [nth]. rewrite I2 by lia. change (firstn (S (S k)) (row :: rows)) with (row :: firstn (S k) rows).
      cbn [map existsb]. unfold has_lit at 2. rewrite orb_assoc. reflexivity.
Qed.

Lemma has_lit_iff : forall c, has_lit c = true <-> included (row_of c) <> [].
Proof.
  intros [ps qs]. unfold has_lit, row_of. cbn [cl_pos cl_neg]. pose proof (included_app_nil ps qs).
  pose proof (n_incl_nonneg ps). pose proof (n_incl_nonneg qs). rewrite Z.ltb_lt. split.
  - intros K E. apply H in E. lia.
  - intros K. destruct (Z.ltb_spec 0 (n_incl ps + n_incl qs)); auto. exfalso. apply K. apply H. lia.
Qed.

Lemma nth_firstn_rows : forall (l : list (list Z)) m i d, (i < m)%nat -> nth i (firstn m l) d = nth i l d.
Proof. induction l as [|a l IH]; intros [|m] [|i] d H; cbn [firstn nth]; auto; try lia. apply IH. lia. Qed.

(** Evaluation of a block, clause by clause. *)
Theorem neon_eval_exact : forall n x lits b, neon_ok n b -> nbuffer_of n x lits -> binary x ->
  length (a_outputs (fst (neon_eval_ex lits b))) = length (a_rows b) /\
  forall k, (k < length (a_rows b))%nat ->
    nth k (a_outputs (fst (neon_eval_ex lits b))) 0 =
    b2z (clause_matches n x (row_of (row_clause n (nlmem_of n) (nth k (a_rows b) []))) &&
         existsb has_lit (map (row_clause n (nlmem_of n)) (firstn (S k) (a_rows b)))).
Proof.
  intros n x lits b [O1 O2 O3 O4 O5] Hb Hx. unfold neon_eval_ex, avx_count_votes, neon_eval_set. cbn [fst a_outputs]. rewrite O3, O4.
  destruct (neon_eval_loop_spec n x lits (a_rows b) false O1 Hb Hx O5) as [A1 A2]. split; [exact A1|].
  intros k Hk. rewrite A2 by auto. cbn [orb].
  assert (HR : length (nth k (a_rows b) []) = (2 * nlmem_of n)%nat) by (rewrite Forall_forall in O5; apply O5, nth_In; auto).
  rewrite (set_output_matches true n) by (try (apply nrc_pos_len; solve [auto]); try (apply nrc_neg_len; solve [auto]); try apply Hb; auto).
  unfold row_of. destruct (clause_matches _ _ _); reflexivity.
Qed.

(** It is the scalar evaluation exactly when no empty matching clause follows a
    clause with a literal; an empty clause matches everything. *)
Theorem neon_eval_scalar_iff : forall n x lits b si sm r, neon_ok n b -> nbuffer_of n x lits -> binary x ->
  (a_outputs (fst (neon_eval_ex lits b)) = b_outputs (fst (dense_eval_ex x (scalar_view si sm r b))) <->
   forall j k, (j < k)%nat -> (k < length (a_rows b))%nat ->
     included (row_of (row_clause n (nlmem_of n) (nth j (a_rows b) []))) <> [] ->
     included (row_of (row_clause n (nlmem_of n) (nth k (a_rows b) []))) <> []).
Proof.
  intros n x lits b si sm r OK Hb Hx. destruct (neon_eval_exact n x lits b OK Hb Hx) as [A1 A2]. destruct OK as [O1 O2 O3 O4 O5].
  assert (LEN : forall k, (k < length (a_rows b))%nat -> length (nth k (a_rows b) []) = (2 * nlmem_of n)%nat)
    by (intros k Hk; rewrite Forall_forall in O5; apply O5, nth_In; auto).
  assert (SC : forall k, (k < length (a_rows b))%nat ->
     nth k (b_outputs (fst (dense_eval_ex x (scalar_view si sm r b)))) 0 =
     b2z (clause_fires n x (row_of (row_clause n (nlmem_of n) (nth k (a_rows b) []))))).
  { intros k Hk. unfold dense_eval_ex, count_votes, eval_set_clause_output, scalar_view. cbn [fst b_outputs b_clauses].
    rewrite map_map, O2, O3.
    rewrite (nth_indep _ 0 ((fun r => eval_output x (row_clause n (nlmem_of n) r)) [])) by (rewrite map_length; auto).
    rewrite (map_nth (fun r => eval_output x (row_clause n (nlmem_of n) r))).
    unfold row_of. apply eval_output_fires; [apply nrc_pos_len|apply nrc_neg_len|apply Hb|]; auto. }
  assert (SL : length (b_outputs (fst (dense_eval_ex x (scalar_view si sm r b)))) = length (a_rows b)).
  { unfold dense_eval_ex, count_votes, eval_set_clause_output, scalar_view. cbn [fst b_outputs b_clauses]. now rewrite !map_length. }
  assert (EX : forall k, (k < length (a_rows b))%nat ->
    (existsb has_lit (map (row_clause n (nlmem_of n)) (firstn (S k) (a_rows b))) = true <->
     exists j, (j <= k)%nat /\ included (row_of (row_clause n (nlmem_of n) (nth j (a_rows b) []))) <> [])).
  { intros k Hk. rewrite existsb_exists. split.
    - intros [c [C1 C2]]. apply in_map_iff in C1. destruct C1 as [row [<- C1]].
      destruct (In_nth _ _ [] C1) as [j [J1 J2]]. rewrite firstn_length in J1. exists j. split; [lia|].
      rewrite nth_firstn_rows in J2 by lia. rewrite J2. apply has_lit_iff. exact C2.
    - intros [j [J1 J2]]. exists (row_clause n (nlmem_of n) (nth j (a_rows b) [])). split; [|apply has_lit_iff; auto].
      apply in_map. rewrite <- (nth_firstn_rows (a_rows b) (S k) j []) by lia. apply nth_In. rewrite firstn_length. lia. }
  assert (EM : forall k, (k < length (a_rows b))%nat -> included (row_of (row_clause n (nlmem_of n) (nth k (a_rows b) []))) = [] ->
     clause_matches n x (row_of (row_clause n (nlmem_of n) (nth k (a_rows b) []))) = true).
  { intros k Hk E. unfold clause_matches. rewrite E. reflexivity. }
  split.
  - intros E j k Hjk Hk Hj Hn0. specialize (SC k Hk). rewrite <- E, A2 in SC by auto. rewrite (EM k Hk Hn0) in SC.
    unfold clause_fires in SC. rewrite Hn0 in SC. cbn [andb] in SC.
    rewrite (proj2 (EX k Hk)) in SC by (exists j; split; [lia|auto]). discriminate.
  - intros H. apply list_ext0; [lia|]. intros k Hk. rewrite A1 in Hk. rewrite A2, SC by auto. f_equal.
    apply eq_true_iff_eq. rewrite andb_true_iff, clause_fires_iff, EX by auto. split.
    + intros [M [j [J1 J2]]]. split; [auto|]. destruct (Nat.eq_dec j k) as [->|Ne]; [auto|]. apply (H j k); auto; lia.
    + intros [M J]. split; [auto|]. exists k. split; [lia|auto].
Qed.
