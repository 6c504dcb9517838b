(** The convolutional clause block. *)
From Coq Require Import ZArith List Bool QArith Qround Lia ZifyBool.
From Verif Require Import Base BaseProofs Spec SpecLearning SpecConv ModelDense ModelFeedback ModelExecutor ModelDenseExec ModelConv
  ProofsClause ProofsLayout ProofsEval ProofsLearning ProofsStep ProofsTopLearning ProofsAvx2Hist ProofsSparseState ProofsSparseRules.
Import ListNotations.
Open Scope Z_scope.

(** ** Patches *)

Lemma nth_skipn_any : forall A (d : A) a l i, nth i (skipn a l) d = nth (a + i) l d.
Proof.
  intros A d a. induction a as [|a IH]; intros l i; [reflexivity|]. destruct l as [|h t]; [destruct i; reflexivity|]. apply IH.
Qed.

Lemma patch_eq : forall n np lits p, length lits = (np * n)%nat -> (p < np)%nat -> patch n lits p = nth_patch n lits p.
Proof.
  intros n np lits p HL Hp. unfold patch, nth_patch.
  rewrite (firstn_map_nth _ 0).
  - apply map_ext. intros i. apply nth_skipn_any.
  - rewrite skipn_length, HL. nia.
Qed.

Lemma nth_patch_len : forall n lits p, length (nth_patch n lits p) = n.
Proof. intros. unfold nth_patch. rewrite map_length. apply seq_length. Qed.

Lemma nth_patch_binary : forall n np lits p, conv_example n np lits -> (p < np)%nat -> binary (nth_patch n lits p).
Proof.
  intros n np lits p [HL HB] Hp. unfold binary, nth_patch. apply Forall_map, Forall_forall. intros i Hi. apply in_seq in Hi.
  unfold binary in HB. rewrite Forall_forall in HB. apply HB, nth_In. rewrite HL. nia.
Qed.

(** ** One patch *)

Lemma conv_patch_loop_eq : forall bo pos neg lits pc nc,
  conv_patch_loop bo pos neg lits (pc + nc) =
  (if fst (set_output_loop bo pos neg lits pc nc) =? 1 then Some (snd (set_output_loop bo pos neg lits pc nc)) else None).
Proof.
  intros bo pos. induction pos as [|p pos IH]; intros [|q neg] [|l lits] pc nc; try reflexivity.
  cbn [conv_patch_loop set_output_loop]. destruct ((p >=? 0) && (l =? 0)); [reflexivity|].
  destruct ((q >=? 0) && (l =? 1)); [reflexivity|].
  rewrite <- IH. f_equal. destruct ((p >=? 0) && bo), ((q >=? 0) && bo); lia.
Qed.

Lemma set_output_loop_nobudget : forall pos neg lits pc nc, snd (set_output_loop false pos neg lits pc nc) = pc + nc.
Proof.
  induction pos as [|p pos IH]; intros [|q neg] [|l lits] pc nc; try reflexivity.
  cbn [set_output_loop]. rewrite !andb_false_r. destruct ((p >=? 0) && (l =? 0)); [reflexivity|].
  destruct ((q >=? 0) && (l =? 1)); [reflexivity|]. apply IH.
Qed.

(** What a matching patch stores. *)
Definition stored (bo : bool) (row : list Z) : Z := if bo then n_included row else 0.

Lemma conv_patch_loop_spec : forall bo n x c, length (cl_pos c) = n -> length (cl_neg c) = n -> length x = n -> binary x ->
  conv_patch_loop bo (cl_pos c) (cl_neg c) x 0 = (if clause_matches n x (row_of c) then Some (stored bo (row_of c)) else None).
Proof.
  intros bo n x c Hp Hn Hx Hb. change 0 with (0 + 0) at 1. rewrite conv_patch_loop_eq.
  pose proof (set_output_matches bo n x c Hp Hn Hx Hb) as M. unfold set_output in M. rewrite M. unfold row_of.
  destruct (clause_matches n x (cl_pos c ++ cl_neg c)) eqn:E; [|reflexivity]. cbn [b2z Z.eqb Pos.eqb]. f_equal.
  unfold stored. destruct bo.
  - apply (set_output_count n); auto.
  - apply set_output_loop_nobudget.
Qed.

(** ** The patches of a clause *)

Section Patches.
  Variables (bo : bool) (n np : nat) (lits : list Z) (c : clause).
  Hypothesis Hp : length (cl_pos c) = n.
  Hypothesis Hn : length (cl_neg c) = n.
  Hypothesis Hx : conv_example n np lits.

  Definition pm (p : nat) : bool := clause_matches n (nth_patch n lits p) (row_of c).

  Lemma conv_patch_step_eq : forall st ppc k, (k < np)%nat ->
    conv_patch_step bo n lits c (st, ppc) k = (if pm k then (st ++ [k], set_nth k (stored bo (row_of c)) ppc) else (st, ppc)).
  Proof.
    intros st ppc k Hk. unfold conv_patch_step. rewrite (patch_eq n np) by (auto; apply Hx).
    rewrite (conv_patch_loop_spec bo n) by (auto using nth_patch_len; eapply nth_patch_binary; eauto).
    fold (pm k). destruct (pm k); reflexivity.
  Qed.

  Lemma conv_patches_fold : forall ks st ppc, Forall (fun k => (k < np)%nat) ks ->
    let r := fold_left (conv_patch_step bo n lits c) ks (st, ppc) in
    fst r = st ++ filter pm ks /\ length (snd r) = length ppc /\
    forall i, (i < length ppc)%nat -> nth i (snd r) 0 = (if existsb (Nat.eqb i) ks && pm i then stored bo (row_of c) else nth i ppc 0).
  Proof.
    induction ks as [|k ks IH]; intros st ppc HF; cbn [fold_left filter existsb andb fst snd].
    - rewrite app_nil_r. auto.
    - inversion HF as [|? ? F1 F2]; subst. rewrite conv_patch_step_eq by auto. destruct (pm k) eqn:E.
      + destruct (IH (st ++ [k]) (set_nth k (stored bo (row_of c)) ppc) F2) as [I1 [I2 I3]]. cbv zeta.
        rewrite set_nth_length in I2, I3. rewrite I1, I2. rewrite <- app_assoc. split; [reflexivity|]. split; [reflexivity|].
        intros i Hi. rewrite I3 by auto. destruct (Nat.eqb_spec i k) as [->|Ne]; cbn [orb].
        * rewrite E, andb_true_r. cbn [andb]. destruct (existsb (Nat.eqb k) ks); auto. apply nth_set_nth_eq. auto.
        * destruct (existsb (Nat.eqb i) ks && pm i); auto. apply nth_set_nth_neq. auto.
      + destruct (IH st ppc F2) as [I1 [I2 I3]]. cbv zeta. rewrite I1, I2. split; [reflexivity|]. split; [reflexivity|].
        intros i Hi. rewrite I3 by auto. destruct (Nat.eqb_spec i k) as [->|Ne]; cbn [orb]; auto.
        rewrite E, !andb_false_r. reflexivity.
  Qed.

  Definition matching : list nat := filter pm (seq 0 np).

  Lemma seq_bound : Forall (fun k => (k < np)%nat) (seq 0 np).
  Proof. clear Hp Hn Hx. apply Forall_forall. intros k Hk. apply in_seq in Hk. lia. Qed.

  Lemma conv_patches_spec : forall ppc, length ppc = np ->
    let r := conv_patches bo n np lits c ppc in
    fst r = matching /\ length (snd r) = np /\
    forall i, (i < np)%nat -> nth i (snd r) 0 = (if pm i then stored bo (row_of c) else nth i ppc 0).
  Proof.
    intros ppc HL. unfold conv_patches. destruct (conv_patches_fold (seq 0 np) [] ppc seq_bound) as [I1 [I2 I3]].
    cbv zeta. split; [exact I1|]. split; [lia|]. intros i Hi. rewrite I3 by lia.
    replace (existsb (Nat.eqb i) (seq 0 np)) with true; [reflexivity|].
    symmetry. apply existsb_exists. exists i. split; [apply in_seq; lia|apply Nat.eqb_refl].
  Qed.

  Lemma matching_In : forall p, In p matching <-> (p < np)%nat /\ pm p = true.
  Proof. clear Hp Hn Hx.
    intros p. unfold matching. rewrite filter_In, in_seq. intuition lia.
  Qed.

  Lemma matching_len : (length matching <= np)%nat.
  Proof. clear Hp Hn Hx.
    unfold matching. rewrite <- (seq_length np 0) at 2. generalize (seq 0 np) as l.
    induction l as [|a l IH]; cbn [filter length]; [lia|]. destruct (pm a); cbn [length]; lia.
  Qed.
End Patches.

(** ** The random choice *)

Lemma pick_index_eq : forall m r, pick_index m r =
  (Nat.min (pred m) (Z.to_nat (Qfloor (draw r 0 * inject_Z (Z.of_nat m)))), advance 1 r).
Proof. intros m [src pos]. unfold pick_index, next_u, draw, advance. cbn [rng_src rng_pos]. rewrite Nat.add_0_r, Nat.add_1_r. reflexivity. Qed.

Lemma pick_index_lt : forall m r, (0 < m)%nat -> (fst (pick_index m r) < m)%nat.
Proof. intros m r H. rewrite pick_index_eq. cbn [fst]. lia. Qed.

(** Every index can be drawn. *)
Lemma pick_index_reach : forall m i r, (i < m)%nat -> draw r 0 = (inject_Z (Z.of_nat i) / inject_Z (Z.of_nat m))%Q ->
  fst (pick_index m r) = i.
Proof.
  intros m i r H E. rewrite pick_index_eq. cbn [fst]. rewrite E.
  assert (Q1 : (inject_Z (Z.of_nat i) / inject_Z (Z.of_nat m) * inject_Z (Z.of_nat m) == inject_Z (Z.of_nat i))%Q).
  { apply Qdiv_mult_l || (rewrite Qmult_comm; apply Qmult_div_r).
    intros C. unfold Qeq in C. cbn in C. lia. }
  rewrite Q1, Qfloor_Z. rewrite Nat2Z.id. lia.
Qed.

(** ** One clause *)

Lemma conv_clause_output_spec : forall bo n np lits c ap cnt ppc r,
  length (cl_pos c) = n -> length (cl_neg c) = n -> conv_example n np lits -> length ppc = np ->
  let ms := matching n np lits c in
  let '(o, ap', cnt', ppc', r') := conv_clause_output bo n np lits c ap cnt ppc r in
  length ppc' = np /\
  (ms = [] -> o = 0 /\ ap' = ap /\ cnt' = cnt /\ r' = r) /\
  (ms <> [] -> let i := fst (pick_index (length ms) r) in
     o = 1 /\ (i < length ms)%nat /\ ap' = nth i ms O /\ r' = advance 1 r /\
     (bo = false -> cnt' = cnt) /\
     (bo = true -> cnt' = (if pm n lits c i then n_included (row_of c) else nth i ppc 0))).
Proof.
  intros bo n np lits c ap cnt ppc r H1 H2 H3 H4 ms. unfold conv_clause_output.
  destruct (conv_patches_spec bo n np lits c H1 H2 H3 ppc H4) as [P1 [P2 P3]].
  destruct (conv_patches bo n np lits c ppc) as [st ppc1]. cbn [fst snd] in *. fold ms in P1. subst st.
  destruct ms as [|m0 ms'] eqn:E.
  - split; auto. split; auto. intros C. contradiction.
  - pose proof (pick_index_lt (length (m0 :: ms')) r ltac:(cbn [length]; lia)) as LT.
    assert (LN : (length (m0 :: ms') <= np)%nat) by (rewrite <- E; unfold ms; apply matching_len).
    rewrite pick_index_eq in LT |- *. cbn [fst] in LT |- *. split; auto. split; [intros C; discriminate C|]. intros _.
    split; [reflexivity|]. split; [exact LT|]. split; [reflexivity|]. split; [reflexivity|]. split.
    + intros ->. reflexivity.
    + intros ->. rewrite P3 by lia. reflexivity.
Qed.

(** ** All clauses *)

Definition conv_out_at (t : Z * nat * Z * list Z * rng) : Z * nat * Z := fst (fst t).

Lemma conv_output_loop_nth : forall bo n np lits, conv_example n np lits -> forall cs aps cnts ppc r,
  Forall (fun c => length (cl_pos c) = n /\ length (cl_neg c) = n) cs -> length aps = length cs -> length cnts = length cs -> length ppc = np ->
  let '(os, aps', cnts', ppc', r') := conv_output_loop bo n np lits cs aps cnts ppc r in
  length os = length cs /\ length aps' = length cs /\ length cnts' = length cs /\ length ppc' = np /\
  (exists m, r' = advance m r) /\
  forall k, (k < length cs)%nat -> exists ppck m, length ppck = np /\
    let t := conv_clause_output bo n np lits (nth k cs dclause) (nth k aps O) (nth k cnts 0) ppck (advance m r) in
    nth k os 0 = fst (fst (conv_out_at t)) /\ nth k aps' O = snd (fst (conv_out_at t)) /\ nth k cnts' 0 = snd (conv_out_at t).
Proof.
  intros bo n np lits HX cs. induction cs as [|c cs IH]; intros [|ap aps] [|cnt cnts] ppc r HF HA HC HP; cbn [length] in HA, HC; try discriminate.
  - cbn [conv_output_loop length]. repeat split; auto; [exists O; symmetry; apply advance_0|]. intros k Hk. lia.
  - inversion HF as [|? ? [F1 F2] F3]; subst. cbn [conv_output_loop].
    pose proof (conv_clause_output_spec bo (length (cl_pos c)) (length ppc) lits c ap cnt ppc r eq_refl F2 HX eq_refl) as S. cbv zeta in S.
    destruct (conv_clause_output bo (length (cl_pos c)) (length ppc) lits c ap cnt ppc r) as [[[[o ap1] cnt1] ppc1] r1] eqn:E1.
    destruct S as [S1 [S2 S3]].
    assert (SR : exists m, r1 = advance m r).
    { destruct (matching (length (cl_pos c)) (length ppc) lits c) as [|m0 ms].
      - exists O. rewrite advance_0. apply S2; auto.
      - exists 1%nat. apply S3. discriminate. }
    destruct SR as [m1 ->].
    specialize (IH aps cnts ppc1 (advance m1 r) F3 ltac:(lia) ltac:(lia) S1).
    destruct (conv_output_loop bo (length (cl_pos c)) (length ppc) lits cs aps cnts ppc1 (advance m1 r)) as [[[[os aps2] cnts2] ppc2] r2].
    destruct IH as [I1 [I2 [I3 [I4 [[m2 I5] I6]]]]]. cbn [length].
    split; [lia|]. split; [lia|]. split; [lia|]. split; [exact I4|]. split; [exists (m1 + m2)%nat; rewrite I5; apply advance_advance|].
    intros [|k] Hk.
    + exists ppc, O. rewrite advance_0. cbn [nth]. rewrite E1. repeat split; auto.
    + destruct (I6 k ltac:(lia)) as [ppck [m [J1 J2]]]. exists ppck, (m1 + m)%nat. rewrite <- advance_advance. cbn [nth]. split; [exact J1|exact J2].
Qed.

(** ** The block *)

Record conv_ok (n ncls : nat) (v : cvblock) : Prop := {
  co_block : block_ok n ncls (cv_b v);
  co_nlit : b_nlit (cv_b v) = n;
  co_counts : length (b_counts (cv_b v)) = length (b_clauses (cv_b v));
  co_active : length (cv_active v) = length (b_clauses (cv_b v));
  co_ppc : length (cv_ppc v) = cv_np v;
  co_np : (0 < cv_np v)%nat
}.

Definition crow (v : cvblock) (k : nat) : list Z := row_at (cv_b v) k.
Definition cweight (v : cvblock) (k c : nat) : Z := weight_at (cv_b v) k c.
Definition nclauses (v : cvblock) : nat := length (b_clauses (cv_b v)).

Lemma pm_spec : forall n lits v k p, pm n lits (clause_at (cv_b v) k) p = true <-> patch_matches n lits (crow v k) p.
Proof. intros. reflexivity. Qed.

Lemma matching_some : forall n np lits v k, matching n np lits (clause_at (cv_b v) k) <> [] <-> some_match n np lits (crow v k).
Proof.
  intros n np lits v k. split.
  - intros H. destruct (matching n np lits (clause_at (cv_b v) k)) as [|p ms] eqn:E; [contradiction|].
    assert (I : In p (matching n np lits (clause_at (cv_b v) k))) by (rewrite E; left; auto).
    apply matching_In in I. exists p. exact I.
  - intros [p [H1 H2]] E. assert (I : In p (matching n np lits (clause_at (cv_b v) k))) by (apply matching_In; auto).
    rewrite E in I. contradiction.
Qed.

(** Everything about the training outputs. *)
Lemma conv_train_spec : forall bo lits v n ncls, conv_ok n ncls v -> conv_example n (cv_np v) lits ->
  let v1 := fst (conv_train_ex bo lits v) in
  conv_ok n ncls v1 /\ cv_np v1 = cv_np v /\ b_clauses (cv_b v1) = b_clauses (cv_b v) /\ b_weights (cv_b v1) = b_weights (cv_b v) /\
  b_budget (cv_b v1) = b_budget (cv_b v) /\ b_s_inv (cv_b v1) = b_s_inv (cv_b v) /\ b_s_min1_inv (cv_b v1) = b_s_min1_inv (cv_b v) /\
  b_fast (cv_b v1) = b_fast (cv_b v) /\ length (b_outputs (cv_b v1)) = nclauses v /\
  (exists m, b_rng (cv_b v1) = advance m (b_rng (cv_b v))) /\
  forall k, (k < nclauses v)%nat -> exists m ppck, length ppck = cv_np v /\
    let c := clause_at (cv_b v) k in
    let ms := matching n (cv_np v) lits c in
    (ms = [] -> nth k (b_outputs (cv_b v1)) 0 = 0 /\ nth k (cv_active v1) O = nth k (cv_active v) O /\
                nth k (b_counts (cv_b v1)) 0 = nth k (b_counts (cv_b v)) 0) /\
    (ms <> [] -> let i := fst (pick_index (length ms) (advance m (b_rng (cv_b v)))) in
       nth k (b_outputs (cv_b v1)) 0 = 1 /\ (i < length ms)%nat /\ nth k (cv_active v1) O = nth i ms O /\
       (bo = true -> nth k (b_counts (cv_b v1)) 0 = (if pm n lits c i then n_included (row_of c) else nth i ppck 0))).
Proof.
  intros bo lits v n ncls OK HX. pose proof OK as [[WF I8 I16] C1 C2 C3 C4 C5]. pose proof WF as [W1 W2 W3 W4].
  unfold conv_train_ex, cv_count_votes, conv_set_output. cbn [fst]. unfold nclauses. rewrite C1.
  pose proof (conv_output_loop_nth bo n (cv_np v) lits HX (b_clauses (cv_b v)) (cv_active v) (b_counts (cv_b v)) (cv_ppc v) (b_rng (cv_b v))
    W2 C3 C2 C4) as T.
  destruct (conv_output_loop _ _ _ _ _ _ _ _ _) as [[[[os aps] cnts] ppc] r]. destruct T as [T1 [T2 [T3 [T4 [T5 T6]]]]].
  unfold count_votes. cbn [cv_b cv_np cv_active cv_ppc b_nlit b_ncls b_clauses b_weights b_outputs b_counts b_votes b_budget b_s_inv b_s_min1_inv b_rng b_fast].
  split; [|split; [reflexivity|split; [reflexivity|split; [reflexivity|split; [reflexivity|split; [reflexivity|split; [reflexivity|split; [reflexivity|split; [exact T1|split; [exact T5|]]]]]]]]]].
  - constructor; cbn [cv_b cv_np cv_active cv_ppc b_nlit b_counts b_clauses]; auto.
    constructor; [constructor| |]; cbn [b_ncls b_clauses b_weights]; auto.
  - intros k Hk. destruct (T6 k Hk) as [ppck [m [J1 J2]]]. exists m, ppck. split; [exact J1|]. cbv zeta in J2 |- *. fold (clause_at (cv_b v) k) in J2.
    destruct (clause_at_ok n ncls (cv_b v) k (co_block _ _ _ OK) Hk) as [P1 [P2 _]].
    pose proof (conv_clause_output_spec bo n (cv_np v) lits (clause_at (cv_b v) k) (nth k (cv_active v) O) (nth k (b_counts (cv_b v)) 0)
      ppck (advance m (b_rng (cv_b v))) P1 P2 HX J1) as S. cbv zeta in S.
    destruct (conv_clause_output _ _ _ _ _ _ _ _ _) as [[[[o ap1] cnt1] ppc1] r1]. cbn [conv_out_at fst snd] in J2.
    destruct J2 as [-> [-> ->]]. destruct S as [S1 [S2 S3]]. split.
    + intros E. destruct (S2 E) as [A [B [C _]]]. auto.
    + intros E. destruct (S3 E) as [A [B [C [_ [_ D]]]]]. auto.
Qed.
