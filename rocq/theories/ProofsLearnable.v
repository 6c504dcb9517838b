(** Any conjunction can be learnt. *)
From Coq Require Import ZArith List Bool QArith Lia Lqa ZifyBool.
From Verif Require Import Base BaseProofs Spec SpecLearning SpecLearnable ModelDense ModelDenseExec ProofsClause ProofsEval ProofsLearning ProofsStep ProofsFeedback.
Import ListNotations.
Open Scope Z_scope.

(** ** One step that reaches one clause *)

Lemma clause_untouched : forall bo boost bud si sm x pc pp nc np c ws o cnt r f,
  Qlt_bool (draw f 0) pp = false -> Qlt_bool (draw f 1) np = false ->
  train_update_clause bo boost bud si sm x pc pp nc np c ws o cnt r f = (c, ws, if bo && (cnt >? bud) then 0 else o, r, advance 2 f).
Proof.
  intros. unfold train_update_clause. rewrite draw_lt_eq, H, draw_lt_eq.
  replace (draw (advance 1 f) 0) with (draw f 1) by (unfold draw, advance; cbn; f_equal; lia). rewrite H0, advance_advance. reflexivity.
Qed.

Lemma train_update_clause_fast : forall bo boost bud si sm x pc pp nc np c ws o cnt r f,
  snd (train_update_clause bo boost bud si sm x pc pp nc np c ws o cnt r f) = advance 2 f.
Proof.
  intros. unfold train_update_clause. rewrite !draw_lt_eq, advance_advance.
  destruct (Qlt_bool (draw f 0) pp); [destruct (clause_update _ _ _ _ _ _ _ _ _) as [[? ?] ?]|];
    (destruct (Qlt_bool (draw (advance 1 f) 0) np); [destruct (clause_update _ _ _ _ _ _ _ _ _) as [[? ?] ?]|]); reflexivity.
Qed.

Lemma draw_advance : forall m k f, draw (advance m f) k = draw f (m + k).
Proof. intros. unfold draw, advance. cbn [rng_src rng_pos]. f_equal. lia. Qed.

Lemma loop_only : forall bo boost bud si sm x pc pp nc np cs wss outs counts r f k,
  length wss = length cs -> length outs = length cs -> (k < length cs)%nat ->
  (forall j, j <> k -> Qlt_bool (draw f (2 * j)) pp = false /\ Qlt_bool (draw f (2 * j + 1)) np = false) ->
  let t := train_update_clause bo boost bud si sm x pc pp nc np (nth k cs dclause) (nth k wss []) (nth k outs 0) (nth k counts 0) r (advance (2 * k) f) in
  let l := train_update_loop bo boost bud si sm x pc pp nc np cs wss outs counts r f in
  (forall j, nth j (fst (fst (fst (fst l)))) dclause = if Nat.eqb j k then fst (fst (fst (fst t))) else nth j cs dclause) /\
  (forall j, nth j (snd (fst (fst (fst l)))) [] = if Nat.eqb j k then snd (fst (fst (fst t))) else nth j wss []).
Proof.
  intros bo boost bud si sm x pc pp nc np.
  assert (Quiet : forall cs wss outs counts r f, (forall j, Qlt_bool (draw f (2 * j)) pp = false /\ Qlt_bool (draw f (2 * j + 1)) np = false) ->
    let l := train_update_loop bo boost bud si sm x pc pp nc np cs wss outs counts r f in fst (fst (fst (fst l))) = cs /\ snd (fst (fst (fst l))) = wss).
  { induction cs as [|c cs IH]; intros [|ws wss] [|o outs] counts r f Q; cbn [train_update_loop]; auto.
    destruct (Q O) as [Q0 Q1]. rewrite clause_untouched by auto.
    assert (Q' : forall j, Qlt_bool (draw (advance 2 f) (2 * j)) pp = false /\ Qlt_bool (draw (advance 2 f) (2 * j + 1)) np = false).
    { intros j. rewrite !draw_advance. destruct (Q (S j)) as [A B]. replace (2 + 2 * j)%nat with (2 * S j)%nat by lia. replace (2 + (2 * j + 1))%nat with (2 * S j + 1)%nat by lia. auto. }
    specialize (IH wss outs (tl counts) r (advance 2 f) Q'). cbv zeta in IH.
    destruct (train_update_loop _ _ _ _ _ _ _ _ _ _ _ _ _ _ _ _) as [[[[a b] c0] d] e]. cbn in *. destruct IH. split; congruence. }
  induction cs as [|c cs IH]; intros [|ws wss] [|o outs] counts r f k L1 L2 Hk Q; cbn [length] in *; try lia.
  destruct k as [|k].
  - cbn [train_update_loop nth]. replace (2 * 0)%nat with O by lia. rewrite advance_0.
    replace (hd 0 counts) with (nth 0 counts 0) by (destruct counts; reflexivity).
    pose proof (train_update_clause_fast bo boost bud si sm x pc pp nc np c ws o (nth 0 counts 0) r f) as FA.
    destruct (train_update_clause _ _ _ _ _ _ _ _ _ _ _ _ _ _ _ _) as [[[[c1 w1] o1] r1] f1]. cbn [snd] in FA. subst f1.
    assert (Q' : forall j, Qlt_bool (draw (advance 2 f) (2 * j)) pp = false /\ Qlt_bool (draw (advance 2 f) (2 * j + 1)) np = false).
    { intros j. rewrite !draw_advance. destruct (Q (S j) ltac:(lia)) as [A B]. replace (2 + 2 * j)%nat with (2 * S j)%nat by lia. replace (2 + (2 * j + 1))%nat with (2 * S j + 1)%nat by lia. auto. }
    specialize (Quiet cs wss outs (tl counts) r1 (advance 2 f) Q'). cbv zeta in Quiet.
    destruct (train_update_loop _ _ _ _ _ _ _ _ _ _ _ _ _ _ _ _) as [[[[a b] c0] d] e]. cbn in *. destruct Quiet as [-> ->].
    split; intros [|j]; reflexivity.
  - cbn [train_update_loop nth]. destruct (Q O ltac:(lia)) as [Q0 Q1]. rewrite (clause_untouched _ _ _ _ _ _ _ _ _ _ c) by auto.
    assert (Q' : forall j, j <> k -> Qlt_bool (draw (advance 2 f) (2 * j)) pp = false /\ Qlt_bool (draw (advance 2 f) (2 * j + 1)) np = false).
    { intros j Hj. rewrite !draw_advance. destruct (Q (S j) ltac:(lia)) as [A B]. replace (2 + 2 * j)%nat with (2 * S j)%nat by lia. replace (2 + (2 * j + 1))%nat with (2 * S j + 1)%nat by lia. auto. }
    specialize (IH wss outs (tl counts) r (advance 2 f) k ltac:(lia) ltac:(lia) ltac:(lia) Q'). cbv zeta in IH.
    rewrite advance_advance in IH. replace (2 + 2 * k)%nat with (2 * S k)%nat in IH by lia.
    replace (nth k (tl counts) 0) with (nth (S k) counts 0) in IH by (destruct counts; [destruct k|]; reflexivity).
    destruct (train_update_loop _ _ _ _ _ _ _ _ _ _ _ _ _ _ _ _) as [[[[a b] c0] d] e]. cbn in *. destruct IH as [I1 I2].
    split; intros [|j]; cbn; auto.
Qed.

(** The two draws of clause [k] decide; all other draws fail. *)
Definition aim (k : nat) (pos : bool) (m : Q) : rng := mkRng (fun i => if Nat.eqb i (if pos then 2 * k else 2 * k + 1) then 0%Q else m) O.
Definition qmax (a b : Q) : Q := if Qle_bool a b then b else a.
Lemma qmax_le : forall a b, (a <= qmax a b)%Q /\ (b <= qmax a b)%Q.
Proof.
  intros a b. unfold qmax. destruct (Qle_bool a b) eqn:E; [apply Qle_bool_iff in E; lra|].
  assert (~ (a <= b)%Q) by (intros H; apply Qle_bool_iff in H; congruence). lra.
Qed.
Lemma qmax_lt : forall a b c, (a < c)%Q -> (b < c)%Q -> (qmax a b < c)%Q.
Proof. intros a b c A B. unfold qmax. destruct (Qle_bool a b); auto. Qed.
Lemma qlt_false : forall a b, (b <= a)%Q -> Qlt_bool a b = false.
Proof. intros a b H. destruct (Qlt_bool a b) eqn:E; auto. apply Qlt_bool_iff in E. lra. Qed.

Lemma aim_unit : forall k pos m, (0 <= m < 1)%Q -> unit_draws (aim k pos m).
Proof. intros k pos m H i. unfold aim. cbn [rng_src]. destruct (Nat.eqb i _); [split; [apply Qle_refl|reflexivity]|exact H]. Qed.

(** What stays when only clause [k] is trained. *)
Record frame (n ncls k : nat) (b b' : block) : Prop := {
  fr_ok : block_ok n ncls b';
  fr_len : length (b_clauses b') = length (b_clauses b);
  fr_budget : b_budget b' = b_budget b;
  fr_si : b_s_inv b' = b_s_inv b;
  fr_sm : b_s_min1_inv b' = b_s_min1_inv b;
  fr_rows : forall j, j <> k -> row_at b' j = row_at b j;
  fr_weights : forall j c, j <> k -> weight_at b' j c = weight_at b j c
}.
Lemma frame_refl : forall n ncls k b, block_ok n ncls b -> frame n ncls k b b.
Proof. intros. constructor; auto. Qed.
Lemma frame_trans : forall n ncls k a b c, frame n ncls k a b -> frame n ncls k b c -> frame n ncls k a c.
Proof.
  intros n ncls k a b c [A1 A2 A3 A4 A5 A6 A7] [B1 B2 B3 B4 B5 B6 B7]. constructor; auto; try congruence.
  - intros j H. rewrite B6, A6; auto.
  - intros j d H. rewrite B7, A7; auto.
Qed.

Lemma aimed_step : forall n ncls bo boost x pc nc pp np b k pos src,
  block_ok n ncls b -> length x = n -> binary x -> (pc < ncls)%nat -> (nc < ncls)%nat -> (k < length (b_clauses b))%nat ->
  (0 < pp)%Q -> (0 < np)%Q ->
  let b' := dense_step bo boost x pc pp nc np (with_gens (mkRng src 0) (aim k pos (qmax pp np)) b) in
  let o := if active bo n x (b_budget b) (row_at b k) then 1 else 0 in
  let t := clause_update boost (b_s_inv b) (b_s_min1_inv b) (clause_at b k) (weight_at b k (if pos then pc else nc)) (if pos then 1 else -1) x o (mkRng src 0) in
  frame n ncls k b b' /\ clause_at b' k = fst (fst t) /\
  (forall c, weight_at b' k c = if Nat.eqb c (if pos then pc else nc) then snd (fst t) else weight_at b k c).
Proof.
  intros n ncls bo boost x pc nc pp np b k pos src OK Hx Hb Hpc Hnc Hk Hpp Hnp. cbv zeta.
  set (f := aim k pos (qmax pp np)). set (b0 := with_gens (mkRng src 0) f b).
  assert (OK0 : block_ok n ncls b0) by (destruct OK as [[W1 W2 W3 W4] O2 O3]; constructor; [constructor; auto|exact O2|exact O3]).
  pose proof (dense_step_spec bo boost x pc pp nc np b0 n ncls OK0 Hx Hb Hpc Hnc) as S. cbv zeta in S.
  destruct S as [S1 [S2 [S3 _]]].
  pose proof (step_outputs bo n ncls b0 x k OK0 Hx Hb Hk) as SO. cbv zeta in SO.
  destruct (qmax_le pp np) as [M1 M2].
  assert (Qj : forall j, j <> k -> Qlt_bool (draw f (2 * j)) pp = false /\ Qlt_bool (draw f (2 * j + 1)) np = false).
  { intros j Hj. unfold f, aim, draw. cbn [rng_src rng_pos Nat.add].
    replace (Nat.eqb (2 * j) _) with false by (symmetry; apply Nat.eqb_neq; destruct pos; lia).
    replace (Nat.eqb (2 * j + 1) _) with false by (symmetry; apply Nat.eqb_neq; destruct pos; lia). split; apply qlt_false; auto. }
  assert (Lo : length (b_outputs (fst (dense_train_ex bo x b0))) = length (b_clauses b)) by (cbn; rewrite !map_length; reflexivity).
  pose proof (bw_len _ _ _ (bo_wf _ _ _ OK)) as LW.
  pose proof (loop_only bo boost (b_budget b) (b_s_inv b) (b_s_min1_inv b) x pc pp nc np (b_clauses b) (b_weights b)
    (b_outputs (fst (dense_train_ex bo x b0))) (b_counts (fst (dense_train_ex bo x b0))) (mkRng src 0) f k ltac:(lia) Lo Hk Qj) as T. cbv zeta in T.
  set (b' := dense_step bo boost x pc pp nc np b0) in *.
  assert (E : b_s_inv b' = b_s_inv b /\ b_s_min1_inv b' = b_s_min1_inv b /\
    b_clauses b' = fst (fst (fst (fst (train_update_loop bo boost (b_budget b) (b_s_inv b) (b_s_min1_inv b) x pc pp nc np (b_clauses b) (b_weights b)
      (b_outputs (fst (dense_train_ex bo x b0))) (b_counts (fst (dense_train_ex bo x b0))) (mkRng src 0) f)))) /\
    b_weights b' = snd (fst (fst (fst (train_update_loop bo boost (b_budget b) (b_s_inv b) (b_s_min1_inv b) x pc pp nc np (b_clauses b) (b_weights b)
      (b_outputs (fst (dense_train_ex bo x b0))) (b_counts (fst (dense_train_ex bo x b0))) (mkRng src 0) f))))).
  { unfold b', dense_step, dense_upd, train_update.
    change (b_budget (fst (dense_train_ex bo x b0))) with (b_budget b). change (b_s_inv (fst (dense_train_ex bo x b0))) with (b_s_inv b).
    change (b_s_min1_inv (fst (dense_train_ex bo x b0))) with (b_s_min1_inv b). change (b_clauses (fst (dense_train_ex bo x b0))) with (b_clauses b).
    change (b_weights (fst (dense_train_ex bo x b0))) with (b_weights b). change (b_rng (fst (dense_train_ex bo x b0))) with (mkRng src 0).
    change (b_fast (fst (dense_train_ex bo x b0))) with f.
    destruct (train_update_loop _ _ _ _ _ _ _ _ _ _ _ _ _ _ _ _) as [[[[a a2] a3] a4] a5]. auto. }
  destruct E as [E1 [E2 [E3 E4]]]. rewrite <- E3, <- E4 in T. destruct T as [T1 T2].
  set (o' := nth k (b_outputs (fst (dense_train_ex bo x b0))) 0) in *.
  set (cnt := nth k (b_counts (fst (dense_train_ex bo x b0))) 0) in *.
  assert (TU : train_update_clause bo boost (b_budget b) (b_s_inv b) (b_s_min1_inv b) x pc pp nc np (nth k (b_clauses b) dclause) (nth k (b_weights b) [])
     o' cnt (mkRng src 0) (advance (2 * k) f) =
     (let t := clause_update boost (b_s_inv b) (b_s_min1_inv b) (clause_at b k) (weight_at b k (if pos then pc else nc)) (if pos then 1 else -1) x
        (if bo && (cnt >? b_budget b) then 0 else o') (mkRng src 0) in
      (fst (fst t), set_nth (if pos then pc else nc) (snd (fst t)) (nth k (b_weights b) []), if bo && (cnt >? b_budget b) then 0 else o', snd t, advance 2 (advance (2 * k) f)))).
  { unfold train_update_clause. rewrite !draw_lt_eq, !draw_advance.
    replace (2 * k + 0)%nat with (2 * k)%nat by lia. replace (2 * k + (1 + 0))%nat with (2 * k + 1)%nat by lia.
    destruct pos.
    - replace (Qlt_bool (draw f (2 * k)) pp) with true.
      2:{ symmetry. apply Qlt_bool_iff. unfold f, aim, draw. cbn [rng_src rng_pos Nat.add]. rewrite Nat.eqb_refl. exact Hpp. }
      replace (Qlt_bool (draw f (2 * k + 1)) np) with false.
      2:{ symmetry. apply qlt_false. unfold f, aim, draw. cbn [rng_src rng_pos Nat.add]. replace (Nat.eqb (2 * k + 1) (2 * k)) with false by (symmetry; apply Nat.eqb_neq; lia). exact M2. }
      unfold clause_at, weight_at. destruct (clause_update _ _ _ _ _ _ _ _ _) as [[c' w'] r']. cbn [fst snd]. rewrite !advance_advance. repeat f_equal; lia.
    - replace (Qlt_bool (draw f (2 * k)) pp) with false.
      2:{ symmetry. apply qlt_false. unfold f, aim, draw. cbn [rng_src rng_pos Nat.add]. replace (Nat.eqb (2 * k) (2 * k + 1)) with false by (symmetry; apply Nat.eqb_neq; lia). exact M1. }
      replace (Qlt_bool (draw f (2 * k + 1)) np) with true.
      2:{ symmetry. apply Qlt_bool_iff. unfold f, aim, draw. cbn [rng_src rng_pos Nat.add]. rewrite Nat.eqb_refl. exact Hnp. }
      unfold clause_at, weight_at. destruct (clause_update _ _ _ _ _ _ _ _ _) as [[c' w'] r']. cbn [fst snd]. rewrite !advance_advance. repeat f_equal; lia. }
  assert (CU : forall c w t, clause_update boost (b_s_inv b) (b_s_min1_inv b) c w t x (if bo && (cnt >? b_budget b) then 0 else o') (mkRng src 0) =
               clause_update boost (b_s_inv b) (b_s_min1_inv b) c w t x (if active bo n x (b_budget b) (row_at b k) then 1 else 0) (mkRng src 0)).
  { intros c w t. unfold clause_update. change (b_budget b0) with (b_budget b) in SO. change (row_at b0 k) with (row_at b k) in SO.
    change (nth k (b_outputs (fst (dense_train_ex bo x b0))) 0) with o' in SO. change (nth k (b_counts (fst (dense_train_ex bo x b0))) 0) with cnt in SO.
    replace ((if bo && (cnt >? b_budget b) then 0 else o') =? 1) with ((if active bo n x (b_budget b) (row_at b k) then 1 else 0) =? 1); [reflexivity|].
    rewrite <- SO. destruct (bo && (cnt >? b_budget b)); destruct (o' =? 1); reflexivity. }
  rewrite TU in T1, T2. cbv zeta in T1, T2. rewrite CU in T1, T2. cbn [fst snd] in T1, T2.
  split; [|split].
  - constructor; auto.
    + intros j Hj. unfold row_at, clause_at. rewrite T1. apply Nat.eqb_neq in Hj. rewrite Hj. reflexivity.
    + intros j c Hj. unfold weight_at. rewrite T2. apply Nat.eqb_neq in Hj. rewrite Hj. reflexivity.
  - unfold clause_at at 1. rewrite T1, Nat.eqb_refl. reflexivity.
  - intros c. unfold weight_at at 1. rewrite T2, Nat.eqb_refl. rewrite nth_set_nth.
    + destruct (Nat.eqb c _); reflexivity.
    + destruct (weights_ok n ncls b (nth k (b_weights b) []) OK) as [LL _]; [apply nth_In; lia|]. rewrite LL. destruct pos; auto.
Qed.

Lemma nth_skipn_z : forall a (l : list Z) i, nth i (skipn a l) 0 = nth (a + i) l 0.
Proof. induction a as [|a IH]; intros l i; [reflexivity|]. destruct l as [|h t]; [destruct i; reflexivity|]. apply IH. Qed.
Lemma filter_length_le_nat : forall (f : Z -> bool) l, (length (filter f l) <= length l)%nat.
Proof. induction l as [|h t IH]; cbn [filter length]; [lia|]. destruct (f h); cbn [length]; lia. Qed.

(** ** Both kinds of Type I step *)

Lemma trains_trans : forall draws n ncls bo boost prob a b c, trains_with draws n ncls bo boost prob a b -> trains_with draws n ncls bo boost prob b c -> trains_with draws n ncls bo boost prob a c.
Proof. intros draws n ncls bo boost prob a b c H. induction H as [|b x pc nc r f b' H1 H2 H3 H4 H5 H6 H7 H8 IH]; intros T; auto. apply (train_more _ _ _ _ _ _ b x pc nc r f); auto. Qed.

Section Learn.
  Variables n ncls : nat.
  Variables bo boost : bool.
  Variable prob : block -> list Z -> nat -> nat -> Q * Q.
  Hypothesis Hprob : open_probs prob.
  Variables c other : nat.
  Hypothesis Hc : (c < ncls)%nat.
  Hypothesis Hother : (other < ncls)%nat.
  Hypothesis Hne : c <> other.

  Variable draws : rng -> Prop.
  Hypothesis Hzero : draws (mkRng (fun _ => 0%Q) 0).

  Notation reach := (trains_with draws n ncls bo boost prob).

  Lemma row_len : forall b k, block_ok n ncls b -> (k < length (b_clauses b))%nat -> length (row_at b k) = (2 * n)%nat.
  Proof.
    intros b k OK Hk. destruct (clause_at_ok n ncls b k OK Hk) as [P1 [P2 _]]. unfold row_at, row_of. rewrite app_length. lia.
  Qed.
  Lemma nth_row : forall b k i, block_ok n ncls b -> (k < length (b_clauses b))%nat -> (i < 2 * n)%nat -> nth i (row_at b k) (-1) = nth i (row_at b k) 0.
  Proof. intros b k i OK Hk Hi. apply nth_indep. rewrite row_len; auto. Qed.

  (** A step in which clause [k] gets Type I feedback for the sign of its weight. *)
  Lemma type1_step : forall b k x src, block_ok n ncls b -> (k < length (b_clauses b))%nat -> length x = n -> binary x -> draws (mkRng src 0) ->
    exists b', reach b b' /\ frame n ncls k b b' /\
      (forall d, d <> c -> weight_at b' k d = weight_at b k d) /\
      (if active bo n x (b_budget b) (row_at b k) then
         weight_at b' k c = wrap16 (weight_at b k c + (if weight_at b k c >=? 0 then 1 else -1)) /\
         row_of (clause_at b' k) = (let '(p, q, _) := type1a boost (b_s_inv b) (b_s_min1_inv b) (cl_pos (clause_at b k)) (cl_neg (clause_at b k)) x (mkRng src 0) in p ++ q)
       else
         weight_at b' k c = weight_at b k c /\
         row_of (clause_at b' k) = (let '(p, q, _) := type1b (b_s_inv b) (cl_pos (clause_at b k)) (cl_neg (clause_at b k)) (mkRng src 0) in p ++ q)).
  Proof.
    intros b k x src OK Hk Hx Hb U. set (pos := weight_at b k c >=? 0).
    set (pc := if pos then c else other). set (nc := if pos then other else c).
    destruct (Hprob b x pc nc) as [[P1 P2] [P3 P4]]. set (pp := fst (prob b x pc nc)) in *. set (np := snd (prob b x pc nc)) in *.
    assert (Hpc : (pc < ncls)%nat) by (unfold pc; destruct pos; auto). assert (Hnc : (nc < ncls)%nat) by (unfold nc; destruct pos; auto).
    pose proof (aimed_step n ncls bo boost x pc nc pp np b k pos src OK Hx Hb Hpc Hnc Hk P1 P3) as T. cbv zeta in T.
    replace (if pos then pc else nc) with c in T by (unfold pc, nc; destruct pos; reflexivity).
    exists (dense_step bo boost x pc pp nc np (with_gens (mkRng src 0) (aim k pos (qmax pp np)) b)).
    destruct T as [T1 [T2 T3]]. split; [|split; [exact T1|split]].
    - eapply (train_more _ _ _ _ _ _ b x pc nc (mkRng src 0) (aim k pos (qmax pp np))); auto; [unfold pc, nc; destruct pos; auto| |apply trained].
      apply aim_unit. destruct (qmax_le pp np) as [M1 M2]. split; [lra|apply qmax_lt; auto].
    - intros d Hd. rewrite T3. apply Nat.eqb_neq in Hd. rewrite Hd. reflexivity.
    - rewrite T2, T3, Nat.eqb_refl. unfold clause_update. fold pos.
      destruct pos; cbn [Z.mul Z.gtb Z.compare Z.opp Pos.mul Pos.compare Pos.compare_cont];
        (destruct (active bo n x (b_budget b) (row_at b k)); cbn [Z.eqb Pos.eqb];
        [destruct (type1a _ _ _ _ _ _ _) as [[p q] r]|destruct (type1b _ _ _ _) as [[p q] r]]; cbn [fst snd]; split; reflexivity).
  Qed.

  (** ** Forgetting *)
  Definition against (i : nat) : list Z := map (fun j => if Nat.eqb (n + j) i then 1 else 0) (seq 0 n).
  Lemma against_false : forall i, (i < 2 * n)%nat -> lit_true n (against i) i = false.
  Proof.
    intros i Hi. unfold lit_true, against. destruct (Nat.ltb i n) eqn:E.
    - apply Nat.ltb_lt in E. rewrite (nth_indep _ 0 ((fun j => if Nat.eqb (n + j) i then 1 else 0) O)) by (rewrite map_length, seq_length; auto).
      rewrite (map_nth (fun j => if Nat.eqb (n + j) i then 1 else 0)), seq_nth by auto. replace (Nat.eqb (n + (0 + i)) i) with false by (symmetry; apply Nat.eqb_neq; lia). reflexivity.
    - apply Nat.ltb_ge in E. rewrite (nth_indep _ 0 ((fun j => if Nat.eqb (n + j) i then 1 else 0) O)) by (rewrite map_length, seq_length; lia).
      rewrite (map_nth (fun j => if Nat.eqb (n + j) i then 1 else 0)), seq_nth by lia. replace (Nat.eqb (n + (0 + (i - n))) i) with true by (symmetry; apply Nat.eqb_eq; lia). reflexivity.
  Qed.
  Lemma against_ok : forall i, length (against i) = n /\ binary (against i).
  Proof.
    intros i. unfold against. split; [rewrite map_length; apply seq_length|]. apply Forall_map, Forall_forall. intros j _. destruct (Nat.eqb (n + j) i); auto.
  Qed.
  Lemma zeros_unit : unit_draws (mkRng (fun _ => 0%Q) 0).
  Proof. intros i. cbn. split; [apply Qle_refl|reflexivity]. Qed.

  Lemma down_step : forall b k i, block_ok n ncls b -> (k < length (b_clauses b))%nat -> (0 <= b_s_inv b)%Q -> (i < 2 * n)%nat -> 0 <= nth i (row_at b k) 0 ->
    exists b', reach b b' /\ frame n ncls k b b' /\ (forall d, weight_at b' k d = weight_at b k d) /\
      forall j, (j < 2 * n)%nat -> nth j (row_at b' k) 0 = step_down (nth j (row_at b k) 0).
  Proof.
    intros b k i OK Hk Hsi Hi V. destruct (against_ok i) as [A1 A2].
    destruct (type1_step b k (against i) (fun _ => 0%Q) OK Hk A1 A2 Hzero) as [b' [R [F [W T]]]].
    assert (AC : active bo n (against i) (b_budget b) (row_at b k) = false).
    { unfold active. destruct (clause_matches n (against i) (row_at b k)) eqn:E; [|reflexivity]. exfalso.
      apply (proj1 (clause_matches_iff _ _ _)) with (i := i) in E; [rewrite against_false in E by auto; discriminate|rewrite row_len; auto|rewrite nth_row; auto]. }
    rewrite AC in T. destruct T as [T1 T2]. exists b'. split; [exact R|]. split; [exact F|]. split.
    - intros d. destruct (Nat.eq_dec d c) as [->|N]; auto.
    - destruct (clause_at_ok n ncls b k OK Hk) as [P1 [P2 [P3 P4]]].
      pose proof (type1b_exact (b_s_inv b) (cl_pos (clause_at b k)) (cl_neg (clause_at b k)) (mkRng (fun _ => 0%Q) 0) ltac:(lia) P3 P4) as X.
      destruct (type1b _ _ _ _) as [[ps qs] r]. destruct X as [X1 [X2 [X3 [X4 _]]]].
      assert (Z0 : forall m, Qle_bool (draw (mkRng (fun _ => 0%Q) 0) m) (b_s_inv b) = true) by (intros m; apply Qle_bool_iff; exact Hsi).
      intros j Hj. unfold row_at. rewrite T2. unfold row_of.
      apply (row_split (fun _ v v' => v' = step_down v) (cl_pos (clause_at b k)) (cl_neg (clause_at b k)) ps qs n); auto; try lia.
      + intros m Hm. rewrite X3 by lia. rewrite Z0. reflexivity.
      + intros m Hm. rewrite X4 by lia. rewrite Z0. reflexivity.
  Qed.

  Lemma forget : forall m b k, block_ok n ncls b -> (k < length (b_clauses b))%nat -> (0 <= b_s_inv b)%Q ->
    (forall j, (j < 2 * n)%nat -> nth j (row_at b k) 0 < Z.of_nat m) ->
    exists b', reach b b' /\ frame n ncls k b b' /\ (forall d, weight_at b' k d = weight_at b k d) /\
      forall j, (j < 2 * n)%nat -> nth j (row_at b' k) 0 < 0.
  Proof.
    induction m as [|m IH]; intros b k OK Hk Hsi H.
    - exists b. split; [apply trained|]. split; [now apply frame_refl|]. split; [reflexivity|]. intros j Hj. specialize (H j Hj). lia.
    - destruct (existsb (fun j => 0 <=? nth j (row_at b k) 0) (seq 0 (2 * n))) eqn:E.
      + apply existsb_exists in E. destruct E as [i [I1 I2]]. apply in_seq in I1. apply Z.leb_le in I2.
        destruct (down_step b k i OK Hk Hsi ltac:(lia) I2) as [b1 [R1 [F1 [W1 D1]]]].
        destruct (IH b1 k (fr_ok _ _ _ _ _ F1)) as [b2 [R2 [F2 [W2 D2]]]].
        * rewrite (fr_len _ _ _ _ _ F1). exact Hk.
        * rewrite (fr_si _ _ _ _ _ F1). exact Hsi.
        * intros j Hj. rewrite D1 by auto. specialize (H j Hj). unfold step_down. destruct (-127 <? nth j (row_at b k) 0) eqn:E; lia.
        * exists b2. split; [eapply trains_trans; eauto|]. split; [eapply frame_trans; eauto|]. split; [intros d; now rewrite W2, W1|exact D2].
      + exists b. split; [apply trained|]. split; [now apply frame_refl|]. split; [reflexivity|]. intros j Hj.
        destruct (Z.lt_ge_cases (nth j (row_at b k) 0) 0) as [L|L]; [exact L|]. exfalso.
        assert (X : existsb (fun j => 0 <=? nth j (row_at b k) 0) (seq 0 (2 * n)) = true); [|congruence].
        apply existsb_exists. exists j. split; [apply in_seq; lia|now apply Z.leb_le].
  Qed.

  (** ** Memorising *)
  Variable R : list nat.
  Hypothesis HR : conjunction n R.
  Definition inb (i : nat) : bool := existsb (Nat.eqb i) R.
  Lemma inb_In : forall i, inb i = true <-> In i R.
  Proof.
    intros i. unfold inb. rewrite existsb_exists. split; [intros [j [J1 J2]]; apply Nat.eqb_eq in J2; congruence|intros H; exists i; split; [exact H|apply Nat.eqb_refl]].
  Qed.
  Definition witness : list Z := map (fun j => if inb j then 1 else 0) (seq 0 n).
  Lemma witness_nth : forall j, (j < n)%nat -> nth j witness 0 = if inb j then 1 else 0.
  Proof.
    intros j Hj. unfold witness. rewrite (nth_indep _ 0 ((fun j => if inb j then 1 else 0) O)) by (rewrite map_length, seq_length; auto).
    rewrite (map_nth (fun j => if inb j then 1 else 0)), seq_nth by auto. reflexivity.
  Qed.
  Lemma witness_ok : length witness = n /\ binary witness.
  Proof. unfold witness. split; [rewrite map_length; apply seq_length|]. apply Forall_map, Forall_forall. intros j _. destruct (inb j); auto. Qed.
  Lemma witness_true : forall i, In i R -> lit_true n witness i = true.
  Proof.
    intros i Hi. pose proof (cj_range _ _ HR i Hi) as L. unfold lit_true. destruct (Nat.ltb i n) eqn:E.
    - apply Nat.ltb_lt in E. rewrite witness_nth by auto. rewrite (proj2 (inb_In i) Hi). reflexivity.
    - apply Nat.ltb_ge in E. rewrite witness_nth by lia. destruct (inb (i - n)) eqn:Q; [|reflexivity]. exfalso. apply inb_In in Q.
      apply (cj_sat _ _ HR (i - n)). split; [exact Q|]. replace (n + (i - n))%nat with i by lia. exact Hi.
  Qed.

  (** High draws exactly for the negations that are not wanted. *)
  Definition guide (m : Q) : nat -> Q := fun d =>
    if existsb (fun j => negb (inb j) && negb (inb (n + j)) && Nat.eqb d (S (t1a_first_draw boost witness j))) (seq 0 n) then m else 0%Q.
  Lemma first_draw_inj : forall i j, (i < n)%nat -> (j < n)%nat -> inb i = false -> inb j = false ->
    t1a_first_draw boost witness i = t1a_first_draw boost witness j -> i = j.
  Proof.
    assert (Mono : forall i j, (i < j)%nat -> (j <= n)%nat -> inb i = false -> (t1a_first_draw boost witness i < t1a_first_draw boost witness j)%nat).
    { intros i j H1 H2 H3. unfold t1a_first_draw. destruct boost; [|lia].
      assert (O : (ones_before witness j + 1 <= ones_before witness i + (j - i))%nat); [|pose proof (ones_before_le witness i); pose proof (ones_before_le witness j); lia].
      unfold ones_before. replace (firstn j witness) with (firstn i witness ++ firstn (j - i) (skipn i witness)).
      2:{ rewrite <- (firstn_skipn i (firstn j witness)). rewrite firstn_firstn, Nat.min_l by lia. f_equal. rewrite skipn_firstn_comm. reflexivity. }
      rewrite filter_app, app_length.
      assert (LW : length witness = n) by apply witness_ok.
      destruct (skipn i witness) as [|h t] eqn:ES.
      { apply (f_equal (@length Z)) in ES. rewrite skipn_length in ES. cbn in ES. lia. }
      assert (h = 0). { assert (X : nth 0 (skipn i witness) 0 = h) by (rewrite ES; reflexivity). rewrite nth_skipn_z in X. rewrite Nat.add_0_r in X. rewrite witness_nth in X by lia. rewrite H3 in X. auto. }
      subst h. replace (j - i)%nat with (S (j - i - 1)) by lia. cbn [firstn filter Z.eqb].
      pose proof (filter_length_le_nat (fun v : Z => v =? 1) (firstn (j - i - 1) t)). rewrite firstn_length in H. lia. }
    intros i j Hi Hj Ei Ej E. destruct (Nat.lt_trichotomy i j) as [L|[L|L]]; auto.
    - specialize (Mono i j L ltac:(lia) Ei). lia.
    - specialize (Mono j i L ltac:(lia) Ej). lia.
  Qed.
  Lemma guide_unit : forall m, (0 <= m < 1)%Q -> unit_draws (mkRng (guide m) 0).
  Proof. intros m H i. cbn [rng_src]. unfold guide. destruct (existsb _ _); [exact H|split; [apply Qle_refl|reflexivity]]. Qed.
  Lemma guide_low : forall m d, guide m d = m \/ guide m d = 0%Q.
  Proof. intros. unfold guide. destruct (existsb _ _); auto. Qed.

  Hypothesis Hguide : forall m, (0 <= m < 1)%Q -> draws (mkRng (guide m) 0).

  Lemma up_step : forall b k, block_ok n ncls b -> (k < length (b_clauses b))%nat -> (0 <= b_s_min1_inv b < 1)%Q ->
    (bo = true -> Z.of_nat (length R) <= b_budget b) ->
    (forall j, (j < 2 * n)%nat -> ~ In j R -> nth j (row_at b k) 0 < 0) ->
    exists b', reach b b' /\ frame n ncls k b b' /\
      (forall d, weight_at b' k d = if Nat.eqb d c then wrap16 (weight_at b k c + (if weight_at b k c >=? 0 then 1 else -1)) else weight_at b k d) /\
      forall j, (j < 2 * n)%nat -> (In j R -> nth j (row_at b' k) 0 = step_up (nth j (row_at b k) 0)) /\ (~ In j R -> nth j (row_at b' k) 0 < 0).
  Proof.
    intros b k OK Hk [S1 S2] HB HN. destruct witness_ok as [A1 A2].
    set (m := ((1 + b_s_min1_inv b) / 2)%Q).
    assert (M : (0 <= m < 1)%Q /\ (b_s_min1_inv b < m)%Q) by (unfold m; split; [split; [apply Qle_shift_div_l|apply Qlt_shift_div_r]|apply Qlt_shift_div_l]; lra).
    destruct M as [M1 M2].
    destruct (type1_step b k witness (guide m) OK Hk A1 A2 (Hguide m M1)) as [b' [RR [F [W T]]]].
    assert (SUB : incl (included (row_at b k)) R).
    { intros i Hi. apply included_In in Hi. destruct Hi as [Hi V]. rewrite row_len in Hi by auto. rewrite nth_row in V by auto.
      destruct (in_dec Nat.eq_dec i R) as [I|I]; [exact I|]. specialize (HN i Hi I). lia. }
    assert (AC : active bo n witness (b_budget b) (row_at b k) = true).
    { unfold active. apply andb_true_intro. split.
      - unfold clause_matches, conj_true. apply forallb_forall. intros i Hi. apply witness_true, SUB, Hi.
      - destruct bo; [cbn [negb orb]|reflexivity]. apply Z.leb_le. specialize (HB eq_refl). unfold n_included.
        assert (length (included (row_at b k)) <= length R)%nat; [|lia]. apply NoDup_incl_length; [apply NoDup_filter, seq_NoDup|exact SUB]. }
    rewrite AC in T. destruct T as [T1 T2]. exists b'. split; [exact RR|]. split; [exact F|]. split.
    - intros d. destruct (Nat.eqb d c) eqn:E; [apply Nat.eqb_eq in E; subst d; exact T1|apply W; now apply Nat.eqb_neq].
    - destruct (clause_at_ok n ncls b k OK Hk) as [P1 [P2 [P3 P4]]].
      pose proof (type1a_exact boost (b_s_inv b) (b_s_min1_inv b) witness (cl_pos (clause_at b k)) (cl_neg (clause_at b k)) (mkRng (guide m) 0) ltac:(lia) ltac:(lia) P3 P4) as X.
      destruct (type1a _ _ _ _ _ _ _) as [[ps qs] r]. destruct X as [X1 [X2 [X3 [X4 _]]]].
      assert (Z0 : forall d, guide m d = 0%Q -> Qle_bool (draw (mkRng (guide m) 0) d) (b_s_min1_inv b) = true).
      { intros d Hd. apply Qle_bool_iff. unfold draw. cbn [rng_src rng_pos Nat.add]. rewrite Hd. exact S1. }
      assert (LN : forall i v, (i < 2 * n)%nat -> nth i (row_at b k) 0 = v -> ~ In i R -> v < 0 /\ step_down v < 0).
      { intros i v Hi <- N. specialize (HN i Hi N). split; [exact HN|]. pose proof (step_down_bounds (nth i (row_at b k) 0)). lia. }
      unfold row_at. rewrite T2. unfold row_of.
      assert (G : forall j, (j < 2 * n)%nat -> nth j (cl_pos (clause_at b k) ++ cl_neg (clause_at b k)) 0 = nth j (row_at b k) 0) by reflexivity.
      apply (row_split (fun j v v' => (In j R -> v' = step_up v) /\ (~ In j R -> v' < 0)) (cl_pos (clause_at b k)) (cl_neg (clause_at b k)) ps qs n); auto; try lia.
      + intros i Hi. rewrite X3 by lia. unfold t1a_new_pos. cbv zeta. rewrite witness_nth by auto. split.
        * intros I. rewrite (proj2 (inb_In i) I). cbn [Z.eqb Pos.eqb]. destruct boost eqn:EB; [reflexivity|cbn [orb]]. rewrite Z0; [reflexivity|].
          unfold guide. destruct (existsb _ _) eqn:EX; [|reflexivity]. exfalso. apply existsb_exists in EX. destruct EX as [j [J1 J2]].
          apply andb_prop in J2. destruct J2 as [_ J2]. apply Nat.eqb_eq in J2. unfold t1a_first_draw in J2. rewrite ?EB in J2. lia.
        * intros I. destruct (inb i) eqn:EI; [apply inb_In in EI; contradiction|]. cbn [Z.eqb].
          destruct (LN i (nth i (cl_pos (clause_at b k)) 0) ltac:(lia)) as [L1 L2]; [unfold row_at, row_of; apply app_nth1; lia|exact I|].
          destruct (Qle_bool _ _); assumption.
      + intros i Hi. rewrite X4 by lia. unfold t1a_new_neg. cbv zeta. rewrite witness_nth by auto.
        assert (NR : nth (n + i) (row_at b k) 0 = nth i (cl_neg (clause_at b k)) 0).
        { unfold row_at, row_of. rewrite app_nth2 by lia. f_equal. lia. }
        split.
        * intros I. destruct (inb i) eqn:EI; [apply inb_In in EI; exfalso; apply (cj_sat _ _ HR i); auto|]. cbn [Z.eqb].
          rewrite Z0; [reflexivity|]. unfold guide. destruct (existsb _ _) eqn:EX; [|reflexivity]. exfalso. apply existsb_exists in EX. destruct EX as [j [J1 J2]].
          apply in_seq in J1. apply andb_prop in J2. destruct J2 as [J2 J3]. apply andb_prop in J2. destruct J2 as [J4 J5]. apply Nat.eqb_eq in J3.
          apply negb_true_iff in J4. apply negb_true_iff in J5. injection J3 as J3. apply first_draw_inj in J3; auto; try lia. subst j.
          apply inb_In in I. congruence.
        * intros I. destruct (LN (n + i)%nat _ ltac:(lia) NR I) as [L1 L2]. destruct (inb i) eqn:EI; cbn [Z.eqb Pos.eqb].
          -- destruct (Qle_bool _ _); assumption.
          -- replace (Qle_bool _ _) with false; [exact L1|]. symmetry. destruct (Qle_bool _ _) eqn:EQ; [|reflexivity]. exfalso. apply Qle_bool_iff in EQ.
             unfold draw in EQ. cbn [rng_src rng_pos Nat.add] in EQ.
             assert (GM : guide m (S (t1a_first_draw boost witness i)) = m).
             { unfold guide. replace (existsb _ _) with true; [reflexivity|]. symmetry. apply existsb_exists. exists i. split; [apply in_seq; lia|].
               rewrite EI, Nat.eqb_refl. destruct (inb (n + i)) eqn:E2; [apply inb_In in E2; contradiction|reflexivity]. }
             rewrite GM in EQ. lra.
  Qed.

  Definition pushed (t w : Z) : Z := if w >=? 0 then w + t else w - t.

  Lemma memorise : forall t b k, block_ok n ncls b -> (k < length (b_clauses b))%nat -> (0 <= b_s_min1_inv b < 1)%Q ->
    (bo = true -> Z.of_nat (length R) <= b_budget b) ->
    (forall j, (j < 2 * n)%nat -> ~ In j R -> nth j (row_at b k) 0 < 0) ->
    exists b', reach b b' /\ frame n ncls k b b' /\ (forall d, d <> c -> weight_at b' k d = weight_at b k d) /\
      (is_int16 (pushed (Z.of_nat t) (weight_at b k c)) -> weight_at b' k c = pushed (Z.of_nat t) (weight_at b k c)) /\
      forall j, (j < 2 * n)%nat -> (In j R -> Z.min 127 (nth j (row_at b k) 0 + Z.of_nat t) <= nth j (row_at b' k) 0) /\ (~ In j R -> nth j (row_at b' k) 0 < 0).
  Proof.
    induction t as [|t IH]; intros b k OK Hk HS HB HN.
    - exists b. split; [apply trained|]. split; [now apply frame_refl|]. split; [reflexivity|]. split; [intros _; unfold pushed; destruct (_ >=? 0); lia|].
      intros j Hj. split; [intros _; lia|auto].
    - destruct (up_step b k OK Hk HS HB HN) as [b1 [R1 [F1 [W1 D1]]]].
      destruct (IH b1 k (fr_ok _ _ _ _ _ F1)) as [b2 [R2 [F2 [W2 [V2 D2]]]]].
      + rewrite (fr_len _ _ _ _ _ F1). exact Hk.
      + rewrite (fr_sm _ _ _ _ _ F1). exact HS.
      + rewrite (fr_budget _ _ _ _ _ F1). exact HB.
      + intros j Hj N. apply D1; auto.
      + exists b2. split; [eapply trains_trans; eauto|]. split; [eapply frame_trans; eauto|]. split; [|split].
        * intros d Hd. rewrite W2, W1 by auto. apply Nat.eqb_neq in Hd. rewrite Hd. reflexivity.
        * intros I. specialize (W1 c). rewrite Nat.eqb_refl in W1.
          assert (IW : is_int16 (weight_at b k c)).
          { destruct (weights_ok n ncls b (nth k (b_weights b) []) OK) as [_ LL]; [apply nth_In; rewrite <- (bw_len _ _ _ (bo_wf _ _ _ OK)); auto|]. apply LL. }
          unfold pushed, is_int16 in *. rewrite wrap16_small in W1 by (unfold is_int16; destruct (weight_at b k c >=? 0) eqn:E; lia).
          rewrite W1 in V2. destruct (weight_at b k c >=? 0) eqn:E.
          -- replace (weight_at b k c + 1 >=? 0) with true in V2 by lia. rewrite V2; lia.
          -- replace (weight_at b k c + -1 >=? 0) with false in V2 by lia. rewrite V2; lia.
        * intros j Hj. destruct (D1 j Hj) as [E1 E2]. destruct (D2 j Hj) as [E3 E4]. split; [|exact E4]. intros I. specialize (E3 I). rewrite (E1 I) in E3.
          unfold step_up in E3. destruct (nth j (row_at b k) 0 <? 127) eqn:E; lia.
  Qed.

  Theorem learnable : forall b k, block_ok n ncls b -> (k < length (b_clauses b))%nat -> (0 <= b_s_inv b)%Q -> (0 <= b_s_min1_inv b < 1)%Q ->
    (bo = true -> Z.of_nat (length R) <= b_budget b) ->
    exists b', reach b b' /\ frame n ncls k b b' /\ (forall i, In i (included (row_at b' k)) <-> In i R) /\
      (forall d, d <> c -> weight_at b' k d = weight_at b k d) /\
      (is_int16 (pushed 128 (weight_at b k c)) -> weight_at b' k c = pushed 128 (weight_at b k c)).
  Proof.
    intros b k OK Hk Hsi Hsm HB.
    destruct (clause_at_ok n ncls b k OK Hk) as [P1 [P2 [P3 P4]]].
    assert (I8 : forall b, block_ok n ncls b -> (k < length (b_clauses b))%nat -> forall j, (j < 2 * n)%nat -> is_int8 (nth j (row_at b k) 0)).
    { intros b0 OK0 Hk0 j Hj. destruct (clause_at_ok n ncls b0 k OK0 Hk0) as [Q1 [Q2 [Q3 Q4]]]. unfold row_at, row_of.
      assert (FF : Forall is_int8 (cl_pos (clause_at b0 k) ++ cl_neg (clause_at b0 k))) by (apply Forall_app; auto).
      rewrite Forall_forall in FF. apply FF, nth_In. rewrite app_length. lia. }
    destruct (forget 128 b k OK Hk Hsi) as [b1 [R1 [F1 [W1 D1]]]].
    { intros j Hj. pose proof (I8 b OK Hk j Hj) as V. unfold is_int8 in V. lia. }
    assert (Hk1 : (k < length (b_clauses b1))%nat) by (rewrite (fr_len _ _ _ _ _ F1); exact Hk).
    destruct (memorise 128 b1 k (fr_ok _ _ _ _ _ F1) Hk1) as [b2 [R2 [F2 [W2 [V2 D2]]]]].
    - rewrite (fr_sm _ _ _ _ _ F1). exact Hsm.
    - rewrite (fr_budget _ _ _ _ _ F1). exact HB.
    - intros j Hj _. auto.
    - assert (Hk2 : (k < length (b_clauses b2))%nat) by (rewrite (fr_len _ _ _ _ _ F2); exact Hk1).
      exists b2. split; [eapply trains_trans; eauto|]. split; [eapply frame_trans; eauto|]. split; [|split].
      + intros i. rewrite included_In, (row_len b2 k (fr_ok _ _ _ _ _ F2) Hk2). split.
        * intros [Hi V]. rewrite (nth_row b2 k i (fr_ok _ _ _ _ _ F2) Hk2 Hi) in V. destruct (in_dec Nat.eq_dec i R) as [I|I]; [exact I|].
          destruct (D2 i Hi) as [_ N]. specialize (N I). lia.
        * intros I. pose proof (cj_range _ _ HR i I) as Hi. split; [exact Hi|]. rewrite (nth_row b2 k i (fr_ok _ _ _ _ _ F2) Hk2 Hi).
          destruct (D2 i Hi) as [Y _]. specialize (Y I). pose proof (I8 b1 (fr_ok _ _ _ _ _ F1) Hk1 i Hi) as V. unfold is_int8 in V. lia.
      + intros d Hd. rewrite W2, W1; auto.
      + rewrite <- (W1 c). exact V2.
  Qed.
End Learn.
