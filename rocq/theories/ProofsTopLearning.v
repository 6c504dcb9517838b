(** User-level forms of the learning results. *)
From Coq Require Import ZArith List Bool QArith Lia ZifyBool Permutation.
From Verif Require Import Base BaseProofs Spec SpecLearning ModelInference ModelDense ModelFeedback ModelExecutor ModelDenseExec
  ProofsClause ProofsEval ProofsExecutor ProofsDenseExec ProofsLearning ProofsStep ProofsHistory ProofsFeedback ExampleData.
Import ListNotations.
Open Scope Z_scope.

(** ** Ranges *)

Lemma Forall2_In_r : forall A B (R : A -> B -> Prop) l1 l2 y, Forall2 R l1 l2 -> In y l2 -> exists x, In x l1 /\ R x y.
Proof.
  intros A B R l1 l2 y H. induction H; intros Hy; [easy|]. destruct Hy as [Hy|Hy].
  - subst. exists x. split; [left|]; auto.
  - destruct (IHForall2 Hy) as [x0 [H1 H2]]. exists x0. split; [right|]; auto.
Qed.

Theorem states_in_range : forall lo ncls bo boost (L : Type) (process : L -> fblock -> fblock) cs (x : exec block),
  -128 <= lo <= -127 -> (forall l f, fb_ok ncls f -> fb_ok ncls (process l f)) -> exec_inv ncls x ->
  (forall tb, In tb (x_blocks x) -> automata_in lo (snd tb)) ->
  forall tb, In tb (x_blocks (snd (xrun bo boost L process cs x))) -> automata_in lo (snd tb).
Proof.
  intros lo ncls bo boost L process cs x Hl Hp I H tb Htb.
  destruct (xrun_history ncls bo boost L process (fun _ => False) 0 Hp ltac:(intros; contradiction) cs x I) as [h [_ [_ E]]].
  destruct (Forall2_In_r _ _ _ _ _ _ E Htb) as [tb0 [H1 H2]].
  eapply evolved_range; eauto.
Qed.

(** ** Steps are small *)

Lemma row_nth : forall c n i, length (cl_pos c) = n -> nth i (row_of c) 0 = if (i <? n)%nat then nth i (cl_pos c) 0 else nth (i - n) (cl_neg c) 0.
Proof.
  intros c n i H. unfold row_of. destruct (Nat.ltb_spec i n).
  - rewrite app_nth1 by lia. auto.
  - rewrite app_nth2 by lia. rewrite H. auto.
Qed.

Lemma clause_update_delta : forall boost si sm c w t x o r n,
  length x = n -> length (cl_pos c) = n -> length (cl_neg c) = n -> int8s (cl_pos c) -> int8s (cl_neg c) ->
  let c' := fst (fst (clause_update boost si sm c w t x o r)) in
  forall i, (i < 2 * n)%nat -> nth i (row_of c) 0 - 1 <= nth i (row_of c') 0 <= nth i (row_of c) 0 + 1.
Proof.
  intros boost si sm c w t x o r n Hx Hp Hn Ip In. cbv zeta.
  assert (B : forall v, v - 1 <= step_up v <= v + 1 /\ v - 1 <= step_down v <= v + 1).
  { intros v. pose proof (step_up_bounds v). pose proof (step_down_bounds v). lia. }
  unfold clause_update. destruct (t * _ >? 0).
  - destruct (o =? 1).
    + pose proof (type1a_exact boost si sm x (cl_pos c) (cl_neg c) r ltac:(lia) ltac:(lia) Ip In) as T.
      destruct (type1a _ _ _ _ _ _ _) as [[p q] r']. destruct T as [T1 [T2 [T3 [T4 _]]]]. cbn [fst cl_pos cl_neg row_of].
      apply (row_split (fun _ v v' => v - 1 <= v' <= v + 1) (cl_pos c) (cl_neg c) p q n); auto; try lia; intros j Hj.
      * rewrite T3 by lia. unfold t1a_new_pos. cbv zeta. specialize (B (nth j (cl_pos c) 0)).
        destruct (nth j x 0 =? 1); [destruct (_ || _)|destruct (Qle_bool _ _)]; lia.
      * rewrite T4 by lia. unfold t1a_new_neg. cbv zeta. specialize (B (nth j (cl_neg c) 0)).
        destruct (nth j x 0 =? 1); destruct (Qle_bool _ _); lia.
    + pose proof (type1b_direction si (cl_pos c) (cl_neg c) r n Hp Hn Ip In) as D.
      destruct (type1b _ _ _ _) as [[p q] r']. cbn [fst]. unfold row_of. cbn [cl_pos cl_neg]. intros i Hi. specialize (D i Hi). lia.
  - destruct (_ && _).
    + pose proof (type2_exact x (cl_pos c) (cl_neg c) ltac:(lia) ltac:(lia) Ip In) as T.
      destruct (type2 _ _ _) as [p q]. destruct T as [T1 [T2 [T3 T4]]]. cbn [fst]. unfold row_of. cbn [cl_pos cl_neg].
      apply (row_split (fun _ v v' => v - 1 <= v' <= v + 1) (cl_pos c) (cl_neg c) p q n); auto; try lia; intros j Hj.
      * rewrite T3 by lia. destruct (_ && _); lia.
      * rewrite T4 by lia. destruct (_ && _); lia.
    + cbn [fst]. intros. lia.
Qed.

Lemma train_update_clause_delta : forall bo boost bud si sm x pc pp nc np c ws o cnt r f n,
  length x = n -> length (cl_pos c) = n -> length (cl_neg c) = n -> int8s (cl_pos c) -> int8s (cl_neg c) ->
  let c' := fst (fst (fst (fst (train_update_clause bo boost bud si sm x pc pp nc np c ws o cnt r f)))) in
  forall i, (i < 2 * n)%nat -> nth i (row_of c) 0 - 2 <= nth i (row_of c') 0 <= nth i (row_of c) 0 + 2.
Proof.
  intros bo boost bud si sm x pc pp nc np c ws o cnt r f n Hx Hp Hn Ip In c' i Hi. unfold c'. clear c'.
  unfold train_update_clause. rewrite draw_lt_eq.
  set (o' := if bo && (cnt >? bud) then 0 else o).
  pose proof (clause_update_delta boost si sm c (nth pc ws 0) 1 x o' r n Hx Hp Hn Ip In i Hi) as A5.
  pose proof (clause_update_len boost si sm c (nth pc ws 0) 1 x o' r) as A1.
  assert (R8 : clause_in (-128) c) by (split; auto).
  pose proof (clause_update_range (-128) ltac:(lia) boost si sm c (nth pc ws 0) 1 x o' r R8) as A2.
  destruct (clause_update boost si sm c (nth pc ws 0) 1 x o' r) as [[c1 w1] r1]. cbn [fst snd] in A1, A2, A5.
  destruct A2 as [A3 A4].
  destruct (Qlt_bool (draw f 0) pp); rewrite draw_lt_eq.
  - pose proof (clause_update_delta boost si sm c1 (nth nc (set_nth pc w1 ws) 0) (-1) x o' r1 n Hx ltac:(lia) ltac:(lia) A3 A4 i Hi) as B5.
    destruct (clause_update _ _ _ c1 _ _ _ _ _) as [[c2 w2] r2]. cbn [fst snd] in B5.
    destruct (Qlt_bool _ np); cbn [fst]; lia.
  - pose proof (clause_update_delta boost si sm c (nth nc ws 0) (-1) x o' r n Hx Hp Hn Ip In i Hi) as B5.
    destruct (clause_update _ _ _ c (nth nc ws 0) _ _ _ _) as [[c2 w2] r2]. cbn [fst snd] in B5.
    destruct (Qlt_bool _ np); cbn [fst]; lia.
Qed.

Theorem step_delta : forall bo boost x pc pp nc np b n ncls,
  block_ok n ncls b -> length x = n -> (pc < ncls)%nat -> (nc < ncls)%nat ->
  forall k i, (k < length (b_clauses b))%nat -> (i < 2 * n)%nat ->
  nth i (row_at b k) 0 - 2 <= nth i (row_at (dense_step bo boost x pc pp nc np b) k) 0 <= nth i (row_at b k) 0 + 2.
Proof.
  intros bo boost x pc pp nc np b n ncls OK Hx Hpc Hnc k i Hk Hi.
  unfold dense_step, dense_upd, train_update.
  set (b1 := fst (dense_train_ex bo x b)).
  assert (Lo : length (b_outputs b1) = length (b_clauses b)) by (unfold b1; simpl; rewrite !map_length; auto).
  pose proof (train_update_loop_nth bo boost (b_budget b1) (b_s_inv b1) (b_s_min1_inv b1) x pc pp nc np
    (b_clauses b1) (b_weights b1) (b_outputs b1) (b_counts b1) (b_rng b1) (b_fast b1)) as T.
  change (b_clauses b1) with (b_clauses b) in *. change (b_weights b1) with (b_weights b) in *. rewrite Lo in T.
  assert (LW : length (b_weights b) = length (b_clauses b)) by (destruct OK as [[W1 W2 W3 W4] _ _]; auto).
  specialize (T LW eq_refl).
  assert (HW : forall ws, In ws (b_weights b) -> (pc < length ws)%nat /\ (nc < length ws)%nat /\ (forall j, is_int16 (nth j ws 0))).
  { intros ws Hws. destruct (weights_ok n ncls b ws OK Hws) as [L J]. split; [lia|]. split; [lia|auto]. }
  specialize (T HW).
  destruct (train_update_loop _ _ _ _ _ _ _ _ _ _ _ _ _ _ _ _) as [[[[cs' wss'] outs'] r'] f'].
  destruct T as [T1 [T2 [T3 [T4 T5]]]]. destruct (T5 k Hk) as [rk T]. cbv zeta in T. destruct T as [T _].
  match goal with |- context [row_at ?B k] => lazymatch B with mkBlock _ _ _ _ _ _ _ _ _ _ _ _ =>
      change (row_at B k) with (row_of (nth k cs' dclause)) end end. rewrite T.
  destruct (clause_at_ok n ncls b k OK Hk) as [P1 [P2 [P3 P4]]].
  apply (train_update_clause_delta bo boost (b_budget b1) (b_s_inv b1) (b_s_min1_inv b1) x pc pp nc np
        (clause_at b k) (nth k (b_weights b) []) (nth k (b_outputs b1) 0) (nth k (b_counts b1) 0) rk (advance (2 * k) (b_fast b1)) n); auto.
Qed.

(** ** Weights of one step *)

Theorem step_weights : forall bo boost x pc pp nc np b n ncls,
  block_ok n ncls b -> length x = n -> binary x -> (pc < ncls)%nat -> (nc < ncls)%nat -> pc <> nc ->
  let b' := dense_step bo boost x pc pp nc np b in
  forall k, (k < length (b_clauses b))%nat ->
    let fired := clause_matches n x (row_at b k) = true /\ (bo = true -> n_included (row_at b k) <= b_budget b) in
    (forall c, c <> pc -> c <> nc -> weight_at b' k c = weight_at b k c) /\
    (~ fired -> forall c, weight_at b' k c = weight_at b k c) /\
    (fired -> weight_at b' k pc = (if Qlt_bool (draw (b_fast b) (2 * k)) pp then wrap16 (weight_at b k pc + 1) else weight_at b k pc)) /\
    (fired -> weight_at b' k nc = (if Qlt_bool (draw (b_fast b) (2 * k + 1)) np then wrap16 (weight_at b k nc - 1) else weight_at b k nc)).
Proof.
  intros bo boost x pc pp nc np b n ncls OK Hx Hb Hpc Hnc Hne b' k Hk fired.
  destruct (dense_step_spec bo boost x pc pp nc np b n ncls OK Hx Hb Hpc Hnc) as [_ [_ [_ [_ [W _]]]]].
  fold b' in W.
  assert (I16 : forall c, wrap16 (weight_at b k c) = weight_at b k c).
  { intros c. apply wrap16_small. unfold weight_at. apply (weights_ok n ncls b); auto. apply nth_In.
    destruct OK as [[W1 W2 W3 W4] _ _]. lia. }
  assert (FA : active bo n x (b_budget b) (row_at b k) = true <-> fired).
  { unfold active, fired. destruct (clause_matches n x (row_at b k)); cbn [andb]; [|intuition discriminate].
    destruct bo; cbn [negb orb]; [|clear; intuition]. rewrite Z.leb_le. intuition. }
  split; [|split; [|split]].
  - intros c H1 H2. rewrite W by auto. unfold bump. cbv zeta.
    rewrite (proj2 (Nat.eqb_neq c pc) H1), (proj2 (Nat.eqb_neq c nc) H2), !andb_false_r, Z.add_0_r, Z.sub_0_r. auto.
  - intros NF c. rewrite W by auto. destruct (active bo n x (b_budget b) (row_at b k)); [tauto|].
    unfold bump. cbv zeta. cbn [andb]. rewrite Z.add_0_r, Z.sub_0_r. auto.
  - intros F. rewrite W by auto. rewrite (proj2 FA F). unfold bump. cbv zeta.
    rewrite Nat.eqb_refl, (proj2 (Nat.eqb_neq pc nc) Hne), andb_false_r, andb_true_r. cbn [andb].
    rewrite Z.sub_0_r. destruct (Qlt_bool _ _); auto. rewrite Z.add_0_r. auto.
  - intros F. rewrite W by auto. rewrite (proj2 FA F). unfold bump. cbv zeta.
    rewrite Nat.eqb_refl, (proj2 (Nat.eqb_neq nc pc)), andb_false_r, andb_true_r by auto. cbn [andb].
    rewrite Z.add_0_r. destruct (Qlt_bool _ _); auto. rewrite Z.sub_0_r. auto.
Qed.

Theorem over_budget : forall boost x pc pp nc np b n ncls,
  block_ok n ncls b -> length x = n -> binary x -> (pc < ncls)%nat -> (nc < ncls)%nat ->
  let b' := dense_step true boost x pc pp nc np b in
  forall k, (k < length (b_clauses b))%nat -> b_budget b < n_included (row_at b k) ->
    (forall c, weight_at b' k c = weight_at b k c) /\
    (forall i, (i < 2 * n)%nat -> nth i (row_at b' k) 0 <= nth i (row_at b k) 0) /\
    incl (included (row_at b' k)) (included (row_at b k)).
Proof.
  intros boost x pc pp nc np b n ncls OK Hx Hb Hpc Hnc b' k Hk Hov.
  destruct (dense_step_spec true boost x pc pp nc np b n ncls OK Hx Hb Hpc Hnc) as [OK' [LC [_ [_ [W R]]]]].
  fold b' in W, R, OK', LC.
  assert (A : active true n x (b_budget b) (row_at b k) = false).
  { unfold active. cbn [negb orb]. rewrite (proj2 (Z.leb_gt _ _) Hov). apply andb_false_r. }
  assert (LE : forall i, (i < 2 * n)%nat -> nth i (row_at b' k) 0 <= nth i (row_at b k) 0).
  { intros i Hi. specialize (R k i Hk Hi A). lia. }
  split; [|split]; auto.
  - intros c. rewrite W by auto. rewrite A. unfold bump. cbv zeta. cbn [andb]. rewrite Z.add_0_r, Z.sub_0_r.
    apply wrap16_small. unfold weight_at. apply (weights_ok n ncls b); auto. apply nth_In.
    destruct OK as [[W1 W2 W3 W4] _ _]. lia.
  - intros i Hi. apply included_In in Hi. destruct Hi as [Hi1 Hi2]. apply included_In.
    destruct (clause_at_ok n ncls b k OK Hk) as [P1 [P2 _]].
    destruct (clause_at_ok n ncls b' k OK' ltac:(lia)) as [Q1 [Q2 _]].
    assert (L1 : length (row_at b k) = (2 * n)%nat) by (unfold row_at, row_of; rewrite app_length; lia).
    assert (L2 : length (row_at b' k) = (2 * n)%nat) by (unfold row_at, row_of; rewrite app_length; lia).
    split; [lia|]. specialize (LE i ltac:(lia)).
    rewrite (nth_indep (row_at b k) (-1) 0) by lia. rewrite (nth_indep (row_at b' k) (-1) 0) in Hi2 by lia. lia.
Qed.

(** ** Weights over a whole program of epochs *)

Theorem weights_of_program : forall ncls bo boost (L : Type) (process : L -> fblock -> fblock) (Lok : L -> Prop) n cs (x : exec block),
  (forall l f, fb_ok ncls f -> fb_ok ncls (process l f)) ->
  (forall l f, Lok l -> fb_ok ncls f -> (fb_pos (process l f) < ncls)%nat /\ (fb_neg (process l f) < ncls)%nat) ->
  exec_inv ncls x -> Forall (data_ok L Lok n) (call_data L cs) ->
  forall j t b, nth_error (x_blocks x) j = Some (t, b) -> block_ok n ncls b ->
  exists b', nth_error (x_blocks (snd (xrun bo boost L process cs x))) j = Some (t, b') /\
    forall k c, (k < length (b_clauses b))%nat ->
      Z.of_nat (length (call_data L cs)) < 32768 - Z.abs (weight_at b k c) ->
      exists up down, 0 <= up /\ 0 <= down /\ up + down <= 2 * Z.of_nat (length (call_data L cs)) /\
        weight_at b' k c = weight_at b k c + up - down /\ Z.abs (up - down) <= Z.of_nat (length (call_data L cs)).
Proof.
  intros ncls bo boost L process Lok n cs x Hp Hv I D j t b Hj OK.
  destruct (xrun_history ncls bo boost L process Lok n Hp Hv cs x I) as [h [P [V E]]].
  specialize (V D).
  assert (LH : length h = length (call_data L cs)).
  { apply Permutation_length in P. rewrite !map_length in P. auto. }
  assert (NE : forall (l1 l2 : list (bool * block)) R, Forall2 R l1 l2 -> forall j a, nth_error l1 j = Some a -> exists a', nth_error l2 j = Some a' /\ R a a').
  { intros l1 l2 R H. induction H; intros [|j0] a Ha; simpl in *; try discriminate; eauto. inversion Ha; subst; eauto. }
  destruct (NE _ _ _ E j _ Hj) as [[t' b'] [N1 [N2 N3]]]. cbn [fst snd] in *. subst t'.
  exists b'. split; auto. intros k c Hk HB.
  destruct t.
  - assert (W : weight_at b' k c = weight_at (run_steps bo boost h b) k c).
    { unfold weight_at. assert (K : b_weights b' = b_weights (run_steps bo boost h b)) by (unfold learned in N3; congruence). rewrite K. auto. }
    rewrite (weight_history_exact bo boost n ncls k c h b) in W by (auto; lia).
    pose proof (raises_bounds bo boost n k c h b). pose proof (lowers_bounds bo boost n k c h b).
    exists (raises bo boost n k c h b), (lowers bo boost n k c h b). repeat split; lia.
  - destruct N3 as [_ [N3 _]]. exists 0, 0. unfold weight_at. rewrite N3. repeat split; lia.
Qed.

(** The standard feedback block satisfies the hypotheses. *)
Theorem fb_process_valid : forall ncls l f, (l < ncls)%nat -> fb_ok ncls f ->
  (fb_pos (fb_process l f) < ncls)%nat /\ (fb_neg (fb_process l f) < ncls)%nat.
Proof.
  intros ncls l f Hl [H1 H2]. unfold fb_process.
  set (ps := set_nth l 0%Q _).
  assert (L : length ps = ncls) by (unfold ps; rewrite set_nth_length, map_length, firstn_length; lia).
  unfold sample_discrete. rewrite L. destruct (Nat.ltb_spec ncls 2).
  - cbn [fb_pos fb_neg]. lia.
  - destruct (next_u (fb_rng f)) as [u r]. cbn [fb_pos fb_neg]. split; auto.
    pose proof (pick_loop_range (qsum ps) ps 0 u 0 ltac:(intros K; rewrite K in L; simpl in L; lia)). lia.
Qed.

(** ** Examples *)

Definition lx_clause1 : clause := mkClause [5;-3;-127] [-1;127;0].
Definition lx_block : block :=
  mkBlock 3 2 [mkClause [5;-3;-1] [-1;-1;-1]; mkClause [-1;-1;-1] [-1;-1;0]; mkClause [0;0;-2] [-3;-3;-3]]
    [[4;-2];[-1;1];[32767;3]] [] [] [] 1 (1#4) (3#4) ex_rng ex_rng.

Lemma lx_block_ok : block_ok 3 2 lx_block.
Proof.
  unfold lx_block. constructor; [constructor| |]; cbn; auto; repeat constructor; try (vm_compute; discriminate).
Qed.
