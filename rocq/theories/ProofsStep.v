(** One training step of a scalar dense block: directions of feedback, exact
    weight updates, the literal budget. *)
From Coq Require Import ZArith List Bool QArith Lia ZifyBool.
From Verif Require Import Base BaseProofs Spec SpecLearning ModelDense ModelFeedback ModelExecutor ModelDenseExec
  ProofsClause ProofsEval ProofsLearning.
Import ListNotations.
Open Scope Z_scope.

(** ** Directions, over the combined row (literals, then negated literals) *)

Definition row_of (c : clause) : list Z := cl_pos c ++ cl_neg c.

Lemma step_up_bounds : forall v, v <= step_up v <= v + 1.
Proof. intros. unfold step_up. destruct (v <? 127); lia. Qed.
Lemma step_down_bounds : forall v, v - 1 <= step_down v <= v.
Proof. intros. unfold step_down. destruct (-127 <? v); lia. Qed.

Lemma nth_binary : forall x i, binary x -> (i < length x)%nat -> nth i x 0 = 0 \/ nth i x 0 = 1.
Proof. intros x i H Hi. unfold binary in H. rewrite Forall_forall in H. apply H, nth_In. auto. Qed.

Lemma row_split : forall (P : nat -> Z -> Z -> Prop) pos neg ps qs n,
  length pos = n -> length neg = n -> length ps = n -> length qs = n ->
  (forall i, (i < n)%nat -> P i (nth i pos 0) (nth i ps 0)) ->
  (forall i, (i < n)%nat -> P (n + i)%nat (nth i neg 0) (nth i qs 0)) ->
  forall i, (i < 2 * n)%nat -> P i (nth i (pos ++ neg) 0) (nth i (ps ++ qs) 0).
Proof.
  intros P pos neg ps qs n H1 H2 H3 H4 HP HQ i Hi. destruct (Nat.lt_ge_cases i n) as [H|H].
  - rewrite !app_nth1 by lia. auto.
  - rewrite !app_nth2 by lia. rewrite H1, H3. replace i with (n + (i - n))%nat at 1 by lia. apply HQ. lia.
Qed.

Lemma lit_true_pos : forall n x i, (i < n)%nat -> length x = n -> binary x -> lit_true n x i = (nth i x 0 =? 1).
Proof.
  intros n x i H1 H2 H3. unfold lit_true. rewrite (proj2 (Nat.ltb_lt _ _) H1).
  destruct (nth_binary x i H3 ltac:(lia)) as [E|E]; rewrite E; auto.
Qed.
Lemma lit_true_neg : forall n x i, (i < n)%nat -> length x = n -> binary x -> lit_true n x (n + i) = negb (nth i x 0 =? 1).
Proof.
  intros n x i H1 H2 H3. unfold lit_true. rewrite (proj2 (Nat.ltb_ge (n + i) n) ltac:(lia)).
  replace (n + i - n)%nat with i by lia.
  destruct (nth_binary x i H3 ltac:(lia)) as [E|E]; rewrite E; auto.
Qed.

Theorem type1a_direction : forall boost si sm x pos neg r n,
  length x = n -> length pos = n -> length neg = n -> int8s pos -> int8s neg -> binary x ->
  let '(ps, qs, _) := type1a boost si sm pos neg x r in
  forall i, (i < 2 * n)%nat ->
    let v := nth i (pos ++ neg) 0 in
    let v' := nth i (ps ++ qs) 0 in
    (lit_true n x i = true -> v <= v' <= v + 1) /\
    (lit_true n x i = false -> v - 1 <= v' <= v) /\
    (boost = true -> lit_true n x i = true -> (i < n)%nat -> v' = Z.min 127 (v + 1)).
Proof.
  intros boost si sm x pos neg r n Hx Hp Hn Ip In Hb.
  pose proof (type1a_exact boost si sm x pos neg r ltac:(lia) ltac:(lia) Ip In) as T.
  destruct (type1a boost si sm pos neg x r) as [[ps qs] r']. destruct T as [T1 [T2 [T3 [T4 _]]]].
  intros i Hi. cbv zeta.
  apply (row_split (fun i v v' => (lit_true n x i = true -> v <= v' <= v + 1) /\
    (lit_true n x i = false -> v - 1 <= v' <= v) /\
    (boost = true -> lit_true n x i = true -> (i < n)%nat -> v' = Z.min 127 (v + 1))) pos neg ps qs n); auto; try lia.
  - intros j Hj. rewrite lit_true_pos by auto. rewrite T3 by lia. unfold t1a_new_pos. cbv zeta.
    pose proof (step_up_bounds (nth j pos 0)). pose proof (step_down_bounds (nth j pos 0)).
    destruct (nth j x 0 =? 1).
    + split; [|split]; try easy.
      * destruct (_ || _); lia.
      * intros E. rewrite E. simpl. intros _ _. unfold step_up.
        assert (is_int8 (nth j pos 0)) by (unfold int8s in Ip; rewrite Forall_forall in Ip; apply Ip, nth_In; lia).
        unfold is_int8 in *. destruct (_ <? 127) eqn:F; lia.
    + split; [|split]; try easy. destruct (Qle_bool _ _); lia.
  - intros j Hj. rewrite lit_true_neg by auto. rewrite T4 by lia. unfold t1a_new_neg. cbv zeta.
    pose proof (step_up_bounds (nth j neg 0)). pose proof (step_down_bounds (nth j neg 0)).
    destruct (nth j x 0 =? 1); simpl negb.
    + split; [|split]; try easy. destruct (Qle_bool _ _); lia.
    + split; [|split]; try easy.
      * destruct (Qle_bool _ _); lia.
      * intros. lia.
Qed.

Theorem type1b_direction : forall si pos neg r n,
  length pos = n -> length neg = n -> int8s pos -> int8s neg ->
  let '(ps, qs, _) := type1b si pos neg r in
  forall i, (i < 2 * n)%nat ->
    nth i (pos ++ neg) 0 - 1 <= nth i (ps ++ qs) 0 <= nth i (pos ++ neg) 0.
Proof.
  intros si pos neg r n Hp Hn Ip In.
  pose proof (type1b_exact si pos neg r ltac:(lia) Ip In) as T.
  destruct (type1b si pos neg r) as [[ps qs] r']. destruct T as [T1 [T2 [T3 [T4 _]]]].
  apply (row_split (fun _ v v' => v - 1 <= v' <= v) pos neg ps qs n); auto; try lia; intros j Hj.
  - rewrite T3 by lia. pose proof (step_down_bounds (nth j pos 0)). destruct (Qle_bool _ _); lia.
  - rewrite T4 by lia. pose proof (step_down_bounds (nth j neg 0)). destruct (Qle_bool _ _); lia.
Qed.

Theorem type2_direction : forall x pos neg n,
  length x = n -> length pos = n -> length neg = n -> int8s pos -> int8s neg -> binary x ->
  let '(ps, qs) := type2 pos neg x in
  forall i, (i < 2 * n)%nat ->
    let v := nth i (pos ++ neg) 0 in
    nth i (ps ++ qs) 0 = (if negb (lit_true n x i) && (v <? 0) then v + 1 else v).
Proof.
  intros x pos neg n Hx Hp Hn Ip In Hb.
  pose proof (type2_exact x pos neg ltac:(lia) ltac:(lia) Ip In) as T.
  destruct (type2 pos neg x) as [ps qs]. destruct T as [T1 [T2 [T3 T4]]]. cbv zeta.
  apply (row_split (fun i v v' => v' = (if negb (lit_true n x i) && (v <? 0) then v + 1 else v)) pos neg ps qs n); auto; try lia; intros j Hj.
  - rewrite lit_true_pos by auto. rewrite T3 by lia.
    destruct (nth_binary x j Hb ltac:(lia)) as [E|E]; rewrite E; reflexivity.
  - rewrite lit_true_neg by auto. rewrite T4 by lia.
    destruct (nth_binary x j Hb ltac:(lia)) as [E|E]; rewrite E; reflexivity.
Qed.

(** ** Clause update *)

Lemma clause_update_weight : forall boost si sm c w t x o r, t = 1 \/ t = -1 ->
  snd (fst (clause_update boost si sm c w t x o r)) = (if o =? 1 then wrap16 (w + t) else w).
Proof.
  intros boost si sm c w t x o r Ht. unfold clause_update.
  destruct (w >=? 0) eqn:Ew; destruct Ht; subst t; cbn [Z.mul Z.gtb Z.ltb Z.compare Z.opp Pos.mul andb];
    destruct (o =? 1);
    repeat match goal with |- context [type1a ?a ?b ?c ?d ?e ?f ?g] => destruct (type1a a b c d e f g) as [[? ?] ?]
                      | |- context [type1b ?a ?b ?c ?d] => destruct (type1b a b c d) as [[? ?] ?]
                      | |- context [type2 ?a ?b ?c] => destruct (type2 a b c) as [? ?] end; reflexivity.
Qed.

(** A clause with output other than 1 only ever receives Type Ib. *)
Lemma clause_update_silent : forall boost si sm c w t x o r n, o <> 1 ->
  length (cl_pos c) = n -> length (cl_neg c) = n -> int8s (cl_pos c) -> int8s (cl_neg c) ->
  let c' := fst (fst (clause_update boost si sm c w t x o r)) in
  length (cl_pos c') = n /\ length (cl_neg c') = n /\ int8s (cl_pos c') /\ int8s (cl_neg c') /\
  forall i, (i < 2 * n)%nat -> nth i (row_of c) 0 - 1 <= nth i (row_of c') 0 <= nth i (row_of c) 0.
Proof.
  intros boost si sm c w t x o r n Ho Hp Hn Ip In c'. unfold c'. clear c'.
  unfold clause_update, row_of. rewrite (proj2 (Z.eqb_neq o 1) Ho), andb_false_r.
  destruct (t * _ >? 0).
  - pose proof (type1b_direction si (cl_pos c) (cl_neg c) r n Hp Hn Ip In) as D.
    pose proof (type1b_exact si (cl_pos c) (cl_neg c) r ltac:(lia) Ip In) as X.
    assert (R8 : forall l, int8s l <-> rows_in (-128) 127 l) by (intros l; split; intros H; exact H).
    pose proof (type1b_range (-128) ltac:(lia) si (cl_pos c) (cl_neg c) r ltac:(apply R8; auto) ltac:(apply R8; auto)) as R.
    destruct (type1b _ _ _ _) as [[p q] r']. cbn [fst cl_pos cl_neg].
    destruct X as [X1 [X2 _]], R. repeat split; auto; try lia; apply D; auto.
  - cbn [fst]. repeat split; auto; lia.
Qed.

(** Shape of a clause under any update. *)
Lemma type1a_len : forall boost si sm pos neg x r,
  let '(ps, qs, _) := type1a boost si sm pos neg x r in length ps = length pos /\ length qs = length neg.
Proof.
  intros boost si sm pos. induction pos as [|p pos IH]; intros [|q neg] [|l x] r; cbn [type1a]; auto.
  destruct (l =? 1).
  - destruct boost; rewrite !draw_le_eq.
    + specialize (IH neg x (advance 1 r)). destruct (type1a _ _ _ _ _ _ _) as [[ps qs] r']. simpl. lia.
    + specialize (IH neg x (advance 1 (advance 1 r))). destruct (type1a _ _ _ _ _ _ _) as [[ps qs] r']. simpl. lia.
  - rewrite !draw_le_eq. specialize (IH neg x (advance 1 (advance 1 r))). destruct (type1a _ _ _ _ _ _ _) as [[ps qs] r']. simpl. lia.
Qed.
Lemma type1b_len : forall si pos neg r,
  let '(ps, qs, _) := type1b si pos neg r in length ps = length pos /\ length qs = length neg.
Proof.
  intros si pos. induction pos as [|p pos IH]; intros [|q neg] r; cbn [type1b]; auto.
  rewrite !draw_le_eq. specialize (IH neg (advance 1 (advance 1 r))). destruct (type1b _ _ _ _) as [[ps qs] r']. simpl. lia.
Qed.
Lemma type2_len : forall pos neg x,
  let '(ps, qs) := type2 pos neg x in length ps = length pos /\ length qs = length neg.
Proof.
  induction pos as [|p pos IH]; intros [|q neg] [|l x]; cbn [type2]; auto.
  specialize (IH neg x). destruct (type2 pos neg x) as [ps qs]. destruct (l =? 0); simpl; lia.
Qed.
Lemma clause_update_len : forall boost si sm c w t x o r,
  let c' := fst (fst (clause_update boost si sm c w t x o r)) in
  length (cl_pos c') = length (cl_pos c) /\ length (cl_neg c') = length (cl_neg c).
Proof.
  intros boost si sm c w t x o r c'. unfold c', clause_update.
  destruct (t * _ >? 0).
  - destruct (o =? 1).
    + pose proof (type1a_len boost si sm (cl_pos c) (cl_neg c) x r). destruct (type1a _ _ _ _ _ _ _) as [[p q] r']. exact H.
    + pose proof (type1b_len si (cl_pos c) (cl_neg c) r). destruct (type1b _ _ _ _) as [[p q] r']. exact H.
  - destruct (_ && _).
    + pose proof (type2_len (cl_pos c) (cl_neg c) x). destruct (type2 _ _ _) as [p q]. exact H.
    + auto.
Qed.

(** ** One clause of TrainUpdate *)

Lemma nth_set_nth : forall i j (v d : Z) l, (i < length l)%nat ->
  nth j (set_nth i v l) d = if Nat.eqb j i then v else nth j l d.
Proof.
  intros i j v d l H. destruct (Nat.eqb j i) eqn:E.
  - apply Nat.eqb_eq in E. subst. apply nth_set_nth_eq. auto.
  - apply Nat.eqb_neq in E. apply nth_set_nth_neq. auto.
Qed.

Definition bump (c k : nat) (b : bool) : Z := if b && Nat.eqb c k then 1 else 0.

Lemma train_update_clause_weights : forall bo boost bud si sm x pc pp nc np c ws o cnt r f col,
  (pc < length ws)%nat -> (nc < length ws)%nat -> (forall j, is_int16 (nth j ws 0)) ->
  let fired := (o =? 1) && negb (bo && (cnt >? bud)) in
  let '(c', ws', o', r', f') := train_update_clause bo boost bud si sm x pc pp nc np c ws o cnt r f in
  nth col ws' 0 = wrap16 (nth col ws 0 + bump col pc (fired && Qlt_bool (draw f 0) pp)
                                       - bump col nc (fired && Qlt_bool (draw f 1) np)) /\
  o' = (if bo && (cnt >? bud) then 0 else o) /\ f' = advance 2 f /\ length ws' = length ws.
Proof.
  intros bo boost bud si sm x pc pp nc np c ws o cnt r f col Hpc Hnc Hw fired.
  unfold train_update_clause. rewrite draw_lt_eq.
  set (o' := if bo && (cnt >? bud) then 0 else o).
  assert (EF : fired = (o' =? 1)).
  { unfold fired, o'. destruct (bo && (cnt >? bud)); simpl; [apply andb_false_r|apply andb_true_r]. }
  rewrite EF. clear EF fired.
  pose proof (clause_update_weight boost si sm c (nth pc ws 0) 1 x o' r ltac:(auto)) as W1.
  destruct (clause_update boost si sm c (nth pc ws 0) 1 x o' r) as [[c1 w1] r1]. cbn [fst snd] in W1.
  assert (S : forall z, is_int16 z -> wrap16 (z + 0 - 0) = z) by (intros; rewrite wrap16_small; unfold is_int16 in *; lia).
  destruct (Qlt_bool (draw f 0) pp); rewrite draw_lt_eq, draw_advance, advance_advance; cbn [Nat.add].
  - pose proof (clause_update_weight boost si sm c1 (nth nc (set_nth pc w1 ws) 0) (-1) x o' r1 ltac:(auto)) as W2.
    destruct (clause_update _ _ _ c1 _ _ _ _ _) as [[c2 w2] r2]. cbn [fst snd] in W2.
    destruct (Qlt_bool (draw f 1) np); rewrite ?set_nth_length; repeat split; auto.
    + rewrite nth_set_nth by (rewrite set_nth_length; auto). rewrite nth_set_nth by auto. rewrite W2.
      rewrite nth_set_nth by auto. rewrite W1. unfold bump. rewrite !andb_true_r.
      destruct (o' =? 1); cbn [andb].
      * destruct (Nat.eqb col nc) eqn:E1; destruct (Nat.eqb col pc) eqn:E2.
        -- apply Nat.eqb_eq in E1, E2. subst. rewrite Nat.eqb_refl. rewrite wrap16_add_l. f_equal; lia.
        -- apply Nat.eqb_eq in E1. subst. rewrite E2. f_equal; lia.
        -- apply Nat.eqb_eq in E2. subst. f_equal; lia.
        -- rewrite S; auto.
      * rewrite S by auto. destruct (Nat.eqb col nc) eqn:E1; destruct (Nat.eqb col pc) eqn:E2; auto;
          try (apply Nat.eqb_eq in E1; subst); try (apply Nat.eqb_eq in E2; subst); auto; rewrite ?Nat.eqb_refl, ?E2; auto.
    + rewrite nth_set_nth by auto. rewrite W1. unfold bump. rewrite andb_true_r, andb_false_r. cbn [andb].
      destruct (o' =? 1); cbn [andb]; destruct (Nat.eqb col pc) eqn:E; try (apply Nat.eqb_eq in E; subst);
        rewrite ?S; auto. f_equal; lia.
  - pose proof (clause_update_weight boost si sm c (nth nc ws 0) (-1) x o' r ltac:(auto)) as W2.
    destruct (clause_update _ _ _ c (nth nc ws 0) _ _ _ _) as [[c2 w2] r2]. cbn [fst snd] in W2.
    destruct (Qlt_bool (draw f 1) np); rewrite ?set_nth_length; repeat split; auto.
    + rewrite nth_set_nth by auto. rewrite W2. unfold bump. rewrite andb_true_r, andb_false_r. cbn [andb].
      destruct (o' =? 1); cbn [andb]; destruct (Nat.eqb col nc) eqn:E; try (apply Nat.eqb_eq in E; subst);
        rewrite ?S; auto. f_equal; lia.
    + unfold bump. rewrite andb_false_r. cbn [andb]. rewrite S; auto.
Qed.

Lemma train_update_clause_silent : forall bo boost bud si sm x pc pp nc np c ws o cnt r f n,
  (o =? 1) && negb (bo && (cnt >? bud)) = false ->
  length (cl_pos c) = n -> length (cl_neg c) = n -> int8s (cl_pos c) -> int8s (cl_neg c) ->
  let c' := fst (fst (fst (fst (train_update_clause bo boost bud si sm x pc pp nc np c ws o cnt r f)))) in
  forall i, (i < 2 * n)%nat -> nth i (row_of c) 0 - 2 <= nth i (row_of c') 0 <= nth i (row_of c) 0.
Proof.
  intros bo boost bud si sm x pc pp nc np c ws o cnt r f n Hf Hp Hn Ip In c' i Hi. unfold c'. clear c'.
  unfold train_update_clause. rewrite draw_lt_eq.
  set (o' := if bo && (cnt >? bud) then 0 else o).
  assert (Ho : o' <> 1).
  { unfold o'. destruct (bo && (cnt >? bud)); [lia|]. rewrite andb_true_r in Hf. lia. }
  pose proof (clause_update_silent boost si sm c (nth pc ws 0) 1 x o' r n Ho Hp Hn Ip In) as W1.
  destruct (clause_update boost si sm c (nth pc ws 0) 1 x o' r) as [[c1 w1] r1]. cbn [fst snd] in W1.
  destruct W1 as [A1 [A2 [A3 [A4 A5]]]]. specialize (A5 i Hi).
  destruct (Qlt_bool (draw f 0) pp); rewrite draw_lt_eq.
  - pose proof (clause_update_silent boost si sm c1 (nth nc (set_nth pc w1 ws) 0) (-1) x o' r1 n Ho A1 A2 A3 A4) as W2.
    destruct (clause_update _ _ _ c1 _ _ _ _ _) as [[c2 w2] r2]. cbn [fst snd] in W2.
    destruct W2 as [_ [_ [_ [_ B5]]]]. specialize (B5 i Hi).
    destruct (Qlt_bool _ np); cbn [fst]; lia.
  - pose proof (clause_update_silent boost si sm c (nth nc ws 0) (-1) x o' r n Ho Hp Hn Ip In) as W2.
    destruct (clause_update _ _ _ c (nth nc ws 0) _ _ _ _) as [[c2 w2] r2]. cbn [fst snd] in W2.
    destruct W2 as [_ [_ [_ [_ B5]]]]. specialize (B5 i Hi).
    destruct (Qlt_bool _ np); cbn [fst]; lia.
Qed.

Lemma train_update_clause_len : forall bo boost bud si sm x pc pp nc np c ws o cnt r f,
  let c' := fst (fst (fst (fst (train_update_clause bo boost bud si sm x pc pp nc np c ws o cnt r f)))) in
  length (cl_pos c') = length (cl_pos c) /\ length (cl_neg c') = length (cl_neg c).
Proof.
  intros bo boost bud si sm x pc pp nc np c ws o cnt r f c'. unfold c'. clear c'.
  unfold train_update_clause. rewrite draw_lt_eq. set (o' := if bo && (cnt >? bud) then 0 else o).
  pose proof (clause_update_len boost si sm c (nth pc ws 0) 1 x o' r) as W1.
  destruct (clause_update boost si sm c (nth pc ws 0) 1 x o' r) as [[c1 w1] r1]. cbn [fst snd] in W1.
  destruct (Qlt_bool (draw f 0) pp); rewrite draw_lt_eq.
  - pose proof (clause_update_len boost si sm c1 (nth nc (set_nth pc w1 ws) 0) (-1) x o' r1) as W2.
    destruct (clause_update _ _ _ c1 _ _ _ _ _) as [[c2 w2] r2]. cbn [fst snd] in W2.
    destruct (Qlt_bool _ np); cbn [fst]; lia.
  - pose proof (clause_update_len boost si sm c (nth nc ws 0) (-1) x o' r) as W2.
    destruct (clause_update _ _ _ c (nth nc ws 0) _ _ _ _) as [[c2 w2] r2]. cbn [fst snd] in W2.
    destruct (Qlt_bool _ np); cbn [fst]; lia.
Qed.

(** ** The clause loop, clause by clause *)

Lemma nth_tl : forall k (l : list Z), nth k (tl l) 0 = nth (S k) l 0.
Proof. intros k [|h t]; simpl; auto. destruct k; auto. Qed.

Definition dclause : clause := mkClause [] [].

Lemma train_update_loop_nth : forall bo boost bud si sm x pc pp nc np cs wss outs counts r f,
  length wss = length cs -> length outs = length cs -> (forall ws, In ws wss -> (pc < length ws)%nat /\ (nc < length ws)%nat /\ forall j, is_int16 (nth j ws 0)) ->
  let '(cs', wss', outs', r', f') := train_update_loop bo boost bud si sm x pc pp nc np cs wss outs counts r f in
  length cs' = length cs /\ length wss' = length cs /\ length outs' = length cs /\ f' = advance (2 * length cs) f /\
  forall k, (k < length cs)%nat -> exists rk,
    let t := train_update_clause bo boost bud si sm x pc pp nc np (nth k cs dclause) (nth k wss []) (nth k outs 0) (nth k counts 0) rk (advance (2 * k) f) in
    nth k cs' dclause = fst (fst (fst (fst t))) /\ nth k wss' [] = snd (fst (fst (fst t))) /\ nth k outs' 0 = snd (fst (fst t)).
Proof.
  intros bo boost bud si sm x pc pp nc np cs. induction cs as [|c cs IH]; intros [|ws wss] [|o outs] counts r f H1 H2 H3; simpl in H1, H2; try lia.
  - cbn [train_update_loop]. cbn [length]. rewrite Nat.mul_0_r, advance_0. repeat split; auto. intros k Hk. lia.
  - cbn [train_update_loop].
    pose proof (train_update_clause_weights bo boost bud si sm x pc pp nc np c ws o (hd 0 counts) r f O) as W.
    destruct (H3 ws ltac:(left; auto)) as [P1 [P2 P3]]. specialize (W P1 P2 P3). cbv zeta in W.
    destruct (train_update_clause bo boost bud si sm x pc pp nc np c ws o (hd 0 counts) r f) as [[[[c1 ws1] o1] r1] f1] eqn:E1.
    destruct W as [_ [_ [W _]]]. subst f1.
    specialize (IH wss outs (tl counts) r1 (advance 2 f) ltac:(lia) ltac:(lia) ltac:(intros w Hw; apply H3; right; auto)).
    destruct (train_update_loop _ _ _ _ _ _ _ _ _ _ _ _ _ _ _ _) as [[[[cs2 wss2] outs2] r2] f2].
    destruct IH as [I1 [I2 [I3 [I4 I5]]]]. cbn [length].
    split; [lia|]. split; [lia|]. split; [lia|]. split.
    + rewrite I4, advance_advance. f_equal; lia.
    + intros [|k] Hk.
      * exists r. cbn [nth Nat.mul Nat.add]. rewrite advance_0.
        replace (nth 0 counts 0) with (hd 0 counts) by (destruct counts; auto).
        rewrite E1. cbv zeta. auto.
      * destruct (I5 k ltac:(lia)) as [rk Hrk]. exists rk. cbn [nth]. rewrite advance_advance, nth_tl in Hrk.
        replace (2 * S k)%nat with (2 + 2 * k)%nat by lia. exact Hrk.
Qed.

(** ** A full step: train_example then train_update *)

Definition dense_step (bo boost : bool) (x : list Z) (pc : nat) (pp : Q) (nc : nat) (np : Q) (b : block) : block :=
  dense_upd bo boost x pc pp nc np (fst (dense_train_ex bo x b)).

(** Well-formed block with values in their C++ types. *)
Record block_ok (n ncls : nat) (b : block) : Prop := {
  bo_wf : block_wf n ncls b;
  bo_int8 : Forall (fun c => int8s (cl_pos c) /\ int8s (cl_neg c)) (b_clauses b);
  bo_int16 : Forall (Forall is_int16) (b_weights b)
}.

Definition clause_at (b : block) (k : nat) : clause := nth k (b_clauses b) dclause.
Definition row_at (b : block) (k : nat) : list Z := row_of (clause_at b k).
Definition weight_at (b : block) (k c : nat) : Z := nth c (nth k (b_weights b) []) 0.

(** The clause takes part in reinforcement: it matches and is within budget. *)
Definition active (bo : bool) (n : nat) (x : list Z) (budget : Z) (row : list Z) : bool :=
  clause_matches n x row && (negb bo || (n_included row <=? budget)).

Lemma clause_at_ok : forall n ncls b k, block_ok n ncls b -> (k < length (b_clauses b))%nat ->
  length (cl_pos (clause_at b k)) = n /\ length (cl_neg (clause_at b k)) = n /\
  int8s (cl_pos (clause_at b k)) /\ int8s (cl_neg (clause_at b k)).
Proof.
  intros n ncls b k [[W1 W2 W3 W4] W5 W6] Hk. unfold clause_at.
  rewrite Forall_forall in W2, W5.
  assert (I : In (nth k (b_clauses b) dclause) (b_clauses b)) by (apply nth_In; auto).
  destruct (W2 _ I), (W5 _ I). auto.
Qed.

Lemma weights_ok : forall n ncls b ws, block_ok n ncls b -> In ws (b_weights b) ->
  length ws = ncls /\ forall j, is_int16 (nth j ws 0).
Proof.
  intros n ncls b ws [[W1 W2 W3 W4] W5 W6] H. unfold rows_of in W3. rewrite Forall_forall in W3, W6.
  split; auto. intros j. destruct (Nat.lt_ge_cases j (length ws)) as [Hj|Hj].
  - specialize (W6 _ H). rewrite Forall_forall in W6. apply W6, nth_In; auto.
  - rewrite nth_overflow by auto. unfold is_int16. lia.
Qed.

Lemma step_outputs : forall bo n ncls b x k, block_ok n ncls b -> length x = n -> binary x -> (k < length (b_clauses b))%nat ->
  let b1 := fst (dense_train_ex bo x b) in
  (nth k (b_outputs b1) 0 =? 1) && negb (bo && (nth k (b_counts b1) 0 >? b_budget b)) = active bo n x (b_budget b) (row_at b k).
Proof.
  intros bo n ncls b x k OK Hx Hb Hk b1.
  destruct (clause_at_ok n ncls b k OK Hk) as [P1 [P2 _]].
  unfold b1, dense_train_ex, count_votes, train_set_clause_output. cbn [fst b_outputs b_counts].
  rewrite map_map.
  rewrite (nth_indep _ 0 (fst (set_output bo x dclause))) by (rewrite map_length; auto).
  rewrite (map_nth (fun c => fst (set_output bo x c))). fold (clause_at b k).
  rewrite (set_output_matches bo n) by auto. unfold active, row_at, row_of, n_included.
  destruct (clause_matches n x _) eqn:M; cbn [b2z]; simpl andb; auto.
  destruct bo; simpl; auto.
  rewrite (nth_indep _ 0 (snd (set_output true x dclause))) by (rewrite !map_length; auto).
  rewrite map_nth. rewrite map_nth. fold (clause_at b k). rewrite (set_output_count n); auto.
  - rewrite Z.gtb_ltb, <- Z.leb_antisym. auto.
  - rewrite (set_output_matches true n) by auto. rewrite M. auto.
Qed.

(** Everything about a step that the properties need. *)
Lemma dense_step_spec : forall bo boost x pc pp nc np b n ncls,
  block_ok n ncls b -> length x = n -> binary x -> (pc < ncls)%nat -> (nc < ncls)%nat ->
  let b' := dense_step bo boost x pc pp nc np b in
  block_ok n ncls b' /\ length (b_clauses b') = length (b_clauses b) /\
  b_budget b' = b_budget b /\ b_fast b' = advance (2 * length (b_clauses b)) (b_fast b) /\
  (forall k c, (k < length (b_clauses b))%nat ->
    let a := active bo n x (b_budget b) (row_at b k) in
    weight_at b' k c = wrap16 (weight_at b k c
      + bump c pc (a && Qlt_bool (draw (b_fast b) (2 * k)) pp)
      - bump c nc (a && Qlt_bool (draw (b_fast b) (2 * k + 1)) np))) /\
  (forall k i, (k < length (b_clauses b))%nat -> (i < 2 * n)%nat -> active bo n x (b_budget b) (row_at b k) = false ->
    nth i (row_at b k) 0 - 2 <= nth i (row_at b' k) 0 <= nth i (row_at b k) 0).
Proof.
  intros bo boost x pc pp nc np b n ncls OK Hx Hb Hpc Hnc b'. unfold b'. clear b'.
  unfold dense_step, dense_upd.
  pose proof (step_outputs bo n ncls b x) as SO. cbv zeta in SO.
  set (b1 := fst (dense_train_ex bo x b)) in *.
  assert (Ec : b_clauses b1 = b_clauses b) by reflexivity.
  assert (Ew : b_weights b1 = b_weights b) by reflexivity.
  assert (Eb : b_budget b1 = b_budget b) by reflexivity.
  assert (Ef : b_fast b1 = b_fast b) by reflexivity.
  assert (En : b_ncls b1 = b_ncls b) by reflexivity.
  assert (Lo : length (b_outputs b1) = length (b_clauses b)) by (unfold b1; simpl; rewrite !map_length; auto).
  destruct OK as [WF I8 I16]. destruct WF as [W1 W2 W3 W4].
  assert (OK : block_ok n ncls b) by (constructor; auto; constructor; auto).
  unfold train_update.
  pose proof (train_update_range (-128) ltac:(lia) bo boost x pc pp nc np b1) as RG.
  rewrite Ec in RG. specialize (RG I8). unfold train_update in RG.
  pose proof (train_update_loop_nth bo boost (b_budget b1) (b_s_inv b1) (b_s_min1_inv b1) x pc pp nc np
    (b_clauses b1) (b_weights b1) (b_outputs b1) (b_counts b1) (b_rng b1) (b_fast b1)) as T.
  rewrite Ec, Ew, Lo in T. specialize (T ltac:(lia) ltac:(lia)).
  assert (HW : forall ws, In ws (b_weights b) -> (pc < length ws)%nat /\ (nc < length ws)%nat /\ (forall j, is_int16 (nth j ws 0))).
  { intros ws Hws. destruct (weights_ok n ncls b ws OK Hws) as [L J]. split; [lia|]. split; [lia|auto]. }
  specialize (T HW). rewrite Ec, Ew in *. rewrite Eb, Ef in *.
  destruct (train_update_loop _ _ _ _ _ _ _ _ _ _ _ _ _ _ _ _) as [[[[cs' wss'] outs'] r'] f'].
  cbn [b_clauses b_weights b_budget b_fast b_ncls] in *.
  destruct T as [T1 [T2 [T3 [T4 T5]]]].
  assert (WK : forall k c, (k < length (b_clauses b))%nat ->
    let a := active bo n x (b_budget b) (row_at b k) in
    nth c (nth k wss' []) 0 = wrap16 (nth c (nth k (b_weights b) []) 0
      + bump c pc (a && Qlt_bool (draw (b_fast b) (2 * k)) pp)
      - bump c nc (a && Qlt_bool (draw (b_fast b) (2 * k + 1)) np)) /\ length (nth k wss' []) = ncls).
  { intros k c Hk a. destruct (T5 k Hk) as [rk T]. cbv zeta in T.
    assert (IN : In (nth k (b_weights b) []) (b_weights b)) by (apply nth_In; lia).
    destruct (HW _ IN) as [A1 [A2 A3]].
    pose proof (train_update_clause_weights bo boost (b_budget b) (b_s_inv b1) (b_s_min1_inv b1) x pc pp nc np
      (nth k (b_clauses b) dclause) (nth k (b_weights b) []) (nth k (b_outputs b1) 0) (nth k (b_counts b1) 0) rk (advance (2 * k) (b_fast b)) c A1 A2 A3) as U.
    cbv zeta in U.
    destruct (train_update_clause _ _ _ _ _ _ _ _ _ _ _ _ _ _ _ _) as [[[[c1 ws1] o1] r1] f1]. cbn [fst snd] in T.
    destruct T as [_ [E _]]. rewrite E. destruct U as [U1 [_ [_ U2]]]. rewrite U1, U2.
    rewrite SO by auto. rewrite !draw_advance, Nat.add_0_r. split; auto.
    apply (weights_ok n ncls b); auto. }
  split; [|split; [|split; [|split; [|split]]]]; auto.
  - constructor; [constructor| |]; cbn [b_clauses b_weights b_ncls]; auto; try lia.
    + apply Forall_forall. intros c Hc. apply (In_nth _ _ dclause) in Hc. destruct Hc as [k [Hk E]].
      rewrite T1 in Hk. destruct (T5 k Hk) as [rk T]. cbv zeta in T.
      pose proof (train_update_clause_len bo boost (b_budget b) (b_s_inv b1) (b_s_min1_inv b1) x pc pp nc np
        (nth k (b_clauses b) dclause) (nth k (b_weights b) []) (nth k (b_outputs b1) 0) (nth k (b_counts b1) 0) rk (advance (2 * k) (b_fast b))) as U.
      cbv zeta in U. destruct T as [T _]. rewrite E in T. subst c. rewrite T.
      destruct (clause_at_ok n ncls b k OK Hk) as [P1 [P2 _]]. unfold clause_at in P1, P2. lia.
    + apply Forall_forall. intros ws Hw. apply (In_nth _ _ []) in Hw. destruct Hw as [k [Hk E]].
      rewrite T2 in Hk. subst ws. apply (WK k O Hk).
    + apply Forall_forall. intros ws Hw. apply (In_nth _ _ []) in Hw. destruct Hw as [k [Hk E]].
      rewrite T2 in Hk. subst ws. apply Forall_forall. intros v Hv. apply (In_nth _ _ 0) in Hv.
      destruct Hv as [j [Hj E]]. subst v. destruct (WK k j Hk) as [E _]. rewrite E. apply wrap16_range.
  - intros k c Hk. apply (WK k c Hk).
  - intros k i Hk Hi Ha. destruct (T5 k Hk) as [rk T]. cbv zeta in T. destruct T as [T _].
    match goal with |- context [row_at ?B k] => lazymatch B with mkBlock _ _ _ _ _ _ _ _ _ _ _ _ =>
      change (row_at B k) with (row_of (nth k cs' dclause)) end end. rewrite T.
    destruct (clause_at_ok n ncls b k OK Hk) as [P1 [P2 [P3 P4]]].
    apply (train_update_clause_silent bo boost (b_budget b) (b_s_inv b1) (b_s_min1_inv b1) x pc pp nc np
        (clause_at b k) (nth k (b_weights b) []) (nth k (b_outputs b1) 0) (nth k (b_counts b1) 0) rk (advance (2 * k) (b_fast b)) n); auto.
    rewrite SO; auto.
Qed.
