(** Feedback and updates of the scalar dense block. *)
From Coq Require Import ZArith List Bool QArith Lia ZifyBool.
From Verif Require Import Base BaseProofs Spec SpecLearning ModelDense ProofsClause.
Import ListNotations.
Open Scope Z_scope.

Lemma inc_sat_up : forall v, is_int8 v -> inc_sat v = step_up v.
Proof. intros v H. unfold inc_sat, step_up, is_int8 in *. destruct (v <? 127) eqn:E; auto. apply wrap8_small. unfold is_int8. lia. Qed.
Lemma dec_sat_down : forall v, is_int8 v -> dec_sat v = step_down v.
Proof.
  intros v H. unfold dec_sat, step_down, is_int8 in *.
  destruct (v >? -127) eqn:E; destruct (-127 <? v) eqn:E2; try lia. apply wrap8_small. unfold is_int8. lia.
Qed.

Lemma draw_advance : forall r n k, draw (advance n r) k = draw r (n + k).
Proof. intros. unfold draw, advance. simpl. f_equal. lia. Qed.
Lemma advance_advance : forall r m n, advance m (advance n r) = advance (n + m) r.
Proof. intros. unfold advance. simpl. f_equal. lia. Qed.
Lemma advance_0 : forall r, advance 0 r = r.
Proof. intros [s p]. unfold advance. simpl. f_equal. lia. Qed.
Lemma draw_le_eq : forall r p, draw_le r p = (Qle_bool (draw r 0) p, advance 1 r).
Proof. intros [s p0] p. unfold draw_le, next_u, draw, advance. simpl. rewrite Nat.add_0_r, Nat.add_1_r. auto. Qed.
Lemma draw_lt_eq : forall r p, draw_lt r p = (Qlt_bool (draw r 0) p, advance 1 r).
Proof. intros [s p0] p. unfold draw_lt, next_u, draw, advance. simpl. rewrite Nat.add_0_r, Nat.add_1_r. auto. Qed.

Lemma ones_before_cons : forall l x i, ones_before (l :: x) (S i) = ((if (l =? 1)%Z then 1 else 0) + ones_before x i)%nat.
Proof. intros. unfold ones_before. simpl. destruct (l =? 1); auto. Qed.
Lemma ones_before_le : forall x i, (ones_before x i <= i)%nat.
Proof.
  unfold ones_before. induction x as [|v x IH]; intros [|i]; simpl; try lia.
  specialize (IH i). destruct (v =? 1); simpl; lia.
Qed.

Lemma t1a_first_cons : forall boost l x i,
  t1a_first_draw boost (l :: x) (S i) = ((if boost && (l =? 1)%Z then 1 else 2) + t1a_first_draw boost x i)%nat.
Proof.
  intros. unfold t1a_first_draw. destruct boost; cbn [andb]; cbv iota; [|lia].
  rewrite ones_before_cons. pose proof (ones_before_le x i). destruct (l =? 1); lia.
Qed.

Definition int8s (row : list Z) : Prop := Forall is_int8 row.

(** Type Ia does exactly what [t1a_new_pos]/[t1a_new_neg] say. *)
Theorem type1a_exact : forall boost si sm x pos neg r,
  length pos = length x -> length neg = length x -> int8s pos -> int8s neg ->
  let '(ps, qs, r') := type1a boost si sm pos neg x r in
  length ps = length x /\ length qs = length x /\
  (forall i, (i < length x)%nat -> nth i ps 0 = t1a_new_pos boost si sm x r i (nth i pos 0)) /\
  (forall i, (i < length x)%nat -> nth i qs 0 = t1a_new_neg boost si sm x r i (nth i neg 0)) /\
  r' = advance (t1a_first_draw boost x (length x)) r.
Proof.
  intros boost si sm x. induction x as [|l x IH]; intros [|p pos] [|q neg] r Hp Hn Ip In; simpl in Hp, Hn; try lia.
  - cbn [type1a]. repeat split; auto; try (intros i Hi; simpl in Hi; lia).
    unfold t1a_first_draw. simpl. destruct boost; rewrite advance_0; auto.
  - inversion Ip as [|? ? Ip1 Ip2]; subst. inversion In as [|? ? In1 In2]; subst.
    assert (G : forall r0 p1 q1,
      r0 = advance (if boost && (l =? 1) then 1 else 2) r ->
      p1 = t1a_new_pos boost si sm (l :: x) r 0 p ->
      q1 = t1a_new_neg boost si sm (l :: x) r 0 q ->
      let '(ps, qs, r') := (let '(ps, qs, r') := type1a boost si sm pos neg x r0 in (p1 :: ps, q1 :: qs, r')) in
      length ps = S (length x) /\ length qs = S (length x) /\
      (forall i, (i < S (length x))%nat -> nth i ps 0 = t1a_new_pos boost si sm (l :: x) r i (nth i (p :: pos) 0)) /\
      (forall i, (i < S (length x))%nat -> nth i qs 0 = t1a_new_neg boost si sm (l :: x) r i (nth i (q :: neg) 0)) /\
      r' = advance (t1a_first_draw boost (l :: x) (S (length x))) r).
    { intros r0 p1 q1 E0 Ep Eq. specialize (IH pos neg r0 ltac:(lia) ltac:(lia) Ip2 In2).
      destruct (type1a boost si sm pos neg x r0) as [[ps qs] r'].
      destruct IH as [H1 [H2 [H3 [H4 H5]]]]. cbn [length]. split; [lia|split; [lia|split; [|split]]].
      - intros [|i] Hi; [exact Ep|]. cbn [nth]. rewrite H3 by lia. unfold t1a_new_pos. cbv zeta.
        rewrite t1a_first_cons, E0, draw_advance. reflexivity.
      - intros [|i] Hi; [exact Eq|]. cbn [nth]. rewrite H4 by lia. unfold t1a_new_neg. cbv zeta.
        rewrite t1a_first_cons, E0, !draw_advance. cbn [nth].
        destruct boost; rewrite ?Nat.add_succ_r; reflexivity.
      - rewrite H5, t1a_first_cons, E0, advance_advance. reflexivity. }
    assert (F0 : t1a_first_draw boost (l :: x) 0 = O) by (unfold t1a_first_draw; destruct boost; auto).
    cbn [type1a length]. destruct (l =? 1) eqn:El.
    + destruct boost.
      * rewrite draw_le_eq. apply G; auto; [unfold t1a_new_pos|unfold t1a_new_neg]; cbv zeta; rewrite F0; cbn [nth]; rewrite El.
        -- simpl. apply inc_sat_up; auto.
        -- destruct (Qle_bool (draw r 0) si); auto. apply dec_sat_down; auto.
      * rewrite !draw_le_eq. apply G.
        -- rewrite advance_advance. auto.
        -- unfold t1a_new_pos. cbv zeta. rewrite F0. cbn [nth]. rewrite El. simpl orb.
           destruct (Qle_bool (draw r 0) sm); auto. apply inc_sat_up; auto.
        -- unfold t1a_new_neg. cbv zeta. rewrite F0. cbn [nth]. rewrite El, draw_advance. simpl Nat.add.
           destruct (Qle_bool (draw r 1) si); auto. apply dec_sat_down; auto.
    + rewrite !draw_le_eq. apply G.
      * rewrite advance_advance, andb_false_r. auto.
      * unfold t1a_new_pos. cbv zeta. rewrite F0. cbn [nth]. rewrite El.
        destruct (Qle_bool (draw r 0) si); auto. apply dec_sat_down; auto.
      * unfold t1a_new_neg. cbv zeta. rewrite F0. cbn [nth]. rewrite El, draw_advance. simpl Nat.add.
        destruct (Qle_bool (draw r 1) sm); auto. apply inc_sat_up; auto.
Qed.

Theorem type1b_exact : forall si pos neg r,
  length neg = length pos -> int8s pos -> int8s neg ->
  let '(ps, qs, r') := type1b si pos neg r in
  length ps = length pos /\ length qs = length pos /\
  (forall i, (i < length pos)%nat ->
     nth i ps 0 = (if Qle_bool (draw r (2 * i)) si then step_down (nth i pos 0) else nth i pos 0)) /\
  (forall i, (i < length pos)%nat ->
     nth i qs 0 = (if Qle_bool (draw r (2 * i + 1)) si then step_down (nth i neg 0) else nth i neg 0)) /\
  r' = advance (2 * length pos) r.
Proof.
  intros si pos. induction pos as [|p pos IH]; intros [|q neg] r Hn Ip In; simpl in Hn; try lia.
  - cbn [type1b]. repeat split; auto; try (intros i Hi; simpl in Hi; lia). simpl. rewrite advance_0; auto.
  - inversion Ip as [|? ? Ip1 Ip2]; subst. inversion In as [|? ? In1 In2]; subst.
    cbn [type1b]. rewrite !draw_le_eq, advance_advance.
    specialize (IH neg (advance (1 + 1) r) ltac:(lia) Ip2 In2).
    destruct (type1b si pos neg (advance (1 + 1) r)) as [[ps qs] r'].
    destruct IH as [H1 [H2 [H3 [H4 H5]]]]. cbn [length].
    split; [lia|split; [lia|split; [|split]]].
    + intros [|i] Hi; cbn [nth]; [destruct (Qle_bool (draw r (2*0)) si) eqn:E; simpl in E; rewrite E; auto; apply dec_sat_down; auto|].
      rewrite H3, draw_advance by lia. replace (1 + 1 + 2 * i)%nat with (2 * S i)%nat by lia. auto.
    + intros [|i] Hi; cbn [nth].
      * rewrite draw_advance. simpl Nat.add. destruct (Qle_bool (draw r 1) si); auto. apply dec_sat_down; auto.
      * rewrite H4, draw_advance by lia. replace (1 + 1 + (2 * i + 1))%nat with (2 * S i + 1)%nat by lia. auto.
    + rewrite H5, advance_advance. f_equal. lia.
Qed.

Theorem type2_exact : forall x pos neg,
  length pos = length x -> length neg = length x -> int8s pos -> int8s neg ->
  let '(ps, qs) := type2 pos neg x in
  length ps = length x /\ length qs = length x /\
  (forall i, (i < length x)%nat ->
     nth i ps 0 = (if (nth i x 0 =? 0) && (nth i pos 0 <? 0) then nth i pos 0 + 1 else nth i pos 0)) /\
  (forall i, (i < length x)%nat ->
     nth i qs 0 = (if negb (nth i x 0 =? 0) && (nth i neg 0 <? 0) then nth i neg 0 + 1 else nth i neg 0)).
Proof.
  induction x as [|l x IH]; intros [|p pos] [|q neg] Hp Hn Ip In; simpl in Hp, Hn; try lia.
  - cbn [type2]. repeat split; auto; intros i Hi; simpl in Hi; lia.
  - inversion Ip as [|? ? Ip1 Ip2]; subst. inversion In as [|? ? In1 In2]; subst.
    specialize (IH pos neg ltac:(lia) ltac:(lia) Ip2 In2). cbn [type2].
    destruct (type2 pos neg x) as [ps qs]. destruct IH as [H1 [H2 [H3 H4]]].
    unfold is_int8 in *.
    destruct (l =? 0) eqn:El; cbn [length]; (split; [lia|split; [lia|split]]);
      intros [|i] Hi; cbn [nth]; rewrite ?El; cbn [negb andb]; auto; try (apply H3; lia); try (apply H4; lia).
    + destruct (p <? 0) eqn:E; auto. apply wrap8_small. unfold is_int8. lia.
    + destruct (q <? 0) eqn:E; auto. apply wrap8_small. unfold is_int8. lia.
Qed.

(** ** Ranges, for any arguments *)

Definition rows_in (lo hi : Z) (l : list Z) : Prop := Forall (in_range lo hi) l.

Lemma inc_sat_range : forall lo v, -128 <= lo <= -127 -> in_range lo 127 v -> in_range lo 127 (inc_sat v).
Proof.
  unfold in_range, inc_sat. intros lo v H Hv. destruct (v <? 127) eqn:E; auto.
  rewrite wrap8_small by (unfold is_int8; lia). lia.
Qed.
Lemma dec_sat_range : forall lo v, -128 <= lo <= -127 -> in_range lo 127 v -> in_range lo 127 (dec_sat v).
Proof.
  unfold in_range, dec_sat. intros lo v H Hv. destruct (v >? -127) eqn:E; auto.
  rewrite wrap8_small by (unfold is_int8; lia). lia.
Qed.

Section Range.
  Variable lo : Z.
  Hypothesis Hlo : -128 <= lo <= -127.

  Lemma type1a_range : forall boost si sm pos neg x r, rows_in lo 127 pos -> rows_in lo 127 neg ->
    let '(ps, qs, _) := type1a boost si sm pos neg x r in rows_in lo 127 ps /\ rows_in lo 127 qs.
  Proof.
    intros boost si sm pos. induction pos as [|p pos IH]; intros [|q neg] [|l x] r Hp Hq; cbn [type1a]; auto.
    inversion Hp; subst. inversion Hq; subst.
    destruct (l =? 1).
    - destruct boost.
      + rewrite draw_le_eq. specialize (IH neg x (advance 1 r)). destruct (type1a _ _ _ _ _ _ _) as [[ps qs] r'].
        destruct IH; auto. split; constructor; auto using inc_sat_range.
        destruct (Qle_bool (draw r 0) si); auto using dec_sat_range.
      + rewrite !draw_le_eq. specialize (IH neg x (advance 1 (advance 1 r))). destruct (type1a _ _ _ _ _ _ _) as [[ps qs] r'].
        destruct IH; auto. split; constructor; auto.
        * destruct (Qle_bool _ _); auto using inc_sat_range.
        * destruct (Qle_bool _ _); auto using dec_sat_range.
    - rewrite !draw_le_eq. specialize (IH neg x (advance 1 (advance 1 r))). destruct (type1a _ _ _ _ _ _ _) as [[ps qs] r'].
      destruct IH; auto. split; constructor; auto.
      * destruct (Qle_bool _ _); auto using dec_sat_range.
      * destruct (Qle_bool _ _); auto using inc_sat_range.
  Qed.

  Lemma type1b_range : forall si pos neg r, rows_in lo 127 pos -> rows_in lo 127 neg ->
    let '(ps, qs, _) := type1b si pos neg r in rows_in lo 127 ps /\ rows_in lo 127 qs.
  Proof.
    intros si pos. induction pos as [|p pos IH]; intros [|q neg] r Hp Hq; cbn [type1b]; auto.
    inversion Hp; subst. inversion Hq; subst.
    rewrite !draw_le_eq. specialize (IH neg (advance 1 (advance 1 r))). destruct (type1b _ _ _ _) as [[ps qs] r'].
    destruct IH; auto. split; constructor; auto; destruct (Qle_bool _ _); auto using dec_sat_range.
  Qed.

  Lemma type2_range : forall pos neg x, rows_in lo 127 pos -> rows_in lo 127 neg ->
    let '(ps, qs) := type2 pos neg x in rows_in lo 127 ps /\ rows_in lo 127 qs.
  Proof.
    induction pos as [|p pos IH]; intros [|q neg] [|l x] Hp Hq; cbn [type2]; auto.
    inversion Hp; subst. inversion Hq; subst.
    specialize (IH neg x). destruct (type2 pos neg x) as [ps qs]. destruct IH; auto.
    unfold in_range in *.
    destruct (l =? 0); split; constructor; auto; unfold in_range.
    - destruct (p <? 0) eqn:E; auto. rewrite wrap8_small by (unfold is_int8; lia). lia.
    - destruct (q <? 0) eqn:E; auto. rewrite wrap8_small by (unfold is_int8; lia). lia.
  Qed.

  Definition clause_in (c : clause) : Prop := rows_in lo 127 (cl_pos c) /\ rows_in lo 127 (cl_neg c).

  Lemma clause_update_range : forall boost si sm c w t x o r, clause_in c ->
    clause_in (fst (fst (clause_update boost si sm c w t x o r))).
  Proof.
    intros boost si sm c w t x o r [H1 H2]. unfold clause_update.
    destruct (t * _ >? 0).
    - destruct (o =? 1).
      + pose proof (type1a_range boost si sm (cl_pos c) (cl_neg c) x r H1 H2).
        destruct (type1a _ _ _ _ _ _ _) as [[p q] r']. exact H.
      + pose proof (type1b_range si (cl_pos c) (cl_neg c) r H1 H2).
        destruct (type1b _ _ _ _) as [[p q] r']. exact H.
    - destruct (_ && _).
      + pose proof (type2_range (cl_pos c) (cl_neg c) x H1 H2).
        destruct (type2 _ _ _) as [p q]. exact H.
      + split; auto.
  Qed.

  Lemma train_update_clause_range : forall bo boost bud si sm x pc pp nc np c ws o cnt r f, clause_in c ->
    clause_in (fst (fst (fst (fst (train_update_clause bo boost bud si sm x pc pp nc np c ws o cnt r f))))).
  Proof.
    intros. unfold train_update_clause. rewrite draw_lt_eq.
    set (o' := if bo && (cnt >? bud) then 0 else o).
    pose proof (clause_update_range boost si sm c (nth pc ws 0) 1 x o' r H) as H1.
    destruct (clause_update boost si sm c (nth pc ws 0) 1 x o' r) as [[c1 w1] r1].
    cbn [fst] in H1.
    destruct (Qlt_bool (draw f 0) pp); rewrite draw_lt_eq.
    - pose proof (clause_update_range boost si sm c1 (nth nc (set_nth pc w1 ws) 0) (-1) x o' r1 H1) as H2.
      destruct (clause_update _ _ _ c1 _ _ _ _ _) as [[c2 w2] r2].
      destruct (Qlt_bool (draw (advance 1 f) 0) np); auto.
    - pose proof (clause_update_range boost si sm c (nth nc ws 0) (-1) x o' r H) as H2.
      destruct (clause_update _ _ _ c (nth nc ws 0) _ _ _ _) as [[c2 w2] r2].
      destruct (Qlt_bool (draw (advance 1 f) 0) np); auto.
  Qed.

  Lemma train_update_range : forall bo boost x pc pp nc np b, Forall clause_in (b_clauses b) ->
    Forall clause_in (b_clauses (train_update bo boost x pc pp nc np b)).
  Proof.
    intros bo boost x pc pp nc np b H. unfold train_update.
    assert (K : forall cs wss outs counts r f, Forall clause_in cs ->
      Forall clause_in (fst (fst (fst (fst (train_update_loop bo boost (b_budget b) (b_s_inv b) (b_s_min1_inv b) x pc pp nc np cs wss outs counts r f)))))).
    { induction cs as [|c cs IH]; intros [|ws wss] [|o outs] counts r f Hc; cbn [train_update_loop fst]; auto.
      inversion Hc; subst.
      pose proof (train_update_clause_range bo boost (b_budget b) (b_s_inv b) (b_s_min1_inv b) x pc pp nc np c ws o (hd 0 counts) r f H2) as H1.
      destruct (train_update_clause _ _ _ _ _ _ _ _ _ _ _ _ _ _ _ _) as [[[[c1 ws1] o1] r1] f1].
      specialize (IH wss outs (tl counts) r1 f1 H3).
      destruct (train_update_loop _ _ _ _ _ _ _ _ _ _ _ _ _ _ _ _) as [[[[cs2 wss2] outs2] r2] f2].
      cbn [fst] in *. constructor; auto. }
    specialize (K (b_clauses b) (b_weights b) (b_outputs b) (b_counts b) (b_rng b) (b_fast b) H).
    destruct (train_update_loop _ _ _ _ _ _ _ _ _ _ _ _ _ _ _ _) as [[[[cs2 wss2] outs2] r2] f2]. exact K.
  Qed.
End Range.
