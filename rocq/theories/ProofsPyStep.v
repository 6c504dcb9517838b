(** One training step of the python fallback is a step of the scalar block
    under suitable draws; invariants of whole python trainings. *)
From Coq Require Import ZArith List Bool QArith Lia ZifyBool Arith.
From Verif Require Import Base BaseProofs Spec SpecLearning ModelInference ModelDense ModelDenseExec ModelFeedback ModelExecutor
  ProofsClause ProofsLearning ProofsLayout ProofsStep ProofsEval ModelPy ProofsPy.
Import ListNotations.
Open Scope Z_scope.

Lemma set_nth_mid : forall A (a b : list A) x v, set_nth (length a) v (a ++ x :: b) = a ++ v :: b.
Proof. induction a as [|h a IH]; intros; cbn [length app set_nth]; auto. rewrite IH. reflexivity. Qed.

(** Position of the negated automaton of literal k in a row. *)
Lemma neg_at : forall (ppre pos npre neg : list Z) p q n, length ppre = length npre -> length pos = length neg ->
  n = (length ppre + S (length pos))%nat ->
  let row := ppre ++ p :: pos ++ npre ++ q :: neg in
  nth (length ppre) row 0 = p /\ nth (length ppre + n) row 0 = q /\
  (forall v, set_nth (length ppre) v row = ppre ++ v :: pos ++ npre ++ q :: neg) /\
  (forall v, set_nth (length ppre + n) v row = ppre ++ p :: pos ++ npre ++ v :: neg).
Proof.
  intros ppre pos npre neg p q n H1 H2 H3 row.
  assert (E : row = (ppre ++ p :: pos ++ npre) ++ q :: neg).
  { unfold row. rewrite <- app_assoc. cbn [app]. rewrite <- app_assoc. reflexivity. }
  assert (L : (length ppre + n = length (ppre ++ p :: pos ++ npre))%nat).
  { rewrite app_length. cbn [length]. rewrite app_length. lia. }
  split; [apply nth_middle|]. split; [rewrite L, E; apply nth_middle|]. split; intros v.
  - apply set_nth_mid.
  - rewrite L, E, set_nth_mid. rewrite <- app_assoc. cbn [app]. rewrite <- app_assoc. reflexivity.
Qed.

Lemma lit_at : forall (lpre lits : list Z) l k, length lpre = k -> nth k (lpre ++ l :: lits) 0 = l.
Proof. intros. subst. apply nth_middle. Qed.

Lemma shuffle_in : forall (ppre pos npre neg : list Z) p q,
  ppre ++ p :: pos ++ npre ++ q :: neg = (ppre ++ [p]) ++ pos ++ (npre ++ [q]) ++ neg.
Proof. intros. rewrite <- !app_assoc. reflexivity. Qed.

Lemma py_t1a_loop : forall si sm pos neg lits ppre npre lpre r n,
  length neg = length pos -> length lits = length pos -> length npre = length ppre -> length lpre = length ppre ->
  n = (length ppre + length pos)%nat ->
  fold_left (py_t1a_step n si sm (lpre ++ lits)) (seq (length ppre) (length pos)) (ppre ++ pos ++ npre ++ neg, r) =
  let '(ps, qs, r') := type1a false si sm pos neg lits r in (ppre ++ ps ++ npre ++ qs, r').
Proof.
  intros si sm pos. induction pos as [|p pos IH]; intros [|q neg] [|l lits] ppre npre lpre r n H1 H2 H3 H4 H5;
    cbn [length] in *; try lia; auto.
  cbn [seq fold_left].
  destruct (neg_at ppre pos npre neg p q n) as [N1 [N2 [N3 N4]]]; [lia|lia|lia|].
  unfold py_t1a_step at 2. rewrite (lit_at lpre lits l) by auto.
  cbn [type1a app].
  assert (Step : forall p1 q1 r0,
    fold_left (py_t1a_step n si sm (lpre ++ l :: lits)) (seq (S (length ppre)) (length pos)) (ppre ++ p1 :: pos ++ npre ++ q1 :: neg, r0) =
    let '(ps, qs, r') := (let '(ps, qs, r') := type1a false si sm pos neg lits r0 in (p1 :: ps, q1 :: qs, r')) in (ppre ++ ps ++ npre ++ qs, r')).
  { intros p1 q1 r0. specialize (IH neg lits (ppre ++ [p1]) (npre ++ [q1]) (lpre ++ [l]) r0 n).
    rewrite !app_length in IH. cbn [length] in IH.
    specialize (IH ltac:(lia) ltac:(lia) ltac:(lia) ltac:(lia) ltac:(lia)).
    replace (length ppre + 1)%nat with (S (length ppre)) in IH by lia.
    rewrite <- shuffle_in in IH. rewrite <- app_assoc in IH. cbn [app] in IH. rewrite IH.
    destruct (type1a false si sm pos neg lits r0) as [[ps qs] r']. rewrite <- shuffle_in. reflexivity. }
  destruct (neg_at ppre pos npre neg (inc_sat p) q n) as [U1 [U2 [U3 U4]]]; [lia|lia|lia|].
  destruct (neg_at ppre pos npre neg (dec_sat p) q n) as [D1 [D2 [D3 D4]]]; [lia|lia|lia|].
  cbn zeta in *.
  destruct (l =? 1).
  - destruct (draw_le r sm) as [d1 r1]. destruct (draw_le r1 si) as [d2 r2].
    rewrite <- (Step (if d1 then inc_sat p else p) (if d2 then dec_sat q else q) r2). f_equal. f_equal.
    destruct d1, d2; unfold row_up, row_down; cbn [app]; rewrite ?N1, ?N2, ?N3, ?N4, ?U1, ?U2, ?U3, ?U4, ?D1, ?D2, ?D3, ?D4; reflexivity.
  - destruct (draw_le r si) as [d1 r1]. destruct (draw_le r1 sm) as [d2 r2].
    rewrite <- (Step (if d1 then dec_sat p else p) (if d2 then inc_sat q else q) r2). f_equal. f_equal.
    destruct d1, d2; unfold row_up, row_down; cbn [app]; rewrite ?N1, ?N2, ?N3, ?N4, ?U1, ?U2, ?U3, ?U4, ?D1, ?D2, ?D3, ?D4; reflexivity.
Qed.

Lemma py_t1b_loop : forall si pos neg ppre npre r n,
  length neg = length pos -> length npre = length ppre -> n = (length ppre + length pos)%nat ->
  fold_left (py_t1b_step n si) (seq (length ppre) (length pos)) (ppre ++ pos ++ npre ++ neg, r) =
  let '(ps, qs, r') := type1b si pos neg r in (ppre ++ ps ++ npre ++ qs, r').
Proof.
  intros si pos. induction pos as [|p pos IH]; intros [|q neg] ppre npre r n H1 H3 H5;
    cbn [length] in *; try lia; auto.
  cbn [seq fold_left].
  destruct (neg_at ppre pos npre neg p q n) as [N1 [N2 [N3 N4]]]; [lia|lia|lia|].
  unfold py_t1b_step at 2. cbn [type1b app].
  assert (Step : forall p1 q1 r0,
    fold_left (py_t1b_step n si) (seq (S (length ppre)) (length pos)) (ppre ++ p1 :: pos ++ npre ++ q1 :: neg, r0) =
    let '(ps, qs, r') := (let '(ps, qs, r') := type1b si pos neg r0 in (p1 :: ps, q1 :: qs, r')) in (ppre ++ ps ++ npre ++ qs, r')).
  { intros p1 q1 r0. specialize (IH neg (ppre ++ [p1]) (npre ++ [q1]) r0 n).
    rewrite !app_length in IH. cbn [length] in IH.
    specialize (IH ltac:(lia) ltac:(lia) ltac:(lia)).
    replace (length ppre + 1)%nat with (S (length ppre)) in IH by lia.
    rewrite <- shuffle_in in IH. rewrite IH.
    destruct (type1b si pos neg r0) as [[ps qs] r']. rewrite <- shuffle_in. reflexivity. }
  destruct (neg_at ppre pos npre neg (dec_sat p) q n) as [D1 [D2 [D3 D4]]]; [lia|lia|lia|].
  cbn zeta in *.
  destruct (draw_le r si) as [d1 r1]. destruct (draw_le r1 si) as [d2 r2].
  rewrite <- (Step (if d1 then dec_sat p else p) (if d2 then dec_sat q else q) r2). f_equal. f_equal.
  destruct d1, d2; unfold row_up, row_down; cbn [app]; rewrite ?N1, ?N2, ?N3, ?N4, ?D1, ?D2, ?D3, ?D4; reflexivity.
Qed.

Lemma py_t2_loop : forall pos neg lits ppre npre lpre n,
  length neg = length pos -> length lits = length pos -> length npre = length ppre -> length lpre = length ppre ->
  n = (length ppre + length pos)%nat ->
  fold_left (py_t2_step n (lpre ++ lits)) (seq (length ppre) (length pos)) (ppre ++ pos ++ npre ++ neg) =
  let '(ps, qs) := type2 pos neg lits in ppre ++ ps ++ npre ++ qs.
Proof.
  intros pos. induction pos as [|p pos IH]; intros [|q neg] [|l lits] ppre npre lpre n H1 H2 H3 H4 H5;
    cbn [length] in *; try lia; auto.
  cbn [seq fold_left].
  destruct (neg_at ppre pos npre neg p q n) as [N1 [N2 [N3 N4]]]; [lia|lia|lia|].
  unfold py_t2_step at 2. rewrite (lit_at lpre lits l) by auto.
  cbn [type2 app].
  assert (Step : forall p1 q1,
    fold_left (py_t2_step n (lpre ++ l :: lits)) (seq (S (length ppre)) (length pos)) (ppre ++ p1 :: pos ++ npre ++ q1 :: neg) =
    let '(ps, qs) := type2 pos neg lits in ppre ++ (p1 :: ps) ++ npre ++ (q1 :: qs)).
  { intros p1 q1. specialize (IH neg lits (ppre ++ [p1]) (npre ++ [q1]) (lpre ++ [l]) n).
    rewrite !app_length in IH. cbn [length] in IH.
    specialize (IH ltac:(lia) ltac:(lia) ltac:(lia) ltac:(lia) ltac:(lia)).
    replace (length ppre + 1)%nat with (S (length ppre)) in IH by lia.
    rewrite <- shuffle_in in IH. rewrite <- app_assoc in IH. cbn [app] in IH. rewrite IH.
    destruct (type2 pos neg lits) as [ps qs]. rewrite <- shuffle_in. reflexivity. }
  cbn zeta in *.
  assert (R : (if l =? 0 then row_t2 (length ppre) (ppre ++ p :: pos ++ npre ++ q :: neg)
               else row_t2 (length ppre + n) (ppre ++ p :: pos ++ npre ++ q :: neg)) =
          (if l =? 0 then ppre ++ (if p <? 0 then wrap8 (p + 1) else p) :: pos ++ npre ++ q :: neg
           else ppre ++ p :: pos ++ npre ++ (if q <? 0 then wrap8 (q + 1) else q) :: neg)).
  { unfold row_t2. rewrite N1, N2, N3, N4. destruct (l =? 0), (p <? 0), (q <? 0); reflexivity. }
  match goal with |- fold_left _ _ ?x = _ => replace x with
    (ppre ++ (if l =? 0 then (if p <? 0 then wrap8 (p + 1) else p) else p) :: pos ++ npre ++
       (if l =? 0 then q else (if q <? 0 then wrap8 (q + 1) else q)) :: neg)
    by (cbn [app] in *; rewrite R; destruct (l =? 0); reflexivity) end.
  rewrite Step. destruct (type2 pos neg lits) as [ps qs]. destruct (l =? 0); reflexivity.
Qed.

(** ** The three feedbacks on whole rows *)
Section Rows.
  Variables (n : nat) (c : clause).
  Hypotheses (Hp : length (cl_pos c) = n) (Hn : length (cl_neg c) = n).

  Lemma py_t1a_native : forall s lits r, length lits = n ->
    py_t1a n s lits (clause_row c) r =
    let '(p, q, r') := type1a false (1 / s) ((s - 1) / s) (cl_pos c) (cl_neg c) lits r in (p ++ q, r').
  Proof.
    intros s lits r Hl. unfold py_t1a, clause_row.
    pose proof (py_t1a_loop (1 / s) ((s - 1) / s) (cl_pos c) (cl_neg c) lits [] [] [] r n
      ltac:(lia) ltac:(lia) eq_refl eq_refl ltac:(cbn [length]; lia)) as H.
    cbn [length app] in H. rewrite Hp in H. exact H.
  Qed.
  Lemma py_t1b_native : forall s r, py_t1b n s (clause_row c) r =
    let '(p, q, r') := type1b (1 / s) (cl_pos c) (cl_neg c) r in (p ++ q, r').
  Proof.
    intros s r. unfold py_t1b, clause_row.
    pose proof (py_t1b_loop (1 / s) (cl_pos c) (cl_neg c) [] [] r n ltac:(lia) eq_refl ltac:(cbn [length]; lia)) as H.
    cbn [length app] in H. rewrite Hp in H. exact H.
  Qed.
  Lemma py_t2_native : forall lits, length lits = n ->
    py_t2 n lits (clause_row c) = let '(p, q) := type2 (cl_pos c) (cl_neg c) lits in p ++ q.
  Proof.
    intros lits Hl. unfold py_t2, clause_row.
    pose proof (py_t2_loop (cl_pos c) (cl_neg c) lits [] [] [] n
      ltac:(lia) ltac:(lia) eq_refl eq_refl ltac:(cbn [length]; lia)) as H.
    cbn [length app] in H. rewrite Hp in H. exact H.
  Qed.
End Rows.

Lemma set_nth_self : forall k (l : list Z), (k < length l)%nat -> set_nth k (nth k l 0) l = l.
Proof. induction k as [|k IH]; intros [|a l] H; cbn [length] in H; try lia; auto. cbn [nth set_nth]. rewrite IH by lia. auto. Qed.

(** update_clause is ClauseUpdateTM with boosting off, except that the weight
    wraps at eight bits. *)
Definition small_w (w : Z) : Prop := -127 <= w <= 126.

Lemma py_update_native : forall n s c ws t lits o k r, length (cl_pos c) = n -> length (cl_neg c) = n -> length lits = n ->
  small_w (nth k ws 0) -> (k < length ws)%nat ->
  py_update_clause n s (clause_row c) ws t lits o k r =
  let '(c', w', r') := clause_update false (1 / s) ((s - 1) / s) c (nth k ws 0) t lits o r in
  (clause_row c', set_nth k w' ws, r').
Proof.
  intros n s c ws t lits o k r Hp Hn Hl Hw Hk. unfold py_update_clause, clause_update. unfold small_w in Hw.
  assert (W : forall d, -1 <= d <= 1 -> wrap8 (nth k ws 0 + d) = wrap16 (nth k ws 0 + d)).
  { intros d Hd. rewrite wrap8_small, wrap16_small by (unfold is_int8, is_int16; lia). reflexivity. }
  set (sg := if nth k ws 0 >=? 0 then 1 else -1) in *.
  assert (Hs : -1 <= sg <= 1) by (unfold sg; destruct (nth k ws 0 >=? 0); lia).
  destruct (t * sg >? 0).
  - destruct (o =? 1).
    + rewrite (py_t1a_native n c Hp Hn) by auto. rewrite W by auto.
      destruct (type1a _ _ _ _ _ _ _) as [[p q] r']. reflexivity.
    + rewrite (py_t1b_native n c Hp Hn). destruct (type1b _ _ _ _) as [[p q] r'].
      cbn [clause_row cl_pos cl_neg]. rewrite set_nth_self by auto. reflexivity.
  - destruct ((t * sg <? 0) && (o =? 1)).
    + rewrite (py_t2_native n c Hp Hn) by auto. unfold Z.sub. rewrite W by lia.
      destruct (type2 _ _ _) as [p q]. reflexivity.
    + rewrite set_nth_self by auto. reflexivity.
Qed.

(** ** Draws: the scalar kernels read a bounded number of draws and depend on
    nothing else of the generator. *)

Definition agree (k : nat) (d : nat -> Q) (r : rng) : Prop := forall i, (i < k)%nat -> draw r i = d i.

Lemma agree_le : forall k j d r, (j <= k)%nat -> agree k d r -> agree j d r.
Proof. unfold agree. intros. apply H0. lia. Qed.
Lemma agree_advance : forall k j d r, agree (k + j) d r -> agree j (fun i => d (k + i)%nat) (advance k r).
Proof. unfold agree. intros k j d r H i Hi. rewrite draw_advance. apply H. lia. Qed.

Lemma type1a_local : forall boost si sm pos neg x r, exists k ps qs,
  type1a boost si sm pos neg x r = (ps, qs, advance k r) /\
  forall r', agree k (draw r) r' -> type1a boost si sm pos neg x r' = (ps, qs, advance k r').
Proof.
  intros boost si sm pos. induction pos as [|p pos IH]; intros [|q neg] [|l x] r;
    try (exists 0%nat; eexists; eexists; split; [cbn [type1a]; rewrite advance_0; reflexivity|intros r' _; cbn [type1a]; rewrite advance_0; reflexivity]).
  cbn [type1a]. destruct (l =? 1).
  - destruct boost.
    + destruct (IH neg x (advance 1 r)) as [k [ps [qs [E1 E2]]]].
      rewrite !draw_le_eq, E1, advance_advance. exists (1 + k)%nat, (inc_sat p :: ps), ((if Qle_bool (draw r 0) si then dec_sat q else q) :: qs). split; auto.
      intros r' A. rewrite draw_le_eq. rewrite (A 0%nat) by lia.
      rewrite E2; [rewrite advance_advance; reflexivity|].
      intros i Hi. rewrite !draw_advance. apply A. lia.
    + destruct (IH neg x (advance 2 r)) as [k [ps [qs [E1 E2]]]].
      exists (2 + k)%nat, ((if Qle_bool (draw r 0) sm then inc_sat p else p) :: ps), ((if Qle_bool (draw r 1) si then dec_sat q else q) :: qs). split.
      * rewrite !draw_le_eq, advance_advance. cbn [Nat.add]. rewrite draw_advance. cbn [Nat.add]. rewrite E1, advance_advance. reflexivity.
      * intros r' A. rewrite !draw_le_eq, advance_advance. cbn [Nat.add]. rewrite draw_advance. cbn [Nat.add].
        rewrite (A 0%nat), (A 1%nat) by lia. rewrite E2; [rewrite advance_advance; reflexivity|].
        intros i Hi. rewrite !draw_advance. apply A. lia.
  - destruct (IH neg x (advance 2 r)) as [k [ps [qs [E1 E2]]]].
    exists (2 + k)%nat, ((if Qle_bool (draw r 0) si then dec_sat p else p) :: ps), ((if Qle_bool (draw r 1) sm then inc_sat q else q) :: qs). split.
    * rewrite !draw_le_eq, advance_advance. cbn [Nat.add]. rewrite draw_advance. cbn [Nat.add]. rewrite E1, advance_advance. reflexivity.
    * intros r' A. rewrite !draw_le_eq, advance_advance. cbn [Nat.add]. rewrite draw_advance. cbn [Nat.add].
      rewrite (A 0%nat), (A 1%nat) by lia. rewrite E2; [rewrite advance_advance; reflexivity|].
      intros i Hi. rewrite !draw_advance. apply A. lia.
Qed.

Lemma type1b_local : forall si pos neg r, exists k ps qs,
  type1b si pos neg r = (ps, qs, advance k r) /\
  forall r', agree k (draw r) r' -> type1b si pos neg r' = (ps, qs, advance k r').
Proof.
  intros si pos. induction pos as [|p pos IH]; intros [|q neg] r;
    try (exists 0%nat; eexists; eexists; split; [cbn [type1b]; rewrite advance_0; reflexivity|intros r' _; cbn [type1b]; rewrite advance_0; reflexivity]).
  cbn [type1b]. destruct (IH neg (advance 2 r)) as [k [ps [qs [E1 E2]]]].
  exists (2 + k)%nat, ((if Qle_bool (draw r 0) si then dec_sat p else p) :: ps), ((if Qle_bool (draw r 1) si then dec_sat q else q) :: qs). split.
  * rewrite !draw_le_eq, advance_advance. cbn [Nat.add]. rewrite draw_advance. cbn [Nat.add]. rewrite E1, advance_advance. reflexivity.
  * intros r' A. rewrite !draw_le_eq, advance_advance. cbn [Nat.add]. rewrite draw_advance. cbn [Nat.add].
    rewrite (A 0%nat), (A 1%nat) by lia. rewrite E2; [rewrite advance_advance; reflexivity|].
    intros i Hi. rewrite !draw_advance. apply A. lia.
Qed.

Lemma clause_update_local : forall boost si sm c w t x o r, exists k c' w',
  clause_update boost si sm c w t x o r = (c', w', advance k r) /\
  forall r', agree k (draw r) r' -> clause_update boost si sm c w t x o r' = (c', w', advance k r').
Proof.
  intros boost si sm c w t x o r. unfold clause_update.
  destruct (t * (if w >=? 0 then 1 else -1) >? 0).
  - destruct (o =? 1).
    + destruct (type1a_local boost si sm (cl_pos c) (cl_neg c) x r) as [k [ps [qs [E1 E2]]]].
      exists k, (mkClause ps qs), (wrap16 (w + (if w >=? 0 then 1 else -1))). rewrite E1. split; auto.
      intros r' A. rewrite E2 by auto. reflexivity.
    + destruct (type1b_local si (cl_pos c) (cl_neg c) r) as [k [ps [qs [E1 E2]]]].
      exists k, (mkClause ps qs), w. rewrite E1. split; auto.
      intros r' A. rewrite E2 by auto. reflexivity.
  - destruct ((t * (if w >=? 0 then 1 else -1) <? 0) && (o =? 1)).
    + destruct (type2 (cl_pos c) (cl_neg c) x) as [ps qs].
      exists 0%nat. eexists. eexists. split; [rewrite advance_0; reflexivity|intros; rewrite advance_0; reflexivity].
    + exists 0%nat. eexists. eexists. split; [rewrite advance_0; reflexivity|intros; rewrite advance_0; reflexivity].
Qed.

(** Two draw sequences one after the other. *)
Definition seq_draws (k : nat) (a b : nat -> Q) (i : nat) : Q := if (i <? k)%nat then a i else b (i - k)%nat.

Lemma agree_seq : forall k1 k2 a b r, agree (k1 + k2) (seq_draws k1 a b) r -> agree k1 a r /\ agree k2 b (advance k1 r).
Proof.
  intros k1 k2 a b r H. split; intros i Hi.
  - rewrite H by lia. unfold seq_draws. destruct (i <? k1)%nat eqn:E; auto. apply Nat.ltb_ge in E. lia.
  - rewrite draw_advance, H by lia. unfold seq_draws. destruct (k1 + i <? k1)%nat eqn:E; [apply Nat.ltb_lt in E; lia|].
    f_equal. lia.
Qed.

(** One conditional clause update (a coin, then the update) in both backends. *)
Definition py_half (n : nat) (s : Q) (lits : list Z) (prob : Q) (t : Z) (k : nat) (row ws : list Z) (o : Z) (r : rng) : list Z * list Z * rng :=
  let '(d, r) := draw_lt r prob in if d then py_update_clause n s row ws t lits o k r else (row, ws, r).

Lemma py_half_native : forall n s lits prob t k c ws o r, length (cl_pos c) = n -> length (cl_neg c) = n -> length lits = n ->
  small_w (nth k ws 0) -> (k < length ws)%nat ->
  exists kr dr c' ws' r1, py_half n s lits prob t k (clause_row c) ws o r = (clause_row c', ws', r1) /\
    length (cl_pos c') = n /\ length (cl_neg c') = n /\ length ws' = length ws /\
    (forall j, j <> k -> nth j ws' 0 = nth j ws 0) /\
    forall R F, agree kr dr R -> agree 1 (draw r) F ->
      (let '(d, F') := draw_lt F prob in
       let '(c1, ws1, R1) :=
         if d then let '(c', w', r') := clause_update false (1 / s) ((s - 1) / s) c (nth k ws 0) t lits o R in (c', set_nth k w' ws, r')
         else (c, ws, R) in (c1, ws1, R1, F')) = (c', ws', advance kr R, advance 1 F).
Proof.
  intros n s lits prob t k c ws o r Hp Hn Hl Hw Hk. unfold py_half. rewrite draw_lt_eq.
  destruct (Qlt_bool (draw r 0) prob) eqn:Ed.
  - rewrite py_update_native by auto.
    destruct (clause_update_local false (1 / s) ((s - 1) / s) c (nth k ws 0) t lits o (advance 1 r)) as [kr [c' [w' [E1 E2]]]].
    rewrite E1. exists kr, (draw (advance 1 r)), c', (set_nth k w' ws), (advance kr (advance 1 r)).
    pose proof (clause_update_len false (1 / s) ((s - 1) / s) c (nth k ws 0) t lits o (advance 1 r)) as L. cbv zeta in L.
    rewrite E1 in L. cbn [fst] in L. destruct L as [L1 L2].
    split; auto. split; [lia|]. split; [lia|]. split; [apply set_nth_length|]. split.
    { intros j Hj. apply nth_set_nth_neq. auto. }
    intros R F AR AF. rewrite draw_lt_eq, (AF 0%nat), Ed by lia. rewrite E2 by auto. reflexivity.
  - exists 0%nat, (draw r), c, ws, (advance 1 r). repeat (split; auto).
    intros R F AR AF. rewrite draw_lt_eq, (AF 0%nat), Ed by lia. rewrite advance_0. reflexivity.
Qed.

Lemma py_train_clause_halves : forall bo bud n s lits pc pp nc np row ws o cnt r,
  py_train_clause bo bud n s lits pc pp nc np row ws o cnt r =
  let o := if bo && (cnt >? bud) then 0 else o in
  let '(row, ws, r) := py_half n s lits pp 1 pc row ws o r in
  let '(row, ws, r) := py_half n s lits np (-1) nc row ws o r in (row, ws, o, r).
Proof.
  intros. unfold py_train_clause, py_half. cbv zeta. destruct (draw_lt r pp) as [d r1].
  destruct (if d then _ else _) as [[row1 ws1] r2]. destruct (draw_lt r2 np) as [d2 r3].
  destruct (if d2 then _ else _) as [[row2 ws2] r4]. reflexivity.
Qed.

Lemma train_clause_halves : forall bo bud si sm lits pc pp nc np c ws o cnt r f,
  train_update_clause bo false bud si sm lits pc pp nc np c ws o cnt r f =
  let o := if bo && (cnt >? bud) then 0 else o in
  let half prob t k c ws r f :=
    let '(d, f') := draw_lt f prob in
    let '(c1, ws1, r1) :=
      if d then let '(c', w', r') := clause_update false si sm c (nth k ws 0) t lits o r in (c', set_nth k w' ws, r')
      else (c, ws, r) in (c1, ws1, r1, f') in
  let '(c, ws, r, f) := half pp 1 pc c ws r f in
  let '(c, ws, r, f) := half np (-1) nc c ws r f in (c, ws, o, r, f).
Proof.
  intros. unfold train_update_clause. cbv zeta. destruct (draw_lt f pp) as [d f1].
  destruct (if d then _ else _) as [[c1 ws1] r1]. destruct (draw_lt f1 np) as [d2 f2].
  destruct (if d2 then _ else _) as [[c2 ws2] r2]. reflexivity.
Qed.

Lemma py_clause_native : forall bo bud n s lits pc pp nc np c ws o cnt r ncls,
  length (cl_pos c) = n -> length (cl_neg c) = n -> length lits = n -> length ws = ncls -> Forall small_w ws ->
  (pc < ncls)%nat -> (nc < ncls)%nat -> pc <> nc ->
  exists kr dr kf df c' ws' o' r1,
    py_train_clause bo bud n s lits pc pp nc np (clause_row c) ws o cnt r = (clause_row c', ws', o', r1) /\
    forall R F, agree kr dr R -> agree kf df F ->
      train_update_clause bo false bud (1 / s) ((s - 1) / s) lits pc pp nc np c ws o cnt R F = (c', ws', o', advance kr R, advance kf F).
Proof.
  intros bo bud n s lits pc pp nc np c ws o cnt r ncls Hp Hn Hl Hws Hw Hpc Hnc Hne.
  rewrite py_train_clause_halves. cbv zeta. set (o' := if bo && (cnt >? bud) then 0 else o).
  assert (W1 : small_w (nth pc ws 0)) by (apply (proj1 (Forall_forall _ _) Hw), nth_In; lia).
  destruct (py_half_native n s lits pp 1 pc c ws o' r Hp Hn Hl W1 ltac:(lia))
    as [k1 [d1 [c1 [ws1 [r1 [E1 [P1 [N1 [L1 [O1 F1]]]]]]]]]].
  assert (W2 : small_w (nth nc ws1 0)).
  { rewrite O1 by auto. apply (proj1 (Forall_forall _ _) Hw), nth_In; lia. }
  destruct (py_half_native n s lits np (-1) nc c1 ws1 o' r1 P1 N1 Hl W2 ltac:(lia))
    as [k2 [d2 [c2 [ws2 [r2 [E2 [P2 [N2 [L2 [O2 F2]]]]]]]]]].
  rewrite E1, E2.
  exists (k1 + k2)%nat, (seq_draws k1 d1 d2), (1 + 1)%nat, (seq_draws 1 (draw r) (draw r1)), c2, ws2, o', r2.
  split; auto. intros R F AR AF. apply agree_seq in AR. apply agree_seq in AF. destruct AR as [AR1 AR2], AF as [AF1 AF2].
  rewrite train_clause_halves. cbv beta zeta. fold o'.
  rewrite (F1 R F AR1 AF1). rewrite (F2 (advance k1 R) (advance 1 F) AR2 AF2).
  rewrite !advance_advance. reflexivity.
Qed.

Theorem py_loop_native : forall bo bud n s lits pc pp nc np ncls cs wss outs cnts r,
  Forall (fun c => length (cl_pos c) = n /\ length (cl_neg c) = n) cs -> length lits = n ->
  Forall (fun ws => length ws = ncls /\ Forall small_w ws) wss -> (pc < ncls)%nat -> (nc < ncls)%nat -> pc <> nc ->
  exists kr dr kf df cs' wss' outs' r1,
    py_train_loop bo bud n s lits pc pp nc np (map clause_row cs) wss outs cnts r = (map clause_row cs', wss', outs', r1) /\
    forall R F, agree kr dr R -> agree kf df F ->
      train_update_loop bo false bud (1 / s) ((s - 1) / s) lits pc pp nc np cs wss outs cnts R F
      = (cs', wss', outs', advance kr R, advance kf F).
Proof.
  intros bo bud n s lits pc pp nc np ncls cs. induction cs as [|c cs IH]; intros wss outs cnts r Hc Hl Hw Hpc Hnc Hne;
    [exists 0%nat, (draw r), 0%nat, (draw r), [], wss, outs, r; split; [reflexivity|intros; cbn [train_update_loop]; rewrite !advance_0; reflexivity]|].
  destruct wss as [|ws wss];
    [exists 0%nat, (draw r), 0%nat, (draw r), (c :: cs), [], outs, r; split; [reflexivity|intros; cbn [train_update_loop]; rewrite !advance_0; reflexivity]|].
  destruct outs as [|o outs];
    [exists 0%nat, (draw r), 0%nat, (draw r), (c :: cs), (ws :: wss), [], r; split; [reflexivity|intros; cbn [train_update_loop]; rewrite !advance_0; reflexivity]|].
  pose proof (Forall_inv Hc) as [Hc1 Hc2]. apply Forall_inv_tail in Hc.
  pose proof (Forall_inv Hw) as [Hw1 Hw2]. apply Forall_inv_tail in Hw.
  destruct (py_clause_native bo bud n s lits pc pp nc np c ws o (hd 0 cnts) r ncls Hc1 Hc2 Hl Hw1 Hw2 Hpc Hnc Hne)
    as [k1 [d1 [j1 [e1 [c1 [ws1 [o1 [r1 [E1 F1]]]]]]]]].
  destruct (IH wss outs (tl cnts) r1 Hc Hl Hw Hpc Hnc Hne) as [k2 [d2 [j2 [e2 [cs2 [wss2 [outs2 [r2 [E2 F2]]]]]]]]].
  cbn [map py_train_loop train_update_loop]. rewrite E1, E2.
  exists (k1 + k2)%nat, (seq_draws k1 d1 d2), (j1 + j2)%nat, (seq_draws j1 e1 e2), (c1 :: cs2), (ws1 :: wss2), (o1 :: outs2), r2.
  split; auto. intros R F AR AF. apply agree_seq in AR. apply agree_seq in AF. destruct AR as [AR1 AR2], AF as [AF1 AF2].
  rewrite (F1 R F AR1 AF1). rewrite (F2 (advance k1 R) (advance j1 F) AR2 AF2). rewrite !advance_advance. reflexivity.
Qed.

(** Without the literal budget the budget value is not read. *)
Lemma no_budget_loop : forall boost b1 b2 si sm lits pc pp nc np cs wss outs cnts r f,
  train_update_loop false boost b1 si sm lits pc pp nc np cs wss outs cnts r f =
  train_update_loop false boost b2 si sm lits pc pp nc np cs wss outs cnts r f.
Proof.
  intros boost b1 b2 si sm lits pc pp nc np cs. induction cs as [|c cs IH]; intros [|ws wss] [|o outs] cnts r f; cbn [train_update_loop]; auto.
  change (train_update_clause false boost b2 si sm lits pc pp nc np c ws o (hd 0 cnts) r f)
    with (train_update_clause false boost b1 si sm lits pc pp nc np c ws o (hd 0 cnts) r f).
  destruct (train_update_clause false boost b1 si sm lits pc pp nc np c ws o (hd 0 cnts) r f) as [[[[c1 ws1] o1] r1] f1].
  rewrite IH. reflexivity.
Qed.
