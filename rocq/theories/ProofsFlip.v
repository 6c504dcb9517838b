(** An input and its negation are treated alike, unless boosted. *)
From Coq Require Import ZArith List Bool QArith Lia ZifyBool.
From Verif Require Import Base BaseProofs Spec SpecLearning SpecFlip ModelInference ModelDense ModelExecutor ModelDenseExec ProofsLearning.
Import ListNotations.
Open Scope Z_scope.

Lemma mix_length : forall m a b, length a = length m -> length b = length m -> length (mix m a b) = length m.
Proof. induction m as [|s m IH]; intros [|u a] [|v b] H1 H2; cbn [length mix] in *; try lia. rewrite IH; lia. Qed.

Lemma flip_set_output : forall bo m pos neg x pc nc pc' nc', length pos = length m -> length neg = length m -> length x = length m -> binary x ->
  fst (set_output_loop bo (mix m pos neg) (mix m neg pos) (flip_x m x) pc' nc') = fst (set_output_loop bo pos neg x pc nc) /\
  (fst (set_output_loop bo pos neg x pc nc) = 1 ->
   snd (set_output_loop bo (mix m pos neg) (mix m neg pos) (flip_x m x) pc' nc') - (pc' + nc') = snd (set_output_loop bo pos neg x pc nc) - (pc + nc)).
Proof.
  intros bo. induction m as [|s m IH]; intros [|p pos] [|q neg] [|l x] pc nc pc' nc' H1 H2 H3 B; cbn [length] in *; try lia.
  - cbn. split; [reflexivity|lia].
  - inversion B as [|? ? B1 B2]; subst. unfold flip_x. cbn [map mix set_output_loop]. fold (flip_x m x).
    assert (L : l = 0 \/ l = 1) by exact B1.
    destruct s; destruct L; subst l; cbn [Z.sub Z.add Z.opp Z.eqb Pos.eqb Z.pos_sub]; rewrite ?andb_false_r, ?andb_true_r;
      destruct (p >=? 0) eqn:EP; destruct (q >=? 0) eqn:EQ; cbn [andb fst snd];
      try (split; [reflexivity|discriminate]);
      match goal with |- context [set_output_loop bo (mix m pos neg) (mix m neg pos) (flip_x m x) ?a' ?b'] =>
        match goal with |- context [set_output_loop bo pos neg x ?a ?b] =>
          destruct (IH pos neg x a b a' b' ltac:(lia) ltac:(lia) ltac:(lia) B2) as [E1 E2] end end;
      (split; [exact E1|intros E; specialize (E2 E); destruct bo; lia]).
Qed.

Lemma flip_eval_output : forall m pos neg x e, length pos = length m -> length neg = length m -> length x = length m -> binary x ->
  eval_output_loop (mix m pos neg) (mix m neg pos) (flip_x m x) e = eval_output_loop pos neg x e.
Proof.
  induction m as [|s m IH]; intros [|p pos] [|q neg] [|l x] e H1 H2 H3 B; cbn [length] in *; try lia.
  - reflexivity.
  - inversion B as [|? ? B1 B2]; subst. unfold flip_x. cbn [map mix eval_output_loop]. fold (flip_x m x).
    assert (L : l = 0 \/ l = 1) by exact B1.
    destruct s; destruct L; subst l; cbn [Z.sub Z.add Z.opp Z.eqb Pos.eqb Z.pos_sub]; rewrite ?andb_false_r, ?andb_true_r;
      destruct (p >=? 0) eqn:EP; destruct (q >=? 0) eqn:EQ; cbn [andb fst snd]; try reflexivity; apply IH; auto.
Qed.

(** The draws of [m]'s inputs from position [q] on are exchanged. *)
Definition swapped (m : list bool) (src src2 : nat -> Q) (q : nat) : Prop :=
  forall i, (i < length m)%nat -> if nth i m false then src2 (q + 2 * i)%nat = src (q + 2 * i + 1)%nat /\ src2 (q + 2 * i + 1)%nat = src (q + 2 * i)%nat
    else src2 (q + 2 * i)%nat = src (q + 2 * i)%nat /\ src2 (q + 2 * i + 1)%nat = src (q + 2 * i + 1)%nat.
Lemma swapped_tl : forall s m src src2 q, swapped (s :: m) src src2 q ->
  (if s then src2 q = src (S q) /\ src2 (S q) = src q else src2 q = src q /\ src2 (S q) = src (S q)) /\ swapped m src src2 (S (S q)).
Proof.
  intros s m src src2 q H. split.
  - specialize (H O ltac:(cbn; lia)). cbn [nth] in H. replace (q + 2 * 0 + 1)%nat with (S q) in H by lia. replace (q + 2 * 0)%nat with q in H by lia. exact H.
  - intros i Hi. specialize (H (S i) ltac:(cbn; lia)). cbn [nth] in H. replace (q + 2 * S i + 1)%nat with (S (S q) + 2 * i + 1)%nat in H by lia. replace (q + 2 * S i)%nat with (S (S q) + 2 * i)%nat in H by lia. exact H.
Qed.

Lemma flip_type1a : forall si sm m pos neg x src src2 q, length pos = length m -> length neg = length m -> length x = length m -> binary x -> swapped m src src2 q ->
  let '(ps, qs, r) := type1a false si sm pos neg x (mkRng src q) in
  type1a false si sm (mix m pos neg) (mix m neg pos) (flip_x m x) (mkRng src2 q) = (mix m ps qs, mix m qs ps, mkRng src2 (q + 2 * length m)) /\
  r = mkRng src (q + 2 * length m) /\ length ps = length m /\ length qs = length m.
Proof.
  intros si sm. induction m as [|s m IH]; intros [|p pos] [|t neg] [|l x] src src2 q H1 H2 H3 B SW; cbn [length] in *; try lia.
  - cbn. rewrite Nat.add_0_r. auto.
  - inversion B as [|? ? B1 B2]; subst. unfold flip_x. cbn [map mix type1a]. fold (flip_x m x). apply swapped_tl in SW. destruct SW as [S1 S2].
    specialize (IH pos neg x src src2 (S (S q)) ltac:(lia) ltac:(lia) ltac:(lia) B2 S2).
    assert (L : l = 0 \/ l = 1) by exact B1.
    unfold draw_le, next_u. cbn [rng_src rng_pos].
    destruct (type1a false si sm pos neg x (mkRng src (S (S q)))) as [[ps qs] r]. destruct IH as [I1 [I2 [I3 I4]]].
    replace (q + 2 * S (length m))%nat with (S (S q) + 2 * length m)%nat by lia.
    destruct s; destruct S1 as [S3 S4]; destruct L; subst l; cbn [Z.sub Z.add Z.opp Z.eqb Pos.eqb Z.pos_sub]; cbn [rng_src rng_pos];
      rewrite I1, S3, S4; (split; [reflexivity|split; [exact I2|cbn [length]; lia]]).
Qed.
Lemma flip_type1b : forall si m pos neg src src2 q, length pos = length m -> length neg = length m -> swapped m src src2 q ->
  let '(ps, qs, r) := type1b si pos neg (mkRng src q) in
  type1b si (mix m pos neg) (mix m neg pos) (mkRng src2 q) = (mix m ps qs, mix m qs ps, mkRng src2 (q + 2 * length m)) /\
  r = mkRng src (q + 2 * length m) /\ length ps = length m /\ length qs = length m.
Proof.
  intros si. induction m as [|s m IH]; intros [|p pos] [|t neg] src src2 q H1 H2 SW; cbn [length] in *; try lia.
  - cbn. rewrite Nat.add_0_r. auto.
  - cbn [mix type1b]. apply swapped_tl in SW. destruct SW as [S1 S2].
    specialize (IH pos neg src src2 (S (S q)) ltac:(lia) ltac:(lia) S2).
    unfold draw_le, next_u. cbn [rng_src rng_pos].
    destruct (type1b si pos neg (mkRng src (S (S q)))) as [[ps qs] r]. destruct IH as [I1 [I2 [I3 I4]]].
    replace (q + 2 * S (length m))%nat with (S (S q) + 2 * length m)%nat by lia.
    destruct s; destruct S1 as [S3 S4]; cbn [rng_src rng_pos];
      rewrite I1, S3, S4; (split; [reflexivity|split; [exact I2|cbn [length]; lia]]).
Qed.
Lemma flip_type2 : forall m pos neg x, length pos = length m -> length neg = length m -> length x = length m -> binary x ->
  let '(ps, qs) := type2 pos neg x in
  type2 (mix m pos neg) (mix m neg pos) (flip_x m x) = (mix m ps qs, mix m qs ps) /\ length ps = length m /\ length qs = length m.
Proof.
  induction m as [|s m IH]; intros [|p pos] [|t neg] [|l x] H1 H2 H3 B; cbn [length] in *; try lia.
  - cbn. auto.
  - inversion B as [|? ? B1 B2]; subst. unfold flip_x. cbn [map mix type2]. fold (flip_x m x).
    specialize (IH pos neg x ltac:(lia) ltac:(lia) ltac:(lia) B2). assert (L : l = 0 \/ l = 1) by exact B1.
    destruct (type2 pos neg x) as [ps qs]. destruct IH as [I1 [I2 I3]]. rewrite I1.
    destruct s; destruct L; subst l; cbn [Z.sub Z.add Z.opp Z.eqb Pos.eqb Z.pos_sub mix length]; (split; [reflexivity|lia]).
Qed.

(** Positions from which the swap is a whole number of examples away. *)
Lemma swap_whole : forall m src src2 base k, (forall q, src2 (base + q)%nat = src (base + swap_pos (length m) m q)%nat) -> swapped m src src2 (base + k * (2 * length m)).
Proof.
  intros m src src2 base k H i Hi.
  assert (E0 : Nat.even (k * (2 * length m) + 2 * i) = true).
  { replace (k * (2 * length m) + 2 * i)%nat with (2 * (k * length m + i))%nat by lia. rewrite Nat.even_mul. reflexivity. }
  assert (E1 : Nat.even (k * (2 * length m) + 2 * i + 1) = false) by (rewrite Nat.even_add, E0; reflexivity).
  assert (D0 : ((k * (2 * length m) + 2 * i) / 2 = i + k * length m)%nat).
  { replace (k * (2 * length m) + 2 * i)%nat with ((i + k * length m) * 2)%nat by lia. apply Nat.div_mul. lia. }
  assert (D1 : ((k * (2 * length m) + 2 * i + 1) / 2 = i + k * length m)%nat).
  { replace (k * (2 * length m) + 2 * i + 1)%nat with ((i + k * length m) * 2 + 1)%nat by lia. rewrite Nat.div_add_l by lia. change (1 / 2)%nat with O. lia. }
  assert (M : ((i + k * length m) mod length m = i)%nat) by (rewrite Nat.mod_add by lia; apply Nat.mod_small; exact Hi).
  pose proof (H (k * (2 * length m) + 2 * i)%nat) as H0. pose proof (H (k * (2 * length m) + 2 * i + 1)%nat) as H1.
  unfold swap_pos in H0, H1. rewrite D0, M, E0 in H0. rewrite D1, M, E1 in H1.
  replace (base + (k * (2 * length m) + 2 * i))%nat with (base + k * (2 * length m) + 2 * i)%nat in H0 by lia.
  replace (base + (k * (2 * length m) + 2 * i + 1))%nat with (base + k * (2 * length m) + 2 * i + 1)%nat in H1 by lia.
  destruct (nth i m false).
  - split; [rewrite H0; f_equal; lia|rewrite H1; f_equal; lia].
  - split; [rewrite H0; f_equal; lia|rewrite H1; f_equal; lia].
Qed.

Section Flip.
  Variables (m : list bool) (base : nat) (src src2 : nat -> Q).
  Hypothesis Hswap : forall q, src2 (base + q)%nat = src (base + swap_pos (length m) m q)%nat.
  Notation at_ k := (base + k * (2 * length m))%nat.

  Lemma flip_update : forall si sm c w t x o k, sized m c -> length x = length m -> binary x ->
    exists c' w' k', clause_update false si sm c w t x o (mkRng src (at_ k)) = (c', w', mkRng src (at_ k')) /\
      clause_update false si sm (flip_clause m c) w t (flip_x m x) o (mkRng src2 (at_ k)) = (flip_clause m c', w', mkRng src2 (at_ k')) /\ sized m c'.
  Proof.
    intros si sm [pos neg] w t x o k [L1 L2] Lx B. cbn [cl_pos cl_neg] in L1, L2. pose proof (swap_whole m src src2 base k Hswap) as SW.
    unfold clause_update, flip_clause. cbn [cl_pos cl_neg].
    destruct (t * (if w >=? 0 then 1 else -1) >? 0); [destruct (o =? 1)|destruct ((t * (if w >=? 0 then 1 else -1) <? 0) && (o =? 1))].
    - pose proof (flip_type1a si sm m pos neg x src src2 (at_ k) L1 L2 Lx B SW) as A.
      destruct (type1a false si sm pos neg x (mkRng src (at_ k))) as [[ps qs] r]. destruct A as [A1 [A2 [A3 A4]]]. rewrite A1, A2.
      exists (mkClause ps qs), (wrap16 (w + (if w >=? 0 then 1 else -1))), (S k). replace (at_ k + 2 * length m)%nat with (at_ (S k)) by lia. split; [reflexivity|]. split; [reflexivity|split; auto].
    - pose proof (flip_type1b si m pos neg src src2 (at_ k) L1 L2 SW) as A.
      destruct (type1b si pos neg (mkRng src (at_ k))) as [[ps qs] r]. destruct A as [A1 [A2 [A3 A4]]]. rewrite A1, A2.
      exists (mkClause ps qs), w, (S k). replace (at_ k + 2 * length m)%nat with (at_ (S k)) by lia. split; [reflexivity|]. split; [reflexivity|split; auto].
    - pose proof (flip_type2 m pos neg x L1 L2 Lx B) as A. destruct (type2 pos neg x) as [ps qs]. destruct A as [A1 [A3 A4]]. rewrite A1.
      exists (mkClause ps qs), (wrap16 (w - (if w >=? 0 then 1 else -1))), k. split; [reflexivity|]. split; [reflexivity|split; auto].
    - exists (mkClause pos neg), w, k. split; [reflexivity|]. split; [reflexivity|split; auto].
  Qed.

  Lemma flip_update_clause : forall bo bud si sm x pc pp nc np c ws o cnt cnt2 k f, sized m c -> length x = length m -> binary x -> (o = 1 -> cnt2 = cnt) -> o = 0 \/ o = 1 ->
    exists c' ws' o' k' f', train_update_clause bo false bud si sm x pc pp nc np c ws o cnt (mkRng src (at_ k)) f = (c', ws', o', mkRng src (at_ k'), f') /\
      train_update_clause bo false bud si sm (flip_x m x) pc pp nc np (flip_clause m c) ws o cnt2 (mkRng src2 (at_ k)) f = (flip_clause m c', ws', o', mkRng src2 (at_ k'), f') /\ sized m c'.
  Proof.
    intros bo bud si sm x pc pp nc np c ws o cnt cnt2 k f SZ Lx B HC HO. unfold train_update_clause.
    assert (E : (if bo && (cnt2 >? bud) then 0 else o) = (if bo && (cnt >? bud) then 0 else o)).
    { destruct HO as [->| ->]; [destruct (bo && (cnt2 >? bud)), (bo && (cnt >? bud)); reflexivity|]. rewrite HC by reflexivity. reflexivity. }
    rewrite E. set (oo := if bo && (cnt >? bud) then 0 else o). destruct (draw_lt f pp) as [d1 f1].
    assert (S1 : exists c1 ws1 k1, (if d1 then let '(c', w', r') := clause_update false si sm c (nth pc ws 0) 1 x oo (mkRng src (at_ k)) in (c', set_nth pc w' ws, r') else (c, ws, mkRng src (at_ k))) = (c1, ws1, mkRng src (at_ k1)) /\
      (if d1 then let '(c', w', r') := clause_update false si sm (flip_clause m c) (nth pc ws 0) 1 (flip_x m x) oo (mkRng src2 (at_ k)) in (c', set_nth pc w' ws, r') else (flip_clause m c, ws, mkRng src2 (at_ k))) = (flip_clause m c1, ws1, mkRng src2 (at_ k1)) /\ sized m c1).
    { destruct d1; [|exists c, ws, k; auto]. destruct (flip_update si sm c (nth pc ws 0) 1 x oo k SZ Lx B) as [c' [w' [k' [A1 [A2 A3]]]]]. rewrite A1, A2. exists c', (set_nth pc w' ws), k'. auto. }
    destruct S1 as [c1 [ws1 [k1 [A1 [A2 A3]]]]]. rewrite A1, A2. destruct (draw_lt f1 np) as [d2 f2]. destruct d2.
    - destruct (flip_update si sm c1 (nth nc ws1 0) (-1) x oo k1 A3 Lx B) as [c' [w' [k' [B1 [B2 B3]]]]]. rewrite B1, B2. exists c', (set_nth nc w' ws1), oo, k', f2. auto.
    - exists c1, ws1, oo, k1, f2. auto.
  Qed.

  Lemma flip_update_loop : forall bo bud si sm x pc pp nc np cs wss outs counts counts2 k f, Forall (sized m) cs -> length x = length m -> binary x ->
    (forall j, nth j outs 0 = 1 -> nth j counts2 0 = nth j counts 0) -> Forall (fun o => o = 0 \/ o = 1) outs ->
    exists cs' wss' outs' k' f', train_update_loop bo false bud si sm x pc pp nc np cs wss outs counts (mkRng src (at_ k)) f = (cs', wss', outs', mkRng src (at_ k'), f') /\
      train_update_loop bo false bud si sm (flip_x m x) pc pp nc np (map (flip_clause m) cs) wss outs counts2 (mkRng src2 (at_ k)) f = (map (flip_clause m) cs', wss', outs', mkRng src2 (at_ k'), f') /\ Forall (sized m) cs'.
  Proof.
    intros bo bud si sm x pc pp nc np. induction cs as [|c cs IH]; intros wss outs counts counts2 k f SZ Lx B HC HO.
    - cbn [map train_update_loop]. exists [], wss, outs, k, f. auto.
    - inversion SZ as [|? ? Z1 Z2]; subst. cbn [map train_update_loop]. destruct wss as [|ws wss]; [exists (c :: cs), [], outs, k, f; auto|].
      destruct outs as [|o outs]; [exists (c :: cs), (ws :: wss), [], k, f; auto|]. inversion HO as [|? ? O1 O2]; subst.
      destruct (flip_update_clause bo bud si sm x pc pp nc np c ws o (hd 0 counts) (hd 0 counts2) k f Z1 Lx B) as [c1 [ws1 [o1 [k1 [f1 [A1 [A2 A3]]]]]]]; [|exact O1|].
      { intros E. specialize (HC O E). destruct counts, counts2; cbn in *; auto. }
      rewrite A1, A2.
      destruct (IH wss outs (tl counts) (tl counts2) k1 f1 Z2 Lx B) as [cs' [wss' [outs' [k' [f' [B1 [B2 B3]]]]]]]; [|exact O2|].
      { intros j E. specialize (HC (S j) E). destruct counts, counts2; cbn in *; try exact HC; destruct j; auto. }
      rewrite B1, B2. exists (c1 :: cs'), (ws1 :: wss'), (o1 :: outs'), k', f'. split; [reflexivity|]. split; [reflexivity|constructor; auto].
  Qed.
End Flip.

Lemma flip_x_length : forall m x, length x = length m -> length (flip_x m x) = length m.
Proof. intros. unfold flip_x. apply mix_length; [auto|now rewrite map_length]. Qed.
Lemma set_output_bit : forall bo pos neg x a b, fst (set_output_loop bo pos neg x a b) = 0 \/ fst (set_output_loop bo pos neg x a b) = 1.
Proof.
  intros bo. induction pos as [|p pos IH]; intros [|q neg] [|l x] a b; cbn [set_output_loop]; auto.
  destruct (_ && _); auto. destruct (_ && _); auto.
Qed.

Lemma flip_train_on : forall base m bo prob x pc nc b b2, alike base m b b2 -> Forall (sized m) (b_clauses b) -> length x = length m -> binary x ->
  alike base m (train_on bo false prob b (x, pc, nc)) (train_on bo false prob b2 (flip_x m x, pc, nc)) /\
  b_outputs (train_on bo false prob b2 (flip_x m x, pc, nc)) = b_outputs (train_on bo false prob b (x, pc, nc)) /\
  b_votes (train_on bo false prob b2 (flip_x m x, pc, nc)) = b_votes (train_on bo false prob b (x, pc, nc)) /\
  Forall (sized m) (b_clauses (train_on bo false prob b (x, pc, nc))).
Proof.
  intros base m bo prob x pc nc b b2 [K1 K2 K3 K4 K5 K6 K7 K8 K9 K10 [k K11]] SZ Lx B.
  set (outs := map fst (map (set_output bo x) (b_clauses b))).
  assert (EO : map fst (map (set_output bo (flip_x m x)) (b_clauses b2)) = outs).
  { unfold outs. rewrite K3, !map_map. apply map_ext_in. intros c Hc. rewrite Forall_forall in SZ. destruct (SZ c Hc) as [Z1 Z2]. destruct c as [pos neg].
    unfold set_output, flip_clause. cbn [cl_pos cl_neg] in *. apply (flip_set_output bo m pos neg x 0 0 0 0); auto. }
  set (cnts := if bo then map snd (map (set_output bo x) (b_clauses b)) else b_counts b).
  set (cnts2 := if bo then map snd (map (set_output bo (flip_x m x)) (b_clauses b2)) else b_counts b2).
  unfold train_on, train_set_clause_output, count_votes, train_update.
  cbn [b_votes b_clauses b_weights b_outputs b_counts b_rng b_fast b_budget b_s_inv b_s_min1_inv b_ncls b_nlit].
  rewrite EO. fold outs cnts cnts2. rewrite K1, K2, K4, K5, K6, K7, K8.
  destruct (prob (count_votes_loop outs (b_weights b) (repeat 0 (b_ncls b))) pc nc) as [pp np].
  destruct (b_rng b) as [src pos] eqn:RB. destruct (b_rng b2) as [src2 pos2] eqn:RB2. cbn [rng_src rng_pos] in *. subst pos2 pos. rewrite K3.
  assert (X : exists cs' wss' outs' k' f',
    train_update_loop bo false (b_budget b) (b_s_inv b) (b_s_min1_inv b) x pc pp nc np (b_clauses b) (b_weights b) outs cnts (mkRng src (base + k * (2 * length m))) (b_fast b) = (cs', wss', outs', mkRng src (base + k' * (2 * length m)), f') /\
    train_update_loop bo false (b_budget b) (b_s_inv b) (b_s_min1_inv b) (flip_x m x) pc pp nc np (map (flip_clause m) (b_clauses b)) (b_weights b) outs cnts2 (mkRng src2 (base + k * (2 * length m))) (b_fast b) =
      (map (flip_clause m) cs', wss', outs', mkRng src2 (base + k' * (2 * length m)), f') /\ Forall (sized m) cs').
  { destruct bo.
    - apply flip_update_loop; auto.
      + intros j E. unfold cnts, cnts2. rewrite K3, !map_map.
        assert (Hj : (j < length (b_clauses b))%nat).
        { destruct (Nat.lt_ge_cases j (length (b_clauses b))) as [L|L]; [exact L|]. unfold outs in E. rewrite nth_overflow in E by (rewrite !map_length; exact L). discriminate. }
        set (d := mkClause [] []). rewrite (nth_indep (map (fun c => snd (set_output true x c)) (b_clauses b)) 0 (snd (set_output true x d))) by (rewrite map_length; exact Hj).
        rewrite (nth_indep (map (fun c => snd (set_output true (flip_x m x) (flip_clause m c))) (b_clauses b)) 0 (snd (set_output true (flip_x m x) (flip_clause m d)))) by (rewrite map_length; exact Hj).
        rewrite (map_nth (fun c => snd (set_output true x c))), (map_nth (fun c => snd (set_output true (flip_x m x) (flip_clause m c)))).
        unfold outs in E. rewrite map_map in E. rewrite (nth_indep (map (fun c => fst (set_output true x c)) (b_clauses b)) 0 (fst (set_output true x d))) in E by (rewrite map_length; exact Hj).
        rewrite (map_nth (fun c => fst (set_output true x c))) in E. rewrite Forall_forall in SZ. destruct (SZ _ (nth_In _ d Hj)) as [Z1 Z2].
        destruct (nth j (b_clauses b) d) as [pos neg]. unfold set_output, flip_clause in *. cbn [cl_pos cl_neg] in *.
        destruct (flip_set_output true m pos neg x 0 0 0 0 Z1 Z2 Lx B) as [_ Y]. specialize (Y E). lia.
      + unfold outs. apply Forall_map, Forall_map, Forall_forall. intros c _. apply set_output_bit.
    - destruct (flip_update_loop m base src src2 K10 false (b_budget b) (b_s_inv b) (b_s_min1_inv b) x pc pp nc np (b_clauses b) (b_weights b) outs cnts cnts k (b_fast b) SZ Lx B ltac:(auto)) as [cs' [wss' [outs' [k' [f' [B1 [B2 B3]]]]]]].
      { unfold outs. apply Forall_map, Forall_map, Forall_forall. intros c _. apply set_output_bit. }
      exists cs', wss', outs', k', f'. split; [exact B1|]. split; [|exact B3]. rewrite <- B2.
      assert (NB : forall cs wss os c1 c2 r f, train_update_loop false false (b_budget b) (b_s_inv b) (b_s_min1_inv b) (flip_x m x) pc pp nc np cs wss os c1 r f = train_update_loop false false (b_budget b) (b_s_inv b) (b_s_min1_inv b) (flip_x m x) pc pp nc np cs wss os c2 r f).
      { induction cs as [|c cs IH]; intros [|w wss] [|o os] c1 c2 r f; cbn [train_update_loop]; auto.
        change (train_update_clause false false (b_budget b) (b_s_inv b) (b_s_min1_inv b) (flip_x m x) pc pp nc np c w o (hd 0 c1) r f)
          with (train_update_clause false false (b_budget b) (b_s_inv b) (b_s_min1_inv b) (flip_x m x) pc pp nc np c w o (hd 0 c2) r f).
        destruct (train_update_clause _ _ _ _ _ _ _ _ _ _ _ _ _ _ _ _) as [[[[u1 u2] u3] u4] u5]. rewrite (IH wss os (tl c1) (tl c2)). reflexivity. }
      apply NB. }
  destruct X as [cs' [wss' [outs' [k' [f' [X1 [X2 X3]]]]]]]. rewrite X1, X2.
  split; [|split; [reflexivity|split; [reflexivity|exact X3]]].
  constructor; cbn [b_nlit b_ncls b_clauses b_weights b_budget b_s_inv b_s_min1_inv b_fast b_rng rng_src rng_pos]; auto. exists k'. reflexivity.
Qed.

Lemma flip_train_over : forall base m bo prob es b b2, alike base m b b2 -> Forall (sized m) (b_clauses b) ->
  Forall (fun e => length (fst (fst e)) = length m /\ binary (fst (fst e))) es ->
  alike base m (train_over bo false prob es b) (train_over bo false prob (map (flip_example m) es) b2) /\ Forall (sized m) (b_clauses (train_over bo false prob es b)).
Proof.
  intros base m bo prob. induction es as [|[[x pc] nc] es IH]; intros b b2 K SZ H; [auto|]. inversion H as [|? ? [H1 H2] H3]; subst. cbn [fst] in *.
  destruct (flip_train_on base m bo prob x pc nc b b2 K SZ H1 H2) as [A1 [_ [_ A2]]]. cbn [map flip_example train_over fold_left]. apply IH; auto.
Qed.

Lemma flip_eval : forall base m b b2 x, alike base m b b2 -> Forall (sized m) (b_clauses b) -> length x = length m -> binary x ->
  snd (dense_eval_ex (flip_x m x) b2) = snd (dense_eval_ex x b).
Proof.
  intros base m b b2 x [K1 K2 K3 K4 _ _ _ _ _ _ _] SZ Lx B. unfold dense_eval_ex, count_votes, eval_set_clause_output.
  cbn [snd b_votes b_outputs b_weights b_ncls]. rewrite K2, K3, K4, map_map. f_equal. apply map_ext_in. intros c Hc. rewrite Forall_forall in SZ. destruct (SZ c Hc) as [Z1 Z2].
  destruct c as [pos neg]. unfold eval_output, flip_clause. cbn [cl_pos cl_neg] in *. apply flip_eval_output; auto.
Qed.

Lemma swap_pos_twice : forall n m q, swap_pos n m (swap_pos n m q) = q.
Proof.
  intros n m q. unfold swap_pos. destruct (nth ((q / 2) mod n) m false) eqn:E; [|rewrite E; reflexivity].
  pose proof (Nat.div_mod q 2 ltac:(lia)) as D. pose proof (Nat.mod_upper_bound q 2 ltac:(lia)) as M. destruct (Nat.even q) eqn:V.
  - apply Nat.even_spec in V. destruct V as [h V]. subst q. replace (S (2 * h) / 2)%nat with h by (symmetry; replace (S (2 * h)) with (h * 2 + 1)%nat by lia; rewrite Nat.div_add_l by lia; cbn; lia).
    replace (2 * h / 2)%nat with h in E by (symmetry; rewrite Nat.mul_comm; apply Nat.div_mul; lia). rewrite E. replace (Nat.even (S (2 * h))) with false; [reflexivity|]. rewrite Nat.even_succ, <- Nat.negb_even, Nat.even_mul. reflexivity.
  - assert (OD : Nat.odd q = true) by (rewrite <- Nat.negb_even, V; reflexivity). apply Nat.odd_spec in OD. destruct OD as [h OD]. subst q. replace (pred (2 * h + 1)) with (2 * h)%nat by lia.
    replace ((2 * h + 1) / 2)%nat with h in E by (symmetry; replace (2 * h + 1)%nat with (h * 2 + 1)%nat by lia; rewrite Nat.div_add_l by lia; cbn; lia).
    replace (2 * h / 2)%nat with h by (symmetry; rewrite Nat.mul_comm; apply Nat.div_mul; lia). rewrite E. replace (Nat.even (2 * h)) with true by (rewrite Nat.even_mul; reflexivity). lia.
Qed.
