(** Renaming the classes. *)
From Coq Require Import ZArith List Bool QArith Lia Lqa Permutation FinFun ZifyBool.
From Verif Require Import Base BaseProofs Spec SpecLearning SpecRename ModelInference ModelDense ModelFeedback ModelExecutor ModelDenseExec ProofsInference ProofsFeedback.
Import ListNotations.
Open Scope Z_scope.

Section Rename.
  Variables (n : nat) (p : nat -> nat).
  Hypothesis Hp : renaming n p.

  Lemma ren_zero : renamed n p (repeat 0 n) (repeat 0 n).
  Proof. split; [apply repeat_length|]. split; [apply repeat_length|]. intros c Hc. rewrite !nth_repeat. reflexivity. Qed.
  Lemma ren_map2 : forall a b v w, renamed n p a b -> renamed n p v w -> renamed n p (map2 (fun s t => wrap16 (s + t)) a v) (map2 (fun s t => wrap16 (s + t)) b w).
  Proof.
    intros a b v w [A1 [A2 A3]] [V1 [V2 V3]]. split; [rewrite map2_length; lia|]. split; [rewrite map2_length; lia|].
    intros c Hc. pose proof (proj1 Hp c Hc) as Hpc. rewrite !(nth_map2 _ _ _ _ _ _ _ 0 0) by lia. rewrite A3, V3 by exact Hc. reflexivity.
  Qed.
  Lemma ren_set : forall a b k v, (k < n)%nat -> renamed n p a b -> renamed n p (set_nth k v a) (set_nth (p k) v b).
  Proof.
    intros a b k v Hk [A1 [A2 A3]]. pose proof (proj1 Hp k Hk). split; [rewrite set_nth_length; exact A1|]. split; [rewrite set_nth_length; exact A2|].
    intros c Hc. destruct (Nat.eq_dec c k) as [->|N]; [rewrite !nth_set_nth_eq by lia; reflexivity|].
    rewrite !nth_set_nth_neq; auto. intros E. apply N. symmetry. apply (proj2 Hp); auto.
  Qed.

  Lemma ren_count : forall outs ws ws2 v v2, Forall2 (renamed n p) ws ws2 -> renamed n p v v2 -> renamed n p (count_votes_loop outs ws v) (count_votes_loop outs ws2 v2).
  Proof.
    induction outs as [|o outs IH]; intros ws ws2 v v2 W V; [exact V|]. inversion W; subst; cbn [count_votes_loop]; [exact V|].
    apply IH; auto. destruct (o =? 1); auto. apply ren_map2; auto.
  Qed.

  Lemma ren_update_clause : forall bo boost bud si sm x pc pp nc np c ws ws2 o cnt r f, (pc < n)%nat -> (nc < n)%nat -> renamed n p ws ws2 ->
    exists c' ws' ws2' o' r' f', train_update_clause bo boost bud si sm x pc pp nc np c ws o cnt r f = (c', ws', o', r', f') /\
      train_update_clause bo boost bud si sm x (p pc) pp (p nc) np c ws2 o cnt r f = (c', ws2', o', r', f') /\ renamed n p ws' ws2'.
  Proof.
    intros bo boost bud si sm x pc pp nc np c ws ws2 o cnt r f Hpc Hnc R. unfold train_update_clause.
    set (oo := if bo && (cnt >? bud) then 0 else o). destruct (draw_lt f pp) as [d1 f1].
    assert (S1 : exists c1 w1 w2 r1, (if d1 then let '(c', w', r') := clause_update boost si sm c (nth pc ws 0) 1 x oo r in (c', set_nth pc w' ws, r') else (c, ws, r)) = (c1, w1, r1) /\
      (if d1 then let '(c', w', r') := clause_update boost si sm c (nth (p pc) ws2 0) 1 x oo r in (c', set_nth (p pc) w' ws2, r') else (c, ws2, r)) = (c1, w2, r1) /\ renamed n p w1 w2).
    { destruct d1; [|exists c, ws, ws2, r; auto]. rewrite (proj2 (proj2 R) pc Hpc). destruct (clause_update boost si sm c (nth pc ws 0) 1 x oo r) as [[c' w'] r'].
      exists c', (set_nth pc w' ws), (set_nth (p pc) w' ws2), r'. split; [reflexivity|]. split; [reflexivity|]. apply ren_set; auto. }
    destruct S1 as [c1 [w1 [w2 [r1 [A1 [A2 A3]]]]]]. rewrite A1, A2. destruct (draw_lt f1 np) as [d2 f2]. destruct d2.
    - rewrite (proj2 (proj2 A3) nc Hnc). destruct (clause_update boost si sm c1 (nth nc w1 0) (-1) x oo r1) as [[c' w'] r'].
      exists c', (set_nth nc w' w1), (set_nth (p nc) w' w2), oo, r', f2. split; [reflexivity|]. split; [reflexivity|]. apply ren_set; auto.
    - exists c1, w1, w2, oo, r1, f2. auto.
  Qed.

  Lemma ren_update_loop : forall bo boost bud si sm x pc pp nc np, (pc < n)%nat -> (nc < n)%nat -> forall cs wss wss2 outs counts r f, Forall2 (renamed n p) wss wss2 ->
    exists cs' ws' ws2' o' r' f', train_update_loop bo boost bud si sm x pc pp nc np cs wss outs counts r f = (cs', ws', o', r', f') /\
      train_update_loop bo boost bud si sm x (p pc) pp (p nc) np cs wss2 outs counts r f = (cs', ws2', o', r', f') /\ Forall2 (renamed n p) ws' ws2'.
  Proof.
    intros bo boost bud si sm x pc pp nc np Hpc Hnc. induction cs as [|c cs IH]; intros wss wss2 outs counts r f W.
    - cbn [train_update_loop]. exists [], wss, wss2, outs, r, f. auto.
    - inversion W as [|w w2 ws ws2 W1 W2]; subst; cbn [train_update_loop]; [exists (c :: cs), [], [], outs, r, f; auto|].
      destruct outs as [|o outs]; [exists (c :: cs), (w :: ws), (w2 :: ws2), [], r, f; auto|].
      destruct (ren_update_clause bo boost bud si sm x pc pp nc np c w w2 o (hd 0 counts) r f Hpc Hnc W1) as [c1 [u1 [u2 [o1 [r1 [f1 [A1 [A2 A3]]]]]]]].
      rewrite A1, A2. destruct (IH ws ws2 outs (tl counts) r1 f1 W2) as [cs' [v1 [v2 [o' [r' [f' [B1 [B2 B3]]]]]]]]. rewrite B1, B2.
      exists (c1 :: cs'), (u1 :: v1), (u2 :: v2), (o1 :: o'), r', f'. auto.
  Qed.

  (** Blocks. *)
  Lemma ren_train_ex : forall bo x b b2, block_renamed n p b b2 -> block_renamed n p (fst (dense_train_ex bo x b)) (fst (dense_train_ex bo x b2)) /\
    b_outputs (fst (dense_train_ex bo x b2)) = b_outputs (fst (dense_train_ex bo x b)) /\ renamed n p (snd (dense_train_ex bo x b)) (snd (dense_train_ex bo x b2)).
  Proof.
    intros bo x b b2 [R1 [R2 R3] R4 R5 R6 R7 R8 R9 R10 R11]. unfold dense_train_ex, count_votes, train_set_clause_output.
    cbn [fst snd b_outputs b_votes b_weights b_ncls]. rewrite R2, R3, R4. split; [|split; [reflexivity|apply ren_count; [exact R5|apply ren_zero]]].
    constructor; cbn [b_nlit b_ncls b_clauses b_weights b_counts b_budget b_s_inv b_s_min1_inv b_rng b_fast]; auto. destruct bo; congruence.
  Qed.
  Lemma ren_eval_ex : forall x b b2, block_renamed n p b b2 -> renamed n p (snd (dense_eval_ex x b)) (snd (dense_eval_ex x b2)).
  Proof.
    intros x b b2 [R1 [R2 R3] R4 R5 R6 R7 R8 R9 R10 R11]. unfold dense_eval_ex, count_votes, eval_set_clause_output.
    cbn [fst snd b_outputs b_votes b_weights b_ncls]. rewrite R2, R3, R4. apply ren_count; [exact R5|apply ren_zero].
  Qed.
  Lemma ren_upd : forall bo boost x pc pp nc np b b2, (pc < n)%nat -> (nc < n)%nat -> block_renamed n p b b2 -> b_outputs b2 = b_outputs b ->
    block_renamed n p (dense_upd bo boost x pc pp nc np b) (dense_upd bo boost x (p pc) pp (p nc) np b2).
  Proof.
    intros bo boost x pc pp nc np b b2 Hpc Hnc [R1 [R2 R3] R4 R5 R6 R7 R8 R9 R10 R11] E. unfold dense_upd, train_update.
    rewrite R4, R6, R7, R8, R9, R10, R11, E.
    destruct (ren_update_loop bo boost (b_budget b) (b_s_inv b) (b_s_min1_inv b) x pc pp nc np Hpc Hnc (b_clauses b) (b_weights b) (b_weights b2) (b_outputs b) (b_counts b) (b_rng b) (b_fast b) R5)
      as [cs' [v1 [v2 [o' [r' [f' [B1 [B2 B3]]]]]]]]. rewrite B1, B2.
    constructor; cbn [b_nlit b_ncls b_clauses b_weights b_counts b_budget b_s_inv b_s_min1_inv b_rng b_fast]; auto.
  Qed.

  (** The loop over the blocks; [P] is kept by the step for a block. *)
  Lemma ren_register : forall T f f2 v v2, feedback_for n T f -> feedback_for n T f2 -> renamed n p (fb_votes f) (fb_votes f2) -> renamed n p v v2 ->
    feedback_for n T (fb_register v f) /\ feedback_for n T (fb_register v2 f2) /\ renamed n p (fb_votes (fb_register v f)) (fb_votes (fb_register v2 f2)).
  Proof.
    intros T f f2 v v2 [F1 [F2 F3]] [G1 [G2 G3]] R V.
    assert (E : forall l w, length l = n -> add_votes n l w = map2 (fun a b => wrap16 (a + b)) l w).
    { intros l w L. unfold add_votes. rewrite firstn_all2, skipn_all2, app_nil_r by lia. reflexivity. }
    pose proof (ren_map2 _ _ _ _ R V) as M. unfold feedback_for, fb_register. cbn [fb_ncls fb_thr fb_votes]. rewrite F1, G1, !E by assumption.
    split; [split; [reflexivity|split; [exact F2|exact (proj1 M)]]|]. split; [split; [reflexivity|split; [exact G2|exact (proj1 (proj2 M))]]|exact M].
  Qed.
  Lemma ren_run : forall (ex : list Z -> block -> block * list Z) x T (P : block -> block -> Prop),
    (forall b b2, block_renamed n p b b2 -> P (fst (ex x b)) (fst (ex x b2)) /\ renamed n p (snd (ex x b)) (snd (ex x b2))) ->
    forall bs bs2 f f2, blocks_renamed n p bs bs2 -> feedback_for n T f -> feedback_for n T f2 -> renamed n p (fb_votes f) (fb_votes f2) ->
    Forall2 (fun a b => fst b = fst a /\ P (snd a) (snd b)) (fst (run_examples block (list Z) ex x bs f)) (fst (run_examples block (list Z) ex x bs2 f2)) /\
    feedback_for n T (snd (run_examples block (list Z) ex x bs f)) /\ feedback_for n T (snd (run_examples block (list Z) ex x bs2 f2)) /\
    fb_rng (snd (run_examples block (list Z) ex x bs f)) = fb_rng f /\ fb_rng (snd (run_examples block (list Z) ex x bs2 f2)) = fb_rng f2 /\
    renamed n p (fb_votes (snd (run_examples block (list Z) ex x bs f))) (fb_votes (snd (run_examples block (list Z) ex x bs2 f2))).
  Proof.
    intros ex x T P H. induction bs as [|[t b] bs IH]; intros bs2 f f2 B F G R; inversion B as [|? [t2 b2] ? bs2' [B1 B2] B3]; subst; cbn [run_examples].
    - cbn [fst snd]. split; [constructor|auto].
    - cbn [fst snd] in B1, B2. subst t2. destruct (H b b2 B2) as [H1 H2]. destruct (ex x b) as [b' v]. destruct (ex x b2) as [b2' v2]. cbn [fst snd] in H1, H2.
      destruct (ren_register T f f2 v v2 F G R H2) as [A1 [A2 A3]]. specialize (IH bs2' (fb_register v f) (fb_register v2 f2) B3 A1 A2 A3).
      destruct (run_examples block (list Z) ex x bs (fb_register v f)) as [q g]. destruct (run_examples block (list Z) ex x bs2' (fb_register v2 f2)) as [q2 g2].
      cbn [fst snd] in *. destruct IH as [I1 I2]. split; [constructor; auto|exact I2].
  Qed.

  (** The draws of the negative class. *)
  Lemma ren_weights : forall T v v2 l, (0 < T)%Q -> renamed n p v v2 -> (l < n)%nat -> forall c, (c < n)%nat -> nth (p c) (neg_weights T v2 (p l)) 0%Q = nth c (neg_weights T v l) 0%Q.
  Proof.
    intros T v v2 l HT [V1 [V2 V3]] Hl c Hc. pose proof (proj1 Hp l Hl) as Hpl. pose proof (proj1 Hp c Hc) as Hpc.
    destruct (neg_weights_spec T v l HT ltac:(lia)) as [_ [_ [A1 A2]]]. destruct (neg_weights_spec T v2 (p l) HT ltac:(lia)) as [_ [_ [B1 B2]]].
    destruct (Nat.eq_dec c l) as [->|N]; [congruence|]. rewrite A2, B2; try lia.
    - rewrite V3 by exact Hc. reflexivity.
    - intros E. apply N. apply (proj2 Hp); auto.
  Qed.
  Definition neg_of (T : Q) (v : list Z) (l : nat) (u : Q) : nat := pick_loop (qsum (neg_weights T v l)) 0 u 0 (neg_weights T v l).
  (** The draw in the middle of a class's share. *)
  Definition middle (ps : list Q) (c : nat) : Q := ((qprefix (qsum ps) c ps + qprefix (qsum ps) (S c) ps) / 2)%Q.

  Lemma prefix_step : forall ps c, (0 < qsum ps)%Q -> (c < length ps)%nat -> (qprefix (qsum ps) (S c) ps == qprefix (qsum ps) c ps + nth c ps 0 / qsum ps)%Q.
  Proof. intros ps c HS Hc. unfold qprefix. rewrite qsum_firstn_S by exact Hc. field. lra. Qed.
  Lemma prefix_bounds : forall ps c, Forall (fun q => 0 <= q)%Q ps -> (0 < qsum ps)%Q -> (0 <= qprefix (qsum ps) c ps <= 1)%Q.
  Proof.
    intros ps c HN HS. split.
    - pose proof (qprefix_mono (qsum ps) ps 0 c HS HN ltac:(lia)) as M. unfold qprefix in M at 1. cbn [firstn qsum] in M.
      assert (Z0 : (0 / qsum ps == 0)%Q) by (field; lra). rewrite Z0 in M. exact M.
    - pose proof (qprefix_mono (qsum ps) ps c (Nat.max c (length ps)) HS HN ltac:(lia)) as M. unfold qprefix in M at 2. rewrite firstn_all2 in M by lia.
      assert (E : (qsum ps / qsum ps == 1)%Q) by (field; lra). rewrite E in M. exact M.
  Qed.
  Lemma middle_pick : forall ps c, Forall (fun q => 0 <= q)%Q ps -> (0 < qsum ps)%Q -> (2 <= length ps)%nat -> (c < length ps)%nat -> (0 < nth c ps 0)%Q ->
    pick_loop (qsum ps) 0 (middle ps c) 0 ps = c /\ (0 < middle ps c < 1)%Q.
  Proof.
    intros ps c HN HS HL Hc HP. pose proof (prefix_step ps c HS Hc) as E. pose proof (prefix_bounds ps c HN HS) as B1. pose proof (prefix_bounds ps (S c) HN HS) as B2.
    assert (D : (0 < nth c ps 0 / qsum ps)%Q) by (apply Qlt_shift_div_l; lra).
    assert (M : (middle ps c == qprefix (qsum ps) c ps + nth c ps 0 / qsum ps / 2)%Q) by (unfold middle; rewrite E; field; lra).
    set (A := qprefix (qsum ps) c ps) in *. set (A2 := qprefix (qsum ps) (S c) ps) in *. set (D0 := (nth c ps 0 / qsum ps)%Q) in *. clearbody D0.
    assert (M2 : (middle ps c == A + D0 * (1 # 2))%Q) by (rewrite M; field).
    split; [|rewrite M2; lra]. apply pick_interval; auto. fold A A2. rewrite M2. lra.
  Qed.

  Lemma neg_of_range : forall T v l u, (0 < T)%Q -> length v = n -> (2 <= n)%nat -> (l < n)%nat -> (neg_of T v l u < n)%nat.
  Proof.
    intros T v l u HT Lv Hn Hl. destruct (neg_weights_spec T v l HT ltac:(lia)) as [L _]. unfold neg_of.
    pose proof (pick_loop_range (qsum (neg_weights T v l)) (neg_weights T v l) 0 u 0) as R. destruct (neg_weights T v l) as [|a t]; [cbn in L; lia|]. specialize (R ltac:(discriminate)). lia.
  Qed.

  Lemma process_neg : forall T f l, feedback_for n T f -> (2 <= n)%nat -> fb_process l f =
    let w := neg_weights T (fb_votes f) l in let neg := neg_of T (fb_votes f) l (draw (fb_rng f) 0) in
    mkFb n T (fb_votes f) w l neg (pos_prob T (nth l (fb_votes f) 0)) (nth neg w 0%Q) (fb_correct (fb_process l f)) (fb_total f + 1) (mkRng (rng_src (fb_rng f)) (S (rng_pos (fb_rng f)))).
  Proof.
    intros T f l [F1 [F2 F3]] Hn. unfold fb_process. rewrite F1, F2, (firstn_all2 (fb_votes f)) by lia. fold (neg_weights T (fb_votes f) l).
    assert (L : length (neg_weights T (fb_votes f) l) = n) by (unfold neg_weights; rewrite set_nth_length, map_length; exact F3).
    unfold sample_discrete. rewrite L. replace (n <? 2)%nat with false by (symmetry; apply Nat.ltb_ge; exact Hn). unfold next_u, neg_of, draw. rewrite Nat.add_0_r. reflexivity.
  Qed.

  (** One example. *)
  Lemma ren_one : forall bo boost T x l bs bs2 f f2 u2, (0 < T)%Q -> (2 <= n)%nat -> (l < n)%nat -> blocks_renamed n p bs bs2 -> feedback_for n T f -> feedback_for n T f2 ->
    let mid := run_examples block (list Z) (dense_train_ex bo) x bs (fb_reset f) in
    draw (fb_rng f2) 0 = u2 ->
    (forall w2, renamed n p (fb_votes (snd mid)) w2 -> neg_of T w2 (p l) u2 = p (neg_of T (fb_votes (snd mid)) l (draw (fb_rng f) 0))) ->
    let s := train_one block (list Z) (dense_train_ex bo) (dense_upd bo boost) nat fb_process (x, l) bs f in
    let s2 := train_one block (list Z) (dense_train_ex bo) (dense_upd bo boost) nat fb_process (x, p l) bs2 f2 in
    blocks_renamed n p (fst s) (fst s2) /\ feedback_for n T (snd s) /\ feedback_for n T (snd s2) /\
    fb_rng (snd s) = mkRng (rng_src (fb_rng f)) (S (rng_pos (fb_rng f))) /\ fb_rng (snd s2) = mkRng (rng_src (fb_rng f2)) (S (rng_pos (fb_rng f2))) /\
    renamed n p (fb_votes (snd s)) (fb_votes (snd s2)) /\ fb_pos (snd s2) = p (fb_pos (snd s)) /\ fb_neg (snd s2) = p (fb_neg (snd s)) /\ fb_pp (snd s2) = fb_pp (snd s) /\ fb_np (snd s2) = fb_np (snd s).
  Proof.
    intros bo boost T x l bs bs2 f f2 u2 HT Hn Hl B F G mid D2 HU s s2.
    assert (RF : forall g, feedback_for n T g -> feedback_for n T (fb_reset g)).
    { intros g [G1 [G2 G3]]. unfold feedback_for, fb_reset. cbn [fb_ncls fb_thr fb_votes]. rewrite repeat_length. auto. }
    assert (RZ : renamed n p (fb_votes (fb_reset f)) (fb_votes (fb_reset f2))).
    { unfold fb_reset. cbn [fb_votes]. destruct F as [_ [_ F3]], G as [_ [_ G3]]. rewrite F3, G3. apply ren_zero. }
    pose proof (ren_run (dense_train_ex bo) x T (fun b b2 => block_renamed n p b b2 /\ b_outputs b2 = b_outputs b)) as RR.
    assert (HH : forall b b2, block_renamed n p b b2 -> (block_renamed n p (fst (dense_train_ex bo x b)) (fst (dense_train_ex bo x b2)) /\ b_outputs (fst (dense_train_ex bo x b2)) = b_outputs (fst (dense_train_ex bo x b))) /\
      renamed n p (snd (dense_train_ex bo x b)) (snd (dense_train_ex bo x b2))).
    { intros b b2 Hb. destruct (ren_train_ex bo x b b2 Hb) as [E1 [E2 E3]]. auto. }
    specialize (RR HH bs bs2 (fb_reset f) (fb_reset f2) B (RF f F) (RF f2 G) RZ). clear HH.
    unfold s, s2, train_one. cbn [fst snd]. fold mid in RR. fold mid. destruct mid as [cs g]. destruct (run_examples block (list Z) (dense_train_ex bo) x bs2 (fb_reset f2)) as [cs2 g2].
    cbn [fst snd] in *. destruct RR as [R1 [R2 [R3 [R4 [R5 R6]]]]]. cbn [fb_reset fb_rng] in R4, R5.
    rewrite (process_neg T g l R2 Hn), (process_neg T g2 (p l) R3 Hn). cbv zeta. specialize (HU (fb_votes g2) R6).
    rewrite R4, R5, D2, HU.
    set (neg := neg_of T (fb_votes g) l (draw (fb_rng f) 0)). set (w := neg_weights T (fb_votes g) l). set (w2 := neg_weights T (fb_votes g2) (p l)).
    assert (Hneg : (neg < n)%nat) by (apply neg_of_range; auto; apply R6).
    assert (EW : nth (p neg) w2 0%Q = nth neg w 0%Q) by (apply ren_weights; auto). rewrite EW.
    rewrite (proj2 (proj2 R6) l Hl). cbn [snd fb_votes fb_rng fb_pos fb_neg fb_pp fb_np].
    split; [|split; [repeat split; apply R6|split; [repeat split; apply R6|repeat split; apply R6]]].
    unfold run_updates. cbn [fb_pos fb_neg fb_pp fb_np]. clear -R1 Hp Hl Hneg. revert R1. generalize cs2. induction cs as [|[t b] cs IH]; intros c2 R1; inversion R1 as [|? [t2 b2] ? c2' [E1 [E2 E3]] E4]; subst; cbn [map fst]; [constructor|].
    cbn [fst snd] in *. subst t2. constructor; [|apply IH; exact E4]. destruct t; cbn [fst snd]; split; auto. apply ren_upd; auto.
  Qed.

  (** The renamed list itself. *)
  Definition back (d : nat) : nat := match find (fun c => Nat.eqb (p c) d) (seq 0 n) with Some c => c | None => O end.
  Definition ren_list (v : list Z) : list Z := map (fun d => nth (back d) v 0) (seq 0 n).
  Lemma back_eq : forall c, (c < n)%nat -> back (p c) = c.
  Proof.
    intros c Hc. unfold back. destruct (find (fun d => Nat.eqb (p d) (p c)) (seq 0 n)) as [d|] eqn:E.
    - apply find_some in E. destruct E as [E1 E2]. apply in_seq in E1. apply Nat.eqb_eq in E2. apply (proj2 Hp); [lia|exact Hc|exact E2].
    - pose proof (find_none _ _ E c) as N. cbv beta in N. rewrite Nat.eqb_refl in N. discriminate N. apply in_seq. lia.
  Qed.
  Lemma onto : forall d, (d < n)%nat -> exists c, (c < n)%nat /\ p c = d.
  Proof. apply bInjective_bSurjective; [intros c Hc; apply (proj1 Hp); exact Hc|intros c d Hc Hd E; apply (proj2 Hp); auto]. Qed.
  Lemma ren_list_renamed : forall v, length v = n -> renamed n p v (ren_list v).
  Proof.
    intros v L. split; [exact L|]. split; [unfold ren_list; rewrite map_length, seq_length; reflexivity|]. intros c Hc. pose proof (proj1 Hp c Hc) as Hpc.
    unfold ren_list. rewrite (nth_indep _ 0 (nth (back 0) v 0)) by (rewrite map_length, seq_length; exact Hpc).
    rewrite (map_nth (fun d => nth (back d) v 0)), seq_nth by exact Hpc. rewrite Nat.add_0_l, back_eq by exact Hc. reflexivity.
  Qed.
  Lemma renamed_unique : forall v w, renamed n p v w -> w = ren_list v.
  Proof.
    intros v w R. pose proof (ren_list_renamed v (proj1 R)) as Q. apply (nth_ext _ _ 0 0); [rewrite (proj1 (proj2 R)), (proj1 (proj2 Q)); reflexivity|].
    intros d Hd. rewrite (proj1 (proj2 R)) in Hd. destruct (onto d Hd) as [c [Hc <-]]. rewrite (proj2 (proj2 R)), (proj2 (proj2 Q)) by exact Hc. reflexivity.
  Qed.

  (** The draw for the renamed machine, from the state of the machine itself. *)
  Definition mirror (bo : bool) (T : Q) (d : list Z * nat) (s : list (bool * block) * fblock) : Q :=
    let v := fb_votes (snd (run_examples block (list Z) (dense_train_ex bo) (fst d) (fst s) (fb_reset (snd s)))) in
    middle (neg_weights T (ren_list v) (p (snd d))) (p (neg_of T v (snd d) (draw (fb_rng (snd s)) 0))).

  Lemma mirror_good : forall T v l u w2, (0 < T)%Q -> (2 <= n)%nat -> (l < n)%nat -> length v = n -> (0 < u <= 1)%Q -> renamed n p v w2 ->
    neg_of T w2 (p l) (middle (neg_weights T (ren_list v) (p l)) (p (neg_of T v l u))) = p (neg_of T v l u) /\ (0 < middle (neg_weights T (ren_list v) (p l)) (p (neg_of T v l u)) < 1)%Q.
  Proof.
    intros T v l u w2 HT Hn Hl Lv Hu R. rewrite <- (renamed_unique v w2 R). set (neg := neg_of T v l u).
    assert (Hneg : (neg < n)%nat) by (apply neg_of_range; auto). pose proof (proj1 Hp l Hl) as Hpl. pose proof (proj1 Hp neg Hneg) as Hpn.
    destruct (neg_weights_spec T v l HT ltac:(lia)) as [A0 [A1 [A2 A3]]]. pose proof (proj1 (proj2 R)) as L2.
    destruct (neg_weights_spec T w2 (p l) HT ltac:(lia)) as [B0 [B1 _]].
    assert (NL : neg <> l).
    { apply (pick_not_zero (neg_weights T v l) u l); auto; try lia; [apply neg_weights_sum; auto; lia|rewrite A2; reflexivity]. }
    apply middle_pick; auto; try lia; [apply neg_weights_sum; auto; lia|].
    rewrite (ren_weights T v w2 l HT R Hl neg Hneg), A3 by (auto; lia). apply neg_prob_pos. exact HT.
  Qed.

  (** All examples. *)
  Lemma ren_all : forall bo boost T, (0 < T)%Q -> (2 <= n)%nat -> forall ds bs bs2 f f2, blocks_renamed n p bs bs2 -> feedback_for n T f -> feedback_for n T f2 ->
    Forall (fun d => (snd d < n)%nat) ds -> (forall i, 0 < rng_src (fb_rng f) i <= 1)%Q ->
    (forall i d, nth_error ds i = Some d -> rng_src (fb_rng f2) (rng_pos (fb_rng f2) + i)%nat = mirror bo T d (trained_on bo boost (firstn i ds) bs f)) ->
    let s := trained_on bo boost ds bs f in let s2 := trained_on bo boost (relabel p ds) bs2 f2 in
    blocks_renamed n p (fst s) (fst s2) /\ feedback_for n T (snd s) /\ feedback_for n T (snd s2) /\ (renamed n p (fb_votes f) (fb_votes f2) -> renamed n p (fb_votes (snd s)) (fb_votes (snd s2))) /\ (forall i d, nth_error ds i = Some d -> 0 < mirror bo T d (trained_on bo boost (firstn i ds) bs f) < 1)%Q /\
    (ds <> [] -> fb_pos (snd s2) = p (fb_pos (snd s)) /\ fb_neg (snd s2) = p (fb_neg (snd s)) /\ fb_pp (snd s2) = fb_pp (snd s) /\ fb_np (snd s2) = fb_np (snd s)).
  Proof.
    intros bo boost T HT Hn. induction ds as [|[x l] ds IH]; intros bs bs2 f f2 B F G HL HD HM s s2.
    - unfold s, s2, trained_on. cbn [relabel map train_list fst snd]. split; [exact B|]. split; [exact F|]. split; [exact G|]. split; [auto|]. split; [intros [|i] d E; discriminate E|]. intros N. congruence.
    - inversion HL as [|? ? L1 L2]; subst. cbn [snd] in L1.
      assert (D2 : draw (fb_rng f2) 0 = mirror bo T (x, l) (bs, f)) by (exact (HM O (x, l) eq_refl)).
      pose proof (ren_one bo boost T x l bs bs2 f f2 (mirror bo T (x, l) (bs, f)) HT Hn L1 B F G) as A. cbv zeta in A.
      specialize (A D2).
      assert (MG : (0 < mirror bo T (x, l) (bs, f) < 1)%Q).
      { assert (RF : feedback_for n T (fb_reset f)) by (destruct F as [F1 [F2 F3]]; unfold feedback_for, fb_reset; cbn [fb_ncls fb_thr fb_votes]; rewrite repeat_length; auto).
        destruct (ren_run (dense_train_ex bo) x T (fun _ _ => True) (fun b b2 Hb => conj I (proj2 (proj2 (ren_train_ex bo x b b2 Hb)))) bs bs2 (fb_reset f) (fb_reset f) B RF RF) as [_ [[_ [_ LV]] _]].
        { unfold fb_reset. cbn [fb_votes]. rewrite (proj2 (proj2 F)). apply ren_zero. }
        unfold mirror. cbn [fst snd]. exact (proj2 (mirror_good T _ l (draw (fb_rng f) 0) _ HT Hn L1 LV (HD _) (ren_list_renamed _ LV))). }
      assert (HU : forall w2, renamed n p (fb_votes (snd (run_examples block (list Z) (dense_train_ex bo) x bs (fb_reset f)))) w2 ->
        neg_of T w2 (p l) (mirror bo T (x, l) (bs, f)) = p (neg_of T (fb_votes (snd (run_examples block (list Z) (dense_train_ex bo) x bs (fb_reset f)))) l (draw (fb_rng f) 0))).
      { intros w2 R. unfold mirror. cbn [fst snd]. apply (mirror_good T _ l (draw (fb_rng f) 0) w2 HT Hn L1 (proj1 R)); [unfold draw; apply HD|exact R]. }
      specialize (A HU).
      assert (TC : forall ds' l' bs' f', trained_on bo boost ((x, l') :: ds') bs' f' = (let st := train_one block (list Z) (dense_train_ex bo) (dense_upd bo boost) nat fb_process (x, l') bs' f' in trained_on bo boost ds' (fst st) (snd st))).
      { intros ds' l' bs' f'. unfold trained_on. cbn [train_list]. destruct (train_one block (list Z) (dense_train_ex bo) (dense_upd bo boost) nat fb_process (x, l') bs' f') as [u1 u2]. reflexivity. }
      unfold s, s2. cbn [relabel map fst snd]. rewrite !TC. cbv zeta.
      set (st := train_one block (list Z) (dense_train_ex bo) (dense_upd bo boost) nat fb_process (x, l) bs f) in *.
      set (st2 := train_one block (list Z) (dense_train_ex bo) (dense_upd bo boost) nat fb_process (x, p l) bs2 f2) in *.
      destruct A as [A1 [A2 [A3 [A4 [A5 [A6 A7]]]]]].
      specialize (IH (fst st) (fst st2) (snd st) (snd st2) A1 A2 A3 L2). rewrite A4, A5 in IH. cbn [rng_src rng_pos] in IH. specialize (IH HD).
      assert (HM2 : forall i d, nth_error ds i = Some d -> rng_src (fb_rng f2) (S (rng_pos (fb_rng f2)) + i)%nat = mirror bo T d (trained_on bo boost (firstn i ds) (fst st) (snd st))).
      { intros i d E. specialize (HM (S i) d E). replace (S (rng_pos (fb_rng f2)) + i)%nat with (rng_pos (fb_rng f2) + S i)%nat by lia. rewrite HM. cbn [firstn]. rewrite TC. reflexivity. }
      specialize (IH HM2). cbv zeta in IH. destruct IH as [I1 [I2 [I3 [I4 [I6 I5]]]]].
      split; [exact I1|]. split; [exact I2|]. split; [exact I3|]. split; [intros _; apply I4; exact A6|]. split; [|intros _].
      { intros [|i] d E; [|cbn [firstn]; rewrite TC; apply I6; exact E]. cbn in E. injection E as <-. apply MG. }
      destruct ds as [|d ds]; [unfold trained_on; cbn [train_list snd relabel map]; exact A7|]. apply I5. discriminate.
  Qed.


  (** The shares of the classes. *)
  Lemma qsum_perm : forall a b : list Q, Permutation a b -> (qsum a == qsum b)%Q.
  Proof. induction 1; cbn [qsum]; lra. Qed.
  Lemma list_nths : forall (l : list Q), l = map (fun c => nth c l 0%Q) (seq 0 (length l)).
  Proof.
    intros l. apply (nth_ext _ _ 0%Q 0%Q); [rewrite map_length, seq_length; reflexivity|]. intros i Hi.
    rewrite (nth_indep (map _ _) 0%Q (nth 0 l 0%Q)) by (rewrite map_length, seq_length; exact Hi). rewrite (map_nth (fun c => nth c l 0%Q)), seq_nth by exact Hi. reflexivity.
  Qed.
  Lemma ren_qsum : forall a b : list Q, length a = n -> length b = n -> (forall c, (c < n)%nat -> nth (p c) b 0%Q = nth c a 0%Q) -> (qsum b == qsum a)%Q.
  Proof.
    intros a b La Lb H. apply qsum_perm. rewrite (list_nths a), (list_nths b), La, Lb.
    transitivity (map (fun c => nth c b 0%Q) (map p (seq 0 n))).
    - apply Permutation_map. symmetry. apply NoDup_Permutation_bis.
      + assert (K : forall l, (forall c, In c l -> (c < n)%nat) -> NoDup l -> NoDup (map p l)).
        { induction l as [|c l IH]; intros B N; cbn [map]; [constructor|]. inversion N; subst. constructor; [|apply IH; auto; intros; apply B; right; auto].
          intros I. apply in_map_iff in I. destruct I as [d [E I]]. apply (proj2 Hp) in E; [subst; contradiction|apply B; right; exact I|apply B; left; reflexivity]. }
        apply K; [intros c I; apply in_seq in I; lia|apply seq_NoDup].
      + rewrite map_length. lia.
      + intros d I. apply in_map_iff in I. destruct I as [c [<- I]]. apply in_seq in I. apply in_seq. pose proof (proj1 Hp c). lia.
    - rewrite map_map. erewrite map_ext_in; [reflexivity|]. intros c I. apply in_seq in I. apply H. lia.
  Qed.
  Lemma share : forall ps c u, Forall (fun q => 0 <= q)%Q ps -> (0 < qsum ps)%Q -> (2 <= length ps)%nat -> (c < length ps)%nat -> (0 < u <= 1)%Q ->
    (pick_loop (qsum ps) 0 u 0 ps = c <-> (qprefix (qsum ps) c ps < u <= qprefix (qsum ps) (S c) ps)%Q).
  Proof.
    intros ps c u HN HS HL Hc Hu. split; [|intros H; apply pick_interval; auto]. intros E.
    assert (Hne : ps <> []) by (destruct ps; [cbn in HL; lia|discriminate]).
    pose proof (pick_loop_spec (qsum ps) ps 0 u 0 HS (or_introl HL) Hne) as P. cbv zeta in P. rewrite E, Nat.sub_0_r in P. destruct P as [P1 P2]. split.
    - destruct c as [|c]; [|specialize (P2 c ltac:(lia)); lra]. unfold qprefix. cbn [firstn qsum]. assert (Z0 : (0 / qsum ps == 0)%Q) by (field; lra). rewrite Z0. apply Hu.
    - destruct (Nat.lt_ge_cases (S c) (length ps)) as [L|L]; [specialize (P1 L); lra|]. unfold qprefix. rewrite firstn_all2 by lia.
      assert (Z1 : (qsum ps / qsum ps == 1)%Q) by (field; lra). rewrite Z1. apply Hu.
  Qed.
  Lemma ren_share : forall T v v2 l c, (0 < T)%Q -> (2 <= n)%nat -> (l < n)%nat -> (c < n)%nat -> renamed n p v v2 ->
    exists lo hi lo2 hi2 : Q, (hi2 - lo2 == hi - lo)%Q /\
      forall u, (0 < u <= 1)%Q -> (neg_of T v l u = c <-> (lo < u <= hi)%Q) /\ (neg_of T v2 (p l) u = p c <-> (lo2 < u <= hi2)%Q).
  Proof.
    intros T v v2 l c HT Hn Hl Hc R. pose proof (proj1 Hp l Hl) as Hpl. pose proof (proj1 Hp c Hc) as Hpc. pose proof R as [L1 [L2 _]].
    destruct (neg_weights_spec T v l HT ltac:(lia)) as [A0 [A1 _]]. destruct (neg_weights_spec T v2 (p l) HT ltac:(lia)) as [B0 [B1 _]].
    pose proof (neg_weights_sum T v l HT ltac:(lia) ltac:(lia)) as S1. pose proof (neg_weights_sum T v2 (p l) HT ltac:(lia) ltac:(lia)) as S2.
    pose proof (ren_weights T v v2 l HT R Hl) as W. pose proof (ren_qsum _ _ ltac:(rewrite A0; exact L1) ltac:(rewrite B0; exact L2) W) as Q.
    specialize (W c Hc). unfold neg_of. set (ps := neg_weights T v l) in *. set (ps2 := neg_weights T v2 (p l)) in *.
    exists (qprefix (qsum ps) c ps), (qprefix (qsum ps) (S c) ps), (qprefix (qsum ps2) (p c) ps2), (qprefix (qsum ps2) (S (p c)) ps2). split.
    - rewrite !prefix_step by (auto; lia). rewrite W. generalize (qprefix (qsum ps) c ps) (qprefix (qsum ps2) (p c) ps2). intros a a2. rewrite Q. ring.
    - intros u Hu. split; apply share; auto; lia.
  Qed.

  (** Predictions. *)
  Lemma ren_sums : forall T bs bs2 f f2 x, blocks_renamed n p bs bs2 -> feedback_for n T f -> feedback_for n T f2 -> renamed n p (sums bs f x) (sums bs2 f2 x) /\
    dense_eval_one bs f x = argmax (sums bs f x) /\ dense_eval_one bs2 f2 x = argmax (sums bs2 f2 x).
  Proof.
    intros T bs bs2 f f2 x B F G.
    assert (RF : forall g, feedback_for n T g -> feedback_for n T (fb_reset g)).
    { intros g [G1 [G2 G3]]. unfold feedback_for, fb_reset. cbn [fb_ncls fb_thr fb_votes]. rewrite repeat_length. auto. }
    destruct (ren_run dense_eval_ex x T (fun _ _ => True) (fun b b2 Hb => conj I (ren_eval_ex x b b2 Hb)) bs bs2 (fb_reset f) (fb_reset f2) B (RF f F) (RF f2 G)) as [_ [[A1 [_ A2]] [[B1 [_ B2]] [_ [_ R]]]]].
    { unfold fb_reset. cbn [fb_votes]. rewrite (proj2 (proj2 F)), (proj2 (proj2 G)). apply ren_zero. }
    split; [exact R|]. unfold dense_eval_one, fb_predict, sums. rewrite A1, B1, !firstn_all2 by lia. auto.
  Qed.
  Lemma ren_argmax : forall v v2, (1 <= n)%nat -> renamed n p v v2 -> (forall c, (c < n)%nat -> c <> argmax v -> nth c v 0 < nth (argmax v) v 0) -> argmax v2 = p (argmax v).
  Proof.
    intros v v2 Hn R U. pose proof R as [L1 [L2 E]].
    assert (N1 : v <> []) by (destruct v; [cbn in L1; lia|discriminate]). assert (N2 : v2 <> []) by (destruct v2; [cbn in L2; lia|discriminate]).
    pose proof (argmax_spec v N1) as [A1 _]. rewrite L1 in A1. apply (first_argmax_unique v2); [apply argmax_spec; exact N2|].
    pose proof (proj1 Hp _ A1) as Hm. split; [lia|].
    assert (K : forall d, (d < n)%nat -> d <> p (argmax v) -> nth d v2 0 < nth (p (argmax v)) v2 0).
    { intros d Hd N. destruct (onto d Hd) as [c [Hc <-]]. rewrite !E by auto. apply U; [exact Hc|]. intros ->. contradiction. }
    split; intros d Hd.
    - destruct (Nat.eq_dec d (p (argmax v))) as [->|N]; [lia|]. specialize (K d ltac:(lia) N). lia.
    - apply K; lia.
  Qed.

  (** Every machine has a renamed one. *)
  Definition ren_block (b : block) : block := mkBlock (b_nlit b) (b_ncls b) (b_clauses b) (map ren_list (b_weights b)) (b_outputs b) (b_counts b) (b_votes b) (b_budget b) (b_s_inv b) (b_s_min1_inv b) (b_rng b) (b_fast b).
  Lemma ren_block_ok : forall b, b_ncls b = n -> rows_of n (b_weights b) -> block_renamed n p b (ren_block b).
  Proof.
    intros b E W. constructor; cbn [ren_block b_nlit b_ncls b_clauses b_weights b_counts b_budget b_s_inv b_s_min1_inv b_rng b_fast]; auto.
    induction W; cbn [map]; constructor; auto. apply ren_list_renamed. assumption.
  Qed.
End Rename.
