(** C145: the numbers of the classes, with uniform feedback. *)
From Coq Require Import ZArith List Bool QArith Lia Lqa.
From Verif Require Import Base BaseProofs Spec SpecLearning SpecRename SpecRenameSimd SpecRenameMore SpecRenameUniform ModelInference ModelDense ModelFeedback ModelExecutor ModelDenseExec ModelLayout ModelAvx2 ModelNeon ModelSparse ModelConv ModelTrainerFeedback ProofsRename ProofsRenameGen ProofsRenameSimd ProofsRenameMore ProofsRenameUniform.
Import ListNotations.
Open Scope Z_scope.

(** With the uniform feedback block: a machine with renamed weights, trained on
    the same examples with renamed labels, is the renamed machine, whenever its
    feedback block draws the renamed classes.  No draw depends on the training. *)
Theorem C145_dense : forall n p T fuel bo boost ds bs bs2 f f2, renaming n p -> blocks_renamed n p bs bs2 -> feedback_for n T f -> feedback_for n T f2 ->
  Forall (fun d => (snd d < n)%nat) ds -> draws_renamed n p (fb_rng f) (fb_rng f2) ->
  let s := uni_trained_on (dense_train_ex bo) (dense_upd bo boost) fuel ds bs f in let s2 := uni_trained_on (dense_train_ex bo) (dense_upd bo boost) fuel (relabelled p ds) bs2 f2 in
  blocks_renamed n p (fst s) (fst s2) /\ (ds <> [] -> same_feedback p (snd s) (snd s2)) /\
  forall x, renamed n p (sums (fst s) (snd s) x) (sums (fst s2) (snd s2) x).
Proof.
  intros n p T fuel bo boost ds bs bs2 f f2 Hp B F G HL D s s2.
  destruct (uni_all n p Hp (list Z) block (dense_train_ex bo) (dense_upd bo boost) (block_renamed n p) (fun b b2 => block_renamed n p b b2 /\ b_outputs b2 = b_outputs b) (fun x b b2 H => let R := ren_train_ex n p Hp bo x b b2 H in conj (conj (proj1 R) (proj1 (proj2 R))) (proj2 (proj2 R))) (fun x pc pp nc np b b2 H1 H2 H => ren_upd n p Hp bo boost x pc pp nc np b b2 H1 H2 (proj1 H) (proj2 H)) (fun b b2 H => proj1 H) T fuel ds bs bs2 f f2 B F G HL D) as [A1 [A2 [A3 A4]]].
  split; [exact A1|]. split; [exact A4|]. intros x.
  exact (proj1 (gren_sums n p Hp (list Z) block (block_renamed n p) dense_eval_ex T _ _ _ _ x (ren_eval_ex n p Hp x) A1 A2 A3)).
Qed.
Theorem C145_avx2 : forall n p T fuel bo boost ds bs bs2 f f2, renaming n p -> ablocks_renamed n p bs bs2 -> feedback_for n T f -> feedback_for n T f2 ->
  Forall (fun d => (snd d < n)%nat) ds -> draws_renamed n p (fb_rng f) (fb_rng f2) ->
  let s := uni_trained_on (avx_train_ex bo) (avx_upd bo boost) fuel ds bs f in let s2 := uni_trained_on (avx_train_ex bo) (avx_upd bo boost) fuel (relabelled p ds) bs2 f2 in
  ablocks_renamed n p (fst s) (fst s2) /\ (ds <> [] -> same_feedback p (snd s) (snd s2)) /\
  forall x, renamed n p (avx_sums (fst s) (snd s) x) (avx_sums (fst s2) (snd s2) x).
Proof.
  intros n p T fuel bo boost ds bs bs2 f f2 Hp B F G HL D s s2.
  destruct (uni_all n p Hp (list Z) ablock (avx_train_ex bo) (avx_upd bo boost) (ablock_renamed n p) (same_outputs n p) (fun x b b2 H => avx_ren_train n p Hp bo x b b2 H) (fun x pc pp nc np b b2 H1 H2 H => avx_ren_upd n p Hp bo boost x pc pp nc np b b2 H1 H2 H) (fun b b2 H => proj1 H) T fuel ds bs bs2 f f2 B F G HL D) as [A1 [A2 [A3 A4]]].
  split; [exact A1|]. split; [exact A4|]. intros x.
  exact (proj1 (gren_sums n p Hp (list Z) ablock (ablock_renamed n p) avx_eval_ex T _ _ _ _ x (avx_ren_eval n p Hp x) A1 A2 A3)).
Qed.
Theorem C145_neon : forall n p T fuel boost ds bs bs2 f f2, renaming n p -> ablocks_renamed n p bs bs2 -> feedback_for n T f -> feedback_for n T f2 ->
  Forall (fun d => (snd d < n)%nat) ds -> draws_renamed n p (fb_rng f) (fb_rng f2) ->
  let s := uni_trained_on neon_train_ex (neon_upd boost) fuel ds bs f in let s2 := uni_trained_on neon_train_ex (neon_upd boost) fuel (relabelled p ds) bs2 f2 in
  ablocks_renamed n p (fst s) (fst s2) /\ (ds <> [] -> same_feedback p (snd s) (snd s2)) /\
  forall x, renamed n p (neon_sums (fst s) (snd s) x) (neon_sums (fst s2) (snd s2) x).
Proof.
  intros n p T fuel boost ds bs bs2 f f2 Hp B F G HL D s s2.
  destruct (uni_all n p Hp (list Z) ablock neon_train_ex (neon_upd boost) (ablock_renamed n p) (same_outputs n p) (fun x b b2 H => neon_ren_train n p Hp x b b2 H) (fun x pc pp nc np b b2 H1 H2 H => neon_ren_upd n p Hp boost x pc pp nc np b b2 H1 H2 H) (fun b b2 H => proj1 H) T fuel ds bs bs2 f f2 B F G HL D) as [A1 [A2 [A3 A4]]].
  split; [exact A1|]. split; [exact A4|]. intros x.
  exact (proj1 (gren_sums n p Hp (list Z) ablock (ablock_renamed n p) neon_eval_ex T _ _ _ _ x (neon_ren_eval n p Hp x) A1 A2 A3)).
Qed.
Theorem C145_sparse : forall n p T fuel bo boost dynamic ds bs bs2 f f2, renaming n p -> sblocks_renamed n p bs bs2 -> feedback_for n T f -> feedback_for n T f2 ->
  Forall (fun d => (snd d < n)%nat) ds -> draws_renamed n p (fb_rng f) (fb_rng f2) ->
  let s := uni_trained_on (sp_train_ex bo) (sp_train_update bo boost dynamic) fuel ds bs f in let s2 := uni_trained_on (sp_train_ex bo) (sp_train_update bo boost dynamic) fuel (relabelled p ds) bs2 f2 in
  sblocks_renamed n p (fst s) (fst s2) /\ (ds <> [] -> same_feedback p (snd s) (snd s2)) /\
  forall x, renamed n p (sp_sums (fst s) (snd s) x) (sp_sums (fst s2) (snd s2) x).
Proof.
  intros n p T fuel bo boost dynamic ds bs bs2 f f2 Hp B F G HL D s s2.
  destruct (uni_all n p Hp (list nat) sblock (sp_train_ex bo) (sp_train_update bo boost dynamic) (sblock_renamed n p) (sp_same n p) (fun x b b2 H => sp_ren_train n p Hp bo x b b2 H) (fun x pc pp nc np b b2 H1 H2 H => sp_ren_upd n p Hp bo boost dynamic x pc pp nc np b b2 H1 H2 H) (fun b b2 H => proj1 H) T fuel ds bs bs2 f f2 B F G HL D) as [A1 [A2 [A3 A4]]].
  split; [exact A1|]. split; [exact A4|]. intros x.
  exact (proj1 (gren_sums n p Hp (list nat) sblock (sblock_renamed n p) sp_eval_ex T _ _ _ _ x (sp_ren_eval n p Hp x) A1 A2 A3)).
Qed.
Theorem C145_conv : forall n p T fuel bo boost ds bs bs2 f f2, renaming n p -> cvblocks_renamed n p bs bs2 -> feedback_for n T f -> feedback_for n T f2 ->
  Forall (fun d => (snd d < n)%nat) ds -> draws_renamed n p (fb_rng f) (fb_rng f2) ->
  let s := uni_trained_on (conv_train_ex bo) (conv_update bo boost) fuel ds bs f in let s2 := uni_trained_on (conv_train_ex bo) (conv_update bo boost) fuel (relabelled p ds) bs2 f2 in
  cvblocks_renamed n p (fst s) (fst s2) /\ (ds <> [] -> same_feedback p (snd s) (snd s2)) /\
  forall x, renamed n p (cv_sums (fst s) (snd s) x) (cv_sums (fst s2) (snd s2) x).
Proof.
  intros n p T fuel bo boost ds bs bs2 f f2 Hp B F G HL D s s2.
  destruct (uni_all n p Hp (list Z) cvblock (conv_train_ex bo) (conv_update bo boost) (cvblock_renamed n p) (cv_same n p) (fun x b b2 H => cv_ren_train n p Hp bo x b b2 H) (fun x pc pp nc np b b2 H1 H2 H => cv_ren_upd n p Hp bo boost x pc pp nc np b b2 H1 H2 H) (fun b b2 H => proj1 H) T fuel ds bs bs2 f f2 B F G HL D) as [A1 [A2 [A3 A4]]].
  split; [exact A1|]. split; [exact A4|]. intros x.
  exact (proj1 (gren_sums n p Hp (list Z) cvblock (cvblock_renamed n p) conv_eval_ex T _ _ _ _ x (cv_ren_eval n p Hp x) A1 A2 A3)).
Qed.

(** For one example: the loop which draws the negative class stops for the renamed
    machine if and only if it stops for the machine, and then at the renamed class. *)
Theorem C145_loop : forall n p T fuel l f f2, renaming n p -> feedback_for n T f -> feedback_for n T f2 -> renamed n p (fb_votes f) (fb_votes f2) -> (l < n)%nat -> draws_renamed n p (fb_rng f) (fb_rng f2) ->
  match fbu_process fuel l f with
  | Some g => exists g2, fbu_process fuel (p l) f2 = Some g2 /\ fb_pos g = l /\ same_feedback p g g2
  | None => fbu_process fuel (p l) f2 = None
  end.
Proof.
  intros n p T fuel l f f2 Hp F G R Hl D. pose proof (uni_process_ren n p Hp T fuel l f f2 F G R Hl D) as U. destruct (fbu_process fuel l f) as [g|]; [|exact U].
  destruct U as [g2 [U1 [U2 [U3 [U4 U5]]]]]. exists g2. auto.
Qed.

(** The renamed draws are as likely: moving the draws by a constant takes those
    which choose a class to those which choose the renamed one. *)
Theorem C145_chance : forall n p c, renaming n p -> (c < n)%nat -> exists t : Q, forall u, chooses n u c <-> chooses n (u + t) (p c).
Proof. intros n p c Hp Hc. eexists. intros u. apply (moved_chooses n c (p c) u Hc). apply Hp. exact Hc. Qed.

(** All draws in [0, 1) have renamed ones, again in [0, 1). *)
Theorem C145_draws_exist : forall n p r pos, renaming n p -> (1 <= n)%nat -> (forall i, 0 <= rng_src r i < 1)%Q ->
  exists src, (forall i, 0 <= src i < 1)%Q /\ draws_renamed n p r (mkRng src pos).
Proof.
  intros n p r pos Hp Hn H.
  set (cls := fun u : Q => Z.to_nat (Z.min (Z.of_nat n - 1) (Z.max 0 (Qnum u * Z.of_nat n / Zpos (Qden u))))).
  assert (C : forall u, (0 <= u < 1)%Q -> chooses n u (cls u)).
  { intros u Hu. destruct (chooses_some n u Hn Hu) as [c Hc]. unfold cls. rewrite (chooses_class n u c _ Hc eq_refl). exact Hc. }
  set (ren := fun u => moved n (cls u) (p (cls u)) u).
  assert (M : forall u, (0 <= u < 1)%Q -> chooses n (ren u) (p (cls u))).
  { intros u Hu. pose proof (C u Hu) as Hc. apply (moved_chooses n (cls u) (p (cls u)) u (proj1 Hc)); [apply Hp; apply Hc|exact Hc]. }
  exists (fun j => ren (rng_src r (rng_pos r + (j - pos))%nat)). split.
  - intros i. exact (chooses_unit _ _ _ (M _ (H _))).
  - intros i. cbn [rng_src rng_pos]. replace (pos + i - pos)%nat with i by lia. exists (cls (rng_src r (rng_pos r + i)%nat)). auto.
Qed.

(** Three classes, each taking the next one's number; two draws are
    repeated, because they choose the label. *)
Definition turn3 (c : nat) : nat := match c with O => 1%nat | S O => 2%nat | _ => O end.
Definition uni_learner (w1 w2 : list Z) : block :=
  mkBlock 2 3 [mkClause [3; -2] [-1; 4]; mkClause [-1; -1] [0; -7]] [w1; w2] [0; 0] [0; 0] [0; 0; 0] 4 (1 # 3) (2 # 3) (mkRng (fun i => Z.of_nat (i mod 7) # 8) 0) (mkRng (fun i => Z.of_nat (i mod 5) # 6) 0).
Definition uni_fb (k : Z) : fblock := mkFb 3 10 [0; 0; 0] [0; 0; 0]%Q 0 0 0 0 0 0 (mkRng (fun i => (1 + 2 * ((Z.of_nat i + k) mod 3)) # 6) 0).
Definition uni_ds : list (list Z * nat) := [([1; 0], 2%nat); ([0; 1], 1%nat); ([1; 1], 0%nat)].
Example C145_case :
  let b := uni_learner [5; -3; 1] [2; 8; -6] in let b2 := uni_learner [1; 5; -3] [-6; 2; 8] in
  let s := uni_trained_on (dense_train_ex true) (dense_upd true false) 5 uni_ds [(true, b)] (uni_fb 0) in
  let s2 := uni_trained_on (dense_train_ex true) (dense_upd true false) 5 (relabelled turn3 uni_ds) [(true, b2)] (uni_fb 1) in
  renaming 3 turn3 /\ blocks_renamed 3 turn3 [(true, b)] [(true, b2)] /\ feedback_for 3 10 (uni_fb 0) /\ draws_renamed 3 turn3 (fb_rng (uni_fb 0)) (fb_rng (uni_fb 1)) /\
  map (fun tb => b_weights (snd tb)) (fst s) <> [b_weights b] /\ rng_pos (fb_rng (snd s)) = 5%nat /\
  map (fun tb => map (ren_list 3 turn3) (b_weights (snd tb))) (fst s) = map (fun tb => b_weights (snd tb)) (fst s2).
Proof.
  intros b b2 s s2. split; [split; [intros [|[|[|c]]] Hc; cbn; lia|intros [|[|[|c]]] [|[|[|d]]] Hc Hd E; cbn in E; lia]|]. split; [|split; [repeat split|split]].
  - constructor; [|constructor]. split; [reflexivity|]. constructor; try reflexivity; [split; reflexivity|].
    repeat (apply Forall2_cons; [split; [reflexivity|split; [reflexivity|intros [|[|[|c]]] Hc; try reflexivity; lia]]|]). apply Forall2_nil.
  - intros i. cbn [uni_fb fb_rng rng_src rng_pos]. rewrite !Nat.add_0_l, Z.add_0_r. pose proof (Z.mod_pos_bound (Z.of_nat i) 3 ltac:(lia)) as M.
    rewrite <- (Zplus_mod_idemp_l (Z.of_nat i) 1 3).
    assert (E : Z.of_nat i mod 3 = 0 \/ Z.of_nat i mod 3 = 1 \/ Z.of_nat i mod 3 = 2) by lia.
    destruct E as [E|[E|E]]; rewrite E; [exists 0%nat|exists 1%nat|exists 2%nat]; repeat split; cbn; try lia; discriminate.
  - vm_compute. repeat split; discriminate.
Qed.

Print Assumptions C145_dense.
Print Assumptions C145_avx2.
Print Assumptions C145_neon.
Print Assumptions C145_sparse.
Print Assumptions C145_conv.
Print Assumptions C145_loop.
Print Assumptions C145_chance.
Print Assumptions C145_draws_exist.
