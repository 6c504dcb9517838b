(** C143: the numbers of the classes of AVX2 and NEON machines. *)
From Coq Require Import ZArith List Bool QArith Lia Lqa.
From Verif Require Import Base BaseProofs Spec SpecLearning SpecRename SpecRenameSimd ModelInference ModelDense ModelFeedback ModelExecutor ModelLayout ModelAvx2 ModelNeon ProofsRename ProofsRenameGen ProofsRenameSimd.
Import ListNotations.
Open Scope Z_scope.

(** However the classes are numbered, a machine of AVX2 blocks with renamed
    weights, trained on the same examples with renamed labels, is the renamed
    machine, for some draws of its feedback block.  The draws of the blocks are
    the same. *)
Theorem C143_avx2 : forall n p T bo boost ds bs bs2 f f2, renaming n p -> (2 <= n)%nat -> (0 < T)%Q ->
  ablocks_renamed n p bs bs2 -> feedback_for n T f -> feedback_for n T f2 -> Forall (fun d => (snd d < n)%nat) ds -> (forall i, 0 < rng_src (fb_rng f) i <= 1)%Q ->
  exists src, (forall i, 0 < src i < 1)%Q /\
    let s := avx_trained_on bo boost ds bs f in let s2 := avx_trained_on bo boost (relabel p ds) bs2 (with_draws src f2) in
    ablocks_renamed n p (fst s) (fst s2) /\
    (ds <> [] -> fb_pos (snd s2) = p (fb_pos (snd s)) /\ fb_neg (snd s2) = p (fb_neg (snd s)) /\ fb_pp (snd s2) = fb_pp (snd s) /\ fb_np (snd s2) = fb_np (snd s)) /\
    forall x, renamed n p (avx_sums (fst s) (snd s) x) (avx_sums (fst s2) (snd s2) x).
Proof.
  intros n p T bo boost ds bs bs2 f f2 Hp Hn HT B F G HL HD.
  destruct (gren_exists n p Hp (list Z) ablock (avx_train_ex bo) (avx_upd bo boost) (ablock_renamed n p) (same_outputs n p)
    (fun x b b2 H => avx_ren_train n p Hp bo x b b2 H) (fun x pc pp nc np b b2 H1 H2 H => avx_ren_upd n p Hp bo boost x pc pp nc np b b2 H1 H2 H) (fun b b2 H => proj1 H)
    T ds bs bs2 f f2 HT Hn B F G HL HD) as [src [A [A1 [A2 [A3 A4]]]]].
  exists src. split; [exact A|]. cbv zeta. split; [exact A1|]. split; [exact A4|]. intros x.
  exact (proj1 (gren_sums n p Hp (list Z) ablock (ablock_renamed n p) avx_eval_ex T _ _ _ _ x (avx_ren_eval n p Hp x) A1 A2 A3)).
Qed.

(** The same for NEON blocks. *)
Theorem C143_neon : forall n p T boost ds bs bs2 f f2, renaming n p -> (2 <= n)%nat -> (0 < T)%Q ->
  ablocks_renamed n p bs bs2 -> feedback_for n T f -> feedback_for n T f2 -> Forall (fun d => (snd d < n)%nat) ds -> (forall i, 0 < rng_src (fb_rng f) i <= 1)%Q ->
  exists src, (forall i, 0 < src i < 1)%Q /\
    let s := neon_trained_on boost ds bs f in let s2 := neon_trained_on boost (relabel p ds) bs2 (with_draws src f2) in
    ablocks_renamed n p (fst s) (fst s2) /\
    (ds <> [] -> fb_pos (snd s2) = p (fb_pos (snd s)) /\ fb_neg (snd s2) = p (fb_neg (snd s)) /\ fb_pp (snd s2) = fb_pp (snd s) /\ fb_np (snd s2) = fb_np (snd s)) /\
    forall x, renamed n p (neon_sums (fst s) (snd s) x) (neon_sums (fst s2) (snd s2) x).
Proof.
  intros n p T boost ds bs bs2 f f2 Hp Hn HT B F G HL HD.
  destruct (gren_exists n p Hp (list Z) ablock neon_train_ex (neon_upd boost) (ablock_renamed n p) (same_outputs n p)
    (fun x b b2 H => neon_ren_train n p Hp x b b2 H) (fun x pc pp nc np b b2 H1 H2 H => neon_ren_upd n p Hp boost x pc pp nc np b b2 H1 H2 H) (fun b b2 H => proj1 H)
    T ds bs bs2 f f2 HT Hn B F G HL HD) as [src [A [A1 [A2 [A3 A4]]]]].
  exists src. split; [exact A|]. cbv zeta. split; [exact A1|]. split; [exact A4|]. intros x.
  exact (proj1 (gren_sums n p Hp (list Z) ablock (ablock_renamed n p) neon_eval_ex T _ _ _ _ x (neon_ren_eval n p Hp x) A1 A2 A3)).
Qed.

(** The renamed machine predicts the renamed class whenever one class has the
    most votes. *)
Theorem C143_predict_avx2_partial : forall n p T bs bs2 f f2 x, renaming n p -> (1 <= n)%nat -> ablocks_renamed n p bs bs2 -> feedback_for n T f -> feedback_for n T f2 ->
  let class g l := fb_predict (snd (run_examples ablock (list Z) avx_eval_ex x l (fb_reset g))) in
  (forall c, (c < n)%nat -> c <> class f bs -> nth c (avx_sums bs f x) 0 < nth (class f bs) (avx_sums bs f x) 0) ->
  class f2 bs2 = p (class f bs).
Proof.
  intros n p T bs bs2 f f2 x Hp Hn B F G class U.
  destruct (gren_sums n p Hp (list Z) ablock (ablock_renamed n p) avx_eval_ex T bs bs2 f f2 x (avx_ren_eval n p Hp x) B F G) as [R [E1 E2]].
  unfold class in *. rewrite E1 in U. rewrite E1, E2. apply (ren_argmax n p Hp); auto.
Qed.
Theorem C143_predict_neon_partial : forall n p T bs bs2 f f2 x, renaming n p -> (1 <= n)%nat -> ablocks_renamed n p bs bs2 -> feedback_for n T f -> feedback_for n T f2 ->
  let class g l := fb_predict (snd (run_examples ablock (list Z) neon_eval_ex x l (fb_reset g))) in
  (forall c, (c < n)%nat -> c <> class f bs -> nth c (neon_sums bs f x) 0 < nth (class f bs) (neon_sums bs f x) 0) ->
  class f2 bs2 = p (class f bs).
Proof.
  intros n p T bs bs2 f f2 x Hp Hn B F G class U.
  destruct (gren_sums n p Hp (list Z) ablock (ablock_renamed n p) neon_eval_ex T bs bs2 f f2 x (neon_ren_eval n p Hp x) B F G) as [R [E1 E2]].
  unfold class in *. rewrite E1 in U. rewrite E1, E2. apply (ren_argmax n p Hp); auto.
Qed.

(** Every machine has a renamed one. *)
Theorem C143_exists : forall n p b, renaming n p -> a_ncls b = n -> rows_of n (a_weights b) -> exists b2, ablock_renamed n p b b2.
Proof. intros n p b Hp E W. exists (ren_ablock n p b). apply ren_ablock_ok; auto. Qed.

(** Three classes, each taking the next one's number; one literal, two clauses. *)
Definition turn3 (c : nat) : nat := match c with O => 1%nat | S O => 2%nat | _ => O end.
Definition simd_row (w : nat) (a b : Z) : list Z := a :: repeat (-5) (w - 1) ++ b :: repeat (-5) (w - 1).
Definition simd_learner (w : nat) (mask : vec) (w1 w2 : list Z) : ablock :=
  mkABlock 1 w mask 3 [simd_row w 3 (-1); simd_row w (-1) (-1)] [w1; w2] [0; 0] [0; 0] [0; 0; 0] 4 (-40)
    (mkVrng (fun i => map (fun j => Z.of_nat ((i * 7 + j * 11) mod 200) - 100) (seq 0 w)) 0) (mkRng (fun i => Z.of_nat (i mod 5) # 6) 0).
Definition simd_in (w : nat) (v : Z) : list Z := v :: repeat 0 (w - 1).
Definition fb3s (d : list Q) : fblock := mkFb 3 10 [0; 0; 0] [0; 0; 0]%Q 0 0 0 0 0 0 (mkRng (fun i => nth i d (1 # 2)) 0).
Example C143_case : forall w mask, (w = 32%nat /\ mask = mask_of 1) \/ (w = 16%nat /\ mask = nmask_of 1) ->
  renaming 3 turn3 /\ ablocks_renamed 3 turn3 [(true, simd_learner w mask [5; -3; 1] [2; 8; -6])] [(true, simd_learner w mask [1; 5; -3] [-6; 2; 8])] /\ feedback_for 3 10 (fb3s []).
Proof.
  intros w mask _. split; [|split; [|repeat split]].
  - split; [intros [|[|[|c]]] Hc; cbn; lia|intros [|[|[|c]]] [|[|[|d]]] Hc Hd E; cbn in E; lia].
  - constructor; [|constructor]. split; [reflexivity|]. constructor; try reflexivity; [split; reflexivity|].
    repeat (apply Forall2_cons; [split; [reflexivity|split; [reflexivity|intros [|[|[|c]]] Hc; try reflexivity; lia]]|]). apply Forall2_nil.
Qed.
(** Of classes with the same sum the first is predicted, under every numbering. *)
Theorem C143_tie_refuted : exists n p T bs bs2 f x, renaming n p /\ ablocks_renamed n p bs bs2 /\ feedback_for n T f /\
  fb_predict (snd (run_examples ablock (list Z) avx_eval_ex x bs2 (fb_reset f))) <> p (fb_predict (snd (run_examples ablock (list Z) avx_eval_ex x bs (fb_reset f)))).
Proof.
  exists 3%nat, turn3, 10%Q, [(true, simd_learner 32 (mask_of 1) [7; 7; 7] [2; 2; 2])], [(true, simd_learner 32 (mask_of 1) [7; 7; 7] [2; 2; 2])], (fb3s []), (simd_in 32 1).
  split; [exact (proj1 (C143_case 32 (mask_of 1) (or_introl (conj eq_refl eq_refl))))|]. split.
  - constructor; [|constructor]. split; [reflexivity|]. constructor; try reflexivity; [split; reflexivity|].
    repeat (apply Forall2_cons; [split; [reflexivity|split; [reflexivity|intros [|[|[|c]]] Hc; try reflexivity; lia]]|]). apply Forall2_nil.
  - split; [repeat split|]. vm_compute. discriminate.
Qed.

Definition simd_data (w : nat) : list (list Z * nat) := [(simd_in w 1, 0%nat); (simd_in w 0, 2%nat); (simd_in w 0, 1%nat)].
Example C143_case_avx2 :
  let bs := [(true, simd_learner 32 (mask_of 1) [5; -3; 1] [2; 8; -6])] in let bs2 := [(true, simd_learner 32 (mask_of 1) [1; 5; -3] [-6; 2; 8])] in
  lmem_of 1 = 32%nat /\ map snd (relabel turn3 (simd_data 32)) = [1; 0; 2]%nat /\
  map (fun tb => a_weights (snd tb)) (fst (avx_trained_on true false (simd_data 32) bs (fb3s []))) <> map (fun tb => a_weights (snd tb)) bs /\
  map (fun tb => map (ren_list 3 turn3) (a_weights (snd tb))) (fst (avx_trained_on true false (simd_data 32) bs (fb3s []))) =
    map (fun tb => a_weights (snd tb)) (fst (avx_trained_on true false (relabel turn3 (simd_data 32)) bs2 (fb3s [9 # 10; 9 # 10; 1 # 10]%Q))).
Proof. intros bs bs2. split; [reflexivity|]. split; [reflexivity|]. split; vm_compute; [discriminate|reflexivity]. Qed.
Example C143_case_neon :
  let bs := [(true, simd_learner 16 (nmask_of 1) [5; -3; 1] [2; 8; -6])] in let bs2 := [(true, simd_learner 16 (nmask_of 1) [1; 5; -3] [-6; 2; 8])] in
  nlmem_of 1 = 16%nat /\
  map (fun tb => a_weights (snd tb)) (fst (neon_trained_on false (simd_data 16) bs (fb3s []))) <> map (fun tb => a_weights (snd tb)) bs /\
  map (fun tb => map (ren_list 3 turn3) (a_weights (snd tb))) (fst (neon_trained_on false (simd_data 16) bs (fb3s []))) =
    map (fun tb => a_weights (snd tb)) (fst (neon_trained_on false (relabel turn3 (simd_data 16)) bs2 (fb3s [9 # 10; 9 # 10; 1 # 10]%Q))).
Proof. intros bs bs2. split; [reflexivity|]. split; vm_compute; [discriminate|reflexivity]. Qed.

Print Assumptions C143_avx2.
Print Assumptions C143_neon.
Print Assumptions C143_predict_avx2_partial.
Print Assumptions C143_predict_neon_partial.
Print Assumptions C143_exists.
Print Assumptions C143_tie_refuted.
