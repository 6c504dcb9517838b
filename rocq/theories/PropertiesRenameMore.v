(** C144: the numbers of the classes of sparse and convolutional machines. *)
From Coq Require Import ZArith List Bool QArith Lia Lqa.
From Verif Require Import Base BaseProofs Spec SpecLearning SpecRename SpecRenameMore ModelInference ModelDense ModelFeedback ModelExecutor ModelSparse ModelConv ProofsRename ProofsRenameGen ProofsRenameMore.
Import ListNotations.
Open Scope Z_scope.

(** A sparse machine with renamed weights and active literals, trained on the
    same examples with renamed labels, is the renamed machine, for some draws of
    its feedback block.  The draws of the blocks are the same. *)
Theorem C144_sparse : forall n p T bo boost dynamic ds bs bs2 f f2, renaming n p -> (2 <= n)%nat -> (0 < T)%Q ->
  sblocks_renamed n p bs bs2 -> feedback_for n T f -> feedback_for n T f2 -> Forall (fun d => (snd d < n)%nat) ds -> (forall i, 0 < rng_src (fb_rng f) i <= 1)%Q ->
  exists src, (forall i, 0 < src i < 1)%Q /\
    let s := sp_trained_on bo boost dynamic ds bs f in let s2 := sp_trained_on bo boost dynamic (relabelled p ds) bs2 (with_draws src f2) in
    sblocks_renamed n p (fst s) (fst s2) /\
    (ds <> [] -> fb_pos (snd s2) = p (fb_pos (snd s)) /\ fb_neg (snd s2) = p (fb_neg (snd s)) /\ fb_pp (snd s2) = fb_pp (snd s) /\ fb_np (snd s2) = fb_np (snd s)) /\
    forall x, renamed n p (sp_sums (fst s) (snd s) x) (sp_sums (fst s2) (snd s2) x).
Proof.
  intros n p T bo boost dynamic ds bs bs2 f f2 Hp Hn HT B F G HL HD.
  destruct (gren_exists n p Hp (list nat) sblock (sp_train_ex bo) (sp_train_update bo boost dynamic) (sblock_renamed n p) (sp_same n p)
    (fun x b b2 H => sp_ren_train n p Hp bo x b b2 H) (fun x pc pp nc np b b2 H1 H2 H => sp_ren_upd n p Hp bo boost dynamic x pc pp nc np b b2 H1 H2 H) (fun b b2 H => proj1 H)
    T ds bs bs2 f f2 HT Hn B F G HL HD) as [src [A [A1 [A2 [A3 A4]]]]].
  exists src. split; [exact A|]. cbv zeta. split; [exact A1|]. split; [exact A4|]. intros x.
  exact (proj1 (gren_sums n p Hp (list nat) sblock (sblock_renamed n p) sp_eval_ex T _ _ _ _ x (sp_ren_eval n p Hp x) A1 A2 A3)).
Qed.

(** The same for convolutional machines. *)
Theorem C144_conv : forall n p T bo boost ds bs bs2 f f2, renaming n p -> (2 <= n)%nat -> (0 < T)%Q ->
  cvblocks_renamed n p bs bs2 -> feedback_for n T f -> feedback_for n T f2 -> Forall (fun d => (snd d < n)%nat) ds -> (forall i, 0 < rng_src (fb_rng f) i <= 1)%Q ->
  exists src, (forall i, 0 < src i < 1)%Q /\
    let s := cv_trained_on bo boost ds bs f in let s2 := cv_trained_on bo boost (relabelled p ds) bs2 (with_draws src f2) in
    cvblocks_renamed n p (fst s) (fst s2) /\
    (ds <> [] -> fb_pos (snd s2) = p (fb_pos (snd s)) /\ fb_neg (snd s2) = p (fb_neg (snd s)) /\ fb_pp (snd s2) = fb_pp (snd s) /\ fb_np (snd s2) = fb_np (snd s)) /\
    forall x, renamed n p (cv_sums (fst s) (snd s) x) (cv_sums (fst s2) (snd s2) x).
Proof.
  intros n p T bo boost ds bs bs2 f f2 Hp Hn HT B F G HL HD.
  destruct (gren_exists n p Hp (list Z) cvblock (conv_train_ex bo) (conv_update bo boost) (cvblock_renamed n p) (cv_same n p)
    (fun x b b2 H => cv_ren_train n p Hp bo x b b2 H) (fun x pc pp nc np b b2 H1 H2 H => cv_ren_upd n p Hp bo boost x pc pp nc np b b2 H1 H2 H) (fun b b2 H => proj1 H)
    T ds bs bs2 f f2 HT Hn B F G HL HD) as [src [A [A1 [A2 [A3 A4]]]]].
  exists src. split; [exact A|]. cbv zeta. split; [exact A1|]. split; [exact A4|]. intros x.
  exact (proj1 (gren_sums n p Hp (list Z) cvblock (cvblock_renamed n p) conv_eval_ex T _ _ _ _ x (cv_ren_eval n p Hp x) A1 A2 A3)).
Qed.

(** The renamed machine predicts the renamed class whenever one class has the
    most votes. *)
Theorem C144_predict_sparse_partial : forall n p T bs bs2 f f2 x, renaming n p -> (1 <= n)%nat -> sblocks_renamed n p bs bs2 -> feedback_for n T f -> feedback_for n T f2 ->
  let class g l := fb_predict (snd (run_examples sblock (list nat) sp_eval_ex x l (fb_reset g))) in
  (forall c, (c < n)%nat -> c <> class f bs -> nth c (sp_sums bs f x) 0 < nth (class f bs) (sp_sums bs f x) 0) ->
  class f2 bs2 = p (class f bs).
Proof.
  intros n p T bs bs2 f f2 x Hp Hn B F G class U.
  destruct (gren_sums n p Hp (list nat) sblock (sblock_renamed n p) sp_eval_ex T bs bs2 f f2 x (sp_ren_eval n p Hp x) B F G) as [R [E1 E2]].
  unfold class in *. rewrite E1 in U. rewrite E1, E2. apply (ren_argmax n p Hp); auto.
Qed.
Theorem C144_predict_conv_partial : forall n p T bs bs2 f f2 x, renaming n p -> (1 <= n)%nat -> cvblocks_renamed n p bs bs2 -> feedback_for n T f -> feedback_for n T f2 ->
  let class g l := fb_predict (snd (run_examples cvblock (list Z) conv_eval_ex x l (fb_reset g))) in
  (forall c, (c < n)%nat -> c <> class f bs -> nth c (cv_sums bs f x) 0 < nth (class f bs) (cv_sums bs f x) 0) ->
  class f2 bs2 = p (class f bs).
Proof.
  intros n p T bs bs2 f f2 x Hp Hn B F G class U.
  destruct (gren_sums n p Hp (list Z) cvblock (cvblock_renamed n p) conv_eval_ex T bs bs2 f f2 x (cv_ren_eval n p Hp x) B F G) as [R [E1 E2]].
  unfold class in *. rewrite E1 in U. rewrite E1, E2. apply (ren_argmax n p Hp); auto.
Qed.

(** Every block has a renamed one. *)
Theorem C144_sparse_exists : forall n p b, renaming n p -> sp_ncls b = n -> length (sp_al b) = n -> length (sp_repl b) = n -> rows_of n (sp_weights b) -> exists b2, sblock_renamed n p b b2.
Proof. intros n p b Hp E L1 L2 W. exists (ren_sblock n p b). apply ren_sblock_ok; auto. Qed.
Theorem C144_conv_exists : forall n p v, renaming n p -> b_ncls (cv_b v) = n -> rows_of n (b_weights (cv_b v)) -> exists v2, cvblock_renamed n p v v2.
Proof. intros n p v Hp E W. exists (mkCv (ren_block n p (cv_b v)) (cv_np v) (cv_active v) (cv_ppc v)). split; [apply ren_block_ok; auto|cbn [cv_np cv_active cv_ppc]; auto]. Qed.

(** Three classes, each taking the next one's number. *)
Definition cycle3 (c : nat) : nat := match c with O => 1%nat | S O => 2%nat | _ => O end.
Lemma cycle3_renaming : renaming 3 cycle3.
Proof. split; [intros [|[|[|c]]] Hc; cbn; lia|intros [|[|[|c]]] [|[|[|d]]] Hc Hd E; cbn in E; lia]. Qed.
Definition sp_learner (al : list (list nat)) (repl : list nat) (w1 w2 : list Z) : sblock :=
  mkSB 4 2 3 3 2 (-20) [[0]; [1]; [2]; [3]]%nat [[4]; [-3]; [-2]; [1]] al repl [w1; w2] [0; 0] [0; 0] [0; 0; 0] 5 (1 # 3) (2 # 3) (mkRng (fun i => Z.of_nat (i mod 7) # 8) 0).
Definition cv_learner (w1 w2 : list Z) : cvblock :=
  mkCv (mkBlock 2 3 [mkClause [3; -2] [-1; 4]; mkClause [-1; -1] [0; -7]] [w1; w2] [0; 0] [0; 0] [0; 0; 0] 4 (1 # 3) (2 # 3) (mkRng (fun i => Z.of_nat (i mod 7) # 8) 0) (mkRng (fun i => Z.of_nat (i mod 5) # 6) 0)) 2 [0; 0]%nat [0; 0].
Definition fb3m (d : list Q) : fblock := mkFb 3 10 [0; 0; 0] [0; 0; 0]%Q 0 0 0 0 0 0 (mkRng (fun i => nth i d (1 # 2)) 0).
Definition sp_a := sp_learner [[1]; [2; 3]; [0]]%nat [0; 1; 0]%nat [5; -3; 1] [2; 8; -6].
Definition sp_b := sp_learner [[0]; [1]; [2; 3]]%nat [0; 0; 1]%nat [1; 5; -3] [-6; 2; 8].
Definition sp_ds : list (list nat * nat) := [([0; 1], 0); ([1; 3], 2); ([], 1)]%nat.
Definition cv_ds : list (list Z * nat) := [([1; 0; 0; 0], 0%nat); ([0; 1; 1; 1], 2%nat); ([0; 0; 1; 0], 1%nat)].
Ltac renamed3 := split; [reflexivity|split; [reflexivity|intros [|[|[|c]]] Hc; try reflexivity; lia]].
Example C144_case_sparse :
  renaming 3 cycle3 /\ sblocks_renamed 3 cycle3 [(true, sp_a)] [(true, sp_b)] /\ feedback_for 3 10 (fb3m []) /\ map snd (relabelled cycle3 sp_ds) = [1; 0; 2]%nat /\
  map (fun tb => (sp_weights (snd tb), sp_al (snd tb))) (fst (sp_trained_on true false true sp_ds [(true, sp_a)] (fb3m []))) <> [(sp_weights sp_a, sp_al sp_a)] /\
  map (fun tb => (map (ren_list 3 cycle3) (sp_weights (snd tb)), ren_any 3 cycle3 [] (sp_al (snd tb)))) (fst (sp_trained_on true false true sp_ds [(true, sp_a)] (fb3m []))) =
    map (fun tb => (sp_weights (snd tb), sp_al (snd tb))) (fst (sp_trained_on true false true (relabelled cycle3 sp_ds) [(true, sp_b)] (fb3m [9 # 10; 1 # 10; 9 # 10]%Q))).
Proof.
  split; [exact cycle3_renaming|]. split; [|split; [repeat split|split; [reflexivity|split; vm_compute; [discriminate|reflexivity]]]].
  constructor; [|constructor]. split; [reflexivity|]. constructor; try reflexivity; [split; reflexivity|renamed3|renamed3|].
  repeat (apply Forall2_cons; [renamed3|]). apply Forall2_nil.
Qed.
Example C144_case_conv :
  let v := cv_learner [5; -3; 1] [2; 8; -6] in let v2 := cv_learner [1; 5; -3] [-6; 2; 8] in
  renaming 3 cycle3 /\ cvblocks_renamed 3 cycle3 [(true, v)] [(true, v2)] /\
  map (fun tb => b_weights (cv_b (snd tb))) (fst (cv_trained_on true false cv_ds [(true, v)] (fb3m []))) <> [b_weights (cv_b v)] /\
  map (fun tb => map (ren_list 3 cycle3) (b_weights (cv_b (snd tb)))) (fst (cv_trained_on true false cv_ds [(true, v)] (fb3m []))) =
    map (fun tb => b_weights (cv_b (snd tb))) (fst (cv_trained_on true false (relabelled cycle3 cv_ds) [(true, v2)] (fb3m [9 # 10; 1 # 10; 9 # 10]%Q))).
Proof.
  intros v v2. split; [exact cycle3_renaming|]. split; [|split; vm_compute; [discriminate|reflexivity]].
  constructor; [|constructor]. split; [reflexivity|]. split; [|repeat split]. constructor; try reflexivity; [split; reflexivity|].
  repeat (apply Forall2_cons; [renamed3|]). apply Forall2_nil.
Qed.

(** Of classes with the same sum the first is predicted, under every numbering. *)
Theorem C144_tie_refuted : exists n p T v v2 f x, renaming n p /\ cvblocks_renamed n p [(true, v)] [(true, v2)] /\ feedback_for n T f /\
  fb_predict (snd (run_examples cvblock (list Z) conv_eval_ex x [(true, v2)] (fb_reset f))) <> p (fb_predict (snd (run_examples cvblock (list Z) conv_eval_ex x [(true, v)] (fb_reset f)))).
Proof.
  exists 3%nat, cycle3, 10%Q, (cv_learner [7; 7; 7] [2; 2; 2]), (cv_learner [7; 7; 7] [2; 2; 2]), (fb3m []), [1; 0; 0; 0]. split; [exact cycle3_renaming|]. split.
  - constructor; [|constructor]. split; [reflexivity|]. split; [|repeat split]. constructor; try reflexivity; [split; reflexivity|].
    repeat (apply Forall2_cons; [renamed3|]). apply Forall2_nil.
  - split; [repeat split|]. vm_compute. discriminate.
Qed.

Print Assumptions C144_sparse.
Print Assumptions C144_conv.
Print Assumptions C144_predict_sparse_partial.
Print Assumptions C144_predict_conv_partial.
Print Assumptions C144_sparse_exists.
Print Assumptions C144_conv_exists.
Print Assumptions C144_tie_refuted.
