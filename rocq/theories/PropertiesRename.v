(** C142: the numbers of the classes. *)
From Coq Require Import ZArith List Bool QArith Lia Lqa.
From Verif Require Import Base BaseProofs Spec SpecLearning SpecRename ModelInference ModelDense ModelFeedback ModelExecutor ModelDenseExec ProofsFeedback ProofsRename.
Import ListNotations.
Open Scope Z_scope.

(** However the classes are numbered, whatever a training does it can do: a
    machine with renamed weights, trained on the same examples with renamed
    labels, is the renamed machine, for some draws of its feedback block.  The
    draws of the blocks are the same. *)
Theorem C142_training : forall n p T bo boost ds bs bs2 f f2, renaming n p -> (2 <= n)%nat -> (0 < T)%Q ->
  blocks_renamed n p bs bs2 -> feedback_for n T f -> feedback_for n T f2 -> Forall (fun d => (snd d < n)%nat) ds -> (forall i, 0 < rng_src (fb_rng f) i <= 1)%Q ->
  exists src, (forall i, 0 < src i < 1)%Q /\
    let s := trained_on bo boost ds bs f in let s2 := trained_on bo boost (relabel p ds) bs2 (with_draws src f2) in
    blocks_renamed n p (fst s) (fst s2) /\
    (ds <> [] -> fb_pos (snd s2) = p (fb_pos (snd s)) /\ fb_neg (snd s2) = p (fb_neg (snd s)) /\ fb_pp (snd s2) = fb_pp (snd s) /\ fb_np (snd s2) = fb_np (snd s)) /\
    forall x, renamed n p (sums (fst s) (snd s) x) (sums (fst s2) (snd s2) x).
Proof.
  intros n p T bo boost ds bs bs2 f f2 Hp Hn HT B F G HL HD.
  set (src := fun j => match nth_error ds (j - rng_pos (fb_rng f2)) with Some d => mirror n p bo T d (trained_on bo boost (firstn (j - rng_pos (fb_rng f2)) ds) bs f) | None => (1 # 2)%Q end).
  assert (G2 : feedback_for n T (with_draws src f2)) by exact G.
  assert (HM : forall i d, nth_error ds i = Some d -> rng_src (fb_rng (with_draws src f2)) (rng_pos (fb_rng (with_draws src f2)) + i)%nat = mirror n p bo T d (trained_on bo boost (firstn i ds) bs f)).
  { intros i d E. cbn [with_draws fb_rng rng_src rng_pos]. unfold src. replace (rng_pos (fb_rng f2) + i - rng_pos (fb_rng f2))%nat with i by lia. rewrite E. reflexivity. }
  destruct (ren_all n p Hp bo boost T HT Hn ds bs bs2 f (with_draws src f2) B F G2 HL HD HM) as [A1 [A2 [A3 [_ [A4 A5]]]]].
  exists src. split.
  - intros i. unfold src. destruct (nth_error ds (i - rng_pos (fb_rng f2))) as [d|] eqn:E; [apply A4; exact E|split; reflexivity].
  - cbv zeta. split; [exact A1|]. split; [exact A5|]. intros x. apply (ren_sums n p Hp T); auto.
Qed.

(** The draws are as likely: the draws which choose a class as the negative one
    form an interval, as long as that of the renamed class. *)
Theorem C142_chance : forall n p T f f2 l c, renaming n p -> (2 <= n)%nat -> (0 < T)%Q -> feedback_for n T f -> feedback_for n T f2 -> renamed n p (fb_votes f) (fb_votes f2) -> (l < n)%nat -> (c < n)%nat ->
  exists lo hi lo2 hi2 : Q, (hi2 - lo2 == hi - lo)%Q /\
    forall u, (0 < u <= 1)%Q ->
      (fb_neg (fb_process l (with_draws (fun _ => u) f)) = c <-> (lo < u <= hi)%Q) /\
      (fb_neg (fb_process (p l) (with_draws (fun _ => u) f2)) = p c <-> (lo2 < u <= hi2)%Q).
Proof.
  intros n p T f f2 l c Hp Hn HT F G R Hl Hc. destruct (ren_share n p Hp T (fb_votes f) (fb_votes f2) l c HT Hn Hl Hc R) as [lo [hi [lo2 [hi2 [E H]]]]].
  exists lo, hi, lo2, hi2. split; [exact E|]. intros u Hu. specialize (H u Hu).
  rewrite (process_neg n T (with_draws (fun _ => u) f) l F Hn), (process_neg n T (with_draws (fun _ => u) f2) (p l) G Hn). exact H.
Qed.

(** The renamed machine predicts the renamed class whenever one class has the
    most votes. *)
Theorem C142_predict_partial : forall n p T bs bs2 f f2 x, renaming n p -> (1 <= n)%nat -> blocks_renamed n p bs bs2 -> feedback_for n T f -> feedback_for n T f2 ->
  (forall c, (c < n)%nat -> c <> dense_eval_one bs f x -> nth c (sums bs f x) 0 < nth (dense_eval_one bs f x) (sums bs f x) 0) ->
  dense_eval_one bs2 f2 x = p (dense_eval_one bs f x).
Proof.
  intros n p T bs bs2 f f2 x Hp Hn B F G U. destruct (ren_sums n p Hp T bs bs2 f f2 x B F G) as [R [E1 E2]]. rewrite E1 in U. rewrite E1, E2. apply (ren_argmax n p Hp); auto.
Qed.

Definition swap2 (c : nat) : nat := (1 - c)%nat.
Lemma swap2_renaming : renaming 2 swap2.
Proof. split; unfold swap2; intros; lia. Qed.
Definition tied (w : list Z) : block := mkBlock 1 2 [mkClause [3] [-4]] [w] [0] [0] [0; 0] 1 (1 # 2) (1 # 2) (mkRng (fun _ => 1 # 2) 0) (mkRng (fun _ => 1 # 2) 0).
Definition fb2 (r : Q) : fblock := mkFb 2 10 [0; 0] [0; 0]%Q 0 0 0 0 0 0 (mkRng (fun _ => r) 0).

(** Of classes with the same sum the first is predicted, under every numbering. *)
Theorem C142_tie_refuted : exists n p T bs bs2 f x, renaming n p /\ blocks_renamed n p bs bs2 /\ feedback_for n T f /\
  dense_eval_one bs2 f x <> p (dense_eval_one bs f x).
Proof.
  exists 2%nat, swap2, 10%Q, [(true, tied [7; 7])], [(true, tied [7; 7])], (fb2 (1 # 2)), [1]. split; [exact swap2_renaming|]. split.
  - constructor; [|constructor]. split; [reflexivity|]. constructor; try reflexivity; [split; reflexivity|]. constructor; [|constructor].
    split; [reflexivity|]. split; [reflexivity|]. intros [|[|c]] Hc; try reflexivity; lia.
  - split; [repeat split|]. vm_compute. discriminate.
Qed.

(** A draw of exactly zero chooses the first class, even if it is the label; for
    no draw does a machine with other numbers choose its label. *)
Theorem C142_zero_draw_refuted : exists n p T f l, renaming n p /\ (2 <= n)%nat /\ (0 < T)%Q /\ (l < n)%nat /\ feedback_for n T f /\ renamed n p (fb_votes f) (fb_votes f) /\
  fb_neg (fb_process l (with_draws (fun _ => 0%Q) f)) = l /\
  forall u, (0 <= u <= 1)%Q -> fb_neg (fb_process (p l) (with_draws (fun _ => u) f)) <> p l.
Proof.
  exists 2%nat, swap2, 10%Q, (fb2 0), 0%nat. split; [exact swap2_renaming|]. split; [lia|]. split; [reflexivity|]. split; [lia|]. split; [repeat split|].
  split; [split; [reflexivity|split; [reflexivity|]]; intros [|[|c]] Hc; try reflexivity; lia|]. split; [vm_compute; reflexivity|].
  intros u [H1 H2]. unfold fb_process, sample_discrete. cbn [with_draws fb_ncls fb_votes fb_thr fb_rng fb2 firstn map set_nth swap2 Nat.sub length Nat.ltb Nat.leb next_u rng_src rng_pos pick_loop].
  replace (Qle_bool u (0 + neg_prob 10 0 / qsum [neg_prob 10 0; 0%Q])) with true; [cbn; discriminate|].
  symmetry. apply Qle_bool_iff. setoid_replace (0 + neg_prob 10 0 / qsum [neg_prob 10 0; 0%Q])%Q with 1%Q by (vm_compute; reflexivity). exact H2.
Qed.

(** Every machine has a renamed one. *)
Theorem C142_exists : forall n p b, renaming n p -> b_ncls b = n -> rows_of n (b_weights b) -> exists b2, block_renamed n p b b2.
Proof. intros n p b Hp E W. exists (ren_block n p b). apply ren_block_ok; auto. Qed.

(** Three classes, each taking the next one's number. *)
Definition next3 (c : nat) : nat := match c with O => 1%nat | S O => 2%nat | _ => O end.
Definition learner (w1 w2 : list Z) : block :=
  mkBlock 2 3 [mkClause [3; -2] [-1; 4]; mkClause [-1; -1] [0; -7]] [w1; w2] [0; 0] [0; 0] [0; 0; 0] 4 (1 # 3) (2 # 3) (mkRng (fun i => Z.of_nat (i mod 7) # 8) 0) (mkRng (fun i => Z.of_nat (i mod 5) # 6) 0).
Definition fb3 (d : list Q) : fblock := mkFb 3 10 [0; 0; 0] [0; 0; 0]%Q 0 0 0 0 0 0 (mkRng (fun i => nth i d (1 # 2)) 0).
Example C142_case :
  let bs := [(true, learner [5; -3; 1] [2; 8; -6])] in let bs2 := [(true, learner [1; 5; -3] [-6; 2; 8])] in
  let ds := [([1; 0], 0%nat); ([0; 1], 2%nat); ([0; 0], 1%nat)] in
  renaming 3 next3 /\ blocks_renamed 3 next3 bs bs2 /\ feedback_for 3 10 (fb3 []) /\
  relabel next3 ds = [([1; 0], 1%nat); ([0; 1], 0%nat); ([0; 0], 2%nat)] /\
  map (fun tb => b_weights (snd tb)) (fst (trained_on true false ds bs (fb3 []))) <> map (fun tb => b_weights (snd tb)) bs /\
  map (fun tb => map (ren_list 3 next3) (b_weights (snd tb))) (fst (trained_on true false ds bs (fb3 []))) =
    map (fun tb => b_weights (snd tb)) (fst (trained_on true false (relabel next3 ds) bs2 (fb3 [1 # 10; 9 # 10; 1 # 10]%Q))).
Proof.
  intros bs bs2 ds. split; [|split; [|split; [repeat split|split; [reflexivity|]]]].
  - split; [intros [|[|[|c]]] Hc; cbn; lia|intros [|[|[|c]]] [|[|[|d]]] Hc Hd E; cbn in E; lia].
  - constructor; [|constructor]. split; [reflexivity|]. constructor; try reflexivity; [split; reflexivity|].
    repeat (apply Forall2_cons; [split; [reflexivity|split; [reflexivity|intros [|[|[|c]]] Hc; try reflexivity; lia]]|]). apply Forall2_nil.
  - split; vm_compute; [discriminate|reflexivity].
Qed.

Print Assumptions C142_training.
Print Assumptions C142_chance.
Print Assumptions C142_predict_partial.
Print Assumptions C142_tie_refuted.
Print Assumptions C142_zero_draw_refuted.
Print Assumptions C142_exists.
