(** C131-C133: the engine of the standard library below the class draws, the initial
    automata and the shuffle. *)
From Coq Require Import ZArith List Bool QArith Lia Permutation.
From Verif Require Import Base BaseProofs Spec ModelInference ModelRuleSet ModelDense ModelFeedback ModelExecutor ModelDenseExec ModelLayout
  ModelMachine ModelTrainer ModelTrainerDense ModelPredictor ModelEngine ProofsExecutor SpecLearning SpecHeap SpecTraining SpecTrainerDense SpecTrainerRun ExampleData
  ProofsEval ProofsFeedback ProofsHistory ProofsTMHeapG ProofsDenseExec ProofsTrainerDense ProofsTrainerPool ProofsTrainerRun PropertiesTrainerDense PropertiesTrainerRun
  ProofsEngine ProofsEngineDraw ProofsEnginePerm ProofsEngineUse.
Import ListNotations.
Open Scope Z_scope.

(** ** C131 *)

(** Whatever the seed, the engine is in one of its states; from every state it visits
    every state, and none twice, within 2147483646 calls. *)
Theorem C131_period : forall seed, eng_state (eng_seed seed) /\
  forall x, eng_state x ->
    (forall k, eng_state (eng_after k x)) /\
    (forall t, eng_state t -> exists k, (1 <= Z.of_nat k <= 2147483646) /\ eng_after k x = t) /\
    (forall i j, 1 <= Z.of_nat i <= 2147483646 -> 1 <= Z.of_nat j <= 2147483646 -> eng_after i x = eng_after j x -> i = j).
Proof.
  intros seed. split; [apply eng_seed_state|]. intros x Hx. split; [intros k; apply eng_after_closed; exact Hx|].
  split; [intros t Ht; exact (eng_reach x t Hx Ht)|].
  assert (W : forall i j, (i < j)%nat -> 1 <= Z.of_nat i -> Z.of_nat j <= 2147483646 -> eng_after i x = eng_after j x -> False).
  { intros i j Hij Hi Hj E. destruct (pow_all x Hx) as [e [He Ee]].
    replace j with ((j - i) + i)%nat in E by lia. rewrite eng_after_add in E.
    apply eng_after_inj in E; [|exact Hx|apply eng_after_closed; exact Hx].
    rewrite (eng_after_exp (j - i) x e) in E by (auto; lia). apply (eq_trans Ee) in E.
    assert (D : 0 < Z.of_nat (j - i) < NN) by (unfold NN; lia).
    destruct (Z_lt_le_dec (Z.of_nat (j - i) + e) NN) as [L|L].
    - apply pow_inj in E; lia.
    - replace (Z.of_nat (j - i) + e) with ((Z.of_nat (j - i) + e - NN) + NN) in E by ring.
      rewrite pow_shift in E by lia. apply pow_inj in E; lia. }
  intros i j Hi Hj E. destruct (Nat.lt_trichotomy i j) as [L|[L|L]]; [exfalso; apply (W i j); auto; lia|exact L|].
  exfalso. apply (W j i); auto; lia.
Qed.

(** FeedbackBlock: the draw of the discrete distribution is never 0, so the class is in
    range and never the label, at every step of every run. *)
Theorem C131_negative_class : forall x p f label ncls, eng_state x -> fb_rng f = mkRng (rng_src (canon_rng x)) p ->
  (0 < fb_thr f)%Q -> fb_ok ncls f -> length (fb_votes f) = ncls -> (label < ncls)%nat -> (2 <= ncls)%nat ->
  let f' := fb_process label f in
  fb_pos f' = label /\ fb_neg f' <> label /\ (fb_neg f' < ncls)%nat /\ fb_rng f' = mkRng (rng_src (canon_rng x)) (S p).
Proof.
  intros x p f label ncls Hx Hr HT Hf HL Hl H2 f'.
  assert (U : (0 < draw (fb_rng f) 0 <= 1)%Q).
  { rewrite Hr. destruct (canon_draw x p Hx) as [A B]. split; [exact A|apply Qlt_le_weak; exact B]. }
  destruct (process_spec f label ncls HT Hf HL Hl) as [A [B [_ [_ [_ [C _]]]]]]. split; [exact A|]. split; [apply C; auto|]. split; [exact B|].
  unfold f', fb_process, sample_discrete. rewrite set_nth_length, map_length, firstn_length.
  destruct Hf as [F1 F2]. rewrite (proj2 (Nat.ltb_ge _ _)) by lia. rewrite Hr. reflexivity.
Qed.

(** FeedbackBlockUniform and FeedbackBlockMultiLabel: the loop ends, after at most
    2147483646 draws, with a class other than the first. *)
Theorem C131_uniform : forall x p f label, eng_state x -> fb_rng f = mkRng (rng_src (uni_rng (fb_ncls f) x)) p ->
  2 <= Z.of_nat (fb_ncls f) <= 2147483645 ->
  exists fuel f' q, Z.of_nat fuel <= 2147483646 /\ fbu_process fuel label f = Some f' /\
    fb_pos f' = label /\ fb_neg f' <> label /\ (fb_neg f' < fb_ncls f)%nat /\ fb_rng f' = mkRng (rng_src (uni_rng (fb_ncls f) x)) q.
Proof.
  intros x p f label Hx Hr Hn. destruct (class_other (fb_ncls f) x p label Hn Hx) as [fuel [c [r [H1 [H2 H3]]]]].
  assert (E : exists f', fbu_process fuel label f = Some f' /\ fb_rng f' = r).
  { unfold fbu_process. rewrite Hr, H2. eexists. split; reflexivity. }
  destruct E as [f' [E1 E2]]. exists fuel, f', (rng_pos r). split; [exact H1|]. split; [exact E1|].
  destruct (uniform_spec fuel label f f' ltac:(lia) E1) as [A [B [C _]]]. split; [exact A|]. split; [exact B|]. split; [exact C|].
  rewrite E2, <- H3. destruct r; reflexivity.
Qed.
Theorem C131_multi_label : forall x p f labels, eng_state x -> fb_rng f = mkRng (rng_src (uni_rng (fb_ncls f) x)) p ->
  2 <= Z.of_nat (fb_ncls f) <= 2147483645 ->
  exists fuel f' q, Z.of_nat fuel <= 2147483646 /\ fbm_process fuel labels f = Some f' /\
    fb_pos f' <> fb_neg f' /\ (fb_pos f' < 2 * fb_ncls f)%nat /\ (fb_neg f' < 2 * fb_ncls f)%nat /\
    fb_rng f' = mkRng (rng_src (uni_rng (fb_ncls f) x)) q.
Proof.
  intros x p f labels Hx Hr Hn. pose proof (draw_class_uni (fb_ncls f) x p ltac:(lia) Hx) as D.
  destruct (class_other (fb_ncls f) x (S p) (Z.to_nat (uni_value (Z.of_nat (fb_ncls f)) x p)) Hn Hx) as [fuel [c [r [H1 [H2 H3]]]]].
  assert (E : exists f', fbm_process fuel labels f = Some f' /\ fb_rng f' = r).
  { unfold fbm_process. rewrite Hr, D, H2. eexists. split; reflexivity. }
  destruct E as [f' [E1 E2]]. exists fuel, f', (rng_pos r). split; [exact H1|]. split; [exact E1|].
  destruct (multi_spec fuel labels f f' ltac:(lia) E1) as [p0 [q0 [_ [_ [_ [_ [_ [A [B C]]]]]]]]]. split; [exact A|]. split; [exact B|]. split; [exact C|].
  rewrite E2, <- H3. destruct r; reflexivity.
Qed.

(** The loop as written, on the engine: the first drawn class that differs. *)
Theorem C131_first_other : forall n pos x, 2 <= n <= 2147483645 -> eng_state x ->
  exists x' c j, uni_other n pos x = (x', Some c) /\ eng_state x' /\ 0 <= c < n /\ c <> pos /\
    uni_value n x j = c /\ x' = uni_after n (S j) x /\ forall i, (i < j)%nat -> uni_value n x i = pos.
Proof.
  intros n pos x Hn Hx. destruct (other_ends n ltac:(lia) x pos Hx ltac:(lia)) as [x' [c [A [B [C [D [j [E [F G]]]]]]]]].
  exists x', c, j. auto 8.
Qed.
(** Every class owns the same number of consecutive engine values; all are drawn. *)
Theorem C131_share : forall n, 1 <= n <= 2147483645 ->
  (forall x c, eng_state x -> uni_result n x = Some c <-> 0 <= c < n /\ c * (2147483645 / n) < x <= (c + 1) * (2147483645 / n)) /\
  (forall x c, eng_state x -> 0 <= c < n -> exists j, Z.of_nat j < 2147483646 /\ uni_value n x j = c).
Proof.
  intros n Hn. split; [intros x c Hx; exact (uni_result_iff n Hn x c Hx)|]. intros x c Hx Hc.
  exact (uni_all n Hn x c Hx Hc).
Qed.
(** With one class the loop never ends. *)
Theorem C131_one_class : forall x k, eng_state x -> uni_value 1 x k = 0.
Proof. intros x k Hx. pose proof (uni_value_range 1 ltac:(lia) x k Hx). lia. Qed.

Definition fb3 (r : rng) : fblock := mkFb 3 10 [4; -3; 12] [0; 0; 0]%Q 0 0 0 0 0 0 r.
Example C131_case :
  eng_seed 42 = 42 /\ eng_seed 0 = 1 /\ eng_seed (-1) = 3 /\ Pos.iter eng 1 10000 = 1043618065 /\
  map (uni_value 3 (eng_seed 42)) (seq 0 8) = [0; 1; 2; 0; 1; 0; 2; 1] /\
  snd (uni_other 3 0 (eng_seed 42)) = Some 1 /\ fst (uni_other 3 0 (eng_seed 42)) = eng_after 2 42 /\
  fb_neg (fb_process 2 (fb3 (canon_rng 42))) = 0%nat /\
  match fbu_process 4 0 (fb3 (uni_rng 3 42)) with Some f => fb_neg f = 1%nat /\ rng_pos (fb_rng f) = 2%nat | None => False end.
Proof. vm_compute. repeat split. Qed.

(** ** C132 *)

(** The class draws of a run repeat the initial automata of its first block: as long as
    no value was rejected, draw j of the feedback block is at least
    1073741822/2147483646 exactly if automaton 2j+1 started at 0. *)
Theorem C132_follows_init_refuted : forall G Sc score callback assign t dt de m x0,
  (forall s, g_std G s = init_rng (eng_seed s)) -> (forall s, g_fb G s = canon_rng (eng_seed s)) ->
  configured (t_m t) -> t_state t = None -> launched (threaded_backend G Sc score callback assign) t dt de m x0 ->
  let e := dr_exec (tr_run x0) in
  forall tb j, nth_error (x_blocks e) 0 = Some tb -> (2 * j + 1 < length (flat_clauses (b_clauses (snd tb))))%nat ->
  (forall i, (1 <= i <= 2 * j + 2)%nat -> eng_after i (eng_seed (t_seed t)) <= 2147483644) ->
  (nth (2 * j + 1) (flat_clauses (b_clauses (snd tb))) 7 = 0 <-> ((1073741822 # 2147483646) <= draw (fb_rng (x_fb e)) j)%Q) /\
  (nth (2 * j + 1) (flat_clauses (b_clauses (snd tb))) 7 = -1 <-> (draw (fb_rng (x_fb e)) j < (1073741822 # 2147483646))%Q).
Proof.
  intros G Sc score callback assign t dt de m x0 Gs Gf K St L e tb j Htb Hj A.
  assert (MF : machine_fits (t_m t) (t_state t)) by (rewrite St; exact I).
  destruct (C124_parameters G Sc score callback assign t dt de m x0 K MF L) as [sizes [_ [_ [_ [_ [_ [RF [_ [_ [_ [_ B]]]]]]]]]]].
  destruct (B O tb Htb) as [_ [b0 [s [budget [_ [_ [I0 [_ [N0 _]]]]]]]]]. specialize (N0 St).
  change (Z.of_nat 0) with 0 in I0. rewrite Z.add_0_r in I0. unfold initialize in I0. destruct (t_seed t =? 0); [discriminate|].
  destruct (init_clauses _ _ (g_std G (t_seed t))) as [cs r] eqn:EC. destruct (init_weights _ _ _) as [ws fr]. injection I0 as I0.
  assert (EB : b_clauses (snd tb) = cs) by (rewrite N0, <- I0; reflexivity).
  rewrite EB in *. apply init_clauses_flat in EC. destruct EC as [ER _].
  match type of ER with init_row ?k ?g = _ => pose proof (init_row_spec k g) as P end. rewrite ER in P. destruct P as [P1 [_ P3]].
  rewrite P1 in Hj. pose proof (eng_seed_state (t_seed t)) as Hs.
  assert (R : fb_rng (x_fb e) = canon_rng (eng_seed (t_seed t))) by (rewrite <- Gf; exact RF). rewrite R.
  pose proof (canon_half _ j Hs) as C. pose proof (uni2_value (2 * j + 1) _ Hs ltac:(intros i Hi; apply A; lia)) as V.
  replace (S (2 * j + 1)) with (2 * j + 2)%nat in V by lia.
  assert (X : nth (2 * j + 1) (flat_clauses cs) 7 = if eng_after (2 * j + 2) (eng_seed (t_seed t)) <=? 1073741822 then -1 else 0).
  { rewrite P3 by exact Hj. rewrite Gs, draw_init, V.
    destruct (eng_after (2 * j + 2) (eng_seed (t_seed t)) <=? 1073741822); reflexivity. }
  rewrite X. destruct (Z.leb_spec (eng_after (2 * j + 2) (eng_seed (t_seed t))) 1073741822) as [L1|L1].
  - split; split; intros H; try discriminate; auto.
    + exfalso. apply C in H. lia.
    + apply Qnot_le_lt. intros H1. apply C in H1. lia.
  - split; split; intros H; try discriminate; auto.
    + apply C. exact L1.
    + exfalso. apply Qlt_not_le in H. apply H. apply C. exact L1.
Qed.

(** All three generators of a run that come from the standard library start with the
    trainer's seed: feedback block, shuffle and first block. *)
Theorem C132_one_seed_refuted : forall G Sc score callback assign t dt de m x0,
  configured (t_m t) -> t_state t = None -> launched (threaded_backend G Sc score callback assign) t dt de m x0 ->
  let e := dr_exec (tr_run x0) in
  fb_rng (x_fb e) = g_fb G (t_seed t) /\ x_rng e = g_shuffle G (t_seed t) /\
  forall tb, nth_error (x_blocks e) 0 = Some tb -> exists k, b_rng (snd tb) = advance k (g_std G (t_seed t)).
Proof.
  intros G Sc score callback assign t dt de m x0 K St L e.
  assert (MF : machine_fits (t_m t) (t_state t)) by (rewrite St; exact I).
  destruct (C124_parameters G Sc score callback assign t dt de m x0 K MF L) as [sizes [_ [_ [_ [_ [_ [RF [RX [_ [_ [_ B]]]]]]]]]]].
  split; [exact RF|]. split; [exact RX|]. intros tb Htb. destruct (B O tb Htb) as [_ [b0 [s [budget [_ [_ [I0 [_ [N0 _]]]]]]]]]. specialize (N0 St).
  change (Z.of_nat 0) with 0 in I0. rewrite Z.add_0_r in I0. unfold initialize in I0. destruct (t_seed t =? 0); [discriminate|].
  destruct (init_clauses _ _ (g_std G (t_seed t))) as [cs r] eqn:EC. destruct (init_weights _ _ _) as [ws fr]. injection I0 as I0.
  rewrite N0, <- I0. cbn [b_rng].
  match type of EC with init_clauses ?n ?k ?g = _ => pose proof (init_clauses_spec n k g) as P end. rewrite EC in P. destruct P as [_ [P _]].
  eexists. exact P.
Qed.

(** Blocks get neighbouring seeds, and their engines stay at one and the same known
    distance: the values of the next block follow from those of a block. *)
Theorem C132_neighbours_refuted : forall s k, 1 <= s <= 2147483645 ->
  eng_after k (eng_seed (s + 1)) = (eng_after k (eng_seed s) + eng_after k 1) mod 2147483647.
Proof.
  intros s k Hs. rewrite !eng_seed_small by (unfold eng_state; lia). apply eng_linear; unfold eng_state; lia.
Qed.

(** The first automaton of a block is -1 for every seed up to 63886. *)
Theorem C132_first_automaton_refuted : forall fast_of junk nlit ncl ncls budget si sm seed b, 1 <= seed <= 63886 ->
  initialize (fun s => init_rng (eng_seed s)) fast_of junk (S nlit) (S ncl) ncls budget si sm seed = Some b ->
  hd 7 (flat_clauses (b_clauses b)) = -1.
Proof.
  intros fast_of junk nlit ncl ncls budget si sm seed b Hs E. unfold initialize in E. destruct (seed =? 0); [discriminate|].
  destruct (init_clauses _ _ _) as [cs r] eqn:EC. destruct (init_weights _ _ _) as [ws fr]. injection E as <-. cbn [b_clauses].
  apply init_clauses_flat in EC. destruct EC as [ER _].
  match type of ER with init_row ?k ?g = _ => pose proof (init_row_spec k g) as P end. rewrite ER in P. destruct P as [P1 [_ P3]].
  specialize (P3 O ltac:(lia)). rewrite draw_init, (first_low seed Hs) in P3.
  destruct (flat_clauses cs); [cbn in P1; lia|exact P3].
Qed.

(** Seeds below 2^31 - 1 give engines that never meet; above they repeat. *)
Theorem C132_apart_partial : forall s s' k, 1 <= s <= 2147483646 -> 1 <= s' <= 2147483646 -> s <> s' ->
  eng_after k (eng_seed s) <> eng_after k (eng_seed s').
Proof.
  intros s s' k Hs Hs' Hne E. rewrite !eng_seed_small in E by (unfold eng_state; lia).
  apply eng_after_inj in E; auto; unfold eng_state; lia.
Qed.
Theorem C132_collision_refuted : forall s, 1 <= s <= 2147483646 -> eng_seed (s + 2147483647) = eng_seed s /\ eng_seed 2147483647 = eng_seed 1.
Proof.
  intros s Hs. split; [|reflexivity]. unfold eng_seed. rewrite !(Z.mod_small _ (2 ^ 64)) by lia.
  replace (s + 2147483647) with (s + 1 * eng_mod) by (unfold eng_mod; ring). rewrite Z.mod_add by discriminate. reflexivity.
Qed.

Definition eng_gens : gens :=
  mkGens (fun s => init_rng (eng_seed s)) (g_fast run_gens) (fun s => canon_rng (eng_seed s)) (g_shuffle run_gens) (g_junk run_gens).
Definition eng_backend : backend tm (list cblock) trun dense_state (list nat) :=
  threaded_backend eng_gens first_come accuracy_score (fun _ _ _ => None) (fun k _ _ => Ok (map (fun j => (j mod 2)%nat) (seq 0 10))).
Definition eng_cbs := fst (bk_construct eng_backend run_machine 2 1 run_train).
Definition eng_started : tm := snd (bk_construct eng_backend run_machine 2 1 run_train).
Definition eng_launch : res trun :=
  match eng_cbs with Ok cbs => bk_launch eng_backend eng_started cbs None 2 1 run_train | Raise e => Raise e end.
Example C132_case : exists x0,
  launched eng_backend (run_trainer 2 4 PTrue 1 run_machine) run_train run_eval eng_started x0 /\
  configured (t_m (run_trainer 2 4 PTrue 1 run_machine)) /\
  option_map (fun tb : bool * block => flat_clauses (b_clauses (snd tb))) (nth_error (x_blocks (dr_exec (tr_run x0))) 0) =
    Some [-1; -1; 0; -1; 0; -1; -1; 0; 0; 0; -1; 0; 0; -1; -1; 0; 0; -1] /\
  map (fun j => Qle_bool (1073741822 # 2147483646) (draw (fb_rng (x_fb (dr_exec (tr_run x0)))) j)) (seq 0 9) =
    [false; false; false; true; true; true; false; true; false] /\
  forallb (fun i => eng_after i (eng_seed 1) <=? 2147483644) (seq 0 21) = true.
Proof.
  assert (X : match eng_launch with
              | Ok x0 => (option_map (fun tb : bool * block => flat_clauses (b_clauses (snd tb))) (nth_error (x_blocks (dr_exec (tr_run x0))) 0),
                          map (fun j => Qle_bool (1073741822 # 2147483646) (draw (fb_rng (x_fb (dr_exec (tr_run x0)))) j)) (seq 0 9))
              | Raise _ => (None, [])
              end = (Some [-1; -1; 0; -1; 0; -1; -1; 0; 0; 0; -1; 0; 0; -1; -1; 0; 0; -1], [false; false; false; true; true; true; false; true; false]))
    by (vm_compute; reflexivity).
  destruct eng_launch as [x0|] eqn:E; [|discriminate]. apply pair_equal_spec in X. exists x0. split.
  { split; [reflexivity|]. split; [reflexivity|]. unfold eng_launch in E. destruct eng_cbs as [cbs|] eqn:E1; [|discriminate].
    exists cbs. split; [|exact E]. cbn [run_trainer t_m t_n_jobs t_seed]. unfold eng_started, eng_cbs in *.
    destruct (bk_construct eng_backend run_machine 2 1 run_train). cbn [fst snd] in *. congruence. }
  split; [apply run_configured|]. split; [apply X|]. split; [apply X|]. vm_compute. reflexivity.
Qed.

(** ** C133 *)

(** Whatever the library makes of the engine, with 13 or more examples some order is
    never used, by no seed and in no epoch. *)
Theorem C133_orders_refuted : forall (stream : Z -> irng) n, (13 <= n)%nat ->
  exists o, Permutation o (seq 0 n) /\ forall x, eng_state x -> fst (shuffle (seq 0 n) (stream x)) <> o.
Proof. intros stream n Hn. exact (order_missed (fun x => fst (shuffle (seq 0 n) (stream x))) n Hn). Qed.
(** The same for any algorithm in place of std::shuffle. *)
Theorem C133_any_shuffle_refuted : forall (algorithm : Z -> list nat) n, (13 <= n)%nat ->
  exists o, Permutation o (seq 0 n) /\ forall seed k, algorithm (eng_after k (eng_seed seed)) <> o.
Proof.
  intros f n Hn. destruct (order_missed f n Hn) as [o [A B]]. exists o. split; [exact A|]. intros seed k. apply B.
  apply eng_after_closed, eng_seed_state.
Qed.
(** What is left: with suitable draws the shuffle gives every order. *)
Theorem C133_draws_partial : forall n o, Permutation o (seq 0 n) -> exists src, fst (shuffle (seq 0 n) (mkIrng src 0)) = o.
Proof.
  intros n o P. destruct n as [|m].
  - exists (fun _ => O). symmetry in P. apply Permutation_nil in P. subst o. reflexivity.
  - destruct (draws_for m (seq 0 (S m)) o) as [js H]; [rewrite seq_length; lia|rewrite firstn_all2 by (rewrite seq_length; lia); exact P|].
    exists (fun k => nth k js O). unfold shuffle. rewrite seq_length. cbn [pred]. rewrite H by reflexivity.
    rewrite skipn_all2 by (rewrite seq_length; lia). apply app_nil_r.
Qed.
Example C133_case : fst (shuffle (seq 0 5) (mkIrng (fun k => nth k [1; 0; 2; 4] O)%nat 0)) = [2; 1; 3; 0; 4]%nat /\
  Permutation [2; 1; 3; 0; 4]%nat (seq 0 5) /\ eng_state (eng_seed 42) /\
  fst (shuffle (seq 0 14) (mkIrng (fun k => Z.to_nat (eng_after (S k) (eng_seed 42) mod 1000)) 0)) <> seq 0 14.
Proof.
  split; [vm_compute; reflexivity|]. split; [|split; [apply eng_seed_state|vm_compute; discriminate]].
  change [2; 1; 3; 0; 4]%nat with (fst (shuffle (seq 0 5) (mkIrng (fun k => nth k [1; 0; 2; 4] O)%nat 0))). apply shuffle_from_perm. rewrite seq_length. cbn. lia.
Qed.
Print Assumptions C131_period.
Print Assumptions C131_negative_class.
Print Assumptions C131_uniform.
Print Assumptions C131_multi_label.
Print Assumptions C131_first_other.
Print Assumptions C131_share.
Print Assumptions C131_one_class.
Print Assumptions C132_follows_init_refuted.
Print Assumptions C132_one_seed_refuted.
Print Assumptions C132_neighbours_refuted.
Print Assumptions C132_first_automaton_refuted.
Print Assumptions C132_apart_partial.
Print Assumptions C132_collision_refuted.
Print Assumptions C133_orders_refuted.
Print Assumptions C133_any_shuffle_refuted.
Print Assumptions C133_draws_partial.
