(** Training runs with feedback_type="uniform" and with unknown feedback types: C134. *)
From Coq Require Import ZArith List Bool QArith Lia.
From Verif Require Import Base Spec ModelInference ModelRuleSet ModelDense ModelFeedback ModelExecutor ModelDenseExec ModelLayout
  ModelMachine ModelTrainer ModelTrainerDense ModelTrainerFeedback ModelEngine ModelPredictor SpecTraining SpecTrainerDense SpecTrainerFeedback
  ProofsTrainer ProofsTrainerDense ProofsTrainerFeedback PropertiesTrainerDense.
Import ListNotations.
Open Scope Z_scope.

(** Whatever the feedback type: load_best_state leaves a state whose exported
    predictor has exactly the reported best score.  [G]: any random numbers, [Sc]:
    any behaviour of the pool. *)
Theorem C134_best_state_scores : forall G k stuck fuel Sc score callback assign t r t' b,
  tame stuck -> pool_with (fb_step stuck fuel k) Sc -> sound t ->
  t_folds t <= 1 -> 1 <= t_epochs t -> t_load t = PTrue ->
  train (chosen_backend G k stuck fuel Sc score callback assign) t = (Ok (Some r), t') ->
  r_best_epoch r = Some (Z.of_nat b) ->
  exists de s, t_eval t = Some de /\ t_state t' = Some s /\
    state_fits (tm_nlit (t_m t)) (Z.to_nat (tm_ncl (t_m t))) (tm_ncls (t_m t)) s /\
    predictor_scores score (tm_nlit (t_m t)) (tm_ncls (t_m t)) s de (r_best r).
Proof.
  intros G k stuck fuel Sc score callback assign t r t' b HT HS SD F E Ld H Eb. unfold chosen_backend in H. rewrite fed_pool_train in H by auto.
  apply train_no_folds in H; auto. destruct H as [H O].
  destruct (fed_inner_scored G k stuck fuel score callback assign HT t t' SD I E H) as [dt [de [r' [H1 [H2 [H3 [H4 _]]]]]]].
  rewrite H3 in O. inversion O; subst r'. destruct (H4 b Ld Eb) as [s [S1 [S2 S3]]]. exists de, s. auto.
Qed.

(** Otherwise the last state, with the last score of the log. *)
Theorem C134_last_state_scores : forall G k stuck fuel Sc score callback assign t r t',
  tame stuck -> pool_with (fb_step stuck fuel k) Sc -> sound t ->
  t_folds t <= 1 -> 1 <= t_epochs t -> t_load t <> PTrue ->
  train (chosen_backend G k stuck fuel Sc score callback assign) t = (Ok (Some r), t') ->
  exists de s v earlier, t_eval t = Some de /\ t_state t' = Some s /\ r_elog r = earlier ++ [v] /\
    state_fits (tm_nlit (t_m t)) (Z.to_nat (tm_ncl (t_m t))) (tm_ncls (t_m t)) s /\
    predictor_scores score (tm_nlit (t_m t)) (tm_ncls (t_m t)) s de v.
Proof.
  intros G k stuck fuel Sc score callback assign t r t' HT HS SD F E Ld H. unfold chosen_backend in H. rewrite fed_pool_train in H by auto.
  apply train_no_folds in H; auto. destruct H as [H O].
  destruct (fed_inner_scored G k stuck fuel score callback assign HT t t' SD I E H) as [dt [de [r' [H1 [H2 [H3 [_ H4]]]]]]].
  rewrite H3 in O. inversion O; subst r'. destruct (H4 Ld) as [s [v [l [S1 [S2 [S3 S4]]]]]]. exists de, s, v, l. auto.
Qed.

(** With folds: the state of the last fold. *)
Theorem C134_last_fold : forall G k stuck fuel Sc score callback assign t r t',
  tame stuck -> pool_with (fb_step stuck fuel k) Sc -> sound t -> 1 < t_folds t -> 1 <= t_epochs t -> t_load t = PTrue ->
  train (chosen_backend G k stuck fuel Sc score callback assign) t = (Ok (Some r), t') ->
  exists de last earlier, t_eval t' = Some de /\ r_elog r = earlier ++ r_elog last /\
    ((exists b, r_best_epoch last = Some (Z.of_nat b) /\ r_best last = nth b (r_elog last) Fnan /\
       exists s, t_state t' = Some s /\ state_fits (tm_nlit (t_m t)) (Z.to_nat (tm_ncl (t_m t))) (tm_ncls (t_m t)) s /\
         predictor_scores score (tm_nlit (t_m t)) (tm_ncls (t_m t)) s de (r_best last)) \/
     Forall (fun v => ~ fl_lt (Fin (-1)) v) (r_elog last)).
Proof.
  intros G k stuck fuel Sc score callback assign t r t' HT HS SD F E Ld H. unfold chosen_backend in H. rewrite fed_pool_train in H by auto.
  exact (fed_last_fold G k stuck fuel score callback assign HT t r t' SD I F E Ld H).
Qed.

(** However the trainer is used, the machine stays configured with its dimensions, the
    state fits it, and exporting a predictor cannot fail. *)
Theorem C134_usable : forall G k stuck fuel Sc score callback assign t t',
  tame stuck -> pool_with (fb_step stuck fuel k) Sc -> sound t ->
  used (chosen_backend G k stuck fuel Sc score callback assign) t t' ->
  configured (t_m t') /\ tm_ncl (t_m t') = tm_ncl (t_m t) /\ tm_nlit (t_m t') = tm_nlit (t_m t) /\ tm_ncls (t_m t') = tm_ncls (t_m t) /\
  forall s, t_state t' = Some s ->
    state_fits (tm_nlit (t_m t)) (Z.to_nat (tm_ncl (t_m t))) (tm_ncls (t_m t)) s /\
    exists rs, compile_from_dense_state s = Ok rs.
Proof.
  intros G k stuck fuel Sc score callback assign t t' HT HS SD U. apply fed_used_same in U; auto. apply fed_used_sound in U; auto; [|exact I].
  destruct U as [[K MF _ _ _] [E1 [E2 E3]]]. split; [auto|]. split; [auto|]. split; [auto|]. split; [auto|].
  intros s Es. rewrite Es in MF. cbn [machine_fits] in MF. rewrite E1, E2, E3 in MF. split; [exact MF|].
  destruct MF as [S1 [S2 [S3 [S4 [S5 [S6 _]]]]]].
  destruct (ProofsRuleSet.compile_ok (tm_nlit (t_m t)) s) as [mm [Ec _]]; [|eauto].
  unfold ProofsRuleSet.dense_wf. rewrite S2. repeat split; auto; lia.
Qed.

(** Neither the scheduling of the pool nor, with block sizes set, n_jobs matters. *)
Theorem C134_n_jobs_independent : forall G k stuck fuel Sc Sc' score callback assign t, tame stuck ->
  pool_with (fb_step stuck fuel k) Sc -> pool_with (fb_step stuck fuel k) Sc' -> sound t ->
  train (chosen_backend G k stuck fuel Sc score callback assign) t = train (chosen_backend G k stuck fuel Sc' score callback assign) t /\
  forall j sizes, tm_sizes (t_m t) = Some sizes ->
    fst (train (chosen_backend G k stuck fuel Sc' score callback assign) (with_jobs j t)) =
      fst (train (chosen_backend G k stuck fuel Sc score callback assign) t) /\
    snd (train (chosen_backend G k stuck fuel Sc' score callback assign) (with_jobs j t)) =
      with_jobs j (snd (train (chosen_backend G k stuck fuel Sc score callback assign) t)).
Proof.
  intros G k stuck fuel Sc Sc' score callback assign t HT H1 H2 SD. unfold chosen_backend. split; [rewrite !fed_pool_train by auto; reflexivity|].
  intros j sizes Sz. rewrite !fed_pool_train by (auto; destruct SD; constructor; auto).
  rewrite (fed_train_jobs G k stuck fuel score callback assign j t sizes Sz). split; reflexivity.
Qed.

(** Uniform feedback with at least two classes: no draw of a negative class loops
    for ever anywhere in the run.  What the run would go on with if one did ([stuck]), and
    the bound on the draws beyond the period of the engine, do not matter. *)
Theorem C134_uniform_ends : forall G stuck stuck' fuel fuel' Sc Sc' score callback assign t,
  tame stuck -> tame stuck' -> 2147483646 <= Z.of_nat fuel -> 2147483646 <= Z.of_nat fuel' ->
  pool_with (fb_step stuck fuel FUniform) Sc -> pool_with (fb_step stuck' fuel' FUniform) Sc' ->
  sound t -> 2 <= Z.of_nat (tm_ncls (t_m t)) <= 2147483645 -> engine_draws (tm_ncls (t_m t)) G ->
  train (chosen_backend G FUniform stuck fuel Sc score callback assign) t =
  train (chosen_backend G FUniform stuck' fuel' Sc' score callback assign) t.
Proof.
  intros G stuck stuck' fuel fuel' Sc Sc' score callback assign t T1 T2 F1 F2 H1 H2 SD HN HG. unfold chosen_backend.
  rewrite !fed_pool_train by auto. apply (uniform_train (tm_ncls (t_m t))); auto.
Qed.
(** Every negative class drawn differs from the label, for each call of process. *)
Theorem C134_negative_differs : forall stuck fuel label f x p, 2147483646 <= Z.of_nat fuel ->
  2 <= Z.of_nat (fb_ncls f) <= 2147483645 -> eng_state x -> fb_rng f = mkRng (rng_src (uni_rng (fb_ncls f) x)) p ->
  let f' := fb_step stuck fuel FUniform label f in
  fb_pos f' = label /\ fb_neg f' <> label /\ (fb_neg f' < fb_ncls f)%nat /\
  fb_pp f' = pos_prob (fb_thr f) (nth label (fb_votes f) 0) /\ fb_np f' = neg_prob (fb_thr f) (nth (fb_neg f') (fb_votes f) 0).
Proof.
  intros stuck fuel label f x p HF HN Hx Hr f'.
  destruct (engine_ends (fb_ncls f) HN fuel label f HF) as [g [A _]]; [split; [reflexivity|exists x, p; auto]|].
  assert (E : f' = g) by (unfold f'; cbn [fb_step]; rewrite A; reflexivity). rewrite E.
  destruct (ProofsFeedback.uniform_spec fuel label f g ltac:(lia) A) as [B1 [B2 [B3 [B4 [B5 _]]]]]. repeat split; assumption.
Qed.

(** An unknown feedback type, and uniform feedback for a multi-label machine, are
    refused before anything is changed. *)
Theorem C134_refused : forall G k stuck fuel Sc score callback assign t dt de, t_train t = Some dt -> t_eval t = Some de ->
  kinds_match (Some dt) (Some de) = true -> t_folds t <= 1 ->
  (k = FUnknown -> train (chosen_backend G k stuck fuel Sc score callback assign) t = (Raise ValueError, t)) /\
  (k = FUniform -> tm_multi (t_m t) = true -> train (chosen_backend G k stuck fuel Sc score callback assign) t = (Raise NotImplementedError, t)).
Proof.
  intros G k stuck fuel Sc score callback assign t dt de Ht He Hk Hf.
  assert (Fo : (t_folds t >? 1) = false) by (rewrite Z.gtb_ltb; apply Z.ltb_ge; lia).
  assert (W : with_m (t_m t) t = t) by (destruct t; reflexivity).
  split; intros ->; [|intros Hm]; unfold train; rewrite Fo; unfold train_inner; rewrite Ht, He, Hk; cbn [negb];
    unfold chosen_backend, fed_threaded; cbn [bk_construct]; unfold chosen_construct; [|rewrite Hm]; cbn [get_feedback_block]; rewrite W; reflexivity.
Qed.

(** ** Example: the machine of PropertiesTrainerDense.v with uniform feedback *)

Definition uniform_gens : gens := mkGens (g_std run_gens) (g_fast run_gens) (fun seed => uni_rng 2 (eng_seed seed)) (g_shuffle run_gens) (g_junk run_gens).
Definition uniform_backend (k : feedback_type) (fuel : nat) : backend tm (list cblock) trun dense_state (list nat) :=
  chosen_backend uniform_gens k no_feedback fuel (come_as (fb_step no_feedback fuel k)) accuracy_score (fun _ _ _ => None)
    (fun k _ _ => Ok (map (fun j => (j mod 2)%nat) (seq 0 10))).
Definition uniform_result := train (uniform_backend FUniform 60) (run_trainer 2 4 PTrue 1 run_machine).
Example C134_case : sound (run_trainer 2 4 PTrue 1 run_machine) /\ tame no_feedback /\
  pool_with (fb_step no_feedback 60 FUniform) (come_as (fb_step no_feedback 60 FUniform)) /\
  (exists r s rs p, uniform_result = (Ok (Some r), snd uniform_result) /\ r_best r <> Fin 0 /\ r_best_epoch r <> None /\
     t_state (snd uniform_result) = Some s /\ compile_from_dense_state s = Ok rs /\ from_ruleset XLiterals false rs [] = Ok p) /\
  engine_draws 2 uniform_gens /\ tm_ncls (t_m (run_trainer 2 4 PTrue 1 run_machine)) = 2%nat /\
  (exists fuel, 2147483646 <= Z.of_nat fuel /\ pool_with (fb_step no_feedback fuel FUniform) (come_as (fb_step no_feedback fuel FUniform))).
Proof.
  split; [apply run_sound; [apply run_configured|reflexivity|reflexivity]|]. split; [apply no_feedback_tame|].
  split; [apply come_as_ok, no_feedback_tame|]. split.
  - eexists _, _, _, _. split; [vm_compute; reflexivity|]. split; [vm_compute; discriminate|]. split; [vm_compute; discriminate|].
    split; [vm_compute; reflexivity|]. split; vm_compute; reflexivity.
  - split; [intros seed; reflexivity|]. split; [reflexivity|]. exists (Z.to_nat 2147483646).
    split; [rewrite Z2Nat.id by lia; lia|apply come_as_ok, no_feedback_tame].
Qed.
(** The two kinds of feedback train differently; bounds of 60 and 30 draws do not. *)
Example C134_case_differs :
  t_state (snd (train (uniform_backend FFocused 60) (run_trainer 2 4 PTrue 1 run_machine))) <> t_state (snd uniform_result) /\
  t_state (snd (train (uniform_backend FUniform 30) (run_trainer 2 4 PTrue 1 run_machine))) = t_state (snd uniform_result).
Proof. split; [vm_compute; discriminate|vm_compute; reflexivity]. Qed.
(** With too few draws the run is another one. *)
Example C134_case_stuck :
  t_state (snd (train (uniform_backend FUniform 0) (run_trainer 2 4 PTrue 1 run_machine))) <> t_state (snd uniform_result).
Proof. vm_compute. discriminate. Qed.
Example C134_case_refused : fst (train (uniform_backend FUnknown 60) (run_trainer 2 4 PTrue 1 run_machine)) = Raise ValueError /\
  match tm_init 3 5 2 (SFloat (Fin (3#1))) 6 None false true with
  | Ok m => fst (train (uniform_backend FUniform 60) (run_trainer 2 4 PTrue 1 m)) = Raise NotImplementedError
  | Raise _ => False
  end.
Proof. vm_compute. auto. Qed.
Example C134_case_differs_class :
  let f := mkFb 3 10 [4; -3; 12] [0; 0; 0]%Q 0 0 0 0 0 0 (uni_rng 3 42) in
  fb_neg (fb_step no_feedback 9 FUniform 0 f) = 1%nat /\ rng_pos (fb_rng (fb_step no_feedback 9 FUniform 0 f)) = 2%nat.
Proof. vm_compute. auto. Qed.

Print Assumptions C134_best_state_scores.
Print Assumptions C134_last_state_scores.
Print Assumptions C134_last_fold.
Print Assumptions C134_usable.
Print Assumptions C134_n_jobs_independent.
Print Assumptions C134_uniform_ends.
Print Assumptions C134_negative_differs.
Print Assumptions C134_refused.
