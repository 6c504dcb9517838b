(** Complete training runs on NEON blocks: C135. *)
From Coq Require Import ZArith List Bool QArith Qround Lia.
From Verif Require Import Base BaseProofs Spec ModelInference ModelRuleSet ModelDense ModelFeedback ModelExecutor ModelLayout
  ModelMachine ModelTrainer ModelAvx2 ModelNeon ModelTrainerDense ModelTrainerAvx2 ModelTrainerNeon ModelPredictor SpecTraining SpecTrainerDense SpecAvx2 SpecNeon SpecTrainerAvx2 SpecTrainerNeon
  ProofsTrainer ProofsTrainerDense ProofsTrainerAvx2 ProofsTrainerNeon ProofsMachine ProofsTrainerPool ProofsTrainerRun ProofsTrainerParams SpecTrainerRun PropertiesTrainerDense.
Import ListNotations.
Open Scope Z_scope.

(** load_best_state: the state left in the machine is one whose exported
    predictor has exactly the reported best score on the evaluation data.
    [G]: any random numbers, [Sc]: any behaviour of the thread pool. *)
Theorem C135_best_state_scores_partial : forall G Sc score callback assign t r t' b, whole_nvectors G -> neon_pool Sc -> sound t ->
  (0 < tm_nlit (t_m t))%nat -> budgeted (t_m t) -> t_folds t <= 1 -> 1 <= t_epochs t -> t_load t = PTrue ->
  train (neon_threaded G Sc score callback assign) t = (Ok (Some r), t') ->
  r_best_epoch r = Some (Z.of_nat b) ->
  exists de s, t_eval t = Some de /\ t_state t' = Some s /\
    state_fits (tm_nlit (t_m t)) (Z.to_nat (tm_ncl (t_m t))) (tm_ncls (t_m t)) s /\
    (empties_first s -> predictor_scores score (tm_nlit (t_m t)) (tm_ncls (t_m t)) s de (r_best r)).
Proof.
  intros G Sc score callback assign t r t' b HV HS SD HN BG F E Ld H Eb. rewrite neon_pool_train in H by auto.
  apply train_no_folds in H; auto. destruct H as [H O].
  destruct (neon_inner_scored G score callback assign HV t t' SD HN E H) as [dt [de [r' [H1 [H2 [H3 [H4 _]]]]]]].
  rewrite H3 in O. inversion O; subst r'. destruct (H4 b Ld Eb) as [s [S1 [S2 S3]]]. exists de, s. auto.
Qed.

(** Otherwise the machine keeps the last state, and its exported predictor has
    the last score of the evaluation log. *)
Theorem C135_last_state_scores_partial : forall G Sc score callback assign t r t', whole_nvectors G -> neon_pool Sc -> sound t ->
  (0 < tm_nlit (t_m t))%nat -> budgeted (t_m t) -> t_folds t <= 1 -> 1 <= t_epochs t -> t_load t <> PTrue ->
  train (neon_threaded G Sc score callback assign) t = (Ok (Some r), t') ->
  exists de s v earlier, t_eval t = Some de /\ t_state t' = Some s /\ r_elog r = earlier ++ [v] /\
    state_fits (tm_nlit (t_m t)) (Z.to_nat (tm_ncl (t_m t))) (tm_ncls (t_m t)) s /\
    (empties_first s -> predictor_scores score (tm_nlit (t_m t)) (tm_ncls (t_m t)) s de v).
Proof.
  intros G Sc score callback assign t r t' HV HS SD HN BG F E Ld H. rewrite neon_pool_train in H by auto.
  apply train_no_folds in H; auto. destruct H as [H O].
  destruct (neon_inner_scored G score callback assign HV t t' SD HN E H) as [dt [de [r' [H1 [H2 [H3 [_ H4]]]]]]].
  rewrite H3 in O. inversion O; subst r'. destruct (H4 Ld) as [s [v [l [S1 [S2 [S3 S4]]]]]]. exists de, s, v, l. auto.
Qed.

(** With folds: the trainer ends with the data and the state of the last fold, and
    that state's predictor has the best score of the last fold on the last fold's
    validation data. *)
Theorem C135_last_fold_partial : forall G Sc score callback assign t r t', whole_nvectors G -> neon_pool Sc -> sound t ->
  (0 < tm_nlit (t_m t))%nat -> budgeted (t_m t) -> 1 < t_folds t -> 1 <= t_epochs t -> t_load t = PTrue ->
  train (neon_threaded G Sc score callback assign) t = (Ok (Some r), t') ->
  exists de last earlier, t_eval t' = Some de /\ r_elog r = earlier ++ r_elog last /\
    ((exists b, r_best_epoch last = Some (Z.of_nat b) /\ r_best last = nth b (r_elog last) Fnan /\
       exists s, t_state t' = Some s /\ state_fits (tm_nlit (t_m t)) (Z.to_nat (tm_ncl (t_m t))) (tm_ncls (t_m t)) s /\
         (empties_first s -> predictor_scores score (tm_nlit (t_m t)) (tm_ncls (t_m t)) s de (r_best last))) \/
     Forall (fun v => ~ fl_lt (Fin (-1)) v) (r_elog last)).
Proof.
  intros G Sc score callback assign t r t' HV HS SD HN BG F E Ld H. rewrite neon_pool_train in H by auto.
  exact (neon_last_fold G score callback assign HV t r t' SD HN F E Ld H).
Qed.

(** However a trainer is used - any number of successful train calls, with or
    without folds, with new data in between - the machine stays configured with
    its dimensions, the state fits it, and exporting a predictor cannot fail. *)
Theorem C135_usable : forall G Sc score callback assign t t', whole_nvectors G -> neon_pool Sc -> sound t -> (0 < tm_nlit (t_m t))%nat -> budgeted (t_m t) ->
  used (neon_threaded G Sc score callback assign) t t' ->
  configured (t_m t') /\ tm_ncl (t_m t') = tm_ncl (t_m t) /\ tm_nlit (t_m t') = tm_nlit (t_m t) /\ tm_ncls (t_m t') = tm_ncls (t_m t) /\
  forall s, t_state t' = Some s ->
    state_fits (tm_nlit (t_m t)) (Z.to_nat (tm_ncl (t_m t))) (tm_ncls (t_m t)) s /\
    exists rs, compile_from_dense_state s = Ok rs.
Proof.
  intros G Sc score callback assign t t' HV HS SD HN BG U. apply neon_used_same in U; auto. apply neon_used_sound in U; auto.
  destruct U as [[K MF _ _ _] [E1 [E2 E3]]]. split; [auto|]. split; [auto|]. split; [auto|]. split; [auto|].
  intros s Es. rewrite Es in MF. cbn [machine_fits] in MF. rewrite E1, E2, E3 in MF. split; [exact MF|].
  destruct MF as [S1 [S2 [S3 [S4 [S5 [S6 _]]]]]].
  destruct (ProofsRuleSet.compile_ok (tm_nlit (t_m t)) s) as [mm [Ec _]]; [|eauto].
  unfold ProofsRuleSet.dense_wf. rewrite S2. repeat split; auto; lia.
Qed.

(** Training again starts exactly where the state left off: the rows of the new
    blocks, without the padding of each half, are the rows of the state in order,
    and the weights are its weights. *)
Theorem C135_resume : forall G Sc score callback assign t t' dt de m x0 s, whole_nvectors G -> neon_pool Sc -> sound t -> (0 < tm_nlit (t_m t))%nat -> budgeted (t_m t) ->
  used (neon_threaded G Sc score callback assign) t t' ->
  launched (neon_threaded G Sc score callback assign) t' dt de m x0 -> t_state t' = Some s ->
  let blocks := map snd (x_blocks (vu_exec (vt_run x0))) in
  concat (map (fun b => map (fun row => firstn (a_nlit b) row ++ firstn (a_nlit b) (skipn (a_lmem b) row)) (a_rows b)) blocks) = ds_c s /\
  concat (map a_weights blocks) = ds_w s.
Proof.
  intros G Sc score callback assign t t' dt de m x0 s HV HS SD HN BG U L Es blocks. apply neon_used_same in U; auto. apply neon_used_sound in U; auto.
  destruct U as [[K MF MB Ft Fe] [_ [EN _]]]. destruct L as [L1 [L2 [cbs [L3 L4]]]].
  cbn [neon_threaded bk_construct bk_launch] in L3, L4.
  destruct (neon_launch G m cbs (t_state t') (t_n_jobs t') (t_seed t') dt) as [x|e] eqn:La; [|discriminate]. inversion L4; subst x0.
  pose proof (configured_ok _ K) as K0.
  destruct (construct_dims _ _ _ _ _ _ K0 L3) as [_ [D1 [D2 [D3 _]]]].
  destruct (neon_launch_ok G _ _ _ _ _ _ _ _ HV K0 ltac:(rewrite EN; exact HN) L3 MF La) as [A1 [A2 _]]. specialize (A2 s Es).
  destruct (neon_snap_spec m x _ _ _ A1 D2 ltac:(congruence) D3) as [_ [_ [_ [_ [_ [B1 B2]]]]]].
  rewrite A2 in B1, B2. subst blocks. cbn [vt_run]. rewrite !map_map. split; symmetry; [exact B1|exact B2].
Qed.

(** The results, the state and the exceptions of train do not depend on how the
    thread pool schedules its work. *)
Theorem C135_schedule_independent : forall G Sc Sc' score callback assign t, whole_nvectors G -> neon_pool Sc -> neon_pool Sc' -> sound t ->
  (0 < tm_nlit (t_m t))%nat -> budgeted (t_m t) ->
  train (neon_threaded G Sc score callback assign) t = train (neon_threaded G Sc' score callback assign) t.
Proof. intros. rewrite !neon_pool_train by auto. reflexivity. Qed.

(** With the block sizes set on the machine, n_jobs has no influence either. *)
Theorem C135_n_jobs_independent : forall G Sc Sc' score callback assign t j sizes, whole_nvectors G -> neon_pool Sc -> neon_pool Sc' -> sound t ->
  (0 < tm_nlit (t_m t))%nat -> budgeted (t_m t) -> tm_sizes (t_m t) = Some sizes ->
  fst (train (neon_threaded G Sc' score callback assign) (with_jobs j t)) = fst (train (neon_threaded G Sc score callback assign) t) /\
  snd (train (neon_threaded G Sc' score callback assign) (with_jobs j t)) =
    with_jobs j (snd (train (neon_threaded G Sc score callback assign) t)).
Proof.
  intros G Sc Sc' score callback assign t j sizes HV H1 H2 SD HN BG Sz. rewrite !neon_pool_train by (auto; destruct SD; constructor; auto).
  rewrite (neon_train_jobs G score callback assign j t sizes Sz). split; reflexivity.
Qed.

Lemma neon_alloc_nth : forall G l bs, neon_alloc_all G l = Some bs -> length bs = length l /\ forall i b, nth_error bs i = Some b ->
  exists e, nth_error l i = Some e /\ neon_alloc_block G (fst (fst e)) (snd (fst e)) = Some b.
Proof.
  intros G l. induction l as [|e l IH]; intros bs H; cbn [neon_alloc_all] in H.
  - inversion H; subst. split; [reflexivity|]. intros i b Hb. destruct i; discriminate.
  - destruct (neon_alloc_block G (fst (fst e)) (snd (fst e))) as [b0|] eqn:A; [|discriminate].
    destruct (neon_alloc_all G l) as [bs'|]; [|discriminate]. inversion H; subst bs. destruct (IH bs' eq_refl) as [L IH'].
    split; [cbn [length]; now rewrite L|]. intros i b Hb. destruct i; cbn [nth_error] in *.
    + inversion Hb; subst. eauto.
    + destruct (IH' i b Hb) as [e' Q]. eauto.
Qed.

(** Block [i] is initialised with seed + i and the s and budget dealt to it; the
    byte that random bytes are compared with is floor(255/s) - 126 within
    [-127, 126].  A machine that has a state overwrites clause rows and weights
    only. *)
Theorem C135_parameters : forall G Sc score callback assign t dt de m x0, configured (t_m t) -> budgeted (t_m t) ->
  launched (neon_threaded G Sc score callback assign) t dt de m x0 ->
  exists sizes, (forall sz, tm_sizes (t_m t) = Some sz -> sizes = sz) /\ zsum sizes = tm_ncl (t_m t) /\
  let x := vt_run x0 in let e := vu_exec x in
  length (x_blocks e) = length sizes /\
  fb_thr (x_fb e) = inject_Z (tm_threshold (t_m t)) /\ fb_ncls (x_fb e) = tm_ncls (t_m t) /\
  fb_rng (x_fb e) = n_fb G (t_seed t) /\ x_rng e = n_shuffle G (t_seed t) /\
  vu_boost x = tm_boost (t_m t) /\ vu_n x = tm_nlit (t_m t) /\
  vt_jobs x0 = t_n_jobs t /\
  forall i tb, nth_error (x_blocks e) i = Some tb -> fst tb = true /\
    exists b0 s budget q, cyclic (tm_s (t_m t)) i = Some s /\ (s = Fin q \/ forall q', s <> Fin q') /\
      cyclic (tm_budgets (t_m t)) i = Some (Some budget) /\
      neon_initialize (n_vec G) (n_std G) (n_fast G) (n_junk G (t_seed t + Z.of_nat i)) (tm_nlit (t_m t)) (Z.to_nat (nth i sizes 0)) (tm_ncls (t_m t))
        budget q (t_seed t + Z.of_nat i) = Some b0 /\
      snd tb = mkABlock (a_nlit b0) (a_lmem b0) (a_mask b0) (a_ncls b0) (a_rows (snd tb)) (a_weights (snd tb)) (a_outputs b0) (a_counts b0)
                 (a_votes b0) (a_budget b0) (a_cmp b0) (a_vrng b0) (a_fast b0) /\
      (t_state t = None -> snd tb = b0) /\
      a_budget (snd tb) = budget /\ a_nlit (snd tb) = tm_nlit (t_m t) /\ a_ncls (snd tb) = tm_ncls (t_m t) /\
      (0 < q -> a_cmp (snd tb) = Z.max (-127) (Z.min 126 (Qfloor (1 / q * 255) - 126)))%Q.
Proof.
  intros G Sc score callback assign t dt de m x0 K BG [L1 [L2 [cbs [L3 L4]]]].
  cbn [neon_threaded bk_construct bk_launch] in L3, L4.
  pose proof (configured_ok _ K) as K0.
  destruct (neon_launch G m cbs (t_state t) (t_n_jobs t) (t_seed t) dt) as [x|ex] eqn:La; [|discriminate]. inversion L4; subst x0. clear L4.
  unfold neon_launch in La. destruct (allocate_clause_blocks cbs (t_seed t)) as [l|] eqn:EA; [|discriminate].
  destruct (dealt _ _ _ _ _ _ _ K0 L3 EA) as [sizes [Z2 [Z3 [Z4 [Z5 [Z6 [D2 [D3 Z7]]]]]]]].
  exists sizes. split; [exact Z2|]. split; [exact Z3|]. cbv zeta. cbn [vt_run vt_jobs].
  destruct (_ || _); [discriminate|]. destruct (neon_alloc_all G l) as [bs|] eqn:EB; [|discriminate].
  destruct (neon_alloc_nth _ _ _ EB) as [Ll AN].
  set (bs' := match t_state t with None => bs | Some s => map2 with_aflat (save_state_in_backend s (map flat_of_ablock bs)) bs end) in *.
  assert (Lb : length bs' = length bs).
  { unfold bs'. destruct (t_state t); auto. rewrite map2_length. unfold save_state_in_backend. rewrite save_loop_length, map_length. lia. }
  assert (Hb : forall i b, nth_error bs' i = Some b -> exists b0, nth_error bs i = Some b0 /\ (t_state t = None -> b = b0) /\
     b = mkABlock (a_nlit b0) (a_lmem b0) (a_mask b0) (a_ncls b0) (a_rows b) (a_weights b) (a_outputs b0) (a_counts b0)
                 (a_votes b0) (a_budget b0) (a_cmp b0) (a_vrng b0) (a_fast b0)).
  { intros i b H. unfold bs' in H. destruct (t_state t) as [s|].
    - apply map2_nth in H. destruct H as [f [b0 [H1 [H2 H3]]]]. exists b0. split; [auto|]. split; [discriminate|]. subst b. reflexivity.
    - exists b. split; [auto|]. split; [auto|]. destruct b; reflexivity. }
  clearbody bs'. rewrite Z6 in La. injection La as La. subst x.
  cbn [vu_exec vu_bo vu_boost vu_n x_blocks x_fb x_rng new_fblock fb_thr fb_ncls fb_rng] in *. rewrite map_length.
  split; [congruence|]. split; [now rewrite Z5|]. split; [exact D3|]. split; [reflexivity|]. split; [reflexivity|].
  split; [reflexivity|]. split; [exact D2|]. split; [reflexivity|].
  intros i tb Ht. rewrite nth_error_map in Ht. destruct (nth_error bs' i) as [b|] eqn:Eb; [|discriminate]. inversion Ht; subst tb. clear Ht.
  cbn [fst snd]. split; [reflexivity|].
  destruct (Hb i b Eb) as [b0 [H1 [H2 H3]]]. destruct (AN i b0 H1) as [e [A1 A2]]. destruct (Z7 i e A1) as [A4 [s [bud [C1 [C2 C3]]]]].
  unfold neon_alloc_block in A2. rewrite C3, A4 in A2. cbn [c_nlit c_ncl c_ncls c_budget c_s] in A2.
  exists b0, s, bud, (s_of s). split; [exact C1|]. split; [destruct s; (left; reflexivity) || (right; discriminate)|]. split; [destruct C2 as [[C2 _]|[_ C2]]; [contradiction|exact C2]|].
  split; [exact A2|]. split; [exact H3|]. split; [exact H2|].
  assert (F : a_nlit b0 = tm_nlit (t_m t) /\ a_ncls b0 = tm_ncls (t_m t) /\ a_budget b0 = bud /\ a_cmp b0 = gtcmp_for_s (s_of s)).
  { clear - A2. unfold neon_initialize in A2. destruct (_ =? 0); [discriminate|]. destruct (neon_init_rows _ _ _). destruct (init_weights _ _ _).
    inversion A2; subst b0. cbn. auto. }
  destruct F as [F1 [F2 [F3 F4]]]. rewrite H3. cbn [a_budget a_nlit a_ncls a_cmp].
  split; [exact F3|]. split; [exact F1|]. split; [exact F2|]. intros Hq. rewrite F4. unfold gtcmp_for_s. set (q := s_of s) in *.
  assert (P : (0 <= 1 / q * 255)%Q).
  { apply Qmult_le_0_compat; [|discriminate]. unfold Qdiv. apply Qmult_le_0_compat; [discriminate|]. apply Qinv_le_0_compat. apply Qlt_le_weak. exact Hq. }
  set (y := (1 / q * 255)%Q) in *. clearbody y. clear - P. destruct y as [n d]. unfold Qle in P. cbn [Qnum Qden] in *. unfold Qfloor.
  rewrite Z.quot_div_nonneg by lia. lia.
Qed.

(** ** Example: the machine of PropertiesTrainerDense.v with a budget, its three literals in rows of 16 + 16 bytes *)

Definition neon_run_gens (a b : nat) : ngens :=
  mkNgens (fun seed => mkVrng (fun k => map (fun i => Z.of_nat ((37 * k + a * i + Z.to_nat seed) mod 256) - 128) (seq 0 16)) 0)
          (fun seed => mkRng (fun i => Z.of_nat ((3 * i + b + Z.to_nat seed) mod 11)%nat # 11) 0)
          (fun seed => mkRng (fun i => Z.of_nat ((5 * i + Z.to_nat seed) mod 13)%nat # 13) 0)
          (fun seed => mkRng (fun i => Z.of_nat ((4 * i + Z.to_nat seed) mod 17)%nat # 17) 0)
          (fun seed => mkIrng (fun i => (7 * i + Z.to_nat seed)%nat) 0)
          (fun _ => []).
Definition neon_machine : tm :=
  match tm_init 3 5 2 (SFloat (Fin (3#1))) 6 (Some 3) false false with Ok m => m | Raise _ => mkTm 0 0 0 [] 0 [] None false false None None None end.
Definition neon_run_backend (a b : nat) : backend tm (list cblock) vtrun dense_state (list nat) :=
  neon_threaded (neon_run_gens a b) neon_first_come accuracy_score (fun _ _ _ => None) (fun k _ _ => Ok (map (fun j => (j mod 2)%nat) (seq 0 10))).
Lemma neon_run_vectors : forall a b, whole_nvectors (neon_run_gens a b).
Proof. intros a b seed k. cbn [neon_run_gens n_vec vr_src]. now rewrite map_length, seq_length. Qed.
Lemma neon_run_configured : configured neon_machine.
Proof.
  exists 3%nat, 5, 2%nat, (SFloat (Fin (3#1))), 6, (Some 3), false, neon_machine, [], [].
  split; [reflexivity|]. split; [discriminate|]. split; [reflexivity|constructor].
Qed.
Lemma neon_run_two_blocks : configured (snd (set_num_clause_blocks (BInt 2) neon_machine)).
Proof.
  exists 3%nat, 5, 2%nat, (SFloat (Fin (3#1))), 6, (Some 3), false, neon_machine, [CBlocks (BInt 2)], [Ok tt].
  split; [reflexivity|]. split; [discriminate|]. split; [reflexivity|repeat constructor].
Qed.
Lemma neon_run_sound : forall jobs epochs load folds, sound (run_trainer jobs epochs load folds neon_machine).
Proof. intros. apply run_sound; [apply neon_run_configured|reflexivity|reflexivity]. Qed.

Definition neon_run_result (a b : nat) jobs epochs := train (neon_run_backend a b) (run_trainer jobs epochs PTrue 1 neon_machine).

(** Best score 3/4 in the third of four epochs, on two threads and two blocks; the
    predictor made from the state kept answers three of the four examples
    correctly. *)
Example C135_case : sound (run_trainer 2 4 PTrue 1 neon_machine) /\ whole_nvectors (neon_run_gens 5 0) /\ neon_pool neon_first_come /\
  (0 < tm_nlit neon_machine)%nat /\ budgeted neon_machine /\
  (exists r s rs p, neon_run_result 5 0 2 4 = (Ok (Some r), snd (neon_run_result 5 0 2 4)) /\ r_best r = Fin (3 # 4) /\ r_best_epoch r = Some 2 /\
     t_state (snd (neon_run_result 5 0 2 4)) = Some s /\
     ds_c s = [[0; -1; -2; -3; 0; 0]; [0; -3; 0; -2; 1; -1]; [-3; -2; 2; 2; 2; -2]; [1; 0; -3; -5; -3; 1]; [0; 0; 0; -2; 0; 0]] /\
     empties_first s /\
     compile_from_dense_state s = Ok rs /\
     from_ruleset XLiterals false rs [] = Ok p /\
     answers p (literal_rows 3 (d_x run_eval)) = [Ok (AClass 0); Ok (AClass 0); Ok (AClass 1); Ok (AClass 0)] /\
     map label_of (y_rows (d_y run_eval)) = [1; 0; 1; 0]%nat).
Proof.
  split; [apply neon_run_sound|]. split; [apply neon_run_vectors|]. split; [apply neon_first_come_ok|].
  split; [vm_compute; lia|]. split; [discriminate|].
  eexists _, _, _, _. split; [vm_compute; reflexivity|]. split; [vm_compute; reflexivity|]. split; [vm_compute; reflexivity|].
  split; [vm_compute; reflexivity|]. split; [vm_compute; reflexivity|].
  split; [intros j k Hj Hk; cbn [ds_c length] in Hk; do 5 (destruct k as [|k]; [vm_compute; discriminate|]); lia|].
  split; [vm_compute; reflexivity|]. split; [vm_compute; reflexivity|]. split; vm_compute; reflexivity.
Qed.
Lemma neon_small_fits : forall c w, length c = 5%nat -> length w = 5%nat -> Forall (fun r => exists a b, r = [a; b] /\ Z.abs a < 10 /\ Z.abs b < 10) w ->
  forall r k, (k < 2)%nat -> is_int16 (merged_weight c w r k).
Proof.
  intros c w Hc Hw F r k Hk.
  assert (Q : forall c w, length w = length c -> Forall (fun r => exists a b, r = [a; b] /\ Z.abs a < 10 /\ Z.abs b < 10) w ->
    Z.abs (merged_weight c w r k) <= 10 * Z.of_nat (length w)).
  { clear - Hk. induction c as [|a c IH]; intros [|b w] L F; cbn [merged_weight length] in *; try lia. inversion F as [|? ? [x [y [E [X Y]]]] F']; subst.
    specialize (IH w ltac:(lia) F'). destruct k as [|[|k]]; [| |lia]; cbn [nth] in *; match goal with |- context [if ?b then _ else _] => destruct b end; lia. }
  specialize (Q c w ltac:(lia) F). rewrite Hw in Q. unfold is_int16. lia.
Qed.
(** The int16 conditions of [predictor_scores] hold for this state. *)
Example C135_case_fits : match t_state (snd (neon_run_result 5 0 2 4)) with
  | Some s => votes_fit 3 2 s (literal_rows 3 (d_x run_eval))
  | None => False end.
Proof.
  assert (E : exists s, t_state (snd (neon_run_result 5 0 2 4)) = Some s /\
    ds_c s = [[0; -1; -2; -3; 0; 0]; [0; -3; 0; -2; 1; -1]; [-3; -2; 2; 2; 2; -2]; [1; 0; -3; -5; -3; 1]; [0; 0; 0; -2; 0; 0]] /\
    ds_w s = [[-1; 1]; [0; 4]; [1; -3]; [-3; 0]; [-2; 0]]) by (eexists; vm_compute; repeat split; reflexivity).
  destruct E as [s [-> [Ec Ew]]]. unfold votes_fit. rewrite Ec, Ew. split.
  - intros r k Hk. apply neon_small_fits; auto. repeat (apply Forall_cons || apply Forall_nil); eexists _, _; (split; [reflexivity|lia]).
  - repeat (apply Forall_cons || apply Forall_nil); intros c Hc; (destruct c as [|[|c]]; [| |lia]); vm_compute; split; discriminate.
Qed.

(** Without that condition on empty clauses the claim is false: this run reports
    2/4 as its best score, and the predictor exported from the state it kept gets
    three of the four examples right (the second clause is empty and counts as
    true in evaluation, because the first has a literal). *)
Theorem C135_best_state_scores_refuted : exists G Sc t r t' s rs p, whole_nvectors G /\ neon_pool Sc /\ sound t /\
  (0 < tm_nlit (t_m t))%nat /\ budgeted (t_m t) /\ t_folds t <= 1 /\ 1 <= t_epochs t /\ t_load t = PTrue /\
  train (neon_threaded G Sc accuracy_score (fun _ _ _ => None) (fun _ _ _ => Raise ValueError)) t = (Ok (Some r), t') /\
  r_best_epoch r = Some 0 /\ r_best r = Fin (2 # 4) /\ t_eval t = Some run_eval /\ t_state t' = Some s /\
  compile_from_dense_state s = Ok rs /\ from_ruleset XLiterals false rs [] = Ok p /\
  votes_fit 3 2 s (literal_rows 3 (d_x run_eval)) /\
  hits (answers p (literal_rows 3 (d_x run_eval))) (map label_of (y_rows (d_y run_eval))) = 3 /\
  ~ predictor_scores accuracy_score (tm_nlit (t_m t)) (tm_ncls (t_m t)) s run_eval (r_best r).
Proof.
  exists (neon_run_gens 3 1), neon_first_come, (run_trainer 1 1 PTrue 1 neon_machine).
  eexists _, _, _, _, _. split; [apply neon_run_vectors|]. split; [apply neon_first_come_ok|]. split; [apply neon_run_sound|].
  split; [vm_compute; lia|]. split; [discriminate|]. split; [vm_compute; discriminate|]. split; [vm_compute; discriminate|]. split; [reflexivity|].
  split; [vm_compute; reflexivity|]. split; [reflexivity|]. split; [reflexivity|]. split; [reflexivity|]. split; [vm_compute; reflexivity|].
  split; [vm_compute; reflexivity|]. split; [vm_compute; reflexivity|].
  match goal with |- ?P /\ _ => assert (V : P) end.
  { unfold votes_fit. split.
    - intros r k Hk. apply neon_small_fits; auto. repeat (apply Forall_cons || apply Forall_nil); eexists _, _; (split; [reflexivity|lia]).
    - repeat (apply Forall_cons || apply Forall_nil); intros c Hc; (destruct c as [|[|c]]; [| |lia]); vm_compute; split; discriminate. }
  split; [exact V|]. split; [vm_compute; reflexivity|].
  intros [rs [R1 R2]]. vm_compute in R1. inversion R1; subst rs. clear R1.
  destruct (R2 XLiterals false [] _ eq_refl V) as [ys [A1 A2]].
  match type of A1 with ?L = _ => let v := eval vm_compute in L in change L with v in A1 end.
  destruct ys as [|y0 [|y1 [|y2 [|y3 [|y4 ys]]]]]; cbn [map] in A1; try discriminate. injection A1 as <- <- <- <-. vm_compute in A2. discriminate.
Qed.

(** Two calls of train: the second goes on from the state of the first.  With
    sizes set, 1 and 4 threads agree. *)
Example C135_case_again :
  (let '(r1, t1) := train (neon_run_backend 5 0) (run_trainer 2 4 PTrue 1 neon_machine) in
   let '(r2, t2) := train (neon_run_backend 5 0) t1 in
   match r1, r2 with Ok _, Ok _ => True | _, _ => False end /\ t_state t1 <> None /\ t_state t2 <> t_state t1) /\
  (let m := snd (set_num_clause_blocks (BInt 2) neon_machine) in
   sound (run_trainer 1 3 PTrue 1 m) /\ tm_sizes m = Some [3; 2] /\
   with_jobs 4 (run_trainer 1 3 PTrue 1 m) = run_trainer 4 3 PTrue 1 m /\
   t_state (snd (train (neon_run_backend 5 0) (run_trainer 4 3 PTrue 1 m))) = t_state (snd (train (neon_run_backend 5 0) (run_trainer 1 3 PTrue 1 m)))).
Proof.
  split; [vm_compute; repeat split; discriminate|]. cbv zeta. split; [apply run_sound; [apply neon_run_two_blocks|reflexivity|reflexivity]|].
  split; [reflexivity|]. split; [reflexivity|]. vm_compute. reflexivity.
Qed.
(** Three folds. *)
Example C135_case_folds :
  let B := neon_threaded (neon_run_gens 5 0) neon_first_come accuracy_score (fun _ _ _ => None) (fun k _ _ => Ok (map (fun j => (j mod 3)%nat) (seq 0 10))) in
  let '(r, t') := train B (run_trainer 1 1 PTrue 3 neon_machine) in
  exists r0, r = Ok (Some r0) /\ length (r_elog r0) = 3%nat /\ t_state t' <> None.
Proof. vm_compute. eexists. repeat split. discriminate. Qed.
(** Two blocks with the budget 3 and the comparison byte of s = 3. *)
Example C135_parameters_case : exists m x0,
  launched (neon_run_backend 5 0) (run_trainer 2 4 PTrue 1 neon_machine) run_train run_eval m x0 /\
  map (fun tb : bool * ablock => (length (a_rows (snd tb)), a_budget (snd tb), a_cmp (snd tb))) (x_blocks (vu_exec (vt_run x0))) =
    [(3%nat, 3, -41); (2%nat, 3, -41)].
Proof.
  eexists _, _. split; [split; [reflexivity|split; [reflexivity|]]; eexists; split; vm_compute; reflexivity|]. vm_compute. reflexivity.
Qed.

Print Assumptions C135_best_state_scores_partial.
Print Assumptions C135_last_state_scores_partial.
Print Assumptions C135_last_fold_partial.
Print Assumptions C135_best_state_scores_refuted.
Print Assumptions C135_usable.
Print Assumptions C135_resume.
Print Assumptions C135_schedule_independent.
Print Assumptions C135_n_jobs_independent.
Print Assumptions C135_parameters.
