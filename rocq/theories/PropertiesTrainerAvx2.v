(** Complete training runs on AVX2 blocks: C127. *)
From Coq Require Import ZArith List Bool QArith Lia.
From Verif Require Import Base Spec ModelInference ModelRuleSet ModelDense ModelFeedback ModelExecutor ModelLayout
  ModelMachine ModelTrainer ModelAvx2 ModelTrainerDense ModelTrainerAvx2 ModelPredictor SpecTraining SpecTrainerDense SpecAvx2 SpecTrainerAvx2
  ProofsTrainer ProofsTrainerDense ProofsTrainerAvx2 PropertiesTrainerDense.
Import ListNotations.
Open Scope Z_scope.

(** load_best_state: the state left in the machine is one whose exported
    predictor has exactly the reported best score on the evaluation data.
    [G]: any random numbers, [Sc]: any behaviour of the thread pool. *)
Theorem C127_best_state_scores : forall G Sc score callback assign t r t' b, whole_vectors G -> avx_pool Sc -> sound t ->
  (0 < tm_nlit (t_m t))%nat -> t_folds t <= 1 -> 1 <= t_epochs t -> t_load t = PTrue ->
  train (avx_threaded G Sc score callback assign) t = (Ok (Some r), t') ->
  r_best_epoch r = Some (Z.of_nat b) ->
  exists de s, t_eval t = Some de /\ t_state t' = Some s /\
    state_fits (tm_nlit (t_m t)) (Z.to_nat (tm_ncl (t_m t))) (tm_ncls (t_m t)) s /\
    predictor_scores score (tm_nlit (t_m t)) (tm_ncls (t_m t)) s de (r_best r).
Proof.
  intros G Sc score callback assign t r t' b HV HS SD HN F E Ld H Eb. rewrite avx_pool_train in H by auto.
  apply train_no_folds in H; auto. destruct H as [H O].
  destruct (avx_inner_scored G score callback assign HV t t' SD HN E H) as [dt [de [r' [H1 [H2 [H3 [H4 _]]]]]]].
  rewrite H3 in O. inversion O; subst r'. destruct (H4 b Ld Eb) as [s [S1 [S2 S3]]]. exists de, s. auto.
Qed.

(** Otherwise the machine keeps the last state, and its exported predictor has
    the last score of the evaluation log. *)
Theorem C127_last_state_scores : forall G Sc score callback assign t r t', whole_vectors G -> avx_pool Sc -> sound t ->
  (0 < tm_nlit (t_m t))%nat -> t_folds t <= 1 -> 1 <= t_epochs t -> t_load t <> PTrue ->
  train (avx_threaded G Sc score callback assign) t = (Ok (Some r), t') ->
  exists de s v earlier, t_eval t = Some de /\ t_state t' = Some s /\ r_elog r = earlier ++ [v] /\
    state_fits (tm_nlit (t_m t)) (Z.to_nat (tm_ncl (t_m t))) (tm_ncls (t_m t)) s /\
    predictor_scores score (tm_nlit (t_m t)) (tm_ncls (t_m t)) s de v.
Proof.
  intros G Sc score callback assign t r t' HV HS SD HN F E Ld H. rewrite avx_pool_train in H by auto.
  apply train_no_folds in H; auto. destruct H as [H O].
  destruct (avx_inner_scored G score callback assign HV t t' SD HN E H) as [dt [de [r' [H1 [H2 [H3 [_ H4]]]]]]].
  rewrite H3 in O. inversion O; subst r'. destruct (H4 Ld) as [s [v [l [S1 [S2 [S3 S4]]]]]]. exists de, s, v, l. auto.
Qed.

(** With the default fn_eval_score the reported number is the fraction of
    evaluation examples the exported predictor gets right. *)
Theorem C127_accuracy : forall G Sc callback assign t r t' b, whole_vectors G -> avx_pool Sc -> sound t ->
  (0 < tm_nlit (t_m t))%nat -> t_folds t <= 1 -> 1 <= t_epochs t -> t_load t = PTrue ->
  train (avx_threaded G Sc accuracy_score callback assign) t = (Ok (Some r), t') ->
  r_best_epoch r = Some (Z.of_nat b) ->
  exists de s rs, t_eval t = Some de /\ t_state t' = Some s /\ compile_from_dense_state s = Ok rs /\
    forall mode excl junk p, from_ruleset mode excl rs junk = Ok p ->
      votes_fit (tm_nlit (t_m t)) (tm_ncls (t_m t)) s (literal_rows (tm_nlit (t_m t)) (d_x de)) ->
      let labels := map label_of (y_rows (d_y de)) in
      labels <> [] ->
      r_best r = Fin (inject_Z (hits (answers p (literal_rows (tm_nlit (t_m t)) (d_x de))) labels) /
                      inject_Z (Z.of_nat (length labels)))%Q.
Proof.
  intros G Sc callback assign t r t' b HV HS SD HN F E Ld H Eb.
  destruct (C127_best_state_scores G Sc accuracy_score callback assign t r t' b HV HS SD HN F E Ld H Eb) as [de [s [H1 [H2 [_ [rs [H3 H4]]]]]]].
  exists de, s, rs. split; [auto|]. split; [auto|]. split; [auto|].
  intros mode excl junk p Hp V labels Hl. destruct (H4 mode excl junk p Hp V) as [ys [A1 A2]]. rewrite A1.
  unfold accuracy_score in A2. fold labels in A2. destruct (Nat.eqb_spec (length labels) (length ys)) as [L|]; [|discriminate].
  cbn [negb] in A2. destruct labels as [|l labels'] eqn:EL; [congruence|]. inversion A2. now rewrite hits_map2.
Qed.

(** With folds: the trainer ends with the data and the state of the last fold, and
    that state's predictor has the best score of the last fold on the last fold's
    validation data. *)
Theorem C127_last_fold : forall G Sc score callback assign t r t', whole_vectors G -> avx_pool Sc -> sound t ->
  (0 < tm_nlit (t_m t))%nat -> 1 < t_folds t -> 1 <= t_epochs t -> t_load t = PTrue ->
  train (avx_threaded G Sc score callback assign) t = (Ok (Some r), t') ->
  exists de last earlier, t_eval t' = Some de /\ r_elog r = earlier ++ r_elog last /\
    ((exists b, r_best_epoch last = Some (Z.of_nat b) /\ r_best last = nth b (r_elog last) Fnan /\
       exists s, t_state t' = Some s /\ state_fits (tm_nlit (t_m t)) (Z.to_nat (tm_ncl (t_m t))) (tm_ncls (t_m t)) s /\
         predictor_scores score (tm_nlit (t_m t)) (tm_ncls (t_m t)) s de (r_best last)) \/
     Forall (fun v => ~ fl_lt (Fin (-1)) v) (r_elog last)).
Proof.
  intros G Sc score callback assign t r t' HV HS SD HN F E Ld H. rewrite avx_pool_train in H by auto.
  exact (avx_last_fold G score callback assign HV t r t' SD HN F E Ld H).
Qed.

(** However a trainer is used - any number of successful train calls, with or
    without folds, with new data in between - the machine stays configured with
    its dimensions, the state fits it, and exporting a predictor cannot fail. *)
Theorem C127_usable : forall G Sc score callback assign t t', whole_vectors G -> avx_pool Sc -> sound t -> (0 < tm_nlit (t_m t))%nat ->
  used (avx_threaded G Sc score callback assign) t t' ->
  configured (t_m t') /\ tm_ncl (t_m t') = tm_ncl (t_m t) /\ tm_nlit (t_m t') = tm_nlit (t_m t) /\ tm_ncls (t_m t') = tm_ncls (t_m t) /\
  forall s, t_state t' = Some s ->
    state_fits (tm_nlit (t_m t)) (Z.to_nat (tm_ncl (t_m t))) (tm_ncls (t_m t)) s /\
    exists rs, compile_from_dense_state s = Ok rs.
Proof.
  intros G Sc score callback assign t t' HV HS SD HN U. apply avx_used_same in U; auto. apply avx_used_sound in U; auto.
  destruct U as [[K MF _ _ _] [E1 [E2 E3]]]. split; [auto|]. split; [auto|]. split; [auto|]. split; [auto|].
  intros s Es. rewrite Es in MF. cbn [machine_fits] in MF. rewrite E1, E2, E3 in MF. split; [exact MF|].
  destruct MF as [S1 [S2 [S3 [S4 [S5 [S6 _]]]]]].
  destruct (ProofsRuleSet.compile_ok (tm_nlit (t_m t)) s) as [mm [Ec _]]; [|eauto].
  unfold ProofsRuleSet.dense_wf. rewrite S2. repeat split; auto; lia.
Qed.

(** Training again starts exactly where the state left off: the rows of the new
    blocks, without the padding of each half, are the rows of the state in order,
    and the weights are its weights. *)
Theorem C127_resume : forall G Sc score callback assign t t' dt de m x0 s, whole_vectors G -> avx_pool Sc -> sound t -> (0 < tm_nlit (t_m t))%nat ->
  used (avx_threaded G Sc score callback assign) t t' ->
  launched (avx_threaded G Sc score callback assign) t' dt de m x0 -> t_state t' = Some s ->
  let blocks := map snd (x_blocks (vu_exec (vt_run x0))) in
  concat (map (fun b => map (fun row => firstn (a_nlit b) row ++ firstn (a_nlit b) (skipn (a_lmem b) row)) (a_rows b)) blocks) = ds_c s /\
  concat (map a_weights blocks) = ds_w s.
Proof.
  intros G Sc score callback assign t t' dt de m x0 s HV HS SD HN U L Es blocks. apply avx_used_same in U; auto. apply avx_used_sound in U; auto.
  destruct U as [[K MF MB Ft Fe] [_ [EN _]]]. destruct L as [L1 [L2 [cbs [L3 L4]]]].
  cbn [avx_threaded bk_construct bk_launch] in L3, L4.
  destruct (avx_launch G m cbs (t_state t') (t_n_jobs t') (t_seed t') dt) as [x|e] eqn:La; [|discriminate]. inversion L4; subst x0.
  pose proof (configured_ok _ K) as K0.
  destruct (construct_dims _ _ _ _ _ _ K0 L3) as [_ [D1 [D2 [D3 _]]]].
  destruct (avx_launch_ok G _ _ _ _ _ _ _ _ HV K0 ltac:(rewrite EN; exact HN) L3 MF La) as [A1 [A2 _]]. specialize (A2 s Es).
  destruct (avx_snap_spec m x _ _ _ A1 D2 ltac:(congruence) D3) as [_ [_ [_ [_ [_ [B1 B2]]]]]].
  rewrite A2 in B1, B2. subst blocks. cbn [vt_run]. rewrite !map_map. split; symmetry; [exact B1|exact B2].
Qed.

(** The results, the state and the exceptions of train do not depend on how the
    thread pool schedules its work. *)
Theorem C127_schedule_independent : forall G Sc Sc' score callback assign t, whole_vectors G -> avx_pool Sc -> avx_pool Sc' -> sound t ->
  (0 < tm_nlit (t_m t))%nat ->
  train (avx_threaded G Sc score callback assign) t = train (avx_threaded G Sc' score callback assign) t.
Proof. intros. rewrite !avx_pool_train by auto. reflexivity. Qed.

(** With the block sizes set on the machine, n_jobs has no influence either. *)
Theorem C127_n_jobs_independent : forall G Sc Sc' score callback assign t j sizes, whole_vectors G -> avx_pool Sc -> avx_pool Sc' -> sound t ->
  (0 < tm_nlit (t_m t))%nat -> tm_sizes (t_m t) = Some sizes ->
  fst (train (avx_threaded G Sc' score callback assign) (with_jobs j t)) = fst (train (avx_threaded G Sc score callback assign) t) /\
  snd (train (avx_threaded G Sc' score callback assign) (with_jobs j t)) =
    with_jobs j (snd (train (avx_threaded G Sc score callback assign) t)).
Proof.
  intros G Sc Sc' score callback assign t j sizes HV H1 H2 SD HN Sz. rewrite !avx_pool_train by (auto; destruct SD; constructor; auto).
  rewrite (avx_train_jobs G score callback assign j t sizes Sz). split; reflexivity.
Qed.

(** ** Example: the machine of PropertiesTrainerDense.v, its three literals in rows of 32 + 32 bytes *)

Definition avx_run_gens : vgens :=
  mkVgens (fun seed => mkVrng (fun k => map (fun i => Z.of_nat ((37 * k + 11 * i + Z.to_nat seed) mod 256) - 128) (seq 0 32)) 0)
          (fun seed => mkRng (fun i => Z.of_nat ((3 * i + Z.to_nat seed) mod 11)%nat # 11) 0)
          (fun seed => mkRng (fun i => Z.of_nat ((4 * i + Z.to_nat seed) mod 17)%nat # 17) 0)
          (fun seed => mkIrng (fun i => (7 * i + Z.to_nat seed)%nat) 0)
          (fun _ => []).
Definition avx_run_backend : backend tm (list cblock) vtrun dense_state (list nat) :=
  avx_threaded avx_run_gens avx_first_come accuracy_score (fun _ _ _ => None) (fun k _ _ => Ok (map (fun j => (j mod 2)%nat) (seq 0 10))).
Definition avx_run_result := train avx_run_backend (run_trainer 2 4 PTrue 1 run_machine).
Lemma avx_run_vectors : whole_vectors avx_run_gens.
Proof. intros seed k. cbn [avx_run_gens v_vec vr_src]. now rewrite map_length, seq_length. Qed.

(** Best score 3/4 in the last of four epochs, on two threads and two blocks; the
    predictor made from the state kept answers three of the four examples
    correctly. *)
Example C127_case : sound (run_trainer 2 4 PTrue 1 run_machine) /\ whole_vectors avx_run_gens /\ avx_pool avx_first_come /\
  (0 < tm_nlit (t_m (run_trainer 2 4 PTrue 1 run_machine)))%nat /\
  (exists r s rs p, avx_run_result = (Ok (Some r), snd avx_run_result) /\ r_best r = Fin (3 # 4) /\ r_best_epoch r = Some 3 /\
     t_state (snd avx_run_result) = Some s /\ ds_c s = [[-2; -1; -3; -1; 0; 0]; [1; -1; 1; -2; 1; -2];
            [-3; -1; 0; 0; -3; -5]; [0; -1; -2; -5; 0; 1]; [0; 0; -3; -3; -2; -1]] /\
     compile_from_dense_state s = Ok rs /\
     from_ruleset XLiterals false rs [] = Ok p /\
     answers p (literal_rows 3 (d_x run_eval)) = [Ok (AClass 1); Ok (AClass 1); Ok (AClass 1); Ok (AClass 0)] /\
     map label_of (y_rows (d_y run_eval)) = [1; 0; 1; 0]%nat).
Proof.
  split; [apply run_sound; [apply run_configured|reflexivity|reflexivity]|]. split; [apply avx_run_vectors|]. split; [apply avx_first_come_ok|].
  split; [vm_compute; lia|].
  eexists _, _, _, _. split; [vm_compute; reflexivity|]. split; [vm_compute; reflexivity|]. split; [vm_compute; reflexivity|].
  split; [vm_compute; reflexivity|]. split; [vm_compute; reflexivity|]. split; [vm_compute; reflexivity|].
  split; [vm_compute; reflexivity|]. split; vm_compute; reflexivity.
Qed.
(** The int16 conditions of [predictor_scores] hold for this state. *)
Example C127_case_fits : match t_state (snd avx_run_result) with
  | Some s => votes_fit 3 2 s (literal_rows 3 (d_x run_eval))
  | None => False end.
Proof.
  assert (E : exists s, t_state (snd avx_run_result) = Some s /\ ds_c s = [[-2; -1; -3; -1; 0; 0]; [1; -1; 1; -2; 1; -2];
            [-3; -1; 0; 0; -3; -5]; [0; -1; -2; -5; 0; 1]; [0; 0; -3; -3; -2; -1]] /\
               ds_w s = [[-2; -1]; [-1; 3]; [1; -1]; [-1; 2]; [-2; 1]]) by (eexists; vm_compute; repeat split; reflexivity).
  destruct E as [s [-> [Ec Ew]]]. unfold votes_fit. rewrite Ec, Ew. split.
  - intros r c Hc. cbn [merged_weight]. destruct c as [|[|c]]; [| |lia]; cbn [nth];
      repeat match goal with |- context [if ?b then _ else _] => destruct b end; vm_compute; split; discriminate.
  - repeat (apply Forall_cons || apply Forall_nil); intros c Hc; (destruct c as [|[|c]]; [| |lia]); vm_compute; split; discriminate.
Qed.

(** Two calls of train: the second goes on from the state of the first.  With
    sizes set, 1 and 4 threads agree. *)
Example C127_case_again :
  (let '(r1, t1) := train avx_run_backend (run_trainer 2 4 PTrue 1 run_machine) in
   let '(r2, t2) := train avx_run_backend t1 in
   match r1, r2 with Ok _, Ok _ => True | _, _ => False end /\ t_state t1 <> None /\ t_state t2 <> t_state t1) /\
  (let m := snd (set_num_clause_blocks (BInt 2) run_machine) in
   sound (run_trainer 1 3 PTrue 1 m) /\ tm_sizes m = Some [3; 2] /\
   with_jobs 4 (run_trainer 1 3 PTrue 1 m) = run_trainer 4 3 PTrue 1 m /\
   t_state (snd (train avx_run_backend (run_trainer 4 3 PTrue 1 m))) = t_state (snd (train avx_run_backend (run_trainer 1 3 PTrue 1 m)))).
Proof.
  split; [vm_compute; repeat split; discriminate|]. cbv zeta. split; [apply run_sound; [apply run_two_blocks|reflexivity|reflexivity]|].
  split; [reflexivity|]. split; [reflexivity|]. vm_compute. reflexivity.
Qed.
(** Three folds. *)
Example C127_case_folds :
  let B := avx_threaded avx_run_gens avx_first_come accuracy_score (fun _ _ _ => None) (fun k _ _ => Ok (map (fun j => (j mod 3)%nat) (seq 0 10))) in
  let '(r, t') := train B (run_trainer 1 1 PTrue 3 run_machine) in
  exists r0, r = Ok (Some r0) /\ length (r_elog r0) = 3%nat /\ t_state t' <> None.
Proof. vm_compute. eexists. repeat split. discriminate. Qed.

Print Assumptions C127_best_state_scores.
Print Assumptions C127_last_state_scores.
Print Assumptions C127_accuracy.
Print Assumptions C127_last_fold.
Print Assumptions C127_usable.
Print Assumptions C127_resume.
Print Assumptions C127_schedule_independent.
Print Assumptions C127_n_jobs_independent.
