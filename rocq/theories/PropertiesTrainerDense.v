(** Complete training runs of the dense machine: C79, C80, C81. *)
From Coq Require Import ZArith List Bool QArith Lia.
From Verif Require Import Base Spec ModelInference ModelRuleSet ModelDense ModelFeedback ModelExecutor ModelDenseExec ModelLayout
  ModelMachine ModelTrainer ModelTrainerDense ModelPredictor SpecTraining SpecTrainerDense ExampleData
  ProofsEval ProofsDenseExec ProofsMachine ProofsTrainer ProofsTrainerDense ProofsTrainerPool.
Import ListNotations.
Open Scope Z_scope.

(** ** Example data: a machine with five clauses over three literals, two classes *)

Definition run_gens : gens :=
  mkGens (fun seed => mkRng (fun i => Z.of_nat ((3 * i + Z.to_nat seed) mod 11)%nat # 11) 0)
         (fun seed => mkRng (fun i => Z.of_nat ((5 * i + Z.to_nat seed) mod 13)%nat # 13) 0)
         (fun seed => mkRng (fun i => Z.of_nat ((4 * i + Z.to_nat seed) mod 17)%nat # 17) 0)
         (fun seed => mkIrng (fun i => (7 * i + Z.to_nat seed)%nat) 0)
         (fun _ => []).
Definition run_x (rows : list (list Z)) : xarr := mkX KArray [length rows; 3%nat] true rows.
Definition run_y (ys : list Z) : yarr := mkY [length ys] true (map (fun y => [y]) ys).
Definition run_train : data := mkData (run_x [[1;0;0]; [0;1;1]; [1;1;0]; [0;0;1]; [1;0;1]; [0;1;0]]) (run_y [1;0;1;0;1;0]).
Definition run_eval : data := mkData (run_x [[1;1;1]; [0;0;0]; [1;0;0]; [0;1;0]]) (run_y [1;0;1;0]).
Definition run_machine : tm :=
  match tm_init 3 5 2 (SFloat (Fin (3#1))) 6 None false false with Ok m => m | Raise _ => mkTm 0 0 0 [] 0 [] None false false None None None end.
Definition run_trainer (jobs epochs : Z) (load : pyb) (folds : Z) (m : tm) : trainer tm dense_state :=
  mkTr jobs 1 epochs (Fin 2) load folds (Some run_train) (Some run_eval) None None m None.
Definition run_backend : backend tm (list cblock) trun dense_state (list nat) :=
  threaded_backend run_gens first_come accuracy_score (fun _ _ _ => None) (fun k _ _ => Ok (map (fun j => (j mod 2)%nat) (seq 0 10))).


Lemma run_configured : configured run_machine.
Proof.
  exists 3%nat, 5, 2%nat, (SFloat (Fin (3#1))), 6, None, false, run_machine, [], [].
  split; [reflexivity|]. split; [discriminate|]. split; [reflexivity|constructor].
Qed.
Lemma run_two_blocks : configured (snd (set_num_clause_blocks (BInt 2) run_machine)).
Proof.
  exists 3%nat, 5, 2%nat, (SFloat (Fin (3#1))), 6, None, false, run_machine, [CBlocks (BInt 2)], [Ok tt].
  split; [reflexivity|]. split; [discriminate|]. split; [reflexivity|repeat constructor].
Qed.
Lemma run_data_fits : data_fits 3 2 run_train /\ data_fits 3 2 run_eval.
Proof.
  unfold data_fits. split; (split; [reflexivity|split]).
  all: cbn [run_train run_eval run_x run_y d_x d_y x_rows y_rows literal_rows x_kind map].
  all: repeat (apply Forall_cons || apply Forall_nil); try (split; [reflexivity|]); unfold binary;
       repeat (apply Forall_cons || apply Forall_nil); auto; vm_compute; lia.
Qed.
Lemma run_sound : forall jobs epochs load folds m, configured m -> tm_nlit m = 3%nat -> tm_ncls m = 2%nat ->
  sound (run_trainer jobs epochs load folds m).
Proof.
  intros jobs epochs load folds m K N1 N2.
  constructor; cbn [run_trainer t_m t_state t_best t_train t_eval machine_fits]; auto;
    intros d Hd; inversion Hd; rewrite N1, N2; apply run_data_fits.
Qed.

Lemma Forall2_in_r : forall A C (Q : A -> C -> Prop) l l', Forall2 Q l l' -> forall c, In c l' -> exists a, In a l /\ Q a c.
Proof.
  intros A C Q l l' H. induction H as [|a c l l' HQ H IH]; intros c0 Hc; [contradiction|].
  destruct Hc as [->|Hc]; [exists a; split; [left|]; auto|]. destruct (IH c0 Hc) as [a0 [A1 A2]]. exists a0. split; [right|]; auto.
Qed.

(** ** C79 *)

(** load_best_state: the state left in the machine is one whose exported
    predictor has exactly the reported best score on the evaluation data.
    [G]: any random numbers, [Sc]: any behaviour of the thread pool. *)
Theorem C79_best_state_scores : forall G Sc score callback assign t r t' b, pool_schedule Sc -> sound t ->
  t_folds t <= 1 -> 1 <= t_epochs t -> t_load t = PTrue ->
  train (threaded_backend G Sc score callback assign) t = (Ok (Some r), t') ->
  r_best_epoch r = Some (Z.of_nat b) ->
  exists de s, t_eval t = Some de /\ t_state t' = Some s /\
    state_fits (tm_nlit (t_m t)) (Z.to_nat (tm_ncl (t_m t))) (tm_ncls (t_m t)) s /\
    predictor_scores score (tm_nlit (t_m t)) (tm_ncls (t_m t)) s de (r_best r).
Proof.
  intros G Sc score callback assign t r t' b HS SD F E Ld H Eb. rewrite pool_train in H by auto.
  apply train_no_folds in H; auto. destruct H as [H O].
  destruct (inner_scored G score callback assign t t' SD E H) as [dt [de [r' [H1 [H2 [H3 [H4 _]]]]]]].
  rewrite H3 in O. inversion O; subst r'. destruct (H4 b Ld Eb) as [s [S1 [S2 S3]]]. exists de, s. auto.
Qed.

(** Otherwise the machine keeps the last state, and its exported predictor has
    the last score of the evaluation log. *)
Theorem C79_last_state_scores : forall G Sc score callback assign t r t', pool_schedule Sc -> sound t ->
  t_folds t <= 1 -> 1 <= t_epochs t -> t_load t <> PTrue ->
  train (threaded_backend G Sc score callback assign) t = (Ok (Some r), t') ->
  exists de s v earlier, t_eval t = Some de /\ t_state t' = Some s /\ r_elog r = earlier ++ [v] /\
    state_fits (tm_nlit (t_m t)) (Z.to_nat (tm_ncl (t_m t))) (tm_ncls (t_m t)) s /\
    predictor_scores score (tm_nlit (t_m t)) (tm_ncls (t_m t)) s de v.
Proof.
  intros G Sc score callback assign t r t' HS SD F E Ld H. rewrite pool_train in H by auto.
  apply train_no_folds in H; auto. destruct H as [H O].
  destruct (inner_scored G score callback assign t t' SD E H) as [dt [de [r' [H1 [H2 [H3 [_ H4]]]]]]].
  rewrite H3 in O. inversion O; subst r'. destruct (H4 Ld) as [s [v [l [S1 [S2 [S3 S4]]]]]]. exists de, s, v, l. auto.
Qed.

(** With the default fn_eval_score the reported number is the fraction of
    evaluation examples the exported predictor gets right. *)
Lemma hits_map2 : forall ys labels, length labels = length ys ->
  hits (map (fun y => Ok (AClass y)) ys) labels = zsum (map2 (fun a b => if Nat.eqb a b then 1 else 0) labels ys).
Proof.
  induction ys as [|y ys IH]; intros [|l labels] H; try discriminate; auto. cbn [map hits map2 zsum]. rewrite IH; auto.
Qed.
Theorem C79_accuracy : forall G Sc callback assign t r t' b, pool_schedule Sc -> sound t ->
  t_folds t <= 1 -> 1 <= t_epochs t -> t_load t = PTrue ->
  train (threaded_backend G Sc accuracy_score callback assign) t = (Ok (Some r), t') ->
  r_best_epoch r = Some (Z.of_nat b) ->
  exists de s rs, t_eval t = Some de /\ t_state t' = Some s /\ compile_from_dense_state s = Ok rs /\
    forall mode excl junk p, from_ruleset mode excl rs junk = Ok p ->
      votes_fit (tm_nlit (t_m t)) (tm_ncls (t_m t)) s (literal_rows (tm_nlit (t_m t)) (d_x de)) ->
      let labels := map label_of (y_rows (d_y de)) in
      labels <> [] ->
      r_best r = Fin (inject_Z (hits (answers p (literal_rows (tm_nlit (t_m t)) (d_x de))) labels) /
                      inject_Z (Z.of_nat (length labels)))%Q.
Proof.
  intros G Sc callback assign t r t' b HS SD F E Ld H Eb.
  destruct (C79_best_state_scores G Sc accuracy_score callback assign t r t' b HS SD F E Ld H Eb) as [de [s [H1 [H2 [_ [rs [H3 H4]]]]]]].
  exists de, s, rs. split; [auto|]. split; [auto|]. split; [auto|].
  intros mode excl junk p Hp V labels Hl. destruct (H4 mode excl junk p Hp V) as [ys [A1 A2]]. rewrite A1.
  unfold accuracy_score in A2. fold labels in A2. destruct (Nat.eqb_spec (length labels) (length ys)) as [L|]; [|discriminate].
  cbn [negb] in A2. destruct labels as [|l labels'] eqn:EL; [congruence|]. inversion A2. now rewrite hits_map2.
Qed.

(** With folds: the trainer ends with the data and the state of the last fold, and
    that state's predictor has the best score of the last fold on the last fold's
    validation data. *)
Theorem C79_last_fold : forall G Sc score callback assign t r t', pool_schedule Sc -> sound t ->
  1 < t_folds t -> 1 <= t_epochs t -> t_load t = PTrue ->
  train (threaded_backend G Sc score callback assign) t = (Ok (Some r), t') ->
  exists de last earlier, t_eval t' = Some de /\ r_elog r = earlier ++ r_elog last /\
    ((exists b, r_best_epoch last = Some (Z.of_nat b) /\ r_best last = nth b (r_elog last) Fnan /\
       exists s, t_state t' = Some s /\ state_fits (tm_nlit (t_m t)) (Z.to_nat (tm_ncl (t_m t))) (tm_ncls (t_m t)) s /\
         predictor_scores score (tm_nlit (t_m t)) (tm_ncls (t_m t)) s de (r_best last)) \/
     Forall (fun v => ~ fl_lt (Fin (-1)) v) (r_elog last)).
Proof.
  intros G Sc score callback assign t r t' HS SD F E Ld H. rewrite pool_train in H by auto.
  apply train_folds in H; auto.
  destruct H as [a [b0 [all [folds [runs [t1 [best [r0 [Ha [Hb [Hst [_ [F2 [L [_ [Ho [-> Er]]]]]]]]]]]]]]]]]. assert (E0 : r0 = r) by congruence. rewrite E0 in *. clear E0 Ho r0.
  destruct (stack_fits _ _ _ _ _ Hst (sd_train _ SD _ Ha) (sd_eval _ SD _ Hb)) as [Ka D].
  destruct (runs_sound G score callback assign _ _ _ _ _ _ Ka D SD F2 L) as [FR _].
  assert (CF : forall u, In u runs -> same_config t (fr_before u)).
  { apply (linked_config _ _ _ _ _ (dense_backend G score callback assign) runs t t1 L). intros u Hu.
    destruct (Forall2_in_r _ _ _ _ _ F2 u Hu) as [i [_ [_ [K _]]]]. eauto. }
  assert (Hn : runs <> []).
  { intros ->. inversion F2 as [K|]. symmetry in K. apply (f_equal (@length nat)) in K. rewrite seq_length in K. cbn in K. lia. }
  destruct (exists_last Hn) as [rs [u Eu]]. subst runs.
  assert (Hu : In u (rs ++ [u])) by (apply in_or_app; right; left; auto).
  assert (Lt : t1 = fr_after u).
  { clear - L. revert t L. induction rs as [|v rs IH]; intros t L; cbn [app linked] in L.
    - destruct L as [_ [_ [_ [_ L]]]]. exact L.
    - destruct L as [_ [_ [_ [_ L]]]]. eapply IH; eauto. }
  destruct (proj1 (Forall_forall _ _) FR u Hu) as [SB [_ [M1 [M2 M3]]]].
  destruct (CF u Hu) as [_ [_ [C1 [_ [C2 _]]]]].
  destruct (Forall2_in_r _ _ _ _ _ F2 u Hu) as [i [_ [[R1 R2] [R3 R4]]]].
  destruct (inner_scored G score callback assign _ _ SB ltac:(lia) R3) as [dt [de [r' [H1 [H2 [H3 [H4 _]]]]]]].
  rewrite R4 in H3. inversion H3; subst r'.
  destruct (train_inner_config _ _ _ _ _ _ _ _ _ R3) as [_ [_ De]].
  exists de, (fr_results u), (concat (map (fun u => r_elog (fr_results u)) rs)).
  split; [cbn [with_results t_eval]; congruence|]. split.
  { rewrite Er. cbn [r_elog]. rewrite map_app, concat_app. cbn [map concat]. now rewrite app_nil_r. }
  apply train_inner_ok in R3; [|lia]. apply inner_reports in R3.
  destruct R3 as [dt' [de' [m [x0 [n [r2 [_ [_ [R5 R6]]]]]]]]]. rewrite R4 in R5. inversion R5; subst r2.
  destruct R6 as [_ [_ [_ [_ [[b [B1 [B2 [B3 B4]]]]|[B1 _]]]]]]; [left|right; exact B1].
  exists b. split; [auto|]. split; [auto|]. destruct (H4 b ltac:(congruence) B3) as [s [S1 [S2 S3]]].
  exists s. cbn [with_results t_state]. subst t1. rewrite M1, M2, M3 in *. auto.
Qed.


(** Best score 3/4 in the second of four epochs; the predictor made from the state
    kept answers three of the four examples correctly. *)
Definition run_result := train run_backend (run_trainer 2 4 PTrue 1 run_machine).
Example C79_case : sound (run_trainer 2 4 PTrue 1 run_machine) /\ pool_schedule first_come /\
  (exists r s rs p, run_result = (Ok (Some r), snd run_result) /\ r_best r = Fin (3 # 4) /\ r_best_epoch r = Some 1 /\
     t_state (snd run_result) = Some s /\ compile_from_dense_state s = Ok rs /\ length (rs_rules rs) = 5%nat /\
     from_ruleset XLiterals false rs [] = Ok p /\
     answers p (literal_rows 3 (d_x run_eval)) = [Ok (AClass 1); Ok (AClass 0); Ok (AClass 0); Ok (AClass 0)] /\
     map label_of (y_rows (d_y run_eval)) = [1; 0; 1; 0]%nat).
Proof.
  split; [apply run_sound; [apply run_configured|reflexivity|reflexivity]|]. split; [apply first_come_ok|].
  eexists _, _, _, _. split; [vm_compute; reflexivity|]. split; [vm_compute; reflexivity|]. split; [vm_compute; reflexivity|].
  split; [vm_compute; reflexivity|]. split; [vm_compute; reflexivity|]. split; [vm_compute; reflexivity|].
  split; [vm_compute; reflexivity|]. split; vm_compute; reflexivity.
Qed.
(** The int16 conditions of [predictor_scores] hold for this state. *)
Example C79_case_fits : match t_state (snd run_result) with
  | Some s => votes_fit 3 2 s (literal_rows 3 (d_x run_eval))
  | None => False end.
Proof.
  assert (E : exists s, t_state (snd run_result) = Some s /\ ds_c s = [[-3; -1; 0; 1; 0; -1]; [-1; -2; -1; 2; -2; -1];
               [-3; 0; 0; -2; -2; -3]; [0; -4; 1; -2; -1; -2]; [-2; 0; -2; 0; -1; -1]] /\
               ds_w s = [[0; -3]; [2; -2]; [1; -2]; [-2; 2]; [2; -1]]) by (eexists; vm_compute; repeat split; reflexivity).
  destruct E as [s [-> [Ec Ew]]]. unfold votes_fit. rewrite Ec, Ew. split.
  - intros r c Hc. cbn [merged_weight]. destruct c as [|[|c]]; [| |lia]; cbn [nth];
      repeat match goal with |- context [if ?b then _ else _] => destruct b end; vm_compute; split; discriminate.
  - repeat (apply Forall_cons || apply Forall_nil); intros c Hc; (destruct c as [|[|c]]; [| |lia]); vm_compute; split; discriminate.
Qed.

(** With folds the reported best score need not be the score of the state kept:
    here the second of three folds was the best, and the state is the last one's. *)
Example C79_case_folds :
  let B := threaded_backend run_gens first_come accuracy_score (fun _ _ _ => None) (fun k _ _ => Ok (map (fun j => (j mod 3)%nat) (seq 0 10))) in
  let '(r, t') := train B (run_trainer 1 1 PTrue 3 run_machine) in
  exists r0, r = Ok (Some r0) /\ r_best r0 = Fin (3 # 3) /\ r_elog r0 = [Fin (2 # 4); Fin (3 # 3); Fin (2 # 3)].
Proof. vm_compute. eexists. repeat split. Qed.

(** ** C80 *)

(** However a trainer is used - any number of successful train calls, with or
    without folds, with new data in between - the machine stays configured with
    its dimensions, the state fits it, and exporting a predictor cannot fail. *)
Lemma used_same : forall G Sc score callback assign t t', pool_schedule Sc -> sound t ->
  used (threaded_backend G Sc score callback assign) t t' -> used (dense_backend G score callback assign) t t'.
Proof.
  intros G Sc score callback assign t t' HS SD U.
  induction U as [|t1 o t2 U IH H|t1 x y t2 U IH H D|t1 x y t2 U IH H D]; [constructor| | |].
  - eapply used_train; [exact IH|]. rewrite <- H. symmetry. apply pool_train; auto.
    now apply (used_sound G score callback assign t).
  - eapply used_set_train; eauto.
  - eapply used_set_eval; eauto.
Qed.
Theorem C80_usable : forall G Sc score callback assign t t', pool_schedule Sc -> sound t ->
  used (threaded_backend G Sc score callback assign) t t' ->
  configured (t_m t') /\ tm_ncl (t_m t') = tm_ncl (t_m t) /\ tm_nlit (t_m t') = tm_nlit (t_m t) /\ tm_ncls (t_m t') = tm_ncls (t_m t) /\
  forall s, t_state t' = Some s ->
    state_fits (tm_nlit (t_m t)) (Z.to_nat (tm_ncl (t_m t))) (tm_ncls (t_m t)) s /\
    exists rs, compile_from_dense_state s = Ok rs.
Proof.
  intros G Sc score callback assign t t' HS SD U. apply used_same in U; auto. apply used_sound in U; auto.
  destruct U as [[K MF _ _ _] [E1 [E2 E3]]]. split; [auto|]. split; [auto|]. split; [auto|]. split; [auto|].
  intros s Es. rewrite Es in MF. cbn [machine_fits] in MF. rewrite E1, E2, E3 in MF. split; [exact MF|].
  destruct MF as [S1 [S2 [S3 [S4 [S5 [S6 _]]]]]].
  destruct (ProofsRuleSet.compile_ok (tm_nlit (t_m t)) s) as [mm [Ec _]]; [|eauto].
  unfold ProofsRuleSet.dense_wf. rewrite S2. repeat split; auto; lia.
Qed.

(** Training again starts exactly where the state left off: the clauses and
    weights of the new blocks, in order, are the rows of the state. *)
Theorem C80_resume : forall G Sc score callback assign t t' dt de m x0 s, pool_schedule Sc -> sound t ->
  used (threaded_backend G Sc score callback assign) t t' ->
  launched (threaded_backend G Sc score callback assign) t' dt de m x0 -> t_state t' = Some s ->
  let blocks := map snd (x_blocks (dr_exec (tr_run x0))) in
  concat (map (fun b => map (fun c => cl_pos c ++ cl_neg c) (b_clauses b)) blocks) = ds_c s /\
  concat (map b_weights blocks) = ds_w s.
Proof.
  intros G Sc score callback assign t t' dt de m x0 s HS SD U L Es blocks. apply used_same in U; auto. apply used_sound in U; auto.
  destruct U as [[K MF MB Ft Fe] _]. destruct L as [L1 [L2 [cbs [L3 L4]]]].
  cbn [threaded_backend bk_construct bk_launch] in L3, L4.
  destruct (dense_launch G m cbs (t_state t') (t_n_jobs t') (t_seed t') dt) as [x|e] eqn:La; [|discriminate]. inversion L4; subst x0.
  pose proof (configured_ok _ K) as K0.
  destruct (construct_dims _ _ _ _ _ _ K0 L3) as [_ [D1 [D2 [D3 _]]]].
  destruct (launch_ok G _ _ _ _ _ _ _ _ K0 L3 MF La) as [A1 [A2 _]]. specialize (A2 s Es).
  destruct (snap_spec m x _ _ _ A1 D2 ltac:(congruence) D3) as [_ [_ [_ [_ [_ [B1 B2]]]]]].
  rewrite A2 in B1, B2. subst blocks. cbn [tr_run]. rewrite !map_map. split; symmetry; [exact B1|exact B2].
Qed.

(** Two calls of train: the second goes on from the state of the first. *)
Example C80_case :
  let '(r1, t1) := train run_backend (run_trainer 2 4 PTrue 1 run_machine) in
  let '(r2, t2) := train run_backend t1 in
  match r1, r2 with Ok _, Ok _ => True | _, _ => False end /\ t_state t1 <> None /\ t_state t2 <> t_state t1.
Proof. vm_compute. repeat split; discriminate. Qed.
Example C80_case_used : forall t1 t2 o1 o2,
  train run_backend (run_trainer 2 4 PTrue 1 run_machine) = (Ok o1, t1) -> train run_backend t1 = (Ok o2, t2) ->
  used run_backend (run_trainer 2 4 PTrue 1 run_machine) t2.
Proof. intros t1 t2 o1 o2 H1 H2. eapply used_train; [eapply used_train; [apply used_new|exact H1]|exact H2]. Qed.

(** ** C81 *)

(** The results, the state and the exceptions of train do not depend on how the
    thread pool schedules its work. *)
Theorem C81_schedule_independent : forall G Sc Sc' score callback assign t, pool_schedule Sc -> pool_schedule Sc' -> sound t ->
  train (threaded_backend G Sc score callback assign) t = train (threaded_backend G Sc' score callback assign) t.
Proof. intros. rewrite !pool_train by auto. reflexivity. Qed.

(** With the block sizes set on the machine, n_jobs has no influence either: one
    thread or many, the same results and the same trainer but for n_jobs. *)
Theorem C81_n_jobs_independent : forall G Sc Sc' score callback assign t j sizes, pool_schedule Sc -> pool_schedule Sc' -> sound t ->
  tm_sizes (t_m t) = Some sizes ->
  fst (train (threaded_backend G Sc' score callback assign) (with_jobs j t)) = fst (train (threaded_backend G Sc score callback assign) t) /\
  snd (train (threaded_backend G Sc' score callback assign) (with_jobs j t)) =
    with_jobs j (snd (train (threaded_backend G Sc score callback assign) t)).
Proof.
  intros G Sc Sc' score callback assign t j sizes H1 H2 SD Sz. rewrite !pool_train by (auto; destruct SD; constructor; auto).
  rewrite (train_jobs G score callback assign j t sizes Sz). split; reflexivity.
Qed.

(** With sizes set: 1 and 4 threads agree.  Without: n_jobs becomes the number of
    blocks, and the run is a different one. *)
Example C81_case :
  let m := snd (set_num_clause_blocks (BInt 2) run_machine) in
  sound (run_trainer 1 3 PTrue 1 m) /\ tm_sizes m = Some [3; 2] /\
  with_jobs 4 (run_trainer 1 3 PTrue 1 m) = run_trainer 4 3 PTrue 1 m /\
  t_state (snd (train run_backend (run_trainer 4 3 PTrue 1 m))) = t_state (snd (train run_backend (run_trainer 1 3 PTrue 1 m))) /\
  t_state (snd (train run_backend (run_trainer 2 3 PTrue 1 run_machine))) <> t_state (snd (train run_backend (run_trainer 1 3 PTrue 1 run_machine))).
Proof.
  cbv zeta. split; [apply run_sound; [apply run_two_blocks|reflexivity|reflexivity]|].
  split; [reflexivity|]. split; [reflexivity|]. split; [vm_compute; reflexivity|]. vm_compute. discriminate.
Qed.

Print Assumptions C79_best_state_scores.
Print Assumptions C79_last_state_scores.
Print Assumptions C79_accuracy.
Print Assumptions C79_last_fold.
Print Assumptions C80_usable.
Print Assumptions C80_resume.
Print Assumptions C81_schedule_independent.
Print Assumptions C81_n_jobs_independent.
