(** C124, C125: what a training run is given. *)
From Coq Require Import ZArith List Bool QArith Lia.
From Verif Require Import Base BaseProofs Spec ModelInference ModelRuleSet ModelDense ModelFeedback ModelExecutor ModelDenseExec ModelLayout
  ModelMachine ModelTrainer ModelTrainerDense ModelPredictor SpecTraining SpecTrainerDense SpecTrainerRun ExampleData
  ProofsEval ProofsHistory ProofsDenseExec ProofsMachine ProofsTrainer ProofsTrainerDense ProofsTrainerPool ProofsTrainerRun PropertiesTrainerDense.
Import ListNotations.
Open Scope Z_scope.

(** ** C124 *)

(** The blocks of a run: as many as there are sizes, all trainable; block [i] is
    initialised with seed + i, and its probabilities are 1/s and (s-1)/s for the
    s dealt to it.  A machine that has a state overwrites clauses and weights
    only.  65535 is the budget of a block that was given none. *)
Theorem C124_parameters : forall G Sc score callback assign t dt de m x0, configured (t_m t) -> machine_fits (t_m t) (t_state t) ->
  launched (threaded_backend G Sc score callback assign) t dt de m x0 ->
  exists sizes, (forall sz, tm_sizes (t_m t) = Some sz -> sizes = sz) /\ zsum sizes = tm_ncl (t_m t) /\
  let x := tr_run x0 in let e := dr_exec x in
  length (x_blocks e) = length sizes /\
  fb_thr (x_fb e) = inject_Z (tm_threshold (t_m t)) /\ fb_ncls (x_fb e) = tm_ncls (t_m t) /\
  fb_rng (x_fb e) = g_fb G (t_seed t) /\ x_rng e = g_shuffle G (t_seed t) /\
  (dr_bo x = false <-> hd_error (tm_budgets (t_m t)) = Some None) /\ dr_boost x = tm_boost (t_m t) /\ dr_n x = tm_nlit (t_m t) /\
  forall i tb, nth_error (x_blocks e) i = Some tb -> fst tb = true /\
    exists b0 s budget, cyclic (tm_s (t_m t)) i = Some s /\
      (hd_error (tm_budgets (t_m t)) = Some None /\ budget = 65535 \/
       hd_error (tm_budgets (t_m t)) <> Some None /\ cyclic (tm_budgets (t_m t)) i = Some (Some budget)) /\
      initialize (g_std G) (g_fast G) (g_junk G (t_seed t + Z.of_nat i)) (tm_nlit (t_m t)) (Z.to_nat (nth i sizes 0)) (tm_ncls (t_m t))
        budget (b_s_inv b0) (b_s_min1_inv b0) (t_seed t + Z.of_nat i) = Some b0 /\
      snd tb = mkBlock (b_nlit b0) (b_ncls b0) (b_clauses (snd tb)) (b_weights (snd tb)) (b_outputs b0) (b_counts b0) (b_votes b0)
                 (b_budget b0) (b_s_inv b0) (b_s_min1_inv b0) (b_rng b0) (b_fast b0) /\
      (t_state t = None -> snd tb = b0) /\
      b_budget (snd tb) = budget /\ b_nlit (snd tb) = tm_nlit (t_m t) /\ b_ncls (snd tb) = tm_ncls (t_m t) /\
      length (b_clauses b0) = Z.to_nat (nth i sizes 0) /\
      forall q, s = Fin q -> b_s_inv (snd tb) = (1 / q)%Q /\ b_s_min1_inv (snd tb) = ((q - 1) / q)%Q.
Proof.
  intros G Sc score callback assign t dt de m x0 K MF [L1 [L2 [cbs [L3 L4]]]].
  cbn [threaded_backend bk_construct bk_launch] in L3, L4.
  pose proof (configured_ok _ K) as K0.
  destruct (dense_launch G m cbs (t_state t) (t_n_jobs t) (t_seed t) dt) as [x|ex] eqn:La; [|discriminate]. inversion L4; subst x0. clear L4.
  destruct (launch_ok G _ _ _ _ _ _ _ _ K0 L3 MF La) as [[Rn RB RT RF] _].
  destruct (construct_sizes _ _ _ _ _ _ K0 L3) as [sizes [Z1 [Z2 [Z3 [Z4 [Z5 [Z6 Z7]]]]]]].
  destruct (construct_dims _ _ _ _ _ _ K0 L3) as [_ [_ [D2 [D3 _]]]].
  exists sizes. split; [exact Z2|]. split; [exact Z3|]. cbv zeta. cbn [tr_run].
  unfold dense_launch in La. destruct (allocate_clause_blocks cbs (t_seed t)) as [l|] eqn:EA; [|discriminate].
  assert (EA' : allocate_loop (t_seed t) cbs = Ok l) by (unfold allocate_clause_blocks in EA; destruct cbs; [discriminate|exact EA]).
  destruct (_ || _); [discriminate|]. destruct (alloc_all G l) as [bs|] eqn:EB; [|discriminate].
  assert (Ll : length bs = length sizes).
  { rewrite <- Z4, <- (allocate_loop_cbs _ _ _ EA'), map_length. clear - EB. revert bs EB. induction l as [|e l IH]; intros bs EB; cbn [alloc_all] in EB.
    - inversion EB; reflexivity.
    - destruct (alloc_block _ _ _); [|discriminate]. destruct (alloc_all G l); inversion EB; subst. cbn [length]. f_equal. auto. }
  set (bs' := match t_state t with None => bs | Some s => map2 with_flat (save_state_in_backend s (map flat_of_block bs)) bs end) in *.
  assert (Lb : length bs' = length bs).
  { unfold bs'. destruct (t_state t); auto. rewrite map2_length. unfold save_state_in_backend. rewrite save_loop_length, map_length. lia. }
  assert (Hb : forall i b, nth_error bs' i = Some b -> exists b0, nth_error bs i = Some b0 /\ (t_state t = None -> b = b0) /\
     b = mkBlock (b_nlit b0) (b_ncls b0) (b_clauses b) (b_weights b) (b_outputs b0) (b_counts b0) (b_votes b0)
                 (b_budget b0) (b_s_inv b0) (b_s_min1_inv b0) (b_rng b0) (b_fast b0)).
  { intros i b H. unfold bs' in H. destruct (t_state t) as [s|].
    - apply map2_nth in H. destruct H as [f [b0 [H1 [H2 H3]]]]. exists b0. split; [auto|]. split; [discriminate|]. subst b. reflexivity.
    - exists b. split; [auto|]. split; [auto|]. destruct b; reflexivity. }
  clearbody bs'. rewrite Z6 in La. injection La as La. subst x.
  cbn [dr_exec dr_bo dr_boost dr_n x_blocks x_fb x_rng new_fblock fb_thr fb_ncls fb_rng fst] in *. rewrite map_length.
  split; [congruence|]. split; [now rewrite Z5|]. split; [exact D3|]. split; [reflexivity|]. split; [reflexivity|].
  split.
  { unfold get_backend. cbn [fst]. destruct (tm_budgets (t_m t)) as [|[b|] l']; cbn [hd_error]; split; intros; try discriminate; congruence. }
  split; [reflexivity|]. split; [exact D2|].
  intros i tb Ht. rewrite nth_error_map in Ht. destruct (nth_error bs' i) as [b|] eqn:Eb; [|discriminate]. inversion Ht; subst tb. clear Ht.
  cbn [fst snd]. split; [reflexivity|].
  destruct (Hb i b Eb) as [b0 [H1 [H2 H3]]].
  destruct (alloc_nth G l bs EB i b0 H1) as [e [A1 A2]]. destruct (allocate_nth _ _ _ EA' i e A1) as [A3 A4].
  assert (Hi : (i < length sizes)%nat) by (rewrite <- Z4; apply nth_error_Some; rewrite A3; discriminate).
  destruct (Z7 i (fst (fst e)) Hi) as [bud [B1 B2]]. rewrite (nth_error_nth cbs i _ A3) in B2.
  unfold alloc_block in A2. rewrite B2 in A2. cbn [c_nlit c_ncl c_ncls c_budget c_s] in A2. rewrite A4 in A2.
  destruct K0 as [_ Ks Kb _ _].
  assert (F : b_nlit b0 = tm_nlit (t_m t) /\ b_ncls b0 = tm_ncls (t_m t) /\ b_budget b0 = bud /\
    b_s_inv b0 = s_inv_of (nth (i mod length (tm_s (t_m t))) (tm_s (t_m t)) Fnan) /\
    b_s_min1_inv b0 = s_min1_inv_of (nth (i mod length (tm_s (t_m t))) (tm_s (t_m t)) Fnan)).
  { clear - A2. unfold initialize in A2. destruct (_ =? 0); [discriminate|]. destruct (init_clauses _ _ _). destruct (init_weights _ _ _).
    inversion A2; subst b0. cbn. auto. }
  destruct F as [F1 [F2 [F3 [F4 F5]]]].
  exists b0, (nth (i mod length (tm_s (t_m t))) (tm_s (t_m t)) Fnan), bud.
  split.
  { unfold cyclic. apply nth_error_nth'. apply Nat.mod_upper_bound. destruct (tm_s (t_m t)); [congruence|discriminate]. }
  split.
  { unfold dealt_budget in B1. destruct (tm_budgets (t_m t)) as [|[z|] bl] eqn:Ebu; [congruence| |left; cbn [hd_error]; split; congruence].
    right. split; [discriminate|]. unfold cyclic.
    set (j := (i mod length (Some z :: bl))%nat) in *.
    assert (Hj : (j < length (Some z :: bl))%nat) by (apply Nat.mod_upper_bound; discriminate). clearbody j.
    rewrite (nth_error_nth' _ None Hj). destruct (nth j (Some z :: bl) None) as [w|]; [|discriminate]. cbn [as_uint32] in B1.
    destruct (_ && _); inversion B1. reflexivity. }
  split; [now rewrite F4, F5|]. split; [exact H3|]. split; [exact H2|].
  pose proof (initialize_spec _ _ _ _ _ _ _ _ _ _ _ A2) as [_ [_ [IL _]]].
  rewrite H3. cbn [b_budget b_nlit b_ncls b_s_inv b_s_min1_inv].
  split; [exact F3|]. split; [exact F1|]. split; [exact F2|]. split; [exact IL|].
  intros q Eq. rewrite F4, F5, Eq. split; reflexivity.
Qed.

(** s = 3 for both blocks of the example machine, sizes 3 and 2. *)
Example C124_case : exists m x0,
  launched run_backend (run_trainer 2 4 PTrue 1 run_machine) run_train run_eval m x0 /\
  map (fun tb => (b_s_inv (snd tb), b_s_min1_inv (snd tb), length (b_clauses (snd tb)), b_budget (snd tb))) (x_blocks (dr_exec (tr_run x0)))
    = [(1 # 3, 2 # 3, 3%nat, 65535); (1 # 3, 2 # 3, 2%nat, 65535)] /\
  configured run_machine /\ machine_fits run_machine None.
Proof.
  do 2 eexists. split.
  { split; [reflexivity|]. split; [reflexivity|]. eexists. split; vm_compute; reflexivity. }
  split; [vm_compute; reflexivity|]. split; [apply run_configured|exact I].
Qed.

(** ** C125 *)

(** A training run on a csr matrix is the run on the same matrix as an array:
    same results, same exceptions, same state, however the pool behaves. *)
Theorem C125_csr_run_partial : forall G Sc Sc' score callback assign t dt de dt' de', pool_schedule Sc -> pool_schedule Sc' -> sound t ->
  t_folds t <= 1 -> t_train t = Some dt -> t_eval t = Some de ->
  same_matrix (tm_nlit (t_m t)) dt dt' -> same_matrix (tm_nlit (t_m t)) de de' ->
  train (threaded_backend G Sc' score callback assign) (given dt' de' t) =
    (fst (train (threaded_backend G Sc score callback assign) t),
     given dt' de' (snd (train (threaded_backend G Sc score callback assign) t))).
Proof.
  intros G Sc Sc' score callback assign t dt de dt' de' H1 H2 SD F Et Ee Ht He.
  assert (SD' : sound (given dt' de' t)).
  { destruct SD as [K MF MB Ft Fe]. constructor; cbn [given with_train with_eval t_m t_state t_best t_train t_eval]; auto;
      intros d Hd; inversion Hd; subst d; eapply same_fits; eauto. }
  rewrite !pool_train by auto. unfold train.
  change (t_folds (given dt' de' t)) with (t_folds t). replace (t_folds t >? 1) with false by (symmetry; rewrite Z.gtb_ltb; apply Z.ltb_ge; lia).
  rewrite (inner_csr G score callback assign t dt de dt' de' SD Et Ee Ht He).
  destruct (train_inner _ t) as [[[]|ex] t1]; reflexivity.
Qed.

(** Not so with folds: stacking the two csr matrices fails. *)
Definition csr_x (rows : list (list Z)) : xarr := mkX KCsr [length rows; 3%nat] true rows.
Definition csr_train : data := mkData (csr_x [[0]; [2;1]; [1;0;1]; [2]; [0;2]; [1]]) (run_y [1;0;1;0;1;0]).
Definition csr_eval : data := mkData (csr_x [[2;0;1]; []; [0;0]; [1]]) (run_y [1;0;1;0]).
Theorem C125_refuted : exists t, same_matrix (tm_nlit (t_m t)) csr_train run_train /\ same_matrix (tm_nlit (t_m t)) csr_eval run_eval /\
  t_train t = Some csr_train /\ t_eval t = Some csr_eval /\
  fst (train run_backend t) = Raise ValueError /\
  exists r, fst (train run_backend (given run_train run_eval t)) = Ok (Some r) /\ r_best r = Fin (2 # 5).
Proof.
  exists (given csr_train csr_eval (run_trainer 2 4 PTrue 2 run_machine)).
  assert (Sr : forall cols row, forallb (fun c => (0 <=? c) && (c <? 3)) cols = true -> length row = 3%nat ->
    forallb (fun i => nth i row 0 =? (if existsb (Z.eqb (Z.of_nat i)) cols then 1 else 0)) (seq 0 3) = true -> same_row 3 cols row).
  { intros cols row A1 A2 A3. split.
    - apply Forall_forall. intros c Hc. rewrite forallb_forall in A1. specialize (A1 c Hc). lia.
    - split; [auto|]. intros i Hi. rewrite forallb_forall in A3. specialize (A3 i ltac:(apply in_seq; lia)). apply Z.eqb_eq in A3. rewrite A3.
      destruct (existsb (Z.eqb (Z.of_nat i)) cols) eqn:E.
      + apply existsb_exists in E. destruct E as [c [E1 E2]]. apply Z.eqb_eq in E2. subst c. split; [auto|contradiction].
      + split; [|auto]. intros Hin. exfalso. assert (existsb (Z.eqb (Z.of_nat i)) cols = true) by (apply existsb_exists; exists (Z.of_nat i); split; [auto|apply Z.eqb_refl]).
        congruence. }
  split; [|split; [|split; [reflexivity|split; [reflexivity|split; [vm_compute; reflexivity|]]]]].
  - split; [reflexivity|]. split; [reflexivity|]. split; [reflexivity|]. repeat (apply Forall2_cons || apply Forall2_nil); apply Sr; reflexivity.
  - split; [reflexivity|]. split; [reflexivity|]. split; [reflexivity|]. repeat (apply Forall2_cons || apply Forall2_nil); apply Sr; reflexivity.
  - vm_compute. eexists. split; reflexivity.
Qed.

(** Without folds: best score 3/4, as on the arrays. *)
Example C125_case :
  let t := given csr_train csr_eval (run_trainer 2 4 PTrue 1 run_machine) in
  t_train t = Some csr_train /\ t_eval t = Some csr_eval /\ t_folds t = 1 /\
  (exists r, fst (train run_backend t) = Ok (Some r) /\ r_best r = Fin (3 # 4)) /\
  data_fits 3 2 csr_train /\ data_fits 3 2 csr_eval.
Proof.
  cbv zeta. split; [reflexivity|]. split; [reflexivity|]. split; [reflexivity|]. split; [vm_compute; eexists; split; reflexivity|].
  unfold data_fits. split; (split; [reflexivity|split]).
  all: cbn [csr_train csr_eval csr_x run_y d_x d_y x_rows y_rows literal_rows x_kind map].
  all: repeat (apply Forall_cons || apply Forall_nil); try (split; [reflexivity|]); unfold binary; vm_compute;
       repeat (apply Forall_cons || apply Forall_nil); auto; lia.
Qed.

Print Assumptions C124_parameters.
Print Assumptions C125_csr_run_partial.
Print Assumptions C125_refuted.
