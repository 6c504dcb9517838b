(** C127, C128: what a run on AVX2 blocks and on sparse blocks is given. *)
From Coq Require Import ZArith List Bool QArith Qround Lia.
From Verif Require Import Base BaseProofs Spec ModelInference ModelRuleSet ModelDense ModelFeedback ModelExecutor ModelLayout ModelAvx2 ModelSparse
  ModelMachine ModelTrainer ModelTrainerDense ModelTrainerAvx2 ModelTrainerSparse SpecTraining SpecTrainerDense SpecTrainerRun SpecAvx2 SpecTrainerAvx2
  SpecTrainerSparse ProofsMachine ProofsTrainer ProofsTrainerDense ProofsTrainerPool ProofsTrainerRun ProofsTrainerAvx2 ProofsTrainerSparse
  ProofsTrainerParams PropertiesTrainerDense PropertiesTrainerAvx2 PropertiesTrainerSparse.
Import ListNotations.
Open Scope Z_scope.

(** Block [i] is initialised with seed + i and the s and budget dealt to it; the
    byte that random bytes are compared with is floor(255/s) - 126 within
    [-127, 126].  A machine that has a state overwrites clause rows and weights
    only. *)
Theorem C127_parameters : forall G Sc score callback assign t dt de m x0, configured (t_m t) ->
  launched (avx_threaded G Sc score callback assign) t dt de m x0 ->
  exists sizes, (forall sz, tm_sizes (t_m t) = Some sz -> sizes = sz) /\ zsum sizes = tm_ncl (t_m t) /\
  let x := vt_run x0 in let e := vu_exec x in
  length (x_blocks e) = length sizes /\
  fb_thr (x_fb e) = inject_Z (tm_threshold (t_m t)) /\ fb_ncls (x_fb e) = tm_ncls (t_m t) /\
  fb_rng (x_fb e) = v_fb G (t_seed t) /\ x_rng e = v_shuffle G (t_seed t) /\
  (vu_bo x = false <-> hd_error (tm_budgets (t_m t)) = Some None) /\ vu_boost x = tm_boost (t_m t) /\ vu_n x = tm_nlit (t_m t) /\
  vt_jobs x0 = t_n_jobs t /\
  forall i tb, nth_error (x_blocks e) i = Some tb -> fst tb = true /\
    exists b0 s budget q, cyclic (tm_s (t_m t)) i = Some s /\ (s = Fin q \/ forall q', s <> Fin q') /\
      (hd_error (tm_budgets (t_m t)) = Some None /\ budget = 65535 \/
       hd_error (tm_budgets (t_m t)) <> Some None /\ cyclic (tm_budgets (t_m t)) i = Some (Some budget)) /\
      avx_initialize (v_vec G) (v_fast G) (v_junk G (t_seed t + Z.of_nat i)) (tm_nlit (t_m t)) (Z.to_nat (nth i sizes 0)) (tm_ncls (t_m t))
        budget q (t_seed t + Z.of_nat i) = Some b0 /\
      snd tb = mkABlock (a_nlit b0) (a_lmem b0) (a_mask b0) (a_ncls b0) (a_rows (snd tb)) (a_weights (snd tb)) (a_outputs b0) (a_counts b0)
                 (a_votes b0) (a_budget b0) (a_cmp b0) (a_vrng b0) (a_fast b0) /\
      (t_state t = None -> snd tb = b0) /\
      a_budget (snd tb) = budget /\ a_nlit (snd tb) = tm_nlit (t_m t) /\ a_ncls (snd tb) = tm_ncls (t_m t) /\
      (0 < q -> a_cmp (snd tb) = Z.max (-127) (Z.min 126 (Qfloor (1 / q * 255) - 126)))%Q.
Proof.
  intros G Sc score callback assign t dt de m x0 K [L1 [L2 [cbs [L3 L4]]]].
  cbn [avx_threaded bk_construct bk_launch] in L3, L4.
  pose proof (configured_ok _ K) as K0.
  destruct (avx_launch G m cbs (t_state t) (t_n_jobs t) (t_seed t) dt) as [x|ex] eqn:La; [|discriminate]. inversion L4; subst x0. clear L4.
  unfold avx_launch in La. destruct (allocate_clause_blocks cbs (t_seed t)) as [l|] eqn:EA; [|discriminate].
  destruct (dealt _ _ _ _ _ _ _ K0 L3 EA) as [sizes [Z2 [Z3 [Z4 [Z5 [Z6 [D2 [D3 Z7]]]]]]]].
  exists sizes. split; [exact Z2|]. split; [exact Z3|]. cbv zeta. cbn [vt_run vt_jobs].
  destruct (_ || _); [discriminate|]. destruct (avx_alloc_all G l) as [bs|] eqn:EB; [|discriminate].
  destruct (avx_alloc_nth _ _ _ EB) as [Ll AN].
  set (bs' := match t_state t with None => bs | Some s => map2 with_aflat (save_state_in_backend s (map flat_of_ablock bs)) bs end) in *.
  assert (Lb : length bs' = length bs).
  { unfold bs'. destruct (t_state t); auto. rewrite map2_length. unfold save_state_in_backend. rewrite save_loop_length, map_length. lia. }
  assert (Hb : forall i b, nth_error bs' i = Some b -> exists b0, nth_error bs i = Some b0 /\ (t_state t = None -> b = b0) /\
     b = mkABlock (a_nlit b0) (a_lmem b0) (a_mask b0) (a_ncls b0) (a_rows b) (a_weights b) (a_outputs b0) (a_counts b0)
                 (a_votes b0) (a_budget b0) (a_cmp b0) (a_vrng b0) (a_fast b0)).
  { intros i b H. unfold bs' in H. destruct (t_state t) as [s|].
    - apply map2_nth in H. destruct H as [f [b0 [H1 [H2 H3]]]]. exists b0. split; [auto|]. split; [discriminate|]. subst b. reflexivity.
    - exists b. split; [auto|]. split; [auto|]. destruct b; reflexivity. }
  clearbody bs'. rewrite Z6 in La. injection La as La. subst x.
  cbn [vu_exec vu_bo vu_boost vu_n x_blocks x_fb x_rng new_fblock fb_thr fb_ncls fb_rng] in *. rewrite map_length.
  split; [congruence|]. split; [now rewrite Z5|]. split; [exact D3|]. split; [reflexivity|]. split; [reflexivity|].
  split; [apply backend_budget|]. split; [reflexivity|]. split; [exact D2|]. split; [reflexivity|].
  intros i tb Ht. rewrite nth_error_map in Ht. destruct (nth_error bs' i) as [b|] eqn:Eb; [|discriminate]. inversion Ht; subst tb. clear Ht.
  cbn [fst snd]. split; [reflexivity|].
  destruct (Hb i b Eb) as [b0 [H1 [H2 H3]]]. destruct (AN i b0 H1) as [e [A1 A2]]. destruct (Z7 i e A1) as [A4 [s [bud [C1 [C2 C3]]]]].
  unfold avx_alloc_block in A2. rewrite C3, A4 in A2. cbn [c_nlit c_ncl c_ncls c_budget c_s] in A2.
  exists b0, s, bud, (s_of s). split; [exact C1|]. split; [destruct s; (left; reflexivity) || (right; discriminate)|]. split; [exact C2|].
  split; [exact A2|]. split; [exact H3|]. split; [exact H2|].
  assert (F : a_nlit b0 = tm_nlit (t_m t) /\ a_ncls b0 = tm_ncls (t_m t) /\ a_budget b0 = bud /\ a_cmp b0 = gtcmp_for_s (s_of s)).
  { clear - A2. unfold avx_initialize in A2. destruct (_ =? 0); [discriminate|]. destruct (avx_init_rows _ _ _). destruct (init_weights _ _ _).
    inversion A2; subst b0. cbn. auto. }
  destruct F as [F1 [F2 [F3 F4]]]. rewrite H3. cbn [a_budget a_nlit a_ncls a_cmp].
  split; [exact F3|]. split; [exact F1|]. split; [exact F2|]. intros Hq. rewrite F4. unfold gtcmp_for_s. set (q := s_of s) in *.
  assert (P : (0 <= 1 / q * 255)%Q).
  { apply Qmult_le_0_compat; [|discriminate]. unfold Qdiv. apply Qmult_le_0_compat; [discriminate|]. apply Qinv_le_0_compat. apply Qlt_le_weak. exact Hq. }
  set (y := (1 / q * 255)%Q) in *. clearbody y. clear - P. destruct y as [n d]. unfold Qle in P. cbn [Qnum Qden] in *. unfold Qfloor.
  rewrite Z.quot_div_nonneg by lia. lia.
Qed.

(** The same for sparse blocks, with the sizes, the lower threshold and the
    dynamic flag of the machine; the probabilities are 1/s and (s-1)/s. *)
Theorem C128_parameters : forall G Sc score callback assign t dt de m x0, configured (sm_tm (t_m t)) ->
  launched (sparse_threaded G Sc score callback assign) t dt de m x0 ->
  exists sizes, (forall sz, tm_sizes (sm_tm (t_m t)) = Some sz -> sizes = sz) /\ zsum sizes = tm_ncl (sm_tm (t_m t)) /\
  let x := st_run x0 in let e := su_exec x in let c := sm_tm (t_m t) in
  length (x_blocks e) = length sizes /\
  fb_thr (x_fb e) = inject_Z (tm_threshold c) /\ fb_ncls (x_fb e) = tm_ncls c /\
  fb_rng (x_fb e) = g_fb G (t_seed t) /\ x_rng e = g_shuffle G (t_seed t) /\
  (su_bo x = false <-> hd_error (tm_budgets c) = Some None) /\ su_boost x = tm_boost c /\ su_dyn x = sm_dyn (t_m t) /\
  st_jobs x0 = t_n_jobs t /\
  forall i tb, nth_error (x_blocks e) i = Some tb -> fst tb = true /\
    exists b0 s budget, cyclic (tm_s c) i = Some s /\
      (hd_error (tm_budgets c) = Some None /\ budget = 65535 \/
       hd_error (tm_budgets c) <> Some None /\ cyclic (tm_budgets c) i = Some (Some budget)) /\
      sp_initialize (su_bo x) (g_fast G) (g_junk G (t_seed t + Z.of_nat i)) (tm_nlit c) (Z.to_nat (nth i sizes 0)) (tm_ncls c)
        (Z.to_nat (sm_csize (t_m t))) (Z.to_nat (sm_alsize (t_m t))) (sm_thr (t_m t)) budget (sp_si b0) (sp_sm b0) (t_seed t + Z.of_nat i) = Some b0 /\
      snd tb = mkSB (sp_nlit b0) (sp_ncl b0) (sp_ncls b0) (sp_csize b0) (sp_alsize b0) (sp_thr b0) (sp_rows (snd tb)) (sp_states (snd tb))
                 (sp_al (snd tb)) (sp_repl b0) (sp_weights (snd tb)) (sp_outputs b0) (sp_counts b0) (sp_votes b0) (sp_budget b0)
                 (sp_si b0) (sp_sm b0) (sp_fast b0) /\
      (t_state t = None -> snd tb = b0) /\
      sp_budget (snd tb) = budget /\ sp_nlit (snd tb) = tm_nlit c /\ sp_ncl (snd tb) = Z.to_nat (nth i sizes 0) /\ sp_ncls (snd tb) = tm_ncls c /\
      sp_csize (snd tb) = Z.to_nat (sm_csize (t_m t)) /\ sp_alsize (snd tb) = Z.to_nat (sm_alsize (t_m t)) /\ sp_thr (snd tb) = sm_thr (t_m t) /\
      forall q, s = Fin q -> sp_si (snd tb) = (1 / q)%Q /\ sp_sm (snd tb) = ((q - 1) / q)%Q.
Proof.
  intros G Sc score callback assign t dt de m x0 K [L1 [L2 [cbs [L3 L4]]]].
  cbn [sparse_threaded bk_construct bk_launch] in L3, L4.
  pose proof (configured_ok _ K) as K0. destruct (sparse_construct_ok _ _ _ _ _ _ L3) as [HD [HW _]].
  destruct (sparse_launch G m cbs (t_state t) (t_n_jobs t) (t_seed t) dt) as [x|ex] eqn:La; [|discriminate]. inversion L4; subst x0. clear L4.
  unfold sparse_launch in La. destruct (allocate_clause_blocks cbs (t_seed t)) as [l|] eqn:EA; [|discriminate].
  destruct (dealt _ _ _ _ _ _ _ K0 HD EA) as [sizes [Z2 [Z3 [Z4 [Z5 [Z6 [D2 [D3 Z7]]]]]]]].
  exists sizes. split; [exact Z2|]. split; [exact Z3|]. cbv zeta. cbn [st_run st_jobs].
  destruct (negb _); [discriminate|]. destruct (sparse_alloc_all G m l) as [bs|] eqn:EB; [|discriminate].
  destruct (sparse_alloc_nth _ _ _ _ EB) as [Ll AN].
  destruct (match t_state t with None => Ok bs | Some s => sp_save_state s bs end) as [bs'|] eqn:ES; [|discriminate].
  assert (HS : length bs' = length bs /\ forall i b, nth_error bs' i = Some b -> exists b0, nth_error bs i = Some b0 /\ (t_state t = None -> b = b0) /\ sparse_apart b b0).
  { destruct (t_state t) as [s|].
    - destruct (save_apart _ _ _ _ _ ES) as [Q1 Q2]. split; [exact Q1|]. intros i b H. destruct (Q2 i b H) as [b0 [Q3 Q4]]. exists b0.
      split; [auto|]. split; [discriminate|auto].
    - injection ES as <-. split; [auto|]. intros i b H. exists b. split; [auto|]. split; [auto|]. destruct b; reflexivity. }
  destruct HS as [Lb Hb]. clear ES. destruct (1 <? _)%nat; [discriminate|].
  rewrite Z6 in La. injection La as La. subst x.
  cbn [su_exec su_bo su_boost su_dyn x_blocks x_fb x_rng new_fblock fb_thr fb_ncls fb_rng] in *. rewrite map_length.
  split; [congruence|]. split; [now rewrite Z5|]. split; [exact D3|]. split; [reflexivity|]. split; [reflexivity|].
  split; [apply backend_budget|]. split; [reflexivity|]. split; [rewrite HW; reflexivity|]. split; [reflexivity|].
  intros i tb Ht. rewrite nth_error_map in Ht. destruct (nth_error bs' i) as [b|] eqn:Eb; [|discriminate]. inversion Ht; subst tb. clear Ht.
  cbn [fst snd]. split; [reflexivity|].
  destruct (Hb i b Eb) as [b0 [H1 [H2 H3]]]. destruct (AN i b0 H1) as [e [A1 A2]]. destruct (Z7 i e A1) as [A4 [s [bud [C1 [C2 C3]]]]].
  unfold sparse_alloc_block in A2. rewrite C3, A4, HW in A2. cbn [c_kind c_nlit c_ncl c_ncls c_budget c_s with_tm sm_csize sm_alsize sm_thr] in A2.
  assert (F : sp_nlit b0 = tm_nlit (sm_tm (t_m t)) /\ sp_ncl b0 = Z.to_nat (nth i sizes 0) /\ sp_ncls b0 = tm_ncls (sm_tm (t_m t)) /\ sp_budget b0 = bud /\
    sp_csize b0 = Z.to_nat (sm_csize (t_m t)) /\ sp_alsize b0 = Z.to_nat (sm_alsize (t_m t)) /\ sp_thr b0 = sm_thr (t_m t) /\
    sp_si b0 = s_inv_of s /\ sp_sm b0 = s_min1_inv_of s).
  { clear - A2. unfold sp_initialize in A2. destruct (_ =? 0); [discriminate|]. destruct (_ && _); [discriminate|]. destruct (init_weights _ _ _).
    inversion A2; subst b0. cbn. repeat split. }
  destruct F as [F1 [F2 [F3 [F4 [F5 [F6 [F7 [F8 F9]]]]]]]].
  exists b0, s, bud. split; [exact C1|]. split; [exact C2|]. split; [now rewrite F8, F9|]. split; [exact H3|]. split; [exact H2|].
  rewrite H3. cbn [sp_budget sp_nlit sp_ncl sp_ncls sp_csize sp_alsize sp_thr sp_si sp_sm].
  split; [exact F4|]. split; [exact F1|]. split; [exact F2|]. split; [exact F3|]. split; [exact F5|]. split; [exact F6|]. split; [exact F7|].
  intros q Eq. rewrite F8, F9, Eq. split; reflexivity.
Qed.

(** The constructor: the two sizes are the least number whose square reaches the
    number of literals, the lower threshold is -40; the rest is the dense
    constructor's. *)
Theorem C128_constructor : forall nlit ncl ncls s threshold budget boost dynamic multi,
  match tm_init nlit ncl ncls s threshold budget boost multi, sparse_init nlit ncl ncls s threshold budget boost dynamic multi with
  | Raise e, r => r = Raise e
  | Ok t, Ok m => sm_tm m = t /\ sm_dyn m = dynamic /\ sm_thr m = -40 /\ sm_csize m = sm_alsize m /\
      0 <= sm_csize m /\ Z.of_nat nlit <= sm_csize m * sm_csize m /\
      forall r, 0 <= r -> Z.of_nat nlit <= r * r -> sm_csize m <= r
  | Ok _, Raise _ => False
  end.
Proof.
  intros. unfold sparse_init. destruct (tm_init nlit ncl ncls s threshold budget boost multi) as [t|e]; [|reflexivity].
  cbn [sm_tm sm_dyn sm_thr sm_csize sm_alsize]. destruct (ceil_sqrt_least nlit) as [A B]. repeat (split; [reflexivity || lia|]).
  intros r Hr H. specialize (B (Z.to_nat r)). rewrite <- (Z2Nat.id r) in H |- * by lia. lia.
Qed.

(** What construct_clause_blocks gives a sparse machine: with sizes of at least
    one and a lower threshold of at most 0 what the dense machine gets, otherwise
    a ValueError - unless the dense machine fails before its first block. *)
Theorem C128_construct : forall m n_jobs seed d,
  let '(r, t) := dense_construct (sm_tm m) n_jobs seed d in
  let '(r', m') := sparse_construct m n_jobs seed d in
  (1 <= sm_csize m /\ 1 <= sm_alsize m /\ sm_thr m <= 0 -> r' = r /\ m' = with_tm t m) /\
  (~ (1 <= sm_csize m /\ 1 <= sm_alsize m /\ sm_thr m <= 0) -> forall cb cbs, r = Ok (cb :: cbs) -> r' = Raise ValueError).
Proof.
  intros m n_jobs seed d. unfold dense_construct, sparse_construct.
  destruct (match tm_sizes (sm_tm m) with None => set_num_clause_blocks (BInt n_jobs) (sm_tm m) | Some _ => (Ok tt, sm_tm m) end) as [[r|e] t];
    cbv beta iota; [|split; [intros _; split; reflexivity|intros _ cb cbs Q; discriminate Q]].
  unfold sparse_build. cbn [with_tm sm_tm]. change (extra_bad (with_tm t m)) with (extra_bad m).
  destruct (construct_clause_blocks t) as [r' t'] eqn:C. destruct (extra_bad m) eqn:X; unfold extra_bad in X.
  - assert (D : forall cb cbs, r' = Ok (cb :: cbs) -> (exists sz, tm_sizes t = Some sz) /\ tm_cbs t' = Some (cb :: cbs)).
    { intros cb cbs ->. unfold construct_clause_blocks in C. destruct (tm_sizes t) as [sz|]; [|destruct (tm_flags t); discriminate].
      destruct (build_loop _ _ _ _ _) as [b [x|]]; inversion C; subst. split; [eauto|reflexivity]. }
    destruct (tm_sizes t) as [sz|]; [destruct (tm_cbs t') as [[|c0 c1]|]|]; (split; [lia|]); intros _ cb cbs Q; destruct (D cb cbs Q) as [[sz' D1] D2];
      try discriminate; reflexivity.
  - split; [auto|lia].
Qed.

(** Two blocks of three and two clauses and s = 3: floor(255/3) - 126 = -41. *)
Example C127_parameters_case : exists m x0,
  launched avx_run_backend (run_trainer 2 4 PTrue 1 run_machine) run_train run_eval m x0 /\
  map (fun tb : bool * ablock => (a_cmp (snd tb), length (a_rows (snd tb)), a_budget (snd tb))) (x_blocks (vu_exec (vt_run x0)))
    = [(-41, 3%nat, 65535); (-41, 2%nat, 65535)] /\
  configured run_machine.
Proof.
  do 2 eexists. split.
  { split; [reflexivity|]. split; [reflexivity|]. eexists. split; vm_compute; reflexivity. }
  split; [vm_compute; reflexivity|]. apply run_configured.
Qed.
(** Five literals: sizes 3; two blocks of one clause. *)
Example C128_parameters_case : exists m x0,
  launched csr_backend (csr_trainer 2 20 PFalsy 1 (csr_machine 5 2)) csr_train csr_eval m x0 /\
  map (fun tb : bool * sblock => (sp_si (snd tb), sp_csize (snd tb), sp_alsize (snd tb), sp_thr (snd tb), sp_ncl (snd tb))) (x_blocks (su_exec (st_run x0)))
    = [(1 # 3, 3%nat, 3%nat, -40, 1%nat); (1 # 3, 3%nat, 3%nat, -40, 1%nat)] /\
  su_dyn (st_run x0) = true.
Proof.
  do 2 eexists. split.
  { split; [reflexivity|]. split; [reflexivity|]. eexists. split; vm_compute; reflexivity. }
  split; vm_compute; reflexivity.
Qed.
(** Threshold 0 goes, threshold 1 and clause size 0 do not. *)
Example C128_construct_case :
  let m := csr_machine 5 2 in
  (exists cb m', sparse_construct (mkSm (sm_tm m) 3 3 0 true) 2 1 csr_train = (Ok [cb; cb], m')) /\
  fst (sparse_construct (mkSm (sm_tm m) 3 3 1 true) 2 1 csr_train) = Raise ValueError /\
  fst (sparse_construct (mkSm (sm_tm m) 0 3 (-40) true) 2 1 csr_train) = Raise ValueError.
Proof. cbv zeta. split; [do 2 eexists; vm_compute; reflexivity|]. vm_compute. split; reflexivity. Qed.

Print Assumptions C127_parameters.
Print Assumptions C128_parameters.
Print Assumptions C128_constructor.
Print Assumptions C128_construct.
