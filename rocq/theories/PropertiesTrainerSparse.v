(** Complete training runs of the sparse machine: C128. *)
From Coq Require Import ZArith List Bool QArith Lia.
From Verif Require Import Base Spec ModelInference ModelRuleSet ModelDense ModelFeedback ModelExecutor ModelSparse
  ModelMachine ModelTrainer ModelTrainerDense ModelTrainerSparse ModelPredictor SpecSparse SpecTraining SpecTrainerDense SpecTrainerSparse
  ProofsSparseRules ProofsTrainer ProofsTrainerDense ProofsTrainerSparse PropertiesTrainerDense.
Import ListNotations.
Open Scope Z_scope.

(** load_best_state: the state left in the machine is what reading out the
    machine's legal blocks gives, it compiles, and - where evaluation and rule set
    agree on the clauses (C34) - its exported predictor has exactly the reported
    best score.  Missing for the full statement: the agreement, which C34 shows
    to fail for some clauses. *)
Theorem C128_best_state_scores_partial : forall G Sc score callback assign t r t' b, sparse_pool Sc -> sparse_sound t ->
  1 <= t_epochs t -> t_load t = PTrue ->
  train (sparse_threaded G Sc score callback assign) t = (Ok (Some r), t') ->
  r_best_epoch r = Some (Z.of_nat b) ->
  exists de s cbs, t_eval t = Some de /\ t_state t' = Some s /\ read_from (t_m t') s cbs /\
    sparse_scores score (tm_nlit (sm_tm (t_m t))) (tm_ncls (sm_tm (t_m t))) s cbs de (r_best r).
Proof.
  intros G Sc score callback assign t r t' b HS SD E Ld H Eb. rewrite sparse_pool_train in H by auto.
  pose proof (csr_folds G score callback assign t _ t' SD H) as F. apply train_no_folds in H; auto. destruct H as [H Q].
  destruct (sparse_inner_scored G score callback assign t t' SD E H) as [dt [de [r' [H1 [H2 [H3 [H4 _]]]]]]].
  rewrite H3 in Q. inversion Q; subst r'. destruct (H4 b Ld Eb) as [s [cbs [S1 [S2 S3]]]]. exists de, s, cbs. auto.
Qed.

(** Otherwise the machine keeps the last state, with the last score. *)
Theorem C128_last_state_scores_partial : forall G Sc score callback assign t r t', sparse_pool Sc -> sparse_sound t ->
  1 <= t_epochs t -> t_load t <> PTrue ->
  train (sparse_threaded G Sc score callback assign) t = (Ok (Some r), t') ->
  exists de s v earlier cbs, t_eval t = Some de /\ t_state t' = Some s /\ r_elog r = earlier ++ [v] /\ read_from (t_m t') s cbs /\
    sparse_scores score (tm_nlit (sm_tm (t_m t))) (tm_ncls (sm_tm (t_m t))) s cbs de v.
Proof.
  intros G Sc score callback assign t r t' HS SD E Ld H. rewrite sparse_pool_train in H by auto.
  pose proof (csr_folds G score callback assign t _ t' SD H) as F. apply train_no_folds in H; auto. destruct H as [H Q].
  destruct (sparse_inner_scored G score callback assign t t' SD E H) as [dt [de [r' [H1 [H2 [H3 [_ H4]]]]]]].
  rewrite H3 in Q. inversion Q; subst r'. destruct (H4 Ld) as [s [v [l [cbs [S1 [S2 [S3 S4]]]]]]]. exists de, s, v, l, cbs. auto.
Qed.

(** However a trainer is used, the machine stays configured with its sizes, the
    state is what reading out legal blocks gives, and compiling it cannot fail. *)
Theorem C128_usable : forall G Sc score callback assign t t', sparse_pool Sc -> sparse_sound t ->
  sparse_used (sparse_threaded G Sc score callback assign) t t' ->
  configured (sm_tm (t_m t')) /\ tm_ncl (sm_tm (t_m t')) = tm_ncl (sm_tm (t_m t)) /\ tm_nlit (sm_tm (t_m t')) = tm_nlit (sm_tm (t_m t)) /\
  tm_ncls (sm_tm (t_m t')) = tm_ncls (sm_tm (t_m t)) /\ sm_csize (t_m t') = sm_csize (t_m t) /\ sm_alsize (t_m t') = sm_alsize (t_m t) /\
  forall s, t_state t' = Some s ->
    (exists cbs, read_from (t_m t') s cbs) /\ exists rs, compile_from_sparse_state s = Ok rs.
Proof.
  intros G Sc score callback assign t t' HS SD U. apply sparse_used_same in U; auto. apply sparse_used_sound in U; auto.
  destruct U as [[K _ MF _ _ _] [E1 [E2 [E3 [E4 E5]]]]]. repeat (split; [assumption|]).
  intros s Es. rewrite Es in MF. split; [exact MF|]. destruct MF as [cbs [F [_ ->]]].
  assert (F' : Forall (sp_good (tm_nlit (sm_tm (t_m t'))) (tm_ncls (sm_tm (t_m t')))) cbs) by (eapply Forall_impl; [|apply F]; intros b [Hb _]; exact Hb).
  destruct (compile_sparse_ok _ _ cbs F') as [mm [Ec _]]. eauto.
Qed.

(** If a trainer with a state trains again successfully, the run starts from
    exactly that state, and all its active literal lists are of one length per
    block. *)
Theorem C128_resume : forall G Sc score callback assign t o t' s, sparse_pool Sc -> sparse_sound t -> 1 <= t_epochs t ->
  t_state t = Some s -> train (sparse_threaded G Sc score callback assign) t = (Ok o, t') ->
  even_state s /\
  exists dt de m x0, launched (sparse_backend G score callback assign) t dt de m x0 /\ sparse_snap m x0 = s.
Proof.
  intros G Sc score callback assign t o t' s HS SD E Es H. rewrite sparse_pool_train in H by auto.
  exact (sparse_resumed G score callback assign t o t' s SD E H Es).
Qed.

(** Exactly when it can: where a run without a state could start, the run with
    the state starts if the lists are of one length, and raises TypeError
    otherwise. *)
Theorem C128_resume_exact : forall G Sc score callback assign t d s cbs m x, sparse_sound t -> t_state t = Some s ->
  let B := sparse_threaded G Sc score callback assign in
  bk_construct B (t_m t) (t_n_jobs t) (t_seed t) d = (Ok cbs, m) ->
  bk_launch B m cbs None (t_n_jobs t) (t_seed t) d = Ok x ->
  (even_state s -> exists x', bk_launch B m cbs (Some s) (t_n_jobs t) (t_seed t) d = Ok x') /\
  (~ even_state s -> bk_launch B m cbs (Some s) (t_n_jobs t) (t_seed t) d = Raise TypeError).
Proof.
  intros G Sc score callback assign t d s cbs m x [K Kn MF _ _ _] Es B Co La. subst B.
  cbn [sparse_threaded bk_construct bk_launch] in *. rewrite Es in MF.
  destruct (sparse_launch G m cbs None (t_n_jobs t) (t_seed t) d) as [x1|e] eqn:L1; [|discriminate].
  destruct (sparse_launch_with G _ _ _ s _ _ _ _ (sparse_constructed _ _ _ _ _ _ K Co) Kn MF L1) as [A1 A2]. split.
  - intros Ev. destruct (A1 Ev) as [x' Ex]. rewrite Ex. eauto.
  - intros Ev. rewrite (A2 Ev). reflexivity.
Qed.

(** With k_folds above 1 no run on csr data succeeds. *)
Theorem C128_folds : forall G Sc score callback assign t o t', sparse_pool Sc -> sparse_sound t ->
  train (sparse_threaded G Sc score callback assign) t = (Ok o, t') -> t_folds t <= 1.
Proof.
  intros G Sc score callback assign t o t' HS SD H. rewrite sparse_pool_train in H by auto.
  exact (csr_folds G score callback assign t o t' SD H).
Qed.

(** The results, the state and the exceptions of train do not depend on how the
    thread pool schedules its work. *)
Theorem C128_schedule_independent : forall G Sc Sc' score callback assign t, sparse_pool Sc -> sparse_pool Sc' -> sparse_sound t ->
  train (sparse_threaded G Sc score callback assign) t = train (sparse_threaded G Sc' score callback assign) t.
Proof. intros. rewrite !sparse_pool_train by auto. reflexivity. Qed.

(** With the block sizes set on the machine, n_jobs has no influence either. *)
Theorem C128_n_jobs_independent : forall G Sc Sc' score callback assign t j sizes, sparse_pool Sc -> sparse_pool Sc' -> sparse_sound t ->
  tm_sizes (sm_tm (t_m t)) = Some sizes ->
  fst (train (sparse_threaded G Sc' score callback assign) (with_jobs j t)) = fst (train (sparse_threaded G Sc score callback assign) t) /\
  snd (train (sparse_threaded G Sc' score callback assign) (with_jobs j t)) =
    with_jobs j (snd (train (sparse_threaded G Sc score callback assign) t)).
Proof.
  intros G Sc Sc' score callback assign t j sizes H1 H2 SD Sz. rewrite !sparse_pool_train by (auto; destruct SD; constructor; auto).
  unfold train. cbn [with_jobs t_folds t_train t_eval]. destruct (t_folds t >? 1).
  - destruct (t_train t) as [a|] eqn:Ea; [|split; reflexivity]. destruct (t_eval t) as [b|]; [|split; reflexivity].
    destruct SD as [_ _ _ _ Ft _]. destruct (Ft a Ea) as [Ka _]. unfold stack, is_array. rewrite Ka. split; reflexivity.
  - rewrite (sparse_inner_jobs G score callback assign j t sizes Sz).
    destruct (train_inner (sparse_backend G score callback assign) t) as [[[]|e] t3]; split; reflexivity.
Qed.

(** ** Example: four literals, two clauses in two blocks, two threads, twenty epochs *)

Definition csr_x (n : nat) (rows : list (list Z)) : xarr := mkX KCsr [length rows; n] true rows.
Definition csr_train : data := mkData (csr_x 4 [[0]; [1;3]; [0;1]; [2]; [0;2]; [1;3]]) (run_y [1;0;1;0;1;0]).
Definition csr_eval : data := mkData (csr_x 4 [[0;1;2]; [3]; [0]; [1]]) (run_y [1;0;1;0]).
Definition csr_machine (nlit : nat) (ncl : Z) : smachine :=
  match sparse_init nlit ncl 2 (SFloat (Fin (3#1))) 6 None false true false with Ok m => m | Raise _ => mkSm run_machine 0 0 0 false end.
Definition csr_trainer (jobs epochs : Z) (load : pyb) (folds : Z) (m : smachine) : trainer smachine sparse_state :=
  mkTr jobs 1 epochs (Fin 2) load folds (Some csr_train) (Some csr_eval) None None m None.
Definition csr_backend : backend smachine (list cblock) strun sparse_state (list nat) :=
  sparse_threaded run_gens sparse_first_come accuracy_score (fun _ _ _ => None) (fun _ _ _ => Ok []).
Definition csr_trained := train csr_backend (csr_trainer 2 20 PFalsy 1 (csr_machine 4 2)).

Lemma csr_machine_configured : forall nlit ncl, configured (sm_tm (csr_machine nlit ncl)).
Proof.
  intros nlit ncl. exists nlit, ncl, 2%nat, (SFloat (Fin (3#1))), 6, None, false, (sm_tm (csr_machine nlit ncl)), [], [].
  split; [reflexivity|]. split; [discriminate|]. split; [reflexivity|constructor].
Qed.
Ltac csr_rows := split; [reflexivity|]; split; [reflexivity|];
  cbn [d_x d_y csr_train csr_eval csr_x run_y x_rows y_rows map]; split;
  repeat first [apply Forall_cons | apply Forall_nil | split]; vm_compute; try lia; repeat constructor; lia.
Lemma csr_data_ok : csr_data 4 2 csr_train /\ csr_data 4 2 csr_eval.
Proof. split; csr_rows. Qed.
Lemma csr_sound : forall jobs epochs load folds ncl, sparse_sound (csr_trainer jobs epochs load folds (csr_machine 4 ncl)).
Proof.
  intros jobs epochs load folds ncl. constructor; cbn [csr_trainer t_m t_state t_best t_train t_eval sparse_fits]; auto.
  - apply csr_machine_configured.
  - cbn; lia.
  - intros d Hd; inversion Hd; apply csr_data_ok.
  - intros d Hd; inversion Hd; apply csr_data_ok.
Qed.

(** All four evaluation examples right; the predictor made from the state kept
    says the same. *)
Example C128_case : sparse_sound (csr_trainer 2 20 PFalsy 1 (csr_machine 4 2)) /\ sparse_pool sparse_first_come /\
  exists r s rs p, csr_trained = (Ok (Some r), snd csr_trained) /\ nth 19 (r_elog r) Fnan = Fin (4 # 4) /\ t_state (snd csr_trained) = Some s /\
    even_state s /\ compile_from_sparse_state s = Ok rs /\ from_ruleset XLiterals false rs [] = Ok p /\
    answers p (csr_vectors 4 csr_eval) = [Ok (AClass 1); Ok (AClass 0); Ok (AClass 1); Ok (AClass 0)].
Proof.
  split; [apply csr_sound|]. split; [apply sparse_first_come_ok|].
  eexists _, _, _, _. split; [vm_compute; reflexivity|]. split; [vm_compute; reflexivity|]. split; [vm_compute; reflexivity|].
  split; [repeat constructor; intros r [<-|[<-|[]]]; reflexivity|].
  split; [vm_compute; reflexivity|]. split; [vm_compute; reflexivity|]. vm_compute; reflexivity.
Qed.

(** The blocks at the end of this run meet the conditions of [sparse_scores]. *)
Definition plainb (lits prow : list nat) (psts : list Z) (nrow : list nat) (nsts : list Z) : bool :=
  forallb (fun v => negb (v =? 0)) psts && forallb (fun v => negb (v =? 0)) nsts &&
  negb (length prow =? 0)%nat && negb (length nrow =? 0)%nat && negb (length (sp_included prow psts ++ sp_included nrow nsts) =? 0)%nat &&
  ((0 <=? last psts 0) || forallb (fun l => existsb (fun x => (l <=? x)%nat) lits) (sp_included prow psts)).
Lemma plainb_ok : forall lits prow psts nrow nsts, plainb lits prow psts nrow nsts = true -> sp_plain lits prow psts nrow nsts.
Proof.
  intros lits prow psts nrow nsts H. unfold plainb in H. repeat (apply andb_prop in H; destruct H as [H ?]).
  assert (NZ : forall l, forallb (fun v => negb (v =? 0)) l = true -> Forall (fun v => v <> 0) l).
  { intros l Hl. apply Forall_forall. intros v Hv. rewrite forallb_forall in Hl. specialize (Hl v Hv). destruct (Z.eqb_spec v 0); [discriminate|auto]. }
  unfold sp_plain. split; [auto|]. split; [auto|]. left.
  split; [intros ->; discriminate|]. split; [intros ->; discriminate|]. split.
  2:{ match goal with Q : _ || _ = true |- _ => apply orb_prop in Q; destruct Q as [Q|Q]; [left; lia|right] end.
      intros l Hl. rewrite forallb_forall in H0. specialize (H0 l Hl). apply existsb_exists in H0. destruct H0 as [x [X1 X2]].
      exists x. split; auto. now apply Nat.leb_le. }
  destruct (sp_included prow psts) as [|a l] eqn:E1.
  - destruct (sp_included nrow nsts) as [|b l'] eqn:E2; [discriminate|]. exists b. right. now left.
  - exists a. left. now left.
Qed.
Definition csr_final : srun :=
  match sparse_construct (csr_machine 4 2) 2 1 csr_train with
  | (Ok cbs, m) => match sparse_launch run_gens m cbs None 2 1 csr_train with
                   | Ok x => after (sparse_backend run_gens accuracy_score (fun _ _ _ => None) (fun _ _ _ => Ok [])) csr_train csr_eval x 20
                   | Raise _ => mkSrun false false false (mkExec [] (new_fblock 2 1 (mkRng (fun _ => 0%Q) 0)) [] (mkIrng (fun _ => O) 0))
                   end
  | _ => mkSrun false false false (mkExec [] (new_fblock 2 1 (mkRng (fun _ => 0%Q) 0)) [] (mkIrng (fun _ => O) 0))
  end.
Example C128_case_plain :
  let cbs := map snd (x_blocks (su_exec csr_final)) in
  t_state (snd csr_trained) = Some (sp_load_state 4 (nsum (map sp_ncl cbs)) 2 cbs) /\ length cbs = 2%nat /\
  Forall (fun r => Forall (all_plain (map Z.to_nat r)) cbs) (x_rows (d_x csr_eval)).
Proof.
  cbv zeta. split; [vm_compute; reflexivity|]. split; [vm_compute; reflexivity|].
  assert (H : forallb (fun r => forallb (fun b => forallb (fun k => plainb (map Z.to_nat r) (prow_of b k) (psts_of b k) (nrow_of b k) (nsts_of b k))
    (seq 0 (sp_ncl b))) (map snd (x_blocks (su_exec csr_final)))) (x_rows (d_x csr_eval)) = true) by (vm_compute; reflexivity).
  apply Forall_forall. intros r Hr. apply Forall_forall. intros b Hb k Hk.
  rewrite forallb_forall in H. specialize (H r Hr). rewrite forallb_forall in H. specialize (H b Hb).
  rewrite forallb_forall in H. apply plainb_ok. apply H. apply in_seq. lia.
Qed.
Example C128_case_votes : exists s rs, t_state (snd csr_trained) = Some s /\ compile_from_sparse_state s = Ok rs /\
  Forall (fun x => forall c, (c < 2)%nat -> is_int16 (rule_vote_total 4 x (rs_rules rs) (rs_weights rs) c)) (csr_vectors 4 csr_eval).
Proof.
  eexists _, _. split; [vm_compute; reflexivity|]. split; [vm_compute; reflexivity|].
  repeat (apply Forall_cons || apply Forall_nil); intros c Hc; (destruct c as [|[|c]]; [| |lia]); vm_compute; split; discriminate.
Qed.

(** A second run goes on from the state of the first; with sizes set 1 and 4
    threads agree; with two folds the same trainer only raises. *)
Example C128_case_again :
  (let '(r1, t1) := train csr_backend (csr_trainer 2 4 PTrue 1 (csr_machine 4 5)) in
   let '(r2, t2) := train csr_backend t1 in
   match r1, r2 with Ok _, Ok _ => True | _, _ => False end /\ t_state t1 <> None /\ t_state t2 <> t_state t1) /\
  (let m := with_tm (snd (set_num_clause_blocks (BInt 2) (sm_tm (csr_machine 4 5)))) (csr_machine 4 5) in
   tm_sizes (sm_tm m) = Some [3; 2] /\ with_jobs 4 (csr_trainer 1 3 PTrue 1 m) = csr_trainer 4 3 PTrue 1 m /\
   t_state (snd (train csr_backend (csr_trainer 4 3 PTrue 1 m))) = t_state (snd (train csr_backend (csr_trainer 1 3 PTrue 1 m))) /\
   t_state (snd (train csr_backend (csr_trainer 1 3 PTrue 1 m))) <> None) /\
  fst (train csr_backend (csr_trainer 1 3 PTrue 2 (csr_machine 4 5))) = Raise ValueError.
Proof. vm_compute. repeat split; discriminate. Qed.

(** ** A machine that trains once *)

Definition twice_data : data := mkData (csr_x 9 [[0;5]; [1;3;6]]) (run_y [1;0]).
Definition twice_trainer : trainer smachine sparse_state :=
  mkTr 2 1 1 (Fin 2) PTrue 1 (Some twice_data) (Some twice_data) None None (csr_machine 9 3) None.

(** The full statement of resuming is false: of two calls of train the first
    succeeds and the second, with nothing changed in between, raises. *)
Theorem C128_resume_refuted : exists t o t1, sparse_sound t /\ train csr_backend t = (Ok (Some o), t1) /\
  (exists s, t_state t1 = Some s /\ ss_al s = [[[0;5]; []]; [[0;5]; []]]%nat) /\ fst (train csr_backend t1) = Raise TypeError.
Proof.
  exists twice_trainer. eexists _, _. split; [|split; [vm_compute; reflexivity|split; [eexists; split; vm_compute; reflexivity|vm_compute; reflexivity]]].
  assert (D : csr_data 9 2 twice_data) by csr_rows.
  constructor; cbn [twice_trainer t_m t_state t_best t_train t_eval sparse_fits]; auto.
  - apply csr_machine_configured.
  - cbn; lia.
  - intros d Hd; inversion Hd; exact D.
  - intros d Hd; inversion Hd; exact D.
Qed.

Print Assumptions C128_best_state_scores_partial.
Print Assumptions C128_last_state_scores_partial.
Print Assumptions C128_usable.
Print Assumptions C128_resume.
Print Assumptions C128_resume_exact.
Print Assumptions C128_folds.
Print Assumptions C128_schedule_independent.
Print Assumptions C128_n_jobs_independent.
Print Assumptions C128_resume_refuted.
