(** Training on the thread pool is training on one thread. *)
From Coq Require Import ZArith List Bool QArith Lia ZifyBool.
From Verif Require Import Base BaseProofs Spec ModelInference ModelRuleSet ModelDense ModelFeedback ModelExecutor ModelDenseExec ModelLayout
  ModelMachine ModelTrainer ModelTrainerDense ModelPredictor SpecTraining SpecTrainerDense
  ProofsExecutor ProofsDenseExec ProofsTopExecutor ProofsMachine ProofsTrainer ProofsTrainerDense.
Import ListNotations.
Open Scope Z_scope.

(** ** Two backends that simulate each other *)

Section Sim.
  Variables M C X1 X2 S P : Type.
  Variable B1 : backend M C X1 S P.
  Variable B2 : backend M C X2 S P.
  Variable R : X1 -> X2 -> Prop.
  Hypothesis H_nlit : bk_nlit B1 = bk_nlit B2.
  Hypothesis H_sparse : bk_sparse_cb B1 = bk_sparse_cb B2.
  Hypothesis H_construct : bk_construct B1 = bk_construct B2.
  Hypothesis H_score : bk_score B1 = bk_score B2.
  Hypothesis H_callback : bk_callback B1 = bk_callback B2.
  Hypothesis H_assign : bk_assign B1 = bk_assign B2.
  Hypothesis H_epoch : forall d x y, R x y -> fst (bk_train_epoch B1 d x) = fst (bk_train_epoch B2 d y) /\
    R (snd (bk_train_epoch B1 d x)) (snd (bk_train_epoch B2 d y)).
  Hypothesis H_eval : forall d x y, R x y -> fst (bk_evaluate B1 d x) = fst (bk_evaluate B2 d y) /\
    R (snd (bk_evaluate B1 d x)) (snd (bk_evaluate B2 d y)).
  Hypothesis H_snap : forall m x y, R x y -> bk_snap B1 m x = bk_snap B2 m y.

  Definition loops (l1 : loop X1 S) (l2 : loop X2 S) : Prop :=
    R (l_x l1) (l_x l2) /\ l_cur l1 = l_cur l2 /\ l_bs l1 = l_bs l2 /\ l_be l1 = l_be l2 /\ l_best l1 = l_best l2 /\
    l_tlog l1 = l_tlog l2 /\ l_elog l1 = l_elog l2 /\ l_early l1 = l_early l2.

  Lemma epochs_sim : forall ne early load m dt de k e l1 l2, loops l1 l2 ->
    fst (epochs B1 ne early load m dt de k e l1) = fst (epochs B2 ne early load m dt de k e l2) /\
    loops (snd (epochs B1 ne early load m dt de k e l1)) (snd (epochs B2 ne early load m dt de k e l2)).
  Proof.
    intros ne early load m dt de k. induction k as [|k IH]; intros e l1 l2 L; cbn [epochs]; auto.
    destruct L as [L1 [L2 [L3 [L4 [L5 [L6 [L7 L8]]]]]]].
    destruct (H_epoch (l_cur l2) _ _ L1) as [A1 A2]. rewrite L2.
    destruct (bk_train_epoch B1 (l_cur l2) (l_x l1)) as [acc x1]. destruct (bk_train_epoch B2 (l_cur l2) (l_x l2)) as [acc' x2].
    cbn [fst snd] in A1, A2. subst acc'.
    destruct (H_eval de _ _ A2) as [E1 E2].
    destruct (bk_evaluate B1 de x1) as [p y1]. destruct (bk_evaluate B2 de x2) as [p' y2]. cbn [fst snd] in E1, E2. subst p'.
    rewrite H_score, H_callback.
    destruct (bk_score B2 (d_y de) p) as [sc|ex].
    2:{ cbn [fst snd]. split; auto. unfold loops. cbn. rewrite L3, L4, L5, L6, L7, L8. repeat split; auto. }
    destruct (bk_callback B2 e acc sc).
    1:{ cbn [fst snd]. split; auto. unfold loops. cbn. rewrite L3, L4, L5, L6, L7, L8. repeat split; auto. }
    rewrite L3, L4, L5, L6, L7, L8, (H_snap m _ _ E2).
    destruct (fl_leb early sc).
    - cbn [fst snd]. split; auto. unfold loops. cbn. repeat split; auto.
    - apply IH. unfold loops. cbn. repeat split; auto.
  Qed.

  Lemma inner_sim : forall t,
    (forall dt cbs m, t_train t = Some dt -> bk_construct B2 (t_m t) (t_n_jobs t) (t_seed t) dt = (Ok cbs, m) ->
       match bk_launch B1 m cbs (t_state t) (t_n_jobs t) (t_seed t) dt, bk_launch B2 m cbs (t_state t) (t_n_jobs t) (t_seed t) dt with
       | Ok x, Ok y => R x y
       | Raise e, Raise e' => e = e'
       | _, _ => False
       end) ->
    train_inner B1 t = train_inner B2 t.
  Proof.
    intros t HL. unfold train_inner. destruct (t_train t) as [dt|] eqn:Et; auto. destruct (t_eval t) as [de|]; auto.
    destruct (negb (kinds_match (Some dt) (Some de))); auto. rewrite H_construct.
    destruct (bk_construct B2 (t_m t) (t_n_jobs t) (t_seed t) dt) as [[cbs|e] m] eqn:Co; auto.
    specialize (HL dt cbs m eq_refl Co).
    cbn [with_m t_epochs t_state t_n_jobs t_seed t_early t_load t_best]. destruct (t_epochs t <? 1); auto.
    destruct (bk_launch B1 m cbs (t_state t) (t_n_jobs t) (t_seed t) dt) as [x|e1];
      destruct (bk_launch B2 m cbs (t_state t) (t_n_jobs t) (t_seed t) dt) as [y|e2]; try contradiction; [|now subst].
    assert (L : loops (mkLoop x dt (Fin (-1)) (-1) (t_best t) [] [] false) (mkLoop y dt (Fin (-1)) (-1) (t_best t) [] [] false))
      by (unfold loops; cbn; repeat split; auto).
    pose proof (epochs_sim (t_epochs t) (t_early t) (t_load t) m dt de (Z.to_nat (t_epochs t)) 0 _ _ L) as [E1 E2].
    match type of E2 with loops (snd ?a) (snd ?b) => destruct a as [r1 l1]; destruct b as [r2 l2] end.
    cbn [fst snd] in E1, E2. subst r2. destruct E2 as [K1 [K2 [K3 [K4 [K5 [K6 [K7 K8]]]]]]].
    rewrite K3, K4, K5, K6, K7, K8, (H_snap m _ _ K1). reflexivity.
  Qed.
End Sim.

(** ** The pool *)

Section Pool.
  Variables (G : gens) (Sc : schedule) (score : yarr -> list nat -> res fl) (callback : nat -> fl -> fl -> option exn)
            (assign : Z -> Z -> data -> res (list nat)).
  Hypothesis HS : pool_schedule Sc.
  Let B1 := threaded_backend G Sc score callback assign.
  Let B2 := dense_backend G score callback assign.

  Definition runs_alike (p : trun) (x : drun) : Prop := tr_run p = x /\ exists ncls, exec_inv ncls (dr_exec x).

  Lemma threaded_epoch_same : forall d p x, runs_alike p x ->
    fst (threaded_epoch Sc d p) = fst (dense_epoch d x) /\ runs_alike (snd (threaded_epoch Sc d p)) (snd (dense_epoch d x)).
  Proof.
    intros d p x [<- [ncls I]].
    assert (I' : exec_inv ncls (dr_exec (snd (dense_epoch d (tr_run p))))).
    { unfold dense_epoch. pose proof (train_epoch_inv ncls (dr_bo (tr_run p)) (dr_boost (tr_run p)) nat fb_process (fb_process_good ncls)
        (feed (dr_n (tr_run p)) d) (dr_exec (tr_run p)) I) as Q.
      destruct (train_epoch _ _ _ _ _ _ _ _) as [acc e]. exact Q. }
    unfold threaded_epoch. destruct (tr_jobs p =? 1).
    - destruct (dense_epoch d (tr_run p)) as [acc x]. cbn [fst snd] in *. split; auto. split; [reflexivity|eauto].
    - destruct (HS (tr_time p) ncls d (tr_run p) I) as [E _].
      pose proof (dense_mt_epoch ncls _ _ nat fb_process _ _ _ (fb_process_good ncls) I E) as Q.
      unfold dense_epoch in *. rewrite Q. destruct (train_epoch _ _ _ _ _ _ _ _) as [acc e]. cbn [fst snd] in *.
      split; auto. split; [reflexivity|eauto].
  Qed.

  Lemma threaded_evaluate_same : forall d p x, runs_alike p x ->
    fst (threaded_evaluate Sc d p) = fst (dense_evaluate d x) /\ runs_alike (snd (threaded_evaluate Sc d p)) (snd (dense_evaluate d x)).
  Proof.
    intros d p x [<- [ncls I]].
    assert (I' : exec_inv ncls (dr_exec (snd (dense_evaluate d (tr_run p))))).
    { unfold dense_evaluate. pose proof (eval_predict_same ncls nat (feed (dr_n (tr_run p)) d)
        (repeat O (length (y_rows (d_y d)))) (dr_exec (tr_run p)) I) as [_ Q].
      destruct (eval_predict _ _ _ _ _ _ _) as [[ok ys] e]. exact Q. }
    unfold threaded_evaluate. destruct (tr_jobs p =? 1).
    - destruct (dense_evaluate d (tr_run p)) as [ys x]. cbn [fst snd] in *. split; auto. split; [reflexivity|eauto].
    - destruct (HS (tr_time p) ncls d (tr_run p) I) as [_ E]. cbv zeta in E.
      assert (Q : s_eval Sc (tr_time p) d (tr_run p) = eval_predict block (list Z) dense_eval_ex nat (feed (dr_n (tr_run p)) d)
                    (repeat O (length (y_rows (d_y d)))) (dr_exec (tr_run p))).
      { unfold eval_predict. destruct (Nat.eqb _ _); cbn [negb]; auto. destruct E as [ys [bs [fb [E1 E2]]]].
        destruct I as [I1 I2]. rewrite <- (dense_mt_eval ncls _ _ _ _ I1 I2 E1). exact E2. }
      unfold dense_evaluate in *. rewrite Q. destruct (eval_predict _ _ _ _ _ _ _) as [[ok ys] e]. cbn [fst snd] in *.
      split; auto. split; [reflexivity|eauto].
  Qed.

  Lemma pool_inner : forall t, sound t -> train_inner B1 t = train_inner B2 t.
  Proof.
    intros t [K MF _ _ _]. apply (inner_sim _ _ _ _ _ _ B1 B2 runs_alike); auto.
    - intros d x y. apply threaded_epoch_same.
    - intros d x y. apply threaded_evaluate_same.
    - intros m x y [<- _]. reflexivity.
    - intros dt cbs m Et Co. change (dense_construct (t_m t) (t_n_jobs t) (t_seed t) dt = (Ok cbs, m)) in Co.
      unfold B1, B2. cbn [threaded_backend dense_backend bk_launch].
      destruct (dense_launch G m cbs (t_state t) (t_n_jobs t) (t_seed t) dt) as [x|e] eqn:La; auto.
      destruct (launch_ok G _ _ _ _ _ _ _ _ (configured_ok _ K) Co MF La) as [[_ F _ Fb] _].
      split; [reflexivity|]. exists (tm_ncls (t_m t)). split; [eapply good_inv; eauto|now apply ready_ok].
  Qed.

  Lemma pool_folds : forall all folds is best tl el t, x_kind (d_x all) = KArray ->
    data_fits (tm_nlit (t_m t)) (tm_ncls (t_m t)) all -> sound t ->
    fold_loop B1 all folds is best tl el t = fold_loop B2 all folds is best tl el t.
  Proof.
    intros all folds is. induction is as [|i is IH]; intros best tl el t Ka D SD; cbn [fold_loop]; auto.
    destruct (fold_indices i folds) as [ti ei].
    pose proof (pick_fits _ _ all ti Ka D) as Pt. pose proof (pick_fits _ _ all ei Ka D) as Pe.
    destruct (pick all ti) as [xt yt]. destruct (pick all ei) as [xe ye].
    unfold set_train_data. change (bk_nlit B1) with (bk_nlit B2). change (bk_sparse_cb B1) with (bk_sparse_cb B2).
    destruct (check_data _ _ _ (Some xt) yt) as [d1|e1] eqn:C1; auto. apply check_data_ok in C1. subst d1.
    unfold set_eval_data. cbn [with_train t_m t_train]. change (bk_nlit B1) with (bk_nlit B2). change (bk_sparse_cb B1) with (bk_sparse_cb B2).
    destruct (check_data _ _ _ (Some xe) ye) as [d2|e2] eqn:C2; auto. apply check_data_ok in C2. subst d2.
    set (t2 := with_eval _ (with_train _ t)).
    assert (S2 : sound t2).
    { destruct SD as [K MF MB Ft Fe]. constructor; auto; cbn [t2 with_eval with_train t_train t_eval t_m]; intros d Hd; inversion Hd; subst d;
        now apply set_data_fits. }
    rewrite (pool_inner t2 S2). destruct (train_inner B2 t2) as [[[]|e] t3] eqn:E3; auto.
    destruct (inner_sound G score callback assign _ _ S2 E3) as [S3 [M1 [M2 M3]]].
    destruct (t_results t3); auto. apply IH; auto. rewrite M2, M3. exact D.
  Qed.

  Theorem pool_train : forall t, sound t -> train B1 t = train B2 t.
  Proof.
    intros t SD. unfold train. destruct (t_folds t >? 1).
    - destruct (t_train t) as [a|] eqn:Ea; auto. destruct (t_eval t) as [b|] eqn:Eb; auto.
      destruct (stack a b) as [all|] eqn:Es; auto. change (bk_assign B1) with (bk_assign B2).
      destruct (bk_assign B2 (t_folds t) (t_seed t) all); auto.
      destruct (stack_fits _ _ _ _ _ Es (sd_train _ SD _ Ea) (sd_eval _ SD _ Eb)) as [Ka D].
      rewrite pool_folds; auto.
    - rewrite pool_inner; auto.
  Qed.
End Pool.

(** There are such schedules. *)
Definition first_come : schedule :=
  mkSchedule (fun _ d x => train_epoch block (list Z) (dense_train_ex (dr_bo x)) (dense_upd (dr_bo x) (dr_boost x)) nat fb_process
                             (feed (dr_n x) d) (dr_exec x))
             (fun _ d x => eval_predict block (list Z) dense_eval_ex nat (feed (dr_n x) d) (repeat O (length (y_rows (d_y d)))) (dr_exec x)).
Lemma first_come_ok : pool_schedule first_come.
Proof.
  intros k ncls d x I. cbn [first_come s_epoch s_eval]. split.
  - apply (dense_mt_epoch_exists ncls); auto. apply fb_process_good.
  - cbv zeta. unfold eval_predict. destruct (Nat.eqb _ _); cbn [negb]; auto.
    destruct I as [I1 I2].
    pose proof (mt_eval_list_exists block (list Z) ncls (dense_inv ncls) dense_eval_ex (dense_eval_good ncls)
      (map fst (feed (dr_n x) d)) _ _ I1 I2) as Q.
    destruct (eval_list block (list Z) dense_eval_ex (map fst (feed (dr_n x) d)) (x_blocks (dr_exec x)) (x_fb (dr_exec x))) as [[ys bs] fb].
    exists ys, bs, fb. split; auto.
Qed.
