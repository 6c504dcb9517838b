(** Runs with any feedback type: the course of a run, the pool, and the end of the
    uniform loop. *)
From Coq Require Import ZArith List Bool QArith Lia ZifyBool.
From Verif Require Import Base BaseProofs Spec ModelInference ModelRuleSet ModelDense ModelFeedback ModelExecutor ModelDenseExec ModelLayout
  ModelMachine ModelTrainer ModelTrainerDense ModelTrainerFeedback ModelEngine ModelPredictor SpecTraining SpecTrainerDense SpecTrainerFeedback
  ProofsExecutor ProofsDenseExec ProofsTopExecutor ProofsHistory ProofsFeedback ProofsEval ProofsMachine ProofsTopLearning ProofsTrainer ProofsTrainerDense ProofsTrainerPool ProofsTrainerGen
  ProofsTrainerAvx2 ProofsEngine ProofsEngineUse.
Import ListNotations.
Open Scope Z_scope.

(** ** What the chosen block keeps *)

Lemma step_facts : forall stuck fuel k label f, tame stuck ->
  fb_ncls (fb_step stuck fuel k label f) = fb_ncls f /\ length (fb_votes (fb_step stuck fuel k label f)) = length (fb_votes f).
Proof.
  intros stuck fuel k label f T. destruct k; cbn [fb_step].
  - unfold fb_process. destruct (sample_discrete _ _) as [neg r]. split; reflexivity.
  - unfold fbu_process. destruct (draw_other _ _ _ _) as [[neg r]|]; [split; reflexivity|]. destruct (T label f) as [A [B _]]. split; assumption.
  - unfold fb_process. destruct (sample_discrete _ _) as [neg r]. split; reflexivity.
Qed.
Lemma step_good : forall stuck fuel k ncls label f, tame stuck -> fb_ok ncls f -> fb_ok ncls (fb_step stuck fuel k label f).
Proof.
  intros stuck fuel k ncls label f T [H1 H2]. destruct (step_facts stuck fuel k label f T) as [A B]. split; [congruence|lia].
Qed.
Lemma step_ready : forall stuck fuel k ncls label f, tame stuck -> fb_ready ncls f -> fb_ready ncls (fb_step stuck fuel k label f).
Proof.
  intros stuck fuel k ncls label f T [H1 H2]. destruct (step_facts stuck fuel k label f T) as [A B]. split; congruence.
Qed.
Lemma step_valid : forall stuck fuel k ncls label f, tame stuck -> (label < ncls)%nat -> fb_ok ncls f ->
  (fb_pos (fb_step stuck fuel k label f) < ncls)%nat /\ (fb_neg (fb_step stuck fuel k label f) < ncls)%nat.
Proof.
  intros stuck fuel k ncls label f T Hl Hf. destruct k; cbn [fb_step].
  - now apply fb_process_valid.
  - destruct (fbu_process fuel label f) as [f'|] eqn:E.
    + destruct Hf as [H1 _]. destruct (uniform_spec fuel label f f' ltac:(lia) E) as [A [_ [B _]]]. split; lia.
    + destruct (T label f) as [_ [_ [-> ->]]]. auto.
  - now apply fb_process_valid.
Qed.
Lemma no_feedback_tame : tame no_feedback.
Proof. intros label f. repeat split. Qed.

(** ** The course of a run *)

Section Fed.
  Variables (G : gens) (k : feedback_type) (stuck : nat -> fblock -> fblock) (fuel : nat) (score : yarr -> list nat -> res fl)
            (callback : nat -> fl -> fl -> option exn) (assign : Z -> Z -> data -> res (list nat)).
  Hypothesis HT : tame stuck.
  Let step := fb_step stuck fuel k.
  Let B2 := fed_backend G k step score callback assign.

  Lemma fed_epoch_ok : forall n ncl ncls d x, data_fits n ncls d -> drun_ok n ncl ncls x -> drun_ok n ncl ncls (snd (fed_epoch step d x)).
  Proof.
    intros n ncl ncls d x D [N F T R]. pose proof (good_inv _ _ _ F) as I.
    assert (EI : exec_inv ncls (dr_exec x)) by (split; [exact I|now apply ready_ok]).
    destruct (train_epoch_evolved ncls (dr_bo x) (dr_boost x) nat step (fun l => (l < ncls)%nat) n
                (fun l f => step_good stuck fuel k ncls l f HT) (fun l f => step_valid stuck fuel k ncls l f HT) (feed (dr_n x) d) (dr_exec x) EI) as [h [_ [V E]]].
    rewrite N in V. specialize (V (feed_ok n ncls d D)).
    destruct (evolved_good n ncls _ _ h _ _ V E F) as [F' T'].
    unfold fed_epoch.
    pose proof (train_epoch_ready block (list Z) ncls (dense_inv ncls) (dense_train_ex (dr_bo x)) (dense_upd (dr_bo x) (dr_boost x)) nat step
      (dense_train_good (dr_bo x) ncls) (fun e p pp n np b => dense_upd_good _ _ ncls e p pp n np b)
      (fun l f => step_good stuck fuel k ncls l f HT) (fun l f => step_ready stuck fuel k ncls l f HT)
      (feed (dr_n x) d) (dr_exec x) I R) as R'.
    destruct (train_epoch _ _ _ _ _ _ _ _) as [acc e]. cbn [snd] in *. constructor; cbn [dr_n dr_exec]; auto.
    now rewrite T'.
  Qed.

  Definition anything (_ : nat) : Prop := True.
  Lemma chosen_dense : forall m j seed d cbs m', chosen_construct k m j seed d = (Ok cbs, m') -> dense_construct m j seed d = (Ok cbs, m').
  Proof. intros m j seed d cbs m' H. unfold chosen_construct in H. destruct (get_feedback_block k (tm_multi m)); [exact H|discriminate]. Qed.
  Lemma chosen_jobs : forall m j j' seed d sz, tm_sizes m = Some sz ->
    chosen_construct k m j seed d = chosen_construct k m j' seed d /\ tm_sizes (snd (chosen_construct k m j seed d)) = Some sz.
  Proof.
    intros m j j' seed d sz H. unfold chosen_construct. destruct (get_feedback_block k (tm_multi m)); [now apply dense_construct_jobs|].
    split; [reflexivity|exact H].
  Qed.
  Let L_snap := fun m x n ncl ncls OK M1 M2 M3 => proj1 (snap_spec m x n ncl ncls OK M1 M2 M3).
  Let L_launch := fun m n_jobs seed d cbs m' st x K (_ : anything (tm_nlit m)) => launch_ok G m n_jobs seed d cbs m' st x K.
  Definition fed_inner_scored := g_inner_scored drun B2 drun_ok anything chosen_dense fed_epoch_ok evaluate_ok evaluate_snap L_snap (predictor_scores (bk_score B2)) (predicts_scores drun B2 drun_ok snap_predicts) L_launch.
  Definition fed_inner_sound := g_inner_sound drun B2 drun_ok anything chosen_dense fed_epoch_ok evaluate_ok L_snap L_launch.
  Definition fed_used_sound := g_used_sound drun B2 drun_ok anything chosen_dense fed_epoch_ok evaluate_ok L_snap L_launch.
  Definition fed_last_fold := g_last_fold drun B2 drun_ok anything chosen_dense fed_epoch_ok evaluate_ok evaluate_snap L_snap (predictor_scores (bk_score B2)) (predicts_scores drun B2 drun_ok snap_predicts) L_launch.
  Definition fed_train_jobs := g_train_jobs drun B2 chosen_jobs (fun m cbs st j j' seed d => eq_refl).

  (** ** The pool *)
  Variable Sc : schedule.
  Hypothesis HS : pool_with step Sc.
  Let B1 := fed_threaded G k step Sc score callback assign.

  Lemma fed_epoch_same : forall d p x, runs_alike p x ->
    fst (fed_mt_epoch step Sc d p) = fst (fed_epoch step d x) /\ runs_alike (snd (fed_mt_epoch step Sc d p)) (snd (fed_epoch step d x)).
  Proof.
    intros d p x [<- [ncls I]].
    assert (I' : exec_inv ncls (dr_exec (snd (fed_epoch step d (tr_run p))))).
    { unfold fed_epoch. pose proof (train_epoch_inv ncls (dr_bo (tr_run p)) (dr_boost (tr_run p)) nat step (fun l f => step_good stuck fuel k ncls l f HT)
        (feed (dr_n (tr_run p)) d) (dr_exec (tr_run p)) I) as Q.
      destruct (train_epoch _ _ _ _ _ _ _ _) as [acc e]. exact Q. }
    unfold fed_mt_epoch. destruct (tr_jobs p =? 1).
    - destruct (fed_epoch step d (tr_run p)) as [acc x]. cbn [fst snd] in *. split; auto. split; [reflexivity|eauto].
    - destruct (HS (tr_time p) ncls d (tr_run p) I) as [E _].
      pose proof (dense_mt_epoch ncls _ _ nat step _ _ _ (fun l f => step_good stuck fuel k ncls l f HT) I E) as Q.
      unfold fed_epoch in *. rewrite Q. destruct (train_epoch _ _ _ _ _ _ _ _) as [acc e]. cbn [fst snd] in *.
      split; auto. split; [reflexivity|eauto].
  Qed.
  Lemma fed_evaluate_same : forall d p x, runs_alike p x ->
    fst (threaded_evaluate Sc d p) = fst (dense_evaluate d x) /\ runs_alike (snd (threaded_evaluate Sc d p)) (snd (dense_evaluate d x)).
  Proof.
    intros d p x [<- [ncls I]].
    assert (I' : exec_inv ncls (dr_exec (snd (dense_evaluate d (tr_run p))))).
    { unfold dense_evaluate. pose proof (eval_predict_same ncls nat (feed (dr_n (tr_run p)) d)
        (repeat O (length (y_rows (d_y d)))) (dr_exec (tr_run p)) I) as [_ Q].
      destruct (eval_predict _ _ _ _ _ _ _) as [[ok ys] e]. exact Q. }
    unfold threaded_evaluate. destruct (tr_jobs p =? 1).
    - destruct (dense_evaluate d (tr_run p)) as [ys x]. cbn [fst snd] in *. split; auto. split; [reflexivity|eauto].
    - destruct (HS (tr_time p) ncls d (tr_run p) I) as [_ E]. cbv zeta in E.
      assert (Q : s_eval Sc (tr_time p) d (tr_run p) = eval_predict block (list Z) dense_eval_ex nat (feed (dr_n (tr_run p)) d)
                    (repeat O (length (y_rows (d_y d)))) (dr_exec (tr_run p))).
      { unfold eval_predict. destruct (Nat.eqb _ _); cbn [negb]; auto. destruct E as [ys [bs [fb [E1 E2]]]].
        destruct I as [I1 I2]. rewrite <- (dense_mt_eval ncls _ _ _ _ I1 I2 E1). exact E2. }
      unfold dense_evaluate in *. rewrite Q. destruct (eval_predict _ _ _ _ _ _ _) as [[ok ys] e]. cbn [fst snd] in *.
      split; auto. split; [reflexivity|eauto].
  Qed.
  Theorem fed_pool_train : forall t, sound t -> train B1 t = train B2 t.
  Proof.
    intros t SD. apply (g_train_alike trun drun B1 B2 runs_alike (fun _ _ => True)); auto.
    - intros d x y. apply fed_epoch_same.
    - intros d x y. apply fed_evaluate_same.
    - intros m x y [<- _]. reflexivity.
    - intros t0 dt cbs m [K MF _ _ _] _ Co. apply chosen_dense in Co.
      unfold B1, B2. cbn [fed_threaded fed_backend bk_launch].
      destruct (dense_launch G m cbs (t_state t0) (t_n_jobs t0) (t_seed t0) dt) as [x|e] eqn:La; auto.
      destruct (launch_ok G _ _ _ _ _ _ _ _ (configured_ok _ K) Co MF La) as [[_ F _ Fb] _].
      split; [reflexivity|]. exists (tm_ncls (t_m t0)). split; [eapply good_inv; eauto|now apply ready_ok].
    - intros t0 t' S0 _. exact (fed_inner_sound t0 t' S0 I).
  Qed.
  Lemma fed_used_same : forall t t', sound t -> used B1 t t' -> used B2 t t'.
  Proof.
    intros t t' SD U.
    induction U as [|t1 o t2 U IH H|t1 x y t2 U IH H D|t1 x y t2 U IH H D]; [constructor| | |].
    - eapply used_train; [exact IH|]. rewrite <- H. symmetry.
      destruct (fed_used_sound t t1 SD I IH) as [S1 _]. apply fed_pool_train; exact S1.
    - eapply used_set_train; eauto.
    - eapply used_set_eval; eauto.
  Qed.
End Fed.

(** There are such schedules. *)
Definition come_as (step : nat -> fblock -> fblock) : schedule :=
  mkSchedule (fun _ d x => train_epoch block (list Z) (dense_train_ex (dr_bo x)) (dense_upd (dr_bo x) (dr_boost x)) nat step
                             (feed (dr_n x) d) (dr_exec x))
             (fun _ d x => eval_predict block (list Z) dense_eval_ex nat (feed (dr_n x) d) (repeat O (length (y_rows (d_y d)))) (dr_exec x)).
Lemma come_as_ok : forall stuck fuel k, tame stuck -> pool_with (fb_step stuck fuel k) (come_as (fb_step stuck fuel k)).
Proof.
  intros stuck fuel k T j ncls d x I. cbn [come_as s_epoch s_eval]. split.
  - apply (dense_mt_epoch_exists ncls); auto. intros l f. now apply step_good.
  - cbv zeta. unfold eval_predict. destruct (Nat.eqb _ _); cbn [negb]; auto.
    destruct I as [I1 I2].
    pose proof (mt_eval_list_exists block (list Z) ncls (dense_inv ncls) dense_eval_ex (dense_eval_good ncls)
      (map fst (feed (dr_n x) d)) _ _ I1 I2) as Q.
    destruct (eval_list block (list Z) dense_eval_ex (map fst (feed (dr_n x) d)) (x_blocks (dr_exec x)) (x_fb (dr_exec x))) as [[ys bs] fb].
    exists ys, bs, fb. split; auto.
Qed.

(** ** Two feedbacks that agree along a run *)

Section Agree.
  Variables B E : Type.
  Variables train_ex eval_ex : E -> B -> B * list Z.
  Variable update : E -> nat -> Q -> nat -> Q -> B -> B.
  Variable L : Type.
  Variables p1 p2 : L -> fblock -> fblock.
  Variable Ok_ : fblock -> Prop.
  Hypothesis H_register : forall v f, Ok_ f -> Ok_ (fb_register v f).
  Hypothesis H_reset : forall f, Ok_ f -> Ok_ (fb_reset f).
  Hypothesis H_counter : forall f, Ok_ f -> Ok_ (fb_reset_counter f).
  Hypothesis H_same : forall l f, Ok_ f -> p1 l f = p2 l f /\ Ok_ (p2 l f).

  Lemma run_keeps : forall g e bs fb, Ok_ fb -> Ok_ (snd (run_examples B E g e bs fb)).
  Proof.
    intros g e bs. induction bs as [|[t b] bs IH]; intros fb H; cbn [run_examples]; auto.
    destruct (g e b) as [b1 v]. specialize (IH _ (H_register v _ H)). destruct (run_examples B E g e bs (fb_register v fb)). exact IH.
  Qed.
  Lemma train_list_agree : forall ds bs fb, Ok_ fb ->
    train_list B E train_ex update L p1 ds bs fb = train_list B E train_ex update L p2 ds bs fb /\
    Ok_ (snd (train_list B E train_ex update L p2 ds bs fb)).
  Proof.
    intros ds. induction ds as [|d ds IH]; intros bs fb H; cbn [train_list]; auto. unfold train_one.
    pose proof (run_keeps train_ex (fst d) bs _ (H_reset _ H)) as K.
    destruct (run_examples B E train_ex (fst d) bs (fb_reset fb)) as [bs1 fb1]. cbn [snd] in K.
    destruct (H_same (snd d) fb1 K) as [-> K2]. apply IH. exact K2.
  Qed.
  Lemma epoch_agree : forall data x, Ok_ (x_fb x) ->
    train_epoch B E train_ex update L p1 data x = train_epoch B E train_ex update L p2 data x /\
    Ok_ (x_fb (snd (train_epoch B E train_ex update L p2 data x))).
  Proof.
    intros data x H. unfold train_epoch, train_slice. cbn [Nat.eqb x_rng x_blocks x_fb].
    destruct (shuffle (seq 0 (length data)) (x_rng x)) as [idx r].
    match goal with |- context [train_list B E train_ex update L p1 ?a ?b ?c] => destruct (train_list_agree a b c (H_counter _ H)) as [-> Q];
      destruct (train_list B E train_ex update L p2 a b c) as [bs fb] end. split; [reflexivity|exact Q].
  Qed.
  Lemma eval_list_keeps : forall es bs fb, Ok_ fb -> Ok_ (snd (eval_list B E eval_ex es bs fb)).
  Proof.
    induction es as [|e es IH]; intros bs fb H; cbn [eval_list]; auto.
    pose proof (run_keeps eval_ex e bs _ (H_reset _ H)) as K.
    destruct (run_examples B E eval_ex e bs (fb_reset fb)) as [bs1 fb1]. cbn [snd] in K. specialize (IH bs1 fb1 K).
    destruct (eval_list B E eval_ex es bs1 fb1) as [[ys bs2] fb2]. exact IH.
  Qed.
  Lemma eval_keeps : forall data out x, Ok_ (x_fb x) -> Ok_ (x_fb (snd (eval_predict B E eval_ex L data out x))).
  Proof.
    intros data out x H. unfold eval_predict. destruct (negb _); auto.
    pose proof (eval_list_keeps (map fst data) (x_blocks x) (x_fb x) H) as K.
    destruct (eval_list B E eval_ex (map fst data) (x_blocks x) (x_fb x)) as [[ys bs] fb]. exact K.
  Qed.
End Agree.

(** ** The uniform loop ends *)

(** More draws than needed change nothing. *)
Lemma draw_other_more : forall fuel fuel' n pos r c r', (fuel <= fuel')%nat -> draw_other fuel n pos r = Some (c, r') ->
  draw_other fuel' n pos r = Some (c, r').
Proof.
  induction fuel as [|fuel IH]; intros fuel' n pos r c r' H E; [discriminate|]. destruct fuel' as [|fuel']; [lia|].
  cbn [draw_other] in *. destruct (draw_class n r) as [d r1]. destruct (Nat.eqb d pos); auto. apply (IH fuel'); [lia|exact E].
Qed.

Section Ends.
  Variable NC : nat.
  Hypothesis HN : 2 <= Z.of_nat NC <= 2147483645.
  (** The feedback block draws from the engine. *)
  Definition from_engine (f : fblock) : Prop :=
    fb_ncls f = NC /\ exists x p, eng_state x /\ fb_rng f = mkRng (rng_src (uni_rng NC x)) p.

  Lemma engine_ends : forall fuel label f, 2147483646 <= Z.of_nat fuel -> from_engine f ->
    exists f', fbu_process fuel label f = Some f' /\ from_engine f' /\
      forall fuel', 2147483646 <= Z.of_nat fuel' -> fbu_process fuel' label f = Some f'.
  Proof.
    intros fuel label f Hf [H1 [x [p [H2 H3]]]].
    destruct (class_other NC x p label HN H2) as [fl0 [c [r [A1 [A2 A3]]]]].
    assert (W : forall m, 2147483646 <= Z.of_nat m -> draw_other m (fb_ncls f) label (fb_rng f) = Some (c, r)).
    { intros m Hm. rewrite H1, H3. apply (draw_other_more fl0); [lia|exact A2]. }
    unfold fbu_process. rewrite (W fuel Hf). eexists. split; [reflexivity|]. split.
    - split; [exact H1|]. exists x, (rng_pos r). split; [exact H2|]. cbn [fb_rng]. rewrite <- A3. destruct r; reflexivity.
    - intros fuel' Hm. rewrite (W fuel' Hm). reflexivity.
  Qed.

  Lemma uniform_same : forall stuck stuck' fuel fuel' l f, 2147483646 <= Z.of_nat fuel -> 2147483646 <= Z.of_nat fuel' -> from_engine f ->
    fb_step stuck fuel FUniform l f = fb_step stuck' fuel' FUniform l f /\ from_engine (fb_step stuck' fuel' FUniform l f).
  Proof.
    intros stuck stuck' fuel fuel' l f H1 H2 H. destruct (engine_ends fuel l f H1 H) as [f' [A [B C]]]. cbn [fb_step].
    rewrite A, (C fuel' H2). auto.
  Qed.

  Variables (G : gens) (stuck stuck' : nat -> fblock -> fblock) (fuel fuel' : nat) (score : yarr -> list nat -> res fl)
            (callback : nat -> fl -> fl -> option exn) (assign : Z -> Z -> data -> res (list nat)).
  Hypothesis HT : tame stuck'.
  Hypothesis HG : engine_draws NC G.
  Hypothesis HF : 2147483646 <= Z.of_nat fuel.
  Hypothesis HF' : 2147483646 <= Z.of_nat fuel'.
  Let B1 := fed_backend G FUniform (fb_step stuck fuel FUniform) score callback assign.
  Let B2 := fed_backend G FUniform (fb_step stuck' fuel' FUniform) score callback assign.
  Definition engine_run (x y : drun) : Prop := x = y /\ from_engine (x_fb (dr_exec x)).

  Theorem uniform_train : forall t, sound t -> tm_ncls (t_m t) = NC -> train B1 t = train B2 t.
  Proof.
    intros t SD EN. apply (g_train_alike drun drun B1 B2 engine_run (fun _ ncls => ncls = NC)); auto.
    - intros d x y [<- FE]. unfold B1, B2. cbn [fed_backend bk_train_epoch]. unfold fed_epoch.
      destruct (epoch_agree block (list Z) (dense_train_ex (dr_bo x)) (dense_upd (dr_bo x) (dr_boost x)) nat
        (fb_step stuck fuel FUniform) (fb_step stuck' fuel' FUniform) from_engine (fun v f H => H) (fun f H => H) (fun f H => H)
        (fun l f H => uniform_same stuck stuck' fuel fuel' l f HF HF' H) (feed (dr_n x) d) (dr_exec x) FE) as [-> K].
      destruct (train_epoch _ _ _ _ _ _ _ _) as [acc e]. cbn [fst snd] in *. repeat split; assumption || apply K.
    - intros d x y [<- FE]. unfold B1, B2. cbn [fed_backend bk_evaluate]. split; [reflexivity|]. split; [reflexivity|]. unfold dense_evaluate.
      pose proof (eval_keeps block (list Z) dense_eval_ex nat from_engine (fun v f H => H) (fun f H => H) (feed (dr_n x) d)
        (repeat O (length (y_rows (d_y d)))) (dr_exec x) FE) as K.
      destruct (eval_predict _ _ _ _ _ _ _) as [[ok ys] e]. exact K.
    - intros m x y [<- _]. reflexivity.
    - intros t0 dt cbs m [K MF _ _ _] EN0 Co. apply chosen_dense in Co.
      unfold B1, B2. cbn [fed_backend bk_launch].
      destruct (dense_launch G m cbs (t_state t0) (t_n_jobs t0) (t_seed t0) dt) as [x|e] eqn:La; auto.
      split; [reflexivity|]. destruct (construct_dims _ _ _ _ _ _ (configured_ok _ K) Co) as [_ [_ [_ [D3 _]]]].
      unfold dense_launch in La. destruct (allocate_clause_blocks cbs (t_seed t0)); [|discriminate].
      destruct (_ || _); [discriminate|]. destruct (alloc_all G a) as [bs|]; [|discriminate]. injection La as Ex. subst x.
      cbn [dr_exec x_fb]. unfold new_fblock. split; cbn [fb_ncls fb_rng]; [congruence|].
      exists (eng_seed (t_seed t0)), (rng_pos (uni_rng NC (eng_seed (t_seed t0)))). split; [apply eng_seed_state|]. rewrite HG. destruct (uni_rng NC (eng_seed (t_seed t0))); reflexivity.
    - intros t0 t' S0 _. exact (fed_inner_sound G FUniform stuck' fuel' score callback assign HT t0 t' S0 I).
  Qed.
End Ends.
