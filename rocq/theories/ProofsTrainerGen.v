(** Complete training runs over any backend whose running state keeps an
    invariant [xok] and whose copied state predicts as the backend evaluates. *)
From Coq Require Import ZArith List Bool QArith Lia ZifyBool.
From Verif Require Import Base BaseProofs Spec ModelInference ModelRuleSet ModelDense ModelFeedback ModelExecutor ModelDenseExec ModelLayout
  ModelMachine ModelTrainer ModelTrainerDense ModelPredictor SpecTraining SpecTrainerDense
  ProofsMachine ProofsTrainer ProofsTrainerDense ProofsTrainerPool.
Import ListNotations.
Open Scope Z_scope.

Lemma Forall2_pick_r : forall A C (Q : A -> C -> Prop) l l', Forall2 Q l l' -> forall c, In c l' -> exists a, In a l /\ Q a c.
Proof.
  intros A C Q l l' H. induction H as [|a c l l' HQ H IH]; intros c0 Hc; [contradiction|].
  destruct Hc as [->|Hc]; [exists a; split; [left|]; auto|]. destruct (IH c0 Hc) as [a0 [A1 A2]]. exists a0. split; [right|]; auto.
Qed.

Section Course.
  Variable X : Type.
  Variable B : backend tm (list cblock) X dense_state (list nat).
  Variable xok : nat -> nat -> nat -> X -> Prop.
  (** Machines whose blocks the backend can be started with. *)
  Variable startable : nat -> Prop.
  Hypothesis H_construct : forall m j seed d cbs m', bk_construct B m j seed d = (Ok cbs, m') -> dense_construct m j seed d = (Ok cbs, m').
  Hypothesis H_epoch : forall n ncl ncls d x, data_fits n ncls d -> xok n ncl ncls x -> xok n ncl ncls (snd (bk_train_epoch B d x)).
  Hypothesis H_eval : forall n ncl ncls d x, xok n ncl ncls x -> xok n ncl ncls (snd (bk_evaluate B d x)).
  Hypothesis H_eval_snap : forall n ncl ncls d m x, xok n ncl ncls x -> bk_snap B m (snd (bk_evaluate B d x)) = bk_snap B m x.
  Hypothesis H_snap : forall m x n ncl ncls, xok n ncl ncls x -> tm_nlit m = n -> Z.to_nat (tm_ncl m) = ncl -> tm_ncls m = ncls ->
    state_fits n ncl ncls (bk_snap B m x).
  (** What the score of an evaluation says about the state copied out. *)
  Variable scores : nat -> nat -> dense_state -> data -> fl -> Prop.
  Hypothesis H_scores : forall n ncl ncls m x d v, xok n ncl ncls x -> data_fits n ncls d ->
    tm_nlit m = n -> Z.to_nat (tm_ncl m) = ncl -> tm_ncls m = ncls ->
    bk_score B (d_y d) (fst (bk_evaluate B d x)) = Ok v -> scores n ncls (bk_snap B m x) d v.
  Hypothesis H_launch : forall m n_jobs seed d cbs m' st x, cfg_ok m -> startable (tm_nlit m) -> dense_construct m n_jobs seed d = (Ok cbs, m') ->
    machine_fits m st -> bk_launch B m' cbs st n_jobs seed d = Ok x ->
    xok (tm_nlit m) (Z.to_nat (tm_ncl m)) (tm_ncls m) x /\ (forall s, st = Some s -> bk_snap B m' x = s) /\ 1 <= seed.

  Lemma g_after_ok : forall n ncl ncls dt de x0, data_fits n ncls dt -> xok n ncl ncls x0 ->
    forall i, xok n ncl ncls (after B dt de x0 i).
  Proof.
    intros n ncl ncls dt de x0 D O i. induction i as [|i IH]; cbn [after]; auto.
  Qed.

  (** Backend right after training epoch [i], before its evaluation. *)
  Let trained dt de x0 i := snd (bk_train_epoch B dt (after B dt de x0 i)).

  Lemma g_launched_ok : forall t dt de m x0, configured (t_m t) -> startable (tm_nlit (t_m t)) -> machine_fits (t_m t) (t_state t) ->
    launched B t dt de m x0 ->
    configured m /\ tm_ncl m = tm_ncl (t_m t) /\ tm_nlit m = tm_nlit (t_m t) /\ tm_ncls m = tm_ncls (t_m t) /\
    xok (tm_nlit (t_m t)) (Z.to_nat (tm_ncl (t_m t))) (tm_ncls (t_m t)) x0 /\
    (forall s, t_state t = Some s -> bk_snap B m x0 = s) /\ 1 <= t_seed t.
  Proof.
    intros t dt de m x0 K SB MF [_ [_ [cbs [H1 H2]]]]. apply H_construct in H1.
    pose proof (configured_ok _ K) as K0.
    destruct (construct_dims _ _ _ _ _ _ K0 H1) as [_ [D1 [D2 [D3 _]]]].
    destruct (H_launch _ _ _ _ _ _ _ _ K0 SB H1 MF H2) as [L1 [L2 L3]].
    split; [eapply construct_configured; eauto|]. repeat (split; auto).
  Qed.

  (** Every entry of the evaluation log scores what the state copied out after
      that epoch answers. *)
  Lemma g_scored : forall t dt de m x0 i v, configured (t_m t) -> startable (tm_nlit (t_m t)) -> machine_fits (t_m t) (t_state t) -> launched B t dt de m x0 ->
    data_fits (tm_nlit (t_m t)) (tm_ncls (t_m t)) dt -> data_fits (tm_nlit (t_m t)) (tm_ncls (t_m t)) de ->
    bk_score B (d_y de) (pred_of B dt de x0 i) = Ok v ->
    let s := bk_snap B m (after B dt de x0 (S i)) in
    state_fits (tm_nlit (t_m t)) (Z.to_nat (tm_ncl (t_m t))) (tm_ncls (t_m t)) s /\
    scores (tm_nlit (t_m t)) (tm_ncls (t_m t)) s de v.
  Proof.
    intros t dt de m x0 i v K SB MF L Dt De Hs s. destruct (g_launched_ok _ _ _ _ _ K SB MF L) as [_ [D1 [D2 [D3 [O _]]]]].
    pose proof (H_epoch _ _ _ dt _ Dt (g_after_ok _ _ _ dt de x0 Dt O i)) as Oi.
    assert (Es : s = bk_snap B m (trained dt de x0 i)) by (subst s; cbn [after]; apply (H_eval_snap _ _ _ de m _ Oi)).
    rewrite Es. split; [apply (H_snap m _ _ _ _ Oi); congruence|].
    apply (H_scores _ _ _ m _ de v Oi De D2 ltac:(congruence) D3). exact Hs.
  Qed.

  Let fits_t (t : trainer tm dense_state) := state_fits (tm_nlit (t_m t)) (Z.to_nat (tm_ncl (t_m t))) (tm_ncls (t_m t)).
  Let scores_t (t : trainer tm dense_state) := scores (tm_nlit (t_m t)) (tm_ncls (t_m t)).


  (** One successful _train_inner. *)
  Lemma g_inner_scored : forall t t', sound t -> startable (tm_nlit (t_m t)) -> 1 <= t_epochs t -> train_inner B t = (Ok tt, t') ->
    exists dt de r, t_train t = Some dt /\ t_eval t = Some de /\ t_results t' = Some r /\
      (forall b, t_load t = PTrue -> r_best_epoch r = Some (Z.of_nat b) ->
         exists s, t_state t' = Some s /\ fits_t t s /\ scores_t t s de (r_best r)) /\
      (t_load t <> PTrue ->
         exists s v l, t_state t' = Some s /\ fits_t t s /\ r_elog r = l ++ [v] /\ scores_t t s de v).
  Proof.
    intros t t' [K MF _ Ft Fe] SB He H. apply train_inner_ok in H; auto.
    destruct H as [dt [de [m [x0 [n [r [be [L [N [R [N1 [T1 [E1 [B1 [I [A1 [A2 [A3 [A4 SC]]]]]]]]]]]]]]]]]]].
    pose proof L as [L1 [L2 _]]. exists dt, de, r. split; [auto|]. split; [auto|]. split; [auto|].
    assert (SCi : forall i, (i < n)%nat -> bk_score B (d_y de) (pred_of B dt de x0 i) = Ok (score_of B dt de x0 i)).
    { intros i Hi. destruct (SC i Hi) as [v [Hv _]]. unfold score_of. rewrite Hv. reflexivity. }
    split.
    - intros b Ld Eb. rewrite Ld in A3, I. cbn [is_true truthy] in *. rewrite B1 in Eb. inversion Eb; subst be.
      destruct I as [[H1 _]|[b' [H1 [H2 [H3 [_ [_ [_ H4]]]]]]]]; [lia|]. assert (b' = b) by lia. subst b'. cbn [truthy] in H4.
      exists (bk_snap B m (after B dt de x0 (S b))). rewrite A3, H4. split; [reflexivity|]. rewrite H3.
      apply (g_scored t dt de m x0 b); auto.
    - intros Ld. destruct n as [|k]; [lia|].
      exists (bk_snap B m (after B dt de x0 (S k))), (score_of B dt de x0 k), (map (score_of B dt de x0) (seq 0 k)).
      split; [rewrite A3; destruct (t_load t); [congruence| |]; reflexivity|].
      destruct (g_scored t dt de m x0 k (score_of B dt de x0 k)) as [P1 P2]; auto.
      split; [exact P1|]. split; [|exact P2]. rewrite E1. rewrite seq_S, map_app. reflexivity.
  Qed.

  Lemma g_inner_sound : forall t t', sound t -> startable (tm_nlit (t_m t)) -> train_inner B t = (Ok tt, t') -> sound t' /\ same_dims (t_m t) (t_m t').
  Proof.
    intros t t' SD SB H. pose proof SD as [K MF MB Ft Fe].
    destruct (train_inner_config _ _ _ _ _ B t (Ok tt) t' H) as [_ [Dt De]].
    destruct (Z_lt_le_dec (t_epochs t) 1) as [Lt|Ge].
    - unfold train_inner in H. destruct (t_train t) as [dt|] eqn:D1; [|discriminate].
      destruct (t_eval t) as [de|] eqn:D2; [|discriminate]. destruct (negb (kinds_match (Some dt) (Some de))); [discriminate|].
      destruct (bk_construct B (t_m t) (t_n_jobs t) (t_seed t) dt) as [[cbs|e] m] eqn:Co; [|discriminate].
      cbn [with_m t_epochs] in H. destruct (Z.ltb_spec (t_epochs t) 1); [|lia]. inversion H; subst t'. clear H.
      apply H_construct in Co.
      destruct (construct_dims _ _ _ _ _ _ (configured_ok _ K) Co) as [_ [E1 [E2 [E3 _]]]].
      assert (SM : same_dims (t_m t) m) by (repeat split; auto). split; [|exact SM].
      constructor; cbn [with_m t_m t_state t_best t_train t_eval].
      + eapply construct_configured; eauto.
      + eapply same_dims_fits; eauto.
      + eapply same_dims_fits; eauto.
      + intros d Hd. rewrite E2, E3. apply Ft. congruence.
      + intros d Hd. rewrite E2, E3. apply Fe. congruence.
    - apply train_inner_ok in H; auto.
      destruct H as [dt [de [m [x0 [n [r [be [L [N [R [N1 [T1 [E1 [B1 [I [A1 [A2 [A3 [A4 SC]]]]]]]]]]]]]]]]]]].
      pose proof L as [L1 [L2 _]]. destruct (g_launched_ok _ _ _ _ _ K SB MF L) as [KM [M1 [M2 [M3 [O _]]]]].
      assert (SM : same_dims (t_m t) (t_m t')) by (rewrite A4; repeat split; auto). split; [|exact SM].
      assert (Fa : forall i, machine_fits (t_m t) (Some (bk_snap B m (after B dt de x0 i)))).
      { intros i. apply (H_snap m _ _ _ _ (g_after_ok _ _ _ dt de x0 (Ft _ L1) O i)); congruence. }
      assert (Fb : machine_fits (t_m t) (t_best t')).
      { destruct I as [[_ [_ [-> _]]]|[b [_ [_ [_ [_ [_ [_ ->]]]]]]]]; auto. destruct (truthy (t_load t)); auto. }
      destruct SM as [S1 [S2 S3]].
      constructor; rewrite ?S2, ?S3.
      + rewrite A4. exact KM.
      + apply (same_dims_fits (t_m t)); [repeat split; auto|]. rewrite A3. destruct (is_true (t_load t)); auto.
      + apply (same_dims_fits (t_m t)); [repeat split; auto|]. auto.
      + intros d Hd. apply Ft. congruence.
      + intros d Hd. apply Fe. congruence.
  Qed.

  (** ** Folds *)




  Lemma g_runs_sound : forall all folds is runs t t', x_kind (d_x all) = KArray ->
    data_fits (tm_nlit (t_m t)) (tm_ncls (t_m t)) all -> sound t -> startable (tm_nlit (t_m t)) ->
    Forall2 (run_ok B all folds) is runs -> linked t runs t' ->
    Forall (fun u => sound (fr_before u) /\ sound (fr_after u) /\ same_dims (t_m t) (t_m (fr_before u))) runs /\
    sound t' /\ same_dims (t_m t) (t_m t').
  Proof.
    intros all folds is runs t t' Ka D SD ST F. revert t D SD ST. induction F as [|i u is runs [[R1 R2] [R3 R4]] F IH]; intros t D SD ST L; cbn [linked] in L.
    - subst t'. split; [constructor|]. split; auto. repeat split.
    - destruct L as [L1 [L2 [L3 [L4 L5]]]].
      assert (SB : sound (fr_before u)).
      { destruct SD as [K MF MB Ft Fe]. constructor; rewrite ?L1, ?L2, ?L3; auto.
        - intros d Hd. rewrite R1 in Hd. inversion Hd; subst d. apply (pick_fits _ _ all); auto.
        - intros d Hd. rewrite R2 in Hd. inversion Hd; subst d. apply (pick_fits _ _ all); auto. }
      destruct (g_inner_sound _ _ SB ltac:(congruence) R3) as [SA SM]. rewrite L2 in SM. destruct SM as [E1 [E2 E3]].
      assert (D' : data_fits (tm_nlit (t_m (fr_after u))) (tm_ncls (t_m (fr_after u))) all) by (rewrite E2, E3; auto).
      destruct (IH (fr_after u) D' SA ltac:(congruence) L5) as [I1 [I2 [I3 [I4 I5]]]].
      split; [|split; auto; repeat split; congruence]. constructor.
      + split; [auto|]. split; [auto|]. rewrite L2. repeat split.
      + eapply Forall_impl; [|apply I1]. intros v [V1 [V2 [V3 [V4 V5]]]]. split; auto. split; auto. repeat split; congruence.
  Qed.


  Lemma g_train_sound : forall t o t', sound t -> startable (tm_nlit (t_m t)) -> train B t = (Ok o, t') -> sound t' /\ same_dims (t_m t) (t_m t').
  Proof.
    intros t o t' SD ST H. destruct (Z_le_gt_dec (t_folds t) 1) as [Le|Gt].
    - apply train_no_folds in H; auto. destruct H as [H _]. now apply g_inner_sound.
    - apply train_folds in H; [|lia].
      destruct H as [a [b [all [folds [runs [t1 [best [r [Ha [Hb [Hs [_ [F [L [_ [_ [-> _]]]]]]]]]]]]]]]]].
      pose proof SD as [_ _ _ Ft Fe]. destruct (stack_fits _ _ _ _ _ Hs (Ft _ Ha) (Fe _ Hb)) as [Ka D].
      destruct (g_runs_sound _ _ _ _ _ _ Ka D SD ST F L) as [_ [S1 S2]]. split; [now apply with_results_sound|]. exact S2.
  Qed.


  Lemma g_used_sound : forall t t', sound t -> startable (tm_nlit (t_m t)) -> used B t t' -> sound t' /\ same_dims (t_m t) (t_m t').
  Proof.
    intros t t' SD ST U. induction U as [|t1 o t2 U [IH1 IH2] H|t1 x y t2 U [IH1 IH2] H D|t1 x y t2 U [IH1 IH2] H D].
    - split; auto. repeat split.
    - destruct (g_train_sound _ _ _ IH1 ltac:(destruct IH2 as [_ [-> _]]; exact ST) H) as [A1 [A2 [A3 A4]]]. destruct IH2 as [B1 [B2 B3]]. split; auto. repeat split; congruence.
    - unfold set_train_data in H. destruct (check_data _ _ _ _ _) as [d|] eqn:E; inversion H; subst t2. apply check_data_ok in E. subst d.
      split; [|exact IH2]. destruct IH1 as [K MF MB Ft Fe]. constructor; auto. cbn [with_train t_train t_m]. intros d Hd. inversion Hd; subst.
      now apply set_data_fits.
    - unfold set_eval_data in H. destruct (check_data _ _ _ _ _) as [d|] eqn:E; inversion H; subst t2. apply check_data_ok in E. subst d.
      split; [|exact IH2]. destruct IH1 as [K MF MB Ft Fe]. constructor; auto. cbn [with_eval t_eval t_m]. intros d Hd. inversion Hd; subst.
      now apply set_data_fits.
  Qed.
  Lemma g_last_fold : forall t r t', sound t -> startable (tm_nlit (t_m t)) ->
    1 < t_folds t -> 1 <= t_epochs t -> t_load t = PTrue ->
    train B t = (Ok (Some r), t') ->
    exists de last earlier, t_eval t' = Some de /\ r_elog r = earlier ++ r_elog last /\
      ((exists b, r_best_epoch last = Some (Z.of_nat b) /\ r_best last = nth b (r_elog last) Fnan /\
         exists s, t_state t' = Some s /\ fits_t t s /\ scores_t t s de (r_best last)) \/
       Forall (fun v => ~ fl_lt (Fin (-1)) v) (r_elog last)).
  Proof.
    intros t r t' SD ST F E Ld H.
    apply train_folds in H; auto.
    destruct H as [a [b0 [all [folds [runs [t1 [best [r0 [Ha [Hb [Hst [_ [F2 [L [_ [Ho [-> Er]]]]]]]]]]]]]]]]]. assert (E0 : r0 = r) by congruence. rewrite E0 in *. clear E0 Ho r0.
    destruct (stack_fits _ _ _ _ _ Hst (sd_train _ SD _ Ha) (sd_eval _ SD _ Hb)) as [Ka D].
    destruct (g_runs_sound _ _ _ _ _ _ Ka D SD ST F2 L) as [FR _].
    assert (CF : forall u, In u runs -> same_config t (fr_before u)).
    { apply (linked_config _ _ _ _ _ B runs t t1 L). intros u Hu.
      destruct (Forall2_pick_r _ _ _ _ _ F2 u Hu) as [i [_ [_ [K _]]]]. eauto. }
    assert (Hn : runs <> []).
    { intros ->. inversion F2 as [K|]. symmetry in K. apply (f_equal (@length nat)) in K. rewrite seq_length in K. cbn in K. lia. }
    destruct (exists_last Hn) as [rs [u Eu]]. subst runs.
    assert (Hu : In u (rs ++ [u])) by (apply in_or_app; right; left; auto).
    assert (Lt : t1 = fr_after u).
    { clear - L. revert t L. induction rs as [|v rs IH]; intros t L; cbn [app linked] in L.
      - destruct L as [_ [_ [_ [_ L]]]]. exact L.
      - destruct L as [_ [_ [_ [_ L]]]]. eapply IH; eauto. }
    destruct (proj1 (Forall_forall _ _) FR u Hu) as [SB [_ [M1 [M2 M3]]]].
    destruct (CF u Hu) as [_ [_ [C1 [_ [C2 _]]]]].
    destruct (Forall2_pick_r _ _ _ _ _ F2 u Hu) as [i [_ [[R1 R2] [R3 R4]]]].
    destruct (g_inner_scored _ _ SB ltac:(congruence) ltac:(lia) R3) as [dt [de [r' [H1 [H2 [H3 [H4 _]]]]]]].
    rewrite R4 in H3. inversion H3; subst r'.
    destruct (train_inner_config _ _ _ _ _ _ _ _ _ R3) as [_ [_ De]].
    exists de, (fr_results u), (concat (map (fun u => r_elog (fr_results u)) rs)).
    split; [cbn [with_results t_eval]; congruence|]. split.
    { rewrite Er. cbn [r_elog]. rewrite map_app, concat_app. cbn [map concat]. now rewrite app_nil_r. }
    apply train_inner_ok in R3; [|lia]. apply inner_reports in R3.
    destruct R3 as [dt' [de' [m [x0 [n [r2 [_ [_ [R5 R6]]]]]]]]]. rewrite R4 in R5. inversion R5; subst r2.
    destruct R6 as [_ [_ [_ [_ [[b [B1 [B2 [B3 B4]]]]|[B1 _]]]]]]; [left|right; exact B1].
    exists b. split; [auto|]. split; [auto|]. destruct (H4 b ltac:(congruence) B3) as [s [S1 [S2 S3]]].
    exists s. cbn [with_results t_state]. subst t1. unfold fits_t, scores_t in *. rewrite M1, M2, M3 in *. auto.
  Qed.
End Course.

(** When the answers of the exported predictor are those of the evaluation. *)
Lemma predicts_scores : forall X (B : backend tm (list cblock) X dense_state (list nat)) (xok : nat -> nat -> nat -> X -> Prop),
  (forall n ncl ncls m x d, xok n ncl ncls x -> data_fits n ncls d ->
    tm_nlit m = n -> Z.to_nat (tm_ncl m) = ncl -> tm_ncls m = ncls ->
    exists rs, compile_from_dense_state (bk_snap B m x) = Ok rs /\
      forall mode excl junk p, from_ruleset mode excl rs junk = Ok p ->
        votes_fit n ncls (bk_snap B m x) (literal_rows n (d_x d)) ->
        answers p (literal_rows n (d_x d)) = map (fun y => Ok (AClass y)) (fst (bk_evaluate B d x))) ->
  forall n ncl ncls m x d v, xok n ncl ncls x -> data_fits n ncls d ->
    tm_nlit m = n -> Z.to_nat (tm_ncl m) = ncl -> tm_ncls m = ncls ->
    bk_score B (d_y d) (fst (bk_evaluate B d x)) = Ok v -> predictor_scores (bk_score B) n ncls (bk_snap B m x) d v.
Proof.
  intros X B xok H n ncl ncls m x d v Ox D M1 M2 M3 Hs. destruct (H n ncl ncls m x d Ox D M1 M2 M3) as [rs [E1 E2]].
  exists rs. split; auto. intros mode excl junk p Hp V. exists (fst (bk_evaluate B d x)). split; [|exact Hs]. apply (E2 mode excl junk p Hp V).
Qed.

(** ** Two backends that cannot be told apart *)

Section Alike.
  Variables X1 X2 : Type.
  Variable B1 : backend tm (list cblock) X1 dense_state (list nat).
  Variable B2 : backend tm (list cblock) X2 dense_state (list nat).
  Variable R : X1 -> X2 -> Prop.
  Variable startable : nat -> nat -> Prop.
  Hypothesis H_nlit : bk_nlit B1 = bk_nlit B2.
  Hypothesis H_sparse : bk_sparse_cb B1 = bk_sparse_cb B2.
  Hypothesis H_construct : bk_construct B1 = bk_construct B2.
  Hypothesis H_score : bk_score B1 = bk_score B2.
  Hypothesis H_callback : bk_callback B1 = bk_callback B2.
  Hypothesis H_assign : bk_assign B1 = bk_assign B2.
  Hypothesis H_epoch : forall d x y, R x y -> fst (bk_train_epoch B1 d x) = fst (bk_train_epoch B2 d y) /\
    R (snd (bk_train_epoch B1 d x)) (snd (bk_train_epoch B2 d y)).
  Hypothesis H_eval : forall d x y, R x y -> fst (bk_evaluate B1 d x) = fst (bk_evaluate B2 d y) /\
    R (snd (bk_evaluate B1 d x)) (snd (bk_evaluate B2 d y)).
  Hypothesis H_snap : forall m x y, R x y -> bk_snap B1 m x = bk_snap B2 m y.
  Hypothesis H_launch : forall t dt cbs m, sound t -> startable (tm_nlit (t_m t)) (tm_ncls (t_m t)) ->
    bk_construct B2 (t_m t) (t_n_jobs t) (t_seed t) dt = (Ok cbs, m) ->
    match bk_launch B1 m cbs (t_state t) (t_n_jobs t) (t_seed t) dt, bk_launch B2 m cbs (t_state t) (t_n_jobs t) (t_seed t) dt with
    | Ok x, Ok y => R x y
    | Raise e, Raise e' => e = e'
    | _, _ => False
    end.
  Hypothesis H_sound : forall t t', sound t -> startable (tm_nlit (t_m t)) (tm_ncls (t_m t)) -> train_inner B2 t = (Ok tt, t') ->
    sound t' /\ same_dims (t_m t) (t_m t').

  Lemma g_inner_alike : forall t, sound t -> startable (tm_nlit (t_m t)) (tm_ncls (t_m t)) -> train_inner B1 t = train_inner B2 t.
  Proof.
    intros t SD ST. apply (inner_sim _ _ _ _ _ _ B1 B2 R); auto.
    intros dt cbs m _ Co. exact (H_launch t dt cbs m SD ST Co).
  Qed.

  Lemma g_folds_alike : forall all folds is best tl el t, x_kind (d_x all) = KArray ->
    data_fits (tm_nlit (t_m t)) (tm_ncls (t_m t)) all -> sound t -> startable (tm_nlit (t_m t)) (tm_ncls (t_m t)) ->
    fold_loop B1 all folds is best tl el t = fold_loop B2 all folds is best tl el t.
  Proof.
    intros all folds is. induction is as [|i is IH]; intros best tl el t Ka D SD ST; cbn [fold_loop]; auto.
    destruct (fold_indices i folds) as [ti ei].
    pose proof (pick_fits _ _ all ti Ka D) as Pt. pose proof (pick_fits _ _ all ei Ka D) as Pe.
    destruct (pick all ti) as [xt yt]. destruct (pick all ei) as [xe ye].
    unfold set_train_data. rewrite H_nlit, H_sparse.
    destruct (check_data _ _ _ (Some xt) yt) as [d1|e1] eqn:C1; auto. apply check_data_ok in C1. subst d1.
    unfold set_eval_data. cbn [with_train t_m t_train]. rewrite H_nlit, H_sparse.
    destruct (check_data _ _ _ (Some xe) ye) as [d2|e2] eqn:C2; auto. apply check_data_ok in C2. subst d2.
    set (t2 := with_eval _ (with_train _ t)).
    assert (S2 : sound t2).
    { destruct SD as [K MF MB Ft Fe]. constructor; auto; cbn [t2 with_eval with_train t_train t_eval t_m]; intros d Hd; inversion Hd; subst d;
        now apply set_data_fits. }
    rewrite (g_inner_alike t2 S2 ST). destruct (train_inner B2 t2) as [[[]|e] t3] eqn:E3; auto.
    destruct (H_sound _ _ S2 ST E3) as [S3 [M1 [M2 M3]]].
    destruct (t_results t3); auto. apply IH; auto; rewrite M2, ?M3; auto.
  Qed.

  Theorem g_train_alike : forall t, sound t -> startable (tm_nlit (t_m t)) (tm_ncls (t_m t)) -> train B1 t = train B2 t.
  Proof.
    intros t SD ST. unfold train. destruct (t_folds t >? 1).
    - destruct (t_train t) as [a|] eqn:Ea; auto. destruct (t_eval t) as [b|] eqn:Eb; auto.
      destruct (stack a b) as [all|] eqn:Es; auto. rewrite H_assign.
      destruct (bk_assign B2 (t_folds t) (t_seed t) all); auto.
      destruct (stack_fits _ _ _ _ _ Es (sd_train _ SD _ Ea) (sd_eval _ SD _ Eb)) as [Ka D].
      rewrite g_folds_alike; auto.
    - rewrite g_inner_alike; auto.
  Qed.
End Alike.

(** ** n_jobs *)

Lemma dense_construct_jobs : forall m j j' seed d sz, tm_sizes m = Some sz ->
  dense_construct m j seed d = dense_construct m j' seed d /\ tm_sizes (snd (dense_construct m j seed d)) = Some sz.
Proof.
  intros m j j' seed d sz H. destruct (construct_sizes m j seed d sz H) as [-> Sz].
  destruct (construct_sizes m j' seed d sz H) as [-> _]. auto.
Qed.

Section AnyJobs.
  Variable X : Type.
  Variable B : backend tm (list cblock) X dense_state (list nat).
  Hypothesis H_construct : forall m j j' seed d sz, tm_sizes m = Some sz ->
    bk_construct B m j seed d = bk_construct B m j' seed d /\ tm_sizes (snd (bk_construct B m j seed d)) = Some sz.
  Hypothesis H_jobs : forall m cbs st j j' seed d, bk_launch B m cbs st j seed d = bk_launch B m cbs st j' seed d.

  Lemma g_inner_jobs : forall j t sz, tm_sizes (t_m t) = Some sz ->
    train_inner B (with_jobs j t) = (fst (train_inner B t), with_jobs j (snd (train_inner B t))) /\
    tm_sizes (t_m (snd (train_inner B t))) = Some sz.
  Proof.
    intros j t sz H. unfold train_inner. cbn [with_jobs t_train t_eval t_m t_n_jobs t_seed t_epochs].
    destruct (t_train t) as [dt|]; [|cbn; auto]. destruct (t_eval t) as [de|]; [|cbn; auto].
    destruct (negb (kinds_match (Some dt) (Some de))); [cbn; auto|].
    destruct (H_construct (t_m t) j (t_n_jobs t) (t_seed t) dt sz H) as [Ec Sz]. rewrite Ec in *.
    destruct (bk_construct B (t_m t) (t_n_jobs t) (t_seed t) dt) as [[cbs|e] m]; cbn [snd fst] in *; [|cbn; auto].
    cbn [with_m with_jobs t_train t_eval t_m t_n_jobs t_seed t_epochs t_early t_load t_best t_state].
    destruct (t_epochs t <? 1); [cbn; auto|].
    rewrite (H_jobs m cbs (t_state t) j (t_n_jobs t)).
    destruct (bk_launch B m cbs (t_state t) (t_n_jobs t) (t_seed t) dt) as [x0|e]; [|cbn; auto].
    match goal with |- context [epochs B ?b ?c ?d ?e ?f ?g ?h ?i ?k] => destruct (epochs B b c d e f g h i k) as [[ex|] l] end; cbn; auto.
  Qed.

  Lemma g_fold_loop_jobs : forall all folds is j best tl el t sz, tm_sizes (t_m t) = Some sz ->
    fold_loop B all folds is best tl el (with_jobs j t) =
      (fst (fold_loop B all folds is best tl el t), with_jobs j (snd (fold_loop B all folds is best tl el t))).
  Proof.
    intros all folds is. induction is as [|i is IH]; intros j best tl el t sz H; cbn [fold_loop]; auto.
    destruct (fold_indices i folds) as [ti ei]. destruct (pick all ti) as [xt yt]. destruct (pick all ei) as [xe ye].
    unfold set_train_data. cbn [with_jobs t_m t_eval]. destruct (check_data _ _ _ (Some xt) yt) as [d1|e1]; [|reflexivity].
    unfold set_eval_data. cbn [with_jobs with_train t_m t_train]. destruct (check_data _ _ _ (Some xe) ye) as [d2|e2]; [|reflexivity].
    set (t2 := with_eval (Some d2) (with_train (Some d1) t)).
    change (with_eval (Some d2) (with_train (Some d1) (with_jobs j t))) with (with_jobs j t2).
    destruct (g_inner_jobs j t2 sz H) as [E S2]. rewrite E. destruct (train_inner B t2) as [[[]|e] t3]; cbn [fst snd] in *; [|reflexivity].
    cbn [with_jobs t_results]. change (t_results (with_jobs j t3)) with (t_results t3). destruct (t_results t3) as [r|]; [|reflexivity].
    apply (IH _ _ _ _ _ sz); auto.
  Qed.

  Lemma g_train_jobs : forall j t sz, tm_sizes (t_m t) = Some sz ->
    train B (with_jobs j t) = (fst (train B t), with_jobs j (snd (train B t))).
  Proof.
    intros j t sz H. unfold train. cbn [with_jobs t_folds t_train t_eval t_seed].
    destruct (t_folds t >? 1).
    - destruct (t_train t); [|reflexivity]. destruct (t_eval t); [|reflexivity]. destruct (stack _ _); [|reflexivity].
      destruct (bk_assign _ _ _ _); [|reflexivity]. rewrite (g_fold_loop_jobs _ _ _ j _ _ _ t sz H).
      destruct (fold_loop _ _ _ _ _ _ _ t) as [[[[bs tl] el]|e] t1]; reflexivity.
    - destruct (g_inner_jobs j t sz H) as [E _]. rewrite E. destruct (train_inner B t) as [[[]|e] t3]; reflexivity.
  Qed.
End AnyJobs.
