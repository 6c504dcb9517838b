(** Training on a csr matrix is training on the matrix written out; the
    parameters of the blocks of a run. *)
From Coq Require Import ZArith List Bool QArith Lia ZifyBool.
From Verif Require Import Base BaseProofs Spec ModelInference ModelRuleSet ModelDense ModelFeedback ModelExecutor ModelDenseExec ModelLayout
  ModelMachine ModelTrainer ModelTrainerDense ModelPredictor SpecTraining SpecTrainerDense SpecTrainerRun
  ProofsExecutor ProofsDenseExec ProofsTopExecutor ProofsMachine ProofsTrainer ProofsTrainerDense ProofsTrainerPool.
Import ListNotations.
Open Scope Z_scope.

(** ** csr *)

Lemma decode_fold : forall n cols row, Forall (fun c => 0 <= c < Z.of_nat n) cols -> length row = n ->
  let r := fold_left (fun row c => set_nth (Z.to_nat c) 1 row) cols row in
  length r = n /\ forall i, (i < n)%nat -> (In (Z.of_nat i) cols -> nth i r 0 = 1) /\ (~ In (Z.of_nat i) cols -> nth i r 0 = nth i row 0).
Proof.
  intros n cols. induction cols as [|c cols IH]; intros row F L; cbn [fold_left].
  - split; auto. intros i Hi. split; [contradiction|auto].
  - pose proof (Forall_inv F) as Fc. pose proof (Forall_inv_tail F) as F'. cbv beta in Fc.
    destruct (IH (set_nth (Z.to_nat c) 1 row) F' ltac:(now rewrite set_nth_length)) as [I1 I2]. split; auto.
    intros i Hi. destruct (I2 i Hi) as [J1 J2].
    destruct (in_dec Z.eq_dec (Z.of_nat i) cols) as [Hin|Hout].
    + split; [auto|]. intros N. exfalso. apply N. now right.
    + split.
      * intros [E|E]; [|contradiction]. rewrite J2 by auto. subst c. rewrite Nat2Z.id. rewrite nth_set_nth_eq; auto. lia.
      * intros N. rewrite J2 by auto. rewrite nth_set_nth_neq; auto. intros E. apply N. left. lia.
Qed.

Lemma decode_same : forall n cols row, same_row n cols row -> decode_row n cols = row.
Proof.
  intros n cols row [F [L H]]. unfold decode_row.
  destruct (decode_fold n cols (repeat 0 n) F (repeat_length _ _)) as [D1 D2].
  apply nth_ext with (d := 0) (d' := 0); [congruence|]. intros i Hi. rewrite D1 in Hi.
  destruct (D2 i Hi) as [E1 E2]. destruct (H i Hi) as [H1 H2].
  destruct (in_dec Z.eq_dec (Z.of_nat i) cols) as [Hin|Hout].
  - rewrite E1, H1; auto.
  - rewrite E2, H2 by auto. apply nth_repeat.
Qed.

Lemma same_literals : forall n d d', same_matrix n d d' -> literal_rows n (d_x d') = literal_rows n (d_x d).
Proof.
  intros n d d' [K1 [K2 [_ F]]]. unfold literal_rows. rewrite K1, K2.
  induction F as [|c r cs rs H F IH]; cbn [map]; auto. rewrite IH. f_equal. symmetry. now apply decode_same.
Qed.
Lemma same_feed : forall n d d', same_matrix n d d' -> feed n d' = feed n d.
Proof. intros n d d' H. unfold feed. rewrite (same_literals n d d' H). destruct H as [_ [_ [-> _]]]. reflexivity. Qed.
Lemma same_fits : forall n ncls d d', same_matrix n d d' -> data_fits n ncls d -> data_fits n ncls d'.
Proof. intros n ncls d d' H. unfold data_fits. rewrite (same_literals n d d' H). destruct H as [_ [_ [-> _]]]. auto. Qed.

Lemma epoch_dr : forall d x, dr_n (snd (dense_epoch d x)) = dr_n x.
Proof. intros d x. unfold dense_epoch. destruct (train_epoch _ _ _ _ _ _ _ _). reflexivity. Qed.
Lemma evaluate_dr : forall d x, dr_n (snd (dense_evaluate d x)) = dr_n x.
Proof. intros d x. unfold dense_evaluate. destruct (eval_predict _ _ _ _ _ _ _) as [[a b] c]. reflexivity. Qed.
Lemma same_epoch : forall d d' x, same_matrix (dr_n x) d d' -> dense_epoch d' x = dense_epoch d x.
Proof. intros d d' x H. unfold dense_epoch. now rewrite (same_feed _ _ _ H). Qed.
Lemma same_evaluate : forall d d' x, same_matrix (dr_n x) d d' -> dense_evaluate d' x = dense_evaluate d x.
Proof. intros d d' x H. unfold dense_evaluate. rewrite (same_feed _ _ _ H). destruct H as [_ [_ [-> _]]]. reflexivity. Qed.

Section Csr.
  Variables (G : gens) (score : yarr -> list nat -> res fl) (callback : nat -> fl -> fl -> option exn)
            (assign : Z -> Z -> data -> res (list nat)).
  Let B := dense_backend G score callback assign.

  Definition with_cur (d : data) (l : loop drun dense_state) : loop drun dense_state :=
    mkLoop (l_x l) d (l_bs l) (l_be l) (l_best l) (l_tlog l) (l_elog l) (l_early l).
  (** Everything but the data. *)
  Definition loop_eq (l l' : loop drun dense_state) : Prop := exists d, l' = with_cur d l.

  Lemma epochs_csr : forall n ne early load m dt de dt' de', same_matrix n dt dt' -> same_matrix n de de' ->
    forall k e l cur', dr_n (l_x l) = n -> same_matrix n (l_cur l) cur' ->
    fst (epochs B ne early load m dt' de' k e (with_cur cur' l)) = fst (epochs B ne early load m dt de k e l) /\
    loop_eq (snd (epochs B ne early load m dt de k e l)) (snd (epochs B ne early load m dt' de' k e (with_cur cur' l))).
  Proof.
    intros n ne early load m dt de dt' de' Ht He k. induction k as [|k IH]; intros e l cur' N C; cbn [epochs].
    { split; [reflexivity|]. cbn [snd]. now exists cur'. }
    cbn [with_cur l_x l_cur l_bs l_be l_best l_tlog l_elog l_early].
    unfold B. cbn [dense_backend bk_train_epoch bk_evaluate bk_score bk_callback bk_snap]. fold B.
    rewrite (same_epoch (l_cur l) cur' (l_x l)) by (rewrite N; auto).
    pose proof (epoch_dr (l_cur l) (l_x l)) as N1. destruct (dense_epoch (l_cur l) (l_x l)) as [acc x1]. cbn [snd] in N1.
    rewrite (same_evaluate de de' x1) by (rewrite N1, N; auto).
    pose proof (evaluate_dr de x1) as N2. destruct (dense_evaluate de x1) as [p x2]. cbn [snd] in N2.
    assert (Ey : d_y de' = d_y de) by (destruct He as [_ [_ [? _]]]; auto). rewrite Ey.
    destruct (score (d_y de) p) as [sc|ex]; [|split; [reflexivity|cbn [snd]; now exists de']].
    destruct (callback e acc sc) as [ex|]; [split; [reflexivity|cbn [snd]; now exists de']|].
    destruct (fl_leb early sc); [split; [reflexivity|cbn [snd]; now exists de']|].
    set (l1 := mkLoop x2 (if Z.of_nat e <? ne - 1 then dt else de) (if fl_ltb (l_bs l) sc then sc else l_bs l)
      (if fl_ltb (l_bs l) sc then Z.of_nat e else l_be l)
      (if fl_ltb (l_bs l) sc && truthy load then Some (dense_snap m x2) else l_best l) (l_tlog l ++ [acc]) (l_elog l ++ [sc]) (l_early l)).
    apply (IH (S e) l1 (if Z.of_nat e <? ne - 1 then dt' else de')).
    - cbn [l1 l_x]. congruence.
    - cbn [l1 l_cur]. destruct (Z.of_nat e <? ne - 1); auto.
  Qed.

  Lemma launch_labels : forall m cbs st j sd d d', d_y d' = d_y d -> dense_launch G m cbs st j sd d' = dense_launch G m cbs st j sd d.
  Proof. intros m cbs st j sd d d' E. unfold dense_launch. now rewrite E. Qed.

  Lemma inner_csr : forall t dt de dt' de', sound t -> t_train t = Some dt -> t_eval t = Some de ->
    same_matrix (tm_nlit (t_m t)) dt dt' -> same_matrix (tm_nlit (t_m t)) de de' ->
    train_inner B (given dt' de' t) = (fst (train_inner B t), given dt' de' (snd (train_inner B t))).
  Proof.
    intros t dt de dt' de' [K MF _ _ _] Et Ee Ht He. unfold train_inner. rewrite Et, Ee.
    cbn [given with_train with_eval t_train t_eval t_m t_n_jobs t_seed t_state t_epochs t_early t_load t_best].
    assert (Km : kinds_match (Some dt') (Some de') = true /\ kinds_match (Some dt) (Some de) = true).
    { destruct Ht as [A1 [A2 _]], He as [A3 [A4 _]]. unfold kinds_match, is_csr, is_array. rewrite A1, A2, A3, A4. auto. }
    destruct Km as [-> ->]. cbn [negb].
    unfold B at 1 3. cbn [dense_backend bk_construct].
    change (dense_construct (t_m t) (t_n_jobs t) (t_seed t) dt') with (dense_construct (t_m t) (t_n_jobs t) (t_seed t) dt).
    assert (E0 : bk_construct B (t_m t) (t_n_jobs t) (t_seed t) dt = dense_construct (t_m t) (t_n_jobs t) (t_seed t) dt) by reflexivity.
    try rewrite E0. clear E0.
    destruct (dense_construct (t_m t) (t_n_jobs t) (t_seed t) dt) as [[cbs|ex] m] eqn:Co; [|reflexivity].
    change (t_epochs (with_m m (given dt' de' t))) with (t_epochs t). change (t_epochs (with_m m t)) with (t_epochs t).
    change (t_state (with_m m (given dt' de' t))) with (t_state t). change (t_state (with_m m t)) with (t_state t).
    change (t_n_jobs (with_m m (given dt' de' t))) with (t_n_jobs t). change (t_n_jobs (with_m m t)) with (t_n_jobs t).
    change (t_seed (with_m m (given dt' de' t))) with (t_seed t). change (t_seed (with_m m t)) with (t_seed t).
    change (t_early (with_m m (given dt' de' t))) with (t_early t). change (t_early (with_m m t)) with (t_early t).
    change (t_load (with_m m (given dt' de' t))) with (t_load t). change (t_load (with_m m t)) with (t_load t).
    change (t_best (with_m m (given dt' de' t))) with (t_best t). change (t_best (with_m m t)) with (t_best t).
    destruct (t_epochs t <? 1); [reflexivity|].
    unfold B at 1 3. cbn [dense_backend bk_launch].
    assert (E0 : forall d, bk_launch B m cbs (t_state t) (t_n_jobs t) (t_seed t) d = dense_launch G m cbs (t_state t) (t_n_jobs t) (t_seed t) d) by reflexivity.
    try rewrite !E0. clear E0.
    rewrite (launch_labels m cbs (t_state t) (t_n_jobs t) (t_seed t) dt dt') by (destruct Ht as [_ [_ [? _]]]; auto).
    destruct (dense_launch G m cbs (t_state t) (t_n_jobs t) (t_seed t) dt) as [x0|ex] eqn:La; [|reflexivity].
    destruct (launch_ok G _ _ _ _ _ _ _ _ (configured_ok _ K) Co MF La) as [[N _ _ _] _].
    pose proof (epochs_csr (tm_nlit (t_m t)) (t_epochs t) (t_early t) (t_load t) m dt de dt' de' Ht He (Z.to_nat (t_epochs t)) 0
      (mkLoop x0 dt (Fin (-1)) (-1) (t_best t) [] [] false) dt' N Ht) as [E1 E2].
    cbn [with_cur l_x l_bs l_be l_best l_tlog l_elog l_early] in E1, E2.
    match type of E2 with loop_eq (snd ?a) (snd ?b) => destruct a as [r1 l1] eqn:Ea; destruct b as [r2 l2] eqn:Eb end.
    cbn [fst snd] in E1, E2. subst r2. destruct E2 as [c ->].
    match goal with |- (let '(e, l) := ?g in _) = _ => replace g with (r1, with_cur c l1) by (symmetry; exact Eb) end.
    cbn [with_cur l_x l_bs l_be l_best l_tlog l_elog l_early]. destruct r1; reflexivity.
  Qed.
End Csr.

(** ** Parameters *)

Lemma map2_nth : forall A C D (f : A -> C -> D) l l' i z, nth_error (map2 f l l') i = Some z ->
  exists a c, nth_error l i = Some a /\ nth_error l' i = Some c /\ z = f a c.
Proof.
  intros A C D f l. induction l as [|a l IH]; intros [|c l'] i z H; destruct i; cbn [map2 nth_error] in H; try discriminate.
  - inversion H. exists a, c. auto.
  - destruct (IH l' i z H) as [a' [c' Q]]. exists a', c'. exact Q.
Qed.
Lemma alloc_nth : forall G l bs, alloc_all G l = Some bs -> forall i b, nth_error bs i = Some b ->
  exists e, nth_error l i = Some e /\ alloc_block G (fst (fst e)) (snd (fst e)) = Some b.
Proof.
  intros G l. induction l as [|e l IH]; intros bs H i b Hb; cbn [alloc_all] in H.
  - inversion H; subst. destruct i; discriminate.
  - destruct (alloc_block G (fst (fst e)) (snd (fst e))) as [b0|] eqn:A; [|discriminate].
    destruct (alloc_all G l) as [bs'|]; [|discriminate]. inversion H; subst bs. destruct i; cbn [nth_error] in *.
    + inversion Hb; subst. eauto.
    + destruct (IH bs' eq_refl i b Hb) as [e' Q]. eauto.
Qed.
Lemma allocate_nth : forall cbs seed l, allocate_loop seed cbs = Ok l -> forall i e, nth_error l i = Some e ->
  nth_error cbs i = Some (fst (fst e)) /\ snd (fst e) = seed + Z.of_nat i.
Proof.
  induction cbs as [|cb cbs IH]; intros seed l H i e He; cbn [allocate_loop] in H.
  - inversion H; subst. destruct i; discriminate.
  - destruct (_ || _); [discriminate|]. destruct (allocate_loop (seed + 1) cbs) as [l'|] eqn:E; inversion H; subst l.
    destruct i; cbn [nth_error] in *.
    + inversion He; subst. cbn [fst snd]. split; [auto|lia].
    + destruct (IH _ _ E i e He) as [A1 A2]. split; [auto|lia].
Qed.

Lemma construct_sizes : forall m n_jobs seed d cbs m', cfg_ok m -> dense_construct m n_jobs seed d = (Ok cbs, m') ->
  exists sizes, tm_sizes m' = Some sizes /\ (forall sz, tm_sizes m = Some sz -> sizes = sz) /\ zsum sizes = tm_ncl m /\
    length cbs = length sizes /\ tm_threshold m' = tm_threshold m /\ get_backend m' = get_backend m /\
    forall i d0, (i < length sizes)%nat -> exists b, dealt_budget m i = Some b /\
      nth i cbs d0 = mkCb (get_backend m) (tm_nlit m) (nth i sizes 0) (tm_ncls m) (nth (i mod length (tm_s m)) (tm_s m) Fnan) b.
Proof.
  intros m n_jobs seed d cbs m' K H. unfold dense_construct in H.
  assert (S0 : forall r m1, (match tm_sizes m with None => set_num_clause_blocks (BInt n_jobs) m | Some _ => (Ok tt, m) end) = (Ok r, m1) ->
    cfg_ok m1 /\ exists sizes, m1 = with_sizes (Some sizes) m /\ (forall sz, tm_sizes m = Some sz -> sizes = sz)).
  { intros [] m1 E. destruct (tm_sizes m) as [sz|] eqn:Ez.
    - inversion E; subst m1. split; auto. exists sz. split; [destruct m; cbn in *; now subst|]. intros sz' E'. congruence.
    - destruct (cstep_ok (CBlocks (BInt n_jobs)) m m1 K E) as [A _]. split; auto.
      unfold set_num_clause_blocks in E. destruct (n_jobs =? 0); [discriminate|].
      destruct (repeat (tm_ncl m / n_jobs) (Z.to_nat n_jobs)) as [|h r]; [discriminate|].
      destruct (existsb _ _); [discriminate|]. inversion E. eexists. split; [reflexivity|discriminate]. }
  destruct (match tm_sizes m with None => set_num_clause_blocks (BInt n_jobs) m | Some _ => (Ok tt, m) end) as [[r|e] m1]; [|discriminate].
  destruct (S0 r m1 eq_refl) as [K1 [sizes [E1 E2]]]. clear S0.
  assert (Ez : tm_sizes m1 = Some sizes) by (subst m1; reflexivity).
  destruct K1 as [Q1 Q2 Q3 Q4 _]. pose proof (construct_spec m1 sizes Ez Q1 Q2 Q3) as P. rewrite H in P.
  destruct P as [_ P]. destruct (P cbs eq_refl) as [P0 [P1 P2]].
  exists sizes. split; [subst m'; cbn [with_cbs tm_sizes]; exact Ez|]. split; [exact E2|].
  split; [destruct (Q4 sizes Ez) as [Z1 _]; rewrite Z1; subst m1; reflexivity|].
  split; [exact P1|]. subst m' m1. split; [reflexivity|]. split; [reflexivity|].
  intros i d0 Hi. destruct (P2 i d0 Hi) as [b [B1 B2]]. exists b. split; [exact B1|exact B2].
Qed.

Lemma save_loop_length : forall c w cbs off, length (save_loop c w off cbs) = length cbs.
Proof. intros c w cbs. induction cbs as [|cb cbs IH]; intros off; cbn [save_loop length]; auto. Qed.
