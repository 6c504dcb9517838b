(** Proofs about ModelSearch.v: a search over workable ranges completes. *)
From Coq Require Import ZArith List Bool QArith Qround Lia ZifyBool Permutation.
From Verif Require Import Base BaseProofs Spec ModelRuleSet ModelDense ModelFeedback ModelExecutor ModelDenseExec ModelLayout ModelMachine ProofsMachine
  ModelTrainer ModelTrainerDense SpecTraining SpecTrainerDense ProofsTrainer ProofsTrainerDense ProofsTrainerPool ModelSearch SpecSearch ProofsSearch.
Import ListNotations.
Open Scope Z_scope.

(** ** Classes *)

Lemma label_in : forall y v, label y v <-> In v (concat (y_rows y)).
Proof.
  intros y v. unfold label. rewrite in_concat. split; intros [r [H1 H2]]; exists r; auto.
Qed.
Lemma range_count : forall (l : list Z) k, NoDup l -> (forall v, In v l <-> 0 <= v < k) -> Z.of_nat (length l) = Z.max 0 k.
Proof.
  intros l k N H. assert (P : Permutation l (map Z.of_nat (seq 0 (Z.to_nat k)))).
  { apply NoDup_Permutation; auto.
    - apply FinFun.Injective_map_NoDup; [intros a b; lia|apply seq_NoDup].
    - intros v. rewrite H, in_map_iff. split.
      + intros R. exists (Z.to_nat v). rewrite in_seq. lia.
      + intros [i [I1 I2]]. apply in_seq in I2. lia. }
  apply Permutation_length in P. rewrite map_length, seq_length in P. lia.
Qed.
Lemma n_unique_range : forall y k, (forall v, label y v <-> 0 <= v < k) -> Z.of_nat (n_unique y) = Z.max 0 k.
Proof.
  intros y k H. unfold n_unique. apply range_count; [apply NoDup_nodup|].
  intros v. rewrite nodup_In, <- label_in. apply H.
Qed.
Lemma below_unique : forall y, (forall v, label y v -> 0 <= v < Z.of_nat (n_unique y)) ->
  forall v, label y v <-> 0 <= v < Z.of_nat (n_unique y).
Proof.
  intros y H v. split; [apply H|]. intros R. rewrite label_in, <- (nodup_In Z.eq_dec).
  assert (I : incl (map Z.of_nat (seq 0 (n_unique y))) (nodup Z.eq_dec (concat (y_rows y)))).
  { apply NoDup_length_incl; [apply NoDup_nodup|rewrite map_length, seq_length; unfold n_unique; lia|].
    intros w Hw. apply nodup_In in Hw. apply label_in in Hw. apply H in Hw. apply in_map_iff. exists (Z.to_nat w). rewrite in_seq. lia. }
  apply I. apply in_map_iff. exists (Z.to_nat v). rewrite in_seq. lia.
Qed.

(** ** Training succeeds *)

Lemma eval_list_length : forall B E ev es bs fb, length (fst (fst (eval_list B E ev es bs fb))) = length es.
Proof.
  intros B E ev es. induction es as [|e es IH]; intros bs fb; [reflexivity|]. cbn [eval_list].
  match goal with |- context [let '(_, _) := ?a in _] => destruct a as [bs1 fb1] end.
  specialize (IH bs1 fb1). destruct (eval_list B E ev es bs1 fb1) as [[ys b2] f2]. cbn [fst length] in *. now rewrite IH.
Qed.
Lemma dense_evaluate_length : forall d x, length (fst (dense_evaluate d x)) = length (y_rows (d_y d)).
Proof.
  intros d x. unfold dense_evaluate, eval_predict. rewrite repeat_length.
  destruct (Nat.eqb_spec (length (y_rows (d_y d))) (length (feed (dr_n x) d))); cbn [negb].
  - pose proof (eval_list_length block (list Z) dense_eval_ex (map fst (feed (dr_n x) d)) (x_blocks (dr_exec x)) (x_fb (dr_exec x))) as L.
    destruct (eval_list _ _ _ _ _ _) as [[ys bs] fb]. cbn [fst] in *. rewrite map_length in L. congruence.
  - cbn [fst]. apply repeat_length.
Qed.
Lemma accuracy_fin : forall y p, length (y_rows y) = length p -> y_rows y <> [] -> exists q, accuracy_score y p = Ok (Fin q).
Proof.
  intros y p L N. unfold accuracy_score. rewrite map_length, L, Nat.eqb_refl. cbn [negb].
  destruct (y_rows y); [congruence|]. cbn [map]. eauto.
Qed.

Section Epochs.
  Variables (G : gens) (assign : Z -> Z -> data -> res (list nat)).
  Let B2 := dense_backend G accuracy_score (fun _ _ _ => None) assign.

  Lemma epochs_fine : forall ne early load m dt de k e l, y_rows (d_y de) <> [] ->
    fst (epochs B2 ne early load m dt de k e l) = None /\
    exists new, l_elog (snd (epochs B2 ne early load m dt de k e l)) = l_elog l ++ new /\ ((1 <= k)%nat -> new <> []) /\
      Forall (fun f => exists q, f = Fin q) new.
  Proof.
    intros ne early load m dt de k. induction k as [|k IH]; intros e l N; cbn [epochs].
    - cbn [fst snd]. split; auto. exists []. rewrite app_nil_r. repeat split; auto; lia.
    - destruct (bk_train_epoch B2 (l_cur l) (l_x l)) as [acc x]. pose proof (dense_evaluate_length de x) as L.
      change (bk_evaluate B2 de x) with (dense_evaluate de x). destruct (dense_evaluate de x) as [p x']. cbn [fst] in L.
      destruct (accuracy_fin (d_y de) p (eq_sym L) N) as [q Q].
      change (bk_score B2 (d_y de) p) with (accuracy_score (d_y de) p). rewrite Q.
      change (bk_callback B2 e acc (Fin q)) with (@None exn). cbv zeta.
      destruct (fl_leb early (Fin q)).
      + cbn [fst snd l_elog]. split; auto. exists [Fin q]. repeat split; [discriminate|]. constructor; eauto.
      + match goal with |- context [epochs B2 ne early load m dt de k (Datatypes.S e) ?l1] => destruct (IH (Datatypes.S e) l1 N) as [A1 [new [A2 [A3 A4]]]] end.
        split; [exact A1|]. exists (Fin q :: new). rewrite A2. cbn [l_elog]. rewrite <- app_assoc. repeat split; [discriminate|]. constructor; eauto.
  Qed.
End Epochs.

Lemma allocate_loop_seeds : forall cbs seed l, allocate_loop seed cbs = Ok l -> forallb (fun e => snd e) l = true ->
  Forall (fun e => snd (fst e) <> 0) l.
Proof.
  intros cbs. induction cbs as [|c cbs IH]; intros seed l H F; cbn [allocate_loop] in H.
  - inversion H. constructor.
  - destruct ((seed <? 0) || (4294967296 <=? seed)); [discriminate|]. destruct (allocate_loop (seed + 1) cbs) as [l1|] eqn:E; [|discriminate].
    inversion H; subst l. cbn [forallb snd] in F. apply andb_true_iff in F. destruct F as [F1 F2]. constructor; [|eauto].
    cbn [fst snd]. lia.
Qed.
Lemma alloc_all_ok : forall G l, Forall (fun e : cblock * Z * bool => snd (fst e) <> 0) l -> exists bs, alloc_all G l = Some bs.
Proof.
  intros G l. induction 1 as [|e l H _ [bs IH]]; [exists []; reflexivity|]. cbn [alloc_all]. rewrite IH.
  unfold alloc_block, initialize. destruct (Z.eqb_spec (snd (fst e)) 0); [contradiction|].
  destruct (init_clauses _ _ _) as [cs r]. destruct (init_weights _ _ _) as [ws f]. eauto.
Qed.

Lemma start_pieces : forall G n_jobs seed m l m' d, train_start n_jobs seed m = (Ok l, m') -> labels_per_example (d_y d) = 1%nat ->
  exists cbs x, dense_construct m n_jobs seed d = (Ok cbs, m') /\ dense_launch G m' cbs None n_jobs seed d = Ok x.
Proof.
  intros G n_jobs seed m l m' d H L. unfold train_start in H. unfold dense_construct.
  destruct (match tm_sizes m with None => _ | Some _ => _ end) as [[[]|e] t0]; [|discriminate].
  destruct (construct_clause_blocks t0) as [[cbs|e] t1]; [|discriminate].
  destruct (allocate_clause_blocks cbs seed) as [l'|e] eqn:A; [|discriminate].
  destruct (executor_accepts l') eqn:Ex; [|discriminate]. inversion H; subst l' t1. exists cbs.
  unfold dense_launch. rewrite A, Ex, L. cbn [Nat.ltb Nat.leb negb orb].
  assert (S : Forall (fun e : cblock * Z * bool => snd (fst e) <> 0) l).
  { unfold allocate_clause_blocks in A. destruct cbs; [discriminate|]. eapply allocate_loop_seeds; [exact A|].
    unfold executor_accepts in Ex. apply andb_true_iff in Ex. tauto. }
  destruct (alloc_all_ok G l S) as [bs ->]. eauto.
Qed.

(** ** One trial *)

Lemma plain_check : forall nlit x y other, plain nlit x y -> match other with Some o => x_kind o = KArray | None => True end ->
  check_data nlit false other (Some x) y = Ok (mkData x y).
Proof.
  intros nlit x y other [K [U8 [U32 [Sx [Sy _]]]]] O. unfold check_data.
  assert (A : is_array x = true) by (unfold is_array; now rewrite K). rewrite A.
  assert (C : match other with Some v => is_csr v | None => false end = false).
  { destruct other as [o|]; auto. unfold is_csr. now rewrite O. }
  rewrite C. rewrite andb_false_r. cbn [negb andb]. rewrite andb_false_r. cbn [andb].
  unfold atleast_1d. rewrite Sy, Sx, Sy, Nat.eqb_refl, U8, U32. cbn [negb]. rewrite Nat.eqb_refl. reflexivity.
Qed.
Lemma plain_fits : forall nlit ncls x y, plain nlit x y -> (forall v, label y v -> 0 <= v < Z.of_nat ncls) ->
  data_fits nlit ncls (mkData x y).
Proof.
  intros nlit ncls x y [K [U8 [U32 [Sx [Sy [Le [Ne [On R]]]]]]]] L. unfold data_fits. cbn [d_x d_y].
  assert (E : literal_rows nlit x = x_rows x) by (unfold literal_rows; now rewrite K). rewrite E. split; [auto|]. split; [auto|].
  rewrite Forall_forall in *. intros r Hr. specialize (On r Hr). destruct r as [|v [|? ?]]; try discriminate On. unfold label_of. cbn [hd].
  assert (X : label y v) by (exists [v]; split; [auto|left; auto]). apply L in X. lia.
Qed.

(** ** Folds *)

Lemma build_loop_cbs : forall c t sq bq sizes flags, build_loop (with_cbs c t) sq bq sizes flags = build_loop t sq bq sizes flags.
Proof.
  intros c t sq bq sizes. revert sq bq. induction sizes as [|n sizes IH]; intros sq bq [|f flags]; auto. cbn [build_loop].
  change (tm_s (with_cbs c t)) with (tm_s t). change (tm_budgets (with_cbs c t)) with (tm_budgets t).
  destruct (match sq with [] => tm_s t | _ => sq end) as [|s sq']; auto. destruct (match bq with [] => tm_budgets t | _ => bq end) as [|b bq']; auto.
  destruct (if match tm_budgets t with None :: _ => false | _ => true end then as_uint32 b else Some 65535); auto. rewrite IH. reflexivity.
Qed.
Lemma construct_again : forall m n_jobs seed d cbs m' d', dense_construct m n_jobs seed d = (Ok cbs, m') -> dense_construct m' n_jobs seed d' = (Ok cbs, m').
Proof.
  intros m n_jobs seed d cbs m' d' H. unfold dense_construct in H.
  destruct (match tm_sizes m with None => _ | Some _ => _ end) as [[u|e] t0]; [|discriminate].
  unfold construct_clause_blocks in H. destruct (tm_sizes t0) as [sizes|] eqn:Es; [|destruct (tm_flags t0); discriminate].
  destruct (build_loop t0 [] [] sizes _) as [c [e|]] eqn:Eb; [discriminate|]. inversion H; subst c m'. clear H.
  unfold dense_construct. change (tm_sizes (with_cbs (Some cbs) t0)) with (tm_sizes t0). rewrite Es. unfold construct_clause_blocks.
  change (tm_sizes (with_cbs (Some cbs) t0)) with (tm_sizes t0). change (tm_flags (with_cbs (Some cbs) t0)) with (tm_flags t0).
  rewrite Es, build_loop_cbs, Eb. reflexivity.
Qed.
Lemma launch_any_state : forall G m cbs n_jobs seed d d' x st, dense_launch G m cbs None n_jobs seed d = Ok x -> labels_per_example (d_y d') = 1%nat ->
  exists x', dense_launch G m cbs st n_jobs seed d' = Ok x'.
Proof.
  intros G m cbs n_jobs seed d d' x st H L. unfold dense_launch in *. destruct (allocate_clause_blocks cbs seed) as [l|]; [|discriminate].
  rewrite L. cbn [Nat.ltb Nat.leb orb]. destruct (negb (executor_accepts l)); [rewrite orb_true_r in H; discriminate|].
  destruct ((1 <? _)%nat || false); [discriminate|]. destruct (alloc_all G l); [|discriminate]. eauto.
Qed.

Definition fins (l : list fl) : Prop := Forall (fun f => exists q, f = Fin q) l.

Section Inner.
  Variables (G : gens) (assign : Z -> Z -> data -> res (list nat)) (n_jobs seed n : Z) (cbs : list cblock) (m' : tm) (d0 : data) (x0 : drun).
  Let B2 := dense_backend G accuracy_score (fun _ _ _ => None) assign.
  Hypothesis Hn : 1 <= n.
  Hypothesis La : dense_launch G m' cbs None n_jobs seed d0 = Ok x0.

  (** A trainer whose machine starts. *)
  Definition going (t : trainer tm dense_state) : Prop :=
    (forall d, dense_construct (t_m t) n_jobs seed d = (Ok cbs, m')) /\ t_n_jobs t = n_jobs /\ t_seed t = seed /\ t_epochs t = n.

  Lemma inner_going : forall t dt de, going t -> t_train t = Some dt -> t_eval t = Some de ->
    is_array (d_x dt) = true -> is_array (d_x de) = true -> labels_per_example (d_y dt) = 1%nat -> y_rows (d_y de) <> [] ->
    exists t' r, train_inner B2 t = (Ok tt, t') /\ going t' /\ t_m t' = m' /\ t_train t' = Some dt /\ t_eval t' = Some de /\ t_results t' = Some r /\
      r_elog r <> [] /\ fins (r_elog r).
  Proof.
    intros t dt de [Co [Ej [Es En]]] Et Ee At Ae L Ne. unfold train_inner. rewrite Et, Ee. unfold kinds_match. rewrite At, Ae.
    cbn [andb]. rewrite orb_true_r. cbn [negb].
    change (bk_construct B2 (t_m t) (t_n_jobs t) (t_seed t) dt) with (dense_construct (t_m t) (t_n_jobs t) (t_seed t) dt).
    rewrite Ej, Es, Co. change (t_epochs (with_m m' t)) with (t_epochs t). rewrite En. destruct (Z.ltb_spec n 1); [lia|].
    change (t_state (with_m m' t)) with (t_state t). change (t_n_jobs (with_m m' t)) with (t_n_jobs t). change (t_seed (with_m m' t)) with (t_seed t).
    rewrite Ej, Es. destruct (launch_any_state G m' cbs n_jobs seed d0 dt x0 (t_state t) La L) as [x Lx].
    change (bk_launch B2 m' cbs (t_state t) n_jobs seed dt) with (dense_launch G m' cbs (t_state t) n_jobs seed dt). rewrite Lx.
    match goal with |- context [epochs B2 ?a ?b ?c ?d ?e ?f ?g ?h ?i] => destruct (epochs_fine G assign a b c d e f g h i Ne) as [E1 [new [E2 [E3 E4]]]];
      fold B2 in E1, E2; destruct (epochs B2 a b c d e f g h i) as [ex lp] end.
    cbn [fst snd l_elog app] in E1, E2. subst ex. do 2 eexists. split; [reflexivity|].
    cbn [with_results with_state with_best with_m t_m t_n_jobs t_seed t_epochs t_train t_eval t_results r_elog].
    split. { split; [|auto]. cbn [t_m]. intros d. eapply construct_again. apply (Co d). }
    rewrite Et, Ee, E2. repeat (split; [reflexivity|]). split; [apply E3; lia|exact E4].
  Qed.

  Lemma take_in_range : forall {A} (rows : list A) idx, Forall (fun j => (j < length rows)%nat) idx -> length (take rows idx) = length idx.
  Proof.
    intros A rows idx H. unfold take. induction H as [|j idx Hj H IH]; [reflexivity|]. cbn [flat_map]. rewrite app_length, IH.
    destruct (nth_error rows j) eqn:E; [reflexivity|]. apply nth_error_None in E. lia.
  Qed.
  Lemma pick_plain : forall nlit all idx, plain nlit (d_x all) (d_y all) -> Forall (fun j => (j < length (y_rows (d_y all)))%nat) idx -> idx <> [] ->
    plain nlit (fst (pick all idx)) (snd (pick all idx)).
  Proof.
    intros nlit all idx [K [U8 [U32 [Sx [Sy [Le [Ne [On R]]]]]]]] Hi Hne. unfold pick, plain. cbn [fst snd x_kind x_u8 y_u32 x_shape y_shape x_rows y_rows].
    rewrite Sx, Sy. cbn [tl]. rewrite (take_in_range (y_rows (d_y all))) by exact Hi.
    rewrite (take_in_range (x_rows (d_x all))) by (rewrite Le; exact Hi). repeat (split; [reflexivity|]).
    split; [intros E; pose proof (take_in_range (y_rows (d_y all)) idx Hi) as T; rewrite E in T; destruct idx; [congruence|discriminate]|].
    split; apply take_forall; assumption.
  Qed.

  Lemma folds_going : forall nlit all folds is best tl el t, tm_nlit (t_m t) = nlit -> tm_nlit m' = nlit -> going t ->
    plain nlit (d_x all) (d_y all) -> length folds = length (y_rows (d_y all)) ->
    (forall i, In i is -> In i folds /\ exists j, In j folds /\ j <> i) ->
    (forall d, t_train t = Some d -> x_kind (d_x d) = KArray) -> (forall d, t_eval t = Some d -> x_kind (d_x d) = KArray) ->
    exists best' tl' new t', fold_loop B2 all folds is best tl el t = (Ok (best', tl', el ++ new), t') /\ (is <> [] -> new <> []) /\ fins new.
  Proof.
    intros nlit all folds is. induction is as [|i is IH]; intros best tl el t Nt Nm Gt Pl Lf Hf Kt Ke; cbn [fold_loop].
    - exists best, tl, [], t. rewrite app_nil_r. repeat split; [congruence|constructor].
    - destruct (fold_indices i folds) as [ti ei] eqn:Fi. unfold fold_indices in Fi. apply pair_equal_spec in Fi. destruct Fi as [Ft Fe].
      destruct (Hf i (or_introl eq_refl)) as [Hi [j [Hj Hji]]].
      assert (Rt : Forall (fun j => (j < length (y_rows (d_y all)))%nat) ti).
      { rewrite <- Ft. apply Forall_forall. intros k Hk. apply filter_In in Hk. destruct Hk as [Hk _]. apply in_seq in Hk. lia. }
      assert (Re : Forall (fun j => (j < length (y_rows (d_y all)))%nat) ei).
      { rewrite <- Fe. apply Forall_forall. intros k Hk. apply filter_In in Hk. destruct Hk as [Hk _]. apply in_seq in Hk. lia. }
      assert (Nti : ti <> []).
      { destruct (In_nth folds j O Hj) as [p [Hp Ep]]. intros Z. assert (X : In p ti).
        { rewrite <- Ft. apply filter_In. split; [apply in_seq; lia|]. rewrite Ep. destruct (Nat.eqb_spec j i); [congruence|reflexivity]. }
        rewrite Z in X. destruct X. }
      assert (Nei : ei <> []).
      { destruct (In_nth folds i O Hi) as [p [Hp Ep]]. intros Z. assert (X : In p ei).
        { rewrite <- Fe. apply filter_In. split; [apply in_seq; lia|]. rewrite Ep. apply Nat.eqb_refl. }
        rewrite Z in X. destruct X. }
      pose proof (pick_plain nlit all ti Pl Rt Nti) as Pt. pose proof (pick_plain nlit all ei Pl Re Nei) as Pe.
      destruct (pick all ti) as [xt yt]. destruct (pick all ei) as [xe ye]. cbn [fst snd] in Pt, Pe.
      assert (St : set_train_data B2 (Some xt) yt t = (Ok tt, with_train (Some (mkData xt yt)) t)).
      { unfold set_train_data. change (bk_nlit B2 (t_m t)) with (tm_nlit (t_m t)). change (bk_sparse_cb B2 (t_m t)) with false.
        rewrite Nt, plain_check; auto. destruct (t_eval t) as [d|]; [|exact I]. apply (Ke d eq_refl). }
      rewrite St. set (t1 := with_train (Some (mkData xt yt)) t).
      assert (Se : set_eval_data B2 (Some xe) ye t1 = (Ok tt, with_eval (Some (mkData xe ye)) t1)).
      { unfold set_eval_data. change (bk_nlit B2 (t_m t1)) with (tm_nlit (t_m t)). change (bk_sparse_cb B2 (t_m t1)) with false.
        change (option_map d_x (t_train t1)) with (Some xt). rewrite Nt, plain_check; auto. apply Pt. }
      rewrite Se. set (t2 := with_eval (Some (mkData xe ye)) t1).
      destruct (inner_going t2 (mkData xt yt) (mkData xe ye)) as [t3 [r [T1 [T2 [T3 [T4 [T5 [T6 [T7 T8]]]]]]]]].
      + exact Gt.
      + reflexivity.
      + reflexivity.
      + unfold is_array. cbn [d_x]. destruct Pt as [K _]. rewrite K. reflexivity.
      + unfold is_array. cbn [d_x]. destruct Pe as [K _]. rewrite K. reflexivity.
      + unfold labels_per_example. cbn [d_y]. destruct Pt as [_ [_ [_ [_ [Sy _]]]]]. rewrite Sy. reflexivity.
      + cbn [d_y]. unfold plain in Pe. tauto.
      + rewrite T1, T6.
        destruct (IH (if fl_ltb best (r_best r) then r_best r else best) (tl ++ r_tlog r) (el ++ r_elog r) t3) as [b' [tl' [new [t' [I1 [I2 I3]]]]]]; auto.
        * rewrite T3. exact Nm.
        * intros k Hk. apply Hf. right. exact Hk.
        * intros d Hd. rewrite T4 in Hd. inversion Hd. apply Pt.
        * intros d Hd. rewrite T5 in Hd. inversion Hd. apply Pe.
        * exists b', tl', (r_elog r ++ new), t'. rewrite I1, <- app_assoc. split; [reflexivity|].
          split; [intros _ Z; apply app_eq_nil in Z; apply T7; apply Z|]. apply Forall_app. split; assumption.
  Qed.
End Inner.

Section Trial.
  Variables (G : gens) (Sc : schedule) (assign : Z -> Z -> data -> res (list nat)) (cpus : Z).
  Hypothesis HS : pool_schedule Sc.
  Hypothesis HA : stratified assign.
  Let B1 := threaded_backend G Sc accuracy_score (fun _ _ _ => None) assign.
  Let B2 := dense_backend G accuracy_score (fun _ _ _ => None) assign.

  Lemma objective_fine : forall nlit ncl ncls s thr budget boost m n_jobs seed n folds xt yt xe ye,
    tm_init nlit ncl ncls s thr budget boost false = Ok m -> s <> SList [] ->
    (forall b, budget = Some b -> 0 <= b < 4294967296) -> 1 <= n_jobs <= ncl -> 1 <= seed -> seed + n_jobs <= 4294967296 ->
    1 <= n -> plain nlit xt yt -> plain nlit xe ye ->
    (forall v, label yt v -> 0 <= v < Z.of_nat ncls) -> (forall v, label ye v -> 0 <= v < Z.of_nat ncls) ->
    (folds <= 1 \/ exists v, folds <= Z.of_nat (count_occ Z.eq_dec (concat (y_rows yt ++ y_rows ye)) v)) ->
    exists q, objective B1 cpus n_jobs seed n folds m (Some xt) yt (Some xe) ye = Ok (Fin q).
  Proof.
    intros nlit ncl ncls s thr budget boost m n_jobs seed n folds xt yt xe ye I Sn Bu J Sd SJ N Pt Pe Lt Le F.
    destruct (train_start_fresh _ _ _ _ _ _ _ _ _ n_jobs seed I Sn Bu J Sd SJ) as [l [m' [TS _]]].
    assert (Ds : tm_nlit m = nlit /\ tm_ncls m = ncls).
    { unfold tm_init in I. destruct (match s with SFloat f => _ | SInt _ => _ | SList l => _ end); [|discriminate].
      destruct (existsb _ _); [discriminate|]. destruct (thr <? 1); [discriminate|]. inversion I. auto. }
    destruct Ds as [Dn Dc].
    unfold objective. set (t0 := new_trainer cpus n_jobs seed n (Fin 1) PTrue folds m None).
    assert (Rj : resolve_n_jobs cpus n_jobs = n_jobs).
    { unfold resolve_n_jobs. destruct (n_jobs <? 0) eqn:E1; [lia|]. destruct (n_jobs =? 0) eqn:E2; lia. }
    assert (St : set_train_data B1 (Some xt) yt t0 = (Ok tt, with_train (Some (mkData xt yt)) t0)).
    { unfold set_train_data. change (bk_nlit B1 (t_m t0)) with (tm_nlit m). change (bk_sparse_cb B1 (t_m t0)) with false.
      change (option_map d_x (t_eval t0)) with (@None xarr). rewrite Dn, plain_check; auto. }
    rewrite St. set (t1 := with_train (Some (mkData xt yt)) t0).
    assert (Se : set_eval_data B1 (Some xe) ye t1 = (Ok tt, with_eval (Some (mkData xe ye)) t1)).
    { unfold set_eval_data. change (bk_nlit B1 (t_m t1)) with (tm_nlit m). change (bk_sparse_cb B1 (t_m t1)) with false.
      change (option_map d_x (t_train t1)) with (Some xt). rewrite Dn, plain_check; auto. destruct Pt as [K _]. exact K. }
    rewrite Se. set (t2 := with_eval (Some (mkData xe ye)) t1).
    assert (SD : sound t2).
    { constructor.
      - change (t_m t2) with m. exists nlit, ncl, ncls, s, thr, budget, boost, m, [], []. repeat split; auto.
      - exact Logic.I.
      - exact Logic.I.
      - change (t_m t2) with m. rewrite Dn, Dc. intros d Hd. change (Some (mkData xt yt) = Some d) in Hd. inversion Hd. now apply plain_fits.
      - change (t_m t2) with m. rewrite Dn, Dc. intros d Hd. change (Some (mkData xe ye) = Some d) in Hd. inversion Hd. now apply plain_fits. }
    unfold B1. rewrite (pool_train G Sc accuracy_score (fun _ _ _ => None) assign HS t2 SD). fold B2.
    destruct (start_pieces G n_jobs seed m l m' (mkData xt yt) TS) as [cbs [x [Co La]]].
    { destruct Pt as [_ [_ [_ [_ [Sy _]]]]]. unfold labels_per_example. cbn [d_y]. now rewrite Sy. }
    assert (Gt : going n_jobs seed n cbs m' t2).
    { split; [intros d; exact Co|]. split; [exact Rj|]. split; reflexivity. }
    assert (Last : forall l : list fl, l <> [] -> fins l -> exists q, match rev l with [] => Raise IndexError | s :: _ => Ok s end = Ok (Fin q)).
    { intros l0 L1 L2. assert (E5 : rev l0 <> []).
      { intros Z. apply L1. rewrite <- (rev_involutive l0), Z. reflexivity. }
      apply Forall_rev in L2. destruct (rev l0) as [|f r]; [congruence|]. apply Forall_inv in L2. destruct L2 as [q ->]. eauto. }
    unfold train. change (t_folds t2) with folds. destruct (folds >? 1) eqn:Ef.
    - destruct F as [F|[v F]]; [lia|]. change (t_train t2) with (Some (mkData xt yt)). change (t_eval t2) with (Some (mkData xe ye)).
      set (all := mkData (mkX KArray [(length (y_rows yt) + length (y_rows ye))%nat; nlit] true (x_rows xt ++ x_rows xe))
                         (mkY [(length (y_rows yt) + length (y_rows ye))%nat] true (y_rows yt ++ y_rows ye))).
      assert (Ea : stack (mkData xt yt) (mkData xe ye) = Ok all).
      { destruct Pt as [K1 [_ [_ [Sx1 [Sy1 _]]]]]. destruct Pe as [K2 [_ [_ [Sx2 [Sy2 _]]]]]. unfold stack, is_array. cbn [d_x d_y].
        rewrite K1, K2, Sx1, Sx2, Sy1, Sy2, Nat.eqb_refl. reflexivity. }
      cbv iota. rewrite Ea. assert (Pl : plain nlit (d_x all) (d_y all)).
      { destruct Pt as [_ [_ [_ [_ [_ [L1 [N1 [O1 R1]]]]]]]]. destruct Pe as [_ [_ [_ [_ [_ [L2 [_ [O2 R2]]]]]]]].
        unfold plain, all. cbn [d_x d_y x_kind x_u8 y_u32 x_shape y_shape x_rows y_rows]. rewrite !app_length, L1, L2. repeat (split; [reflexivity|]).
        split; [intros Z; apply app_eq_nil in Z; tauto|]. split; apply Forall_app; split; assumption. }
      change (bk_assign B2 folds (t_seed t2) all) with (assign folds seed all).
      assert (On : Forall (fun r => length r = 1%nat) (y_rows (d_y all))) by apply Pl.
      destruct (HA folds seed all v ltac:(lia) On F) as [fs [A1 [A2 A3]]]. rewrite A1.
      destruct (folds_going G assign n_jobs seed n cbs m' (mkData xt yt) x N La nlit all fs (seq 0 (Z.to_nat folds)) (Fin (-1)) [] [] t2) as [b' [tl' [new [t' [F1 [F2 F3]]]]]]; auto.
      + destruct (construct_dims _ _ _ (mkData xt yt) _ _ (init_cfg_ok _ _ _ _ _ _ _ _ _ I Sn) Co) as [_ [_ [D1 _]]]. rewrite D1. exact Dn.
      + intros i Hi. apply in_seq in Hi. split; [apply A3; lia|]. exists (if Nat.eqb i 0 then 1%nat else 0%nat).
        destruct (Nat.eqb_spec i 0); (split; [apply A3; lia|lia]).
      + intros d Hd. change (Some (mkData xt yt) = Some d) in Hd. inversion Hd. apply Pt.
      + intros d Hd. change (Some (mkData xe ye) = Some d) in Hd. inversion Hd. apply Pe.
      + fold B2 in F1. rewrite F1. cbn [t_results with_results r_elog app]. apply Last; [|exact F3]. apply F2.
        replace (Z.to_nat folds) with (Datatypes.S (Z.to_nat folds - 1)) by lia. discriminate.
    - destruct (inner_going G assign n_jobs seed n cbs m' (mkData xt yt) x N La t2 (mkData xt yt) (mkData xe ye)) as [t3 [r [T1 [_ [_ [_ [_ [T6 [T7 T8]]]]]]]]];
        [exact Gt|reflexivity|reflexivity| | | | |].
      + unfold is_array. cbn [d_x]. destruct Pt as [K _]. rewrite K. reflexivity.
      + unfold is_array. cbn [d_x]. destruct Pe as [K _]. rewrite K. reflexivity.
      + unfold labels_per_example. cbn [d_y]. destruct Pt as [_ [_ [_ [_ [Sy _]]]]]. rewrite Sy. reflexivity.
      + cbn [d_y]. unfold plain in Pe. tauto.
      + fold B2 in T1. rewrite T1. rewrite T6. apply Last; assumption.
  Qed.

  Lemma choose_int_ok : forall sp a, int_form sp ->
    match sp with VTup [low; high] => low <= high | VTup [low; high; step] => low <= high /\ 1 <= step | _ => True end ->
    exists v, choose_int sp a = Ok v /\ int_value sp v.
  Proof.
    intros sp a F R. assert (E : exists v, choose_int sp a = Ok v).
    { destruct sp as [f|z| |l]; cbn [int_form choose_int] in *; try contradiction; [eauto|].
      destruct l as [|lo [|hi [|st [|? ?]]]]; try contradiction; apply suggest_int_ok; lia. }
    destruct E as [v E]. exists v. split; auto. eapply choose_int_value; eauto.
  Qed.

  Lemma trial_fine : forall h a, workable h -> enough_clauses h ->
    exists q b, trial_value B1 cpus h a = Ok (Fin q, if h_minimize h then Some b else None).
  Proof.
    intros h a [Fs [Fc [Ft [Fe [Fb [Rs [Rg [T1 [E1 [B0 [Sd [Jb [SJ [nlit [xt [yt [xe [ye [Ht [He [Pt [Pe [[k [K1 K2]] Fo]]]]]]]]]]]]]]]]]]]]]]] En.
    unfold trial_value, check_set. rewrite He, Ht. cbn [bind_res].
    inversion Rg as [|? ? R1 Rg1]; subst. inversion Rg1 as [|? ? R2 Rg2]; subst. inversion Rg2 as [|? ? R3 Rg3]; subst.
    inversion Rg3 as [|? ? R4 _]; subst. clear Rg Rg1 Rg2 Rg3.
    destruct (choose_int_ok _ (an_clauses a) Fc R1) as [c [C1 C2]]. destruct (choose_int_ok _ (an_threshold a) Ft R2) as [th [C3 C4]].
    destruct (choose_int_ok _ (an_epochs a) Fe R3) as [ep [C5 C6]]. destruct (choose_int_ok _ (an_budget a) Fb R4) as [bu [C7 C8]].
    assert (CS : exists f, choose_s (h_s h) (an_s a) = Ok (SFloat f) /\ ~ fl_lt f (Fin 1)).
    { destruct (h_s h) as [f|z| |l]; try contradiction; [exists f; auto|].
      destruct l as [|lo [|hi [|st [|? ?]]]]; try contradiction; cbn [choose_s].
      - destruct Rs as [Q1 Q2]. destruct (suggest_float_ok lo hi (1 # 10) (an_s a) Q2 eq_refl) as [v V]. rewrite V. exists (Fin v). split; auto.
        apply suggest_float_spec in V. destruct V as [_ [[V _] _]]. cbn [fl_lt]. apply Qle_not_lt. eapply Qle_trans; eauto.
      - destruct Rs as [Q1 [Q2 Q3]]. destruct (suggest_float_ok lo hi st (an_s a) Q2 Q3) as [v V]. rewrite V. exists (Fin v). split; auto.
        apply suggest_float_spec in V. destruct V as [_ [[V _] _]]. cbn [fl_lt]. apply Qle_not_lt. eapply Qle_trans; eauto. }
    destruct CS as [f [CS1 CS2]].
    assert (CB : exists bo, choose_boost (h_boost h) (an_boost a) = Ok bo).
    { unfold choose_boost. destruct (fst (h_boost h)); [|eauto]. destruct (suggest_int_ok 0 1 1 (an_boost a)) as [v ->]; [lia|lia|]. cbn [bind_res]. eauto. }
    destruct CB as [bo CB].
    unfold trial_setup. rewrite CS1, C1, C3, C7, C5, CB. cbn [bind_res].
    assert (Sx : x_shape xt = [length (y_rows yt); nlit]) by (unfold plain in Pt; tauto). rewrite Sx. cbn [bind_res].
    unfold tm_init at 1. cbn [existsb]. apply fl_ltb_false in CS2. rewrite CS2. cbn [orb].
    pose proof (T1 _ C4) as T1'. destruct (th <? 1) eqn:Eth; [lia|]. cbn [bind_res fst snd].
    match goal with |- context [objective B1 cpus (h_jobs h) (h_seed h) ep (h_folds h) ?mm _ _ _ _] => set (m := mm) end.
    destruct (objective_fine nlit c (n_unique yt) (SFloat f) th (Some bu) bo m (h_jobs h) (h_seed h) ep (h_folds h) xt yt xe ye) as [q Q]; auto.
    - unfold tm_init. cbn [existsb]. rewrite CS2, Eth. reflexivity.
    - discriminate.
    - intros b Hb. inversion Hb; subst. auto.
    - pose proof (n_unique_range _ _ K1) as U. intros v Hv. apply K1 in Hv. lia.
    - pose proof (n_unique_range _ _ K1) as U. intros v Hv. apply K2 in Hv. lia.
    - rewrite Q. cbn [bind_res]. destruct (h_minimize h); [exists q, bu|exists q, 0]; reflexivity.
  Qed.

  Lemma loop_fine : forall ask h n l, workable h -> enough_clauses h ->
    Forall (fun t => trial_value B1 cpus h (td_answers t) = Ok (td_value t)) l ->
    exists new, optimize_loop B1 cpus ask h n l = (Ok (best_trials (l ++ new)), l ++ new) /\ length new = n /\
      Forall (fun t => trial_value B1 cpus h (td_answers t) = Ok (td_value t)) (l ++ new).
  Proof.
    intros ask h n. induction n as [|n IH]; intros l W E F.
    - exists []. rewrite app_nil_r. repeat split; auto.
    - cbn [optimize_loop]. cbv zeta. destruct (trial_fine h (ask l) W E) as [q [b Tv]]. rewrite Tv.
      set (t := mkTold (ask l) (Fin q, if h_minimize h then Some b else None)).
      assert (F' : Forall (fun t => trial_value B1 cpus h (td_answers t) = Ok (td_value t)) (l ++ [t])).
      { apply Forall_app. split; auto. }
      assert (Bt : best_trials (l ++ [t]) <> []).
      { apply (best_exists (h_minimize h)).
        - unfold uniform. rewrite Forall_forall in F'. apply Forall_forall. intros u Hu. specialize (F' u Hu).
          destruct (trial_fine h (td_answers u) W E) as [q' [b' Tv']]. rewrite Tv' in F'. inversion F' as [V].
          destruct (h_minimize h); cbn [snd]; eauto.
        - intros Z. assert (X : In t []) by (rewrite <- Z; apply filter_In; split; [apply in_app_iff; right; left|]; reflexivity). destruct X. }
      destruct (best_trials (l ++ [t])) as [|b0 bt]; [congruence|].
      destruct (IH (l ++ [t]) W E F') as [new [N1 [N2 N3]]]. exists (t :: new). rewrite N1.
      replace (l ++ t :: new) with ((l ++ [t]) ++ new) by (rewrite <- app_assoc; reflexivity). cbn [length]. auto.
  Qed.
End Trial.
