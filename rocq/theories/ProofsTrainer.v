(** Proofs about the trainer model. *)
From Coq Require Import ZArith List Bool QArith Lia Permutation.
From Verif Require Import Base ModelMachine ModelTrainer SpecTraining.
Import ListNotations.
Open Scope Z_scope.

(** ** Floats *)

Lemma Qlt_bool_iff : forall p q, Qlt_bool p q = true <-> (p < q)%Q.
Proof.
  intros p q. unfold Qlt_bool. destruct (Qle_bool q p) eqn:E; simpl.
  - apply Qle_bool_iff in E. split; [discriminate|]. intros H. exfalso. apply (Qlt_not_le _ _ H E).
  - split; auto. intros _. apply Qnot_le_lt. intros H. apply Qle_bool_iff in H. congruence.
Qed.

Lemma fl_ltb_iff : forall a b, fl_ltb a b = true <-> fl_lt a b.
Proof.
  intros [| |p|] [| |q|]; simpl; try (split; intros; try discriminate; try contradiction; auto; fail).
  apply Qlt_bool_iff.
Qed.

Lemma fl_leb_iff : forall a b, fl_leb a b = true <-> fl_le a b.
Proof.
  unfold fl_le. intros [| |p|] [| |q|]; simpl; try (split; intros; try discriminate; try tauto; auto; fail).
  rewrite Qle_bool_iff. rewrite Qle_lteq. tauto.
Qed.

Lemma fl_ltb_false : forall a b, fl_ltb a b = false <-> ~ fl_lt a b.
Proof. intros a b. rewrite <- fl_ltb_iff. destruct (fl_ltb a b); split; congruence. Qed.
Lemma fl_leb_false : forall a b, fl_leb a b = false <-> ~ fl_le a b.
Proof. intros a b. rewrite <- fl_leb_iff. destruct (fl_leb a b); split; congruence. Qed.

Lemma fl_lt_trans : forall a b c, fl_lt a b -> fl_lt b c -> fl_lt a c.
Proof.
  intros [| |p|] [| |q|] [| |r|]; simpl; try tauto. apply Qlt_trans.
Qed.
Lemma fl_lt_le_trans : forall a b c, fl_lt a b -> fl_le b c -> fl_lt a c.
Proof.
  intros a b c H [H1|H1]; [eapply fl_lt_trans; eauto|].
  destruct a, b, c; simpl in *; try tauto. now rewrite <- H1.
Qed.
Lemma fl_le_lt_trans : forall a b c, fl_le a b -> fl_lt b c -> fl_lt a c.
Proof.
  intros a b c [H|H] H1; [eapply fl_lt_trans; eauto|].
  destruct a, b, c; simpl in *; try tauto. now rewrite H.
Qed.
Lemma fl_lt_not_le : forall a b, fl_lt a b -> ~ fl_le b a.
Proof.
  intros [| |p|] [| |q|]; unfold fl_le; simpl; try tauto.
  intros H [H1|H1]; [apply (Qlt_irrefl p), (Qlt_trans _ q); auto|]. rewrite H1 in H. now apply Qlt_irrefl in H.
Qed.
Lemma fl_lt_irrefl : forall a, ~ fl_lt a a.
Proof. intros [| |p|]; simpl; try tauto. apply Qlt_irrefl. Qed.

(** ** The epoch loop *)

Section Loop.
  Variables M C X S P : Type.
  Variable B : backend M C X S P.
  Variables (early : fl) (load : pyb) (m : M) (dtrain deval : data) (x0 : X) (best0 : option S).

  Let aft := after B dtrain deval x0.
  Let acc := acc_of B dtrain deval x0.
  Let score_at := score_of B dtrain deval x0.

  (** Best score, best epoch and stored state after [e] epochs. *)
  Definition best_inv (e : nat) (bs : fl) (be : Z) (best : option S) : Prop :=
    (be = -1 /\ bs = Fin (-1) /\ best = best0 /\ forall i, (i < e)%nat -> ~ fl_lt (Fin (-1)) (score_at i)) \/
    (exists b, be = Z.of_nat b /\ (b < e)%nat /\ bs = score_at b /\ fl_lt (Fin (-1)) (score_at b) /\
       (forall i, (i < e)%nat -> ~ fl_lt (score_at b) (score_at i)) /\
       (forall i, (i < b)%nat -> ~ fl_le (score_at b) (score_at i)) /\
       best = if truthy load then Some (bk_snap B m (aft (Datatypes.S b))) else best0).

  Lemma best_inv_gt : forall e bs be best, best_inv e bs be best ->
    forall i, (i < e)%nat -> ~ fl_lt bs (score_at i).
  Proof.
    intros e bs be best [[H1 [H2 [H3 H4]]]|[b [H1 [H2 [H3 [H4 [H5 H6]]]]]]] i Hi; subst; auto.
  Qed.
  Lemma best_inv_m1 : forall e bs be best x, best_inv e bs be best -> fl_lt bs x -> fl_lt (Fin (-1)) x.
  Proof.
    intros e bs be best x [[H1 [H2 [H3 H4]]]|[b [H1 [H2 [H3 [H4 [H5 H6]]]]]]] H; subst; auto.
    eapply fl_lt_trans; eauto.
  Qed.

  Lemma best_inv_step : forall e bs be best, best_inv e bs be best ->
    let better := fl_ltb bs (score_at e) in
    best_inv (Datatypes.S e) (if better then score_at e else bs) (if better then Z.of_nat e else be)
      (if better && truthy load then Some (bk_snap B m (aft (Datatypes.S e))) else best).
  Proof.
    intros e bs be best H better. subst better. destruct (fl_ltb bs (score_at e)) eqn:Bt; simpl.
    - apply fl_ltb_iff in Bt. right. exists e. split; auto. split; [lia|]. split; auto.
      split; [eapply best_inv_m1; eauto|]. split; [|split].
      + intros i Hi Hlt. destruct (Nat.eq_dec i e); [subst; now apply fl_lt_irrefl in Hlt|].
        apply (best_inv_gt _ _ _ _ H i ltac:(lia)). eapply fl_lt_trans; eauto.
      + intros i Hi Hle. apply (best_inv_gt _ _ _ _ H i ltac:(lia)). eapply fl_lt_le_trans; eauto.
      + destruct (truthy load) eqn:L; auto.
        destruct H as [[H1 [H2 [H3 H4]]]|[b [H1 [H2 [H3 [H4 [H5 [H6 H7]]]]]]]]; auto. now rewrite L in H7.
    - apply fl_ltb_false in Bt.
      destruct H as [[H1 [H2 [H3 H4]]]|[b [H1 [H2 [H3 [H4 [H5 [H6 H7]]]]]]]].
      + left. subst. repeat split; auto. intros i Hi. destruct (Nat.eq_dec i e); [now subst|]. apply H4. lia.
      + right. exists b. subst. split; auto. split; [lia|]. split; auto. split; auto. split; [|split]; auto.
        intros i Hi. destruct (Nat.eq_dec i e); [now subst|]. apply H5. lia.
  Qed.

  Let run := epochs B.

  Lemma seq_snoc : forall k a, seq a (Datatypes.S k) = seq a k ++ [(a + k)%nat].
  Proof. intros. rewrite seq_S. reflexivity. Qed.

  Lemma epochs_spec : forall k e l l',
    l_x l = aft e -> (k = O \/ l_cur l = dtrain) -> l_early l = false ->
    l_tlog l = map acc (seq 0 e) -> l_elog l = map score_at (seq 0 e) ->
    best_inv e (l_bs l) (l_be l) (l_best l) ->
    (forall i, (i < e)%nat -> ~ fl_le early (score_at i)) ->
    run (Z.of_nat (e + k)) early load m dtrain deval k e l = (None, l') ->
    exists n, (e <= n <= e + k)%nat /\ (k = O \/ (e < n)%nat) /\ l_x l' = aft n /\
      l_tlog l' = map acc (seq 0 n) /\ l_elog l' = map score_at (seq 0 n) /\
      best_inv n (l_bs l') (l_be l') (l_best l') /\
      (forall i, (e <= i < n)%nat -> exists s,
         bk_score B (d_y deval) (pred_of B dtrain deval x0 i) = Ok s /\ bk_callback B i (acc i) s = None) /\
      (forall i, (Datatypes.S i < n)%nat -> ~ fl_le early (score_at i)) /\
      ((l_early l' = true /\ exists i, n = Datatypes.S i /\ fl_le early (score_at i)) \/
       (l_early l' = false /\ n = (e + k)%nat /\ forall i, (i < n)%nat -> ~ fl_le early (score_at i))).
  Proof.
    induction k as [|k IH]; intros e l l' Hx Hc He Ht Hl Hb Hn R.
    - cbn in R. inversion R; subst l'. exists e. rewrite Nat.add_0_r.
      split; [lia|]. split; [auto|]. split; [auto|]. split; [auto|]. split; [auto|]. split; [auto|].
      split; [intros; lia|]. split; [intros; apply Hn; lia|]. right. auto.
    - destruct Hc as [Hc|Hc]; [discriminate|]. unfold run in R. cbn [epochs] in R. fold run in R.
      rewrite Hx, Hc in R.
      destruct (bk_train_epoch B dtrain (aft e)) as [a x1] eqn:T. destruct (bk_evaluate B deval x1) as [p x2] eqn:V.
      assert (Pe : pred_of B dtrain deval x0 e = p).
      { unfold pred_of. fold aft. rewrite T. cbn. now rewrite V. }
      assert (Ae : acc e = a). { unfold acc, acc_of. fold aft. now rewrite T. }
      assert (Xe : aft (Datatypes.S e) = x2).
      { unfold aft. cbn [after]. fold aft. rewrite T. cbn. now rewrite V. }
      destruct (bk_score B (d_y deval) p) as [sc|ex] eqn:Sc; [|discriminate].
      assert (Se : score_at e = sc). { unfold score_at, score_of. now rewrite Pe, Sc. }
      destruct (bk_callback B e a sc) eqn:Cb; [discriminate|].
      assert (Tl : l_tlog l ++ [a] = map acc (seq 0 (Datatypes.S e))).
      { rewrite seq_snoc, map_app, Ht. cbn. now rewrite Ae. }
      assert (El : l_elog l ++ [sc] = map score_at (seq 0 (Datatypes.S e))).
      { rewrite seq_snoc, map_app, Hl. cbn. now rewrite Se. }
      pose proof (best_inv_step _ _ _ _ Hb) as Hb'. cbn zeta in Hb'. rewrite Se, Xe in Hb'.
      destruct (fl_leb early sc) eqn:Ea.
      + inversion R; subst l'. cbn. exists (Datatypes.S e). apply fl_leb_iff in Ea.
        split; [lia|]. split; [right; lia|]. split; [auto|]. split; [auto|]. split; [auto|]. split; [auto|].
        split; [|split].
        * intros i Hi. assert (i = e) by lia. subst i. exists sc. rewrite Pe, Ae. auto.
        * intros i Hi. apply Hn. lia.
        * left. split; auto. exists e. rewrite Se. auto.
      + apply fl_leb_false in Ea.
        replace (Z.of_nat (e + Datatypes.S k)) with (Z.of_nat (Datatypes.S e + k)) in R by lia.
        apply IH in R; cbn [l_x l_cur l_bs l_be l_best l_tlog l_elog l_early]; auto.
        * destruct R as [n [R1 [R2 [R3 [R4 [R5 [R6 [R7 [R8 R9]]]]]]]]]. exists n.
          split; [lia|]. split; [right; lia|]. split; [auto|]. split; [auto|]. split; [auto|]. split; [auto|].
          split; [|split; [auto|]].
          -- intros i Hi. destruct (Nat.eq_dec i e); [|apply R7; lia]. subst i. exists sc. rewrite Pe, Ae. auto.
          -- replace (e + Datatypes.S k)%nat with (Datatypes.S e + k)%nat by lia. exact R9.
        * destruct (Z.ltb_spec (Z.of_nat e) (Z.of_nat (Datatypes.S e + k) - 1)); auto. left. lia.
        * intros i Hi. destruct (Nat.eq_dec i e) as [->|]; [rewrite Se; auto|]. apply Hn. lia.
  Qed.
End Loop.

Arguments best_inv {M C X S P}.

(** ** One call of _train_inner *)

Section Inner.
  Variables M C X S P : Type.
  Variable B : backend M C X S P.

  (** What a successful call with at least one epoch does. *)
  Definition inner_done (t t' : trainer M S) : Prop :=
    exists dtrain deval m x0 n r be,
      launched B t dtrain deval m x0 /\
      (1 <= n <= Z.to_nat (t_epochs t))%nat /\
      t_results t' = Some r /\
      r_n_epochs r = Some (Z.of_nat n) /\
      r_tlog r = map (acc_of B dtrain deval x0) (seq 0 n) /\
      r_elog r = map (score_of B dtrain deval x0) (seq 0 n) /\
      r_best_epoch r = Some be /\
      best_inv B (t_load t) m dtrain deval x0 (t_best t) n (r_best r) be (t_best t') /\
      (forall i, (Datatypes.S i < n)%nat -> ~ fl_le (t_early t) (score_of B dtrain deval x0 i)) /\
      ((r_early r = Some true /\ exists i, n = Datatypes.S i /\ fl_le (t_early t) (score_of B dtrain deval x0 i)) \/
       (r_early r = Some false /\ n = Z.to_nat (t_epochs t) /\
        forall i, (i < n)%nat -> ~ fl_le (t_early t) (score_of B dtrain deval x0 i))) /\
      t_state t' = (if is_true (t_load t) then t_best t' else Some (bk_snap B m (after B dtrain deval x0 n))) /\
      t_m t' = m /\
      (forall i, (i < n)%nat -> exists s, bk_score B (d_y deval) (pred_of B dtrain deval x0 i) = Ok s /\
         bk_callback B i (acc_of B dtrain deval x0 i) s = None).

  Definition same_config (t t' : trainer M S) : Prop :=
    t_n_jobs t' = t_n_jobs t /\ t_seed t' = t_seed t /\ t_epochs t' = t_epochs t /\ t_early t' = t_early t /\
    t_load t' = t_load t /\ t_folds t' = t_folds t.
  Definition same_data (t t' : trainer M S) : Prop := t_train t' = t_train t /\ t_eval t' = t_eval t.

  Lemma train_inner_config : forall t r t', train_inner B t = (r, t') -> same_config t t' /\ same_data t t'.
  Proof.
    intros t r t' H. unfold train_inner in H.
    destruct (t_train t) as [dt|] eqn:D1; [|inversion H; subst; unfold same_config, same_data; repeat split; auto].
    destruct (t_eval t) as [de|] eqn:D2; [|inversion H; subst; unfold same_config, same_data; repeat split; auto].
    destruct (negb (kinds_match (Some dt) (Some de))); [inversion H; subst; unfold same_config, same_data; repeat split; auto|].
    destruct (bk_construct B (t_m t) (t_n_jobs t) (t_seed t) dt) as [[cbs|e] m]; [|inversion H; subst; unfold same_config, same_data; repeat split; auto].
    cbn [with_m t_epochs] in H.
    destruct (t_epochs t <? 1); [inversion H; subst; unfold same_config, same_data; repeat split; auto|].
    destruct (bk_launch B m cbs _ _ _ dt) as [x0|e]; [|inversion H; subst; unfold same_config, same_data; repeat split; auto].
    destruct (epochs B _ _ _ m dt de _ _ _) as [[e|] l]; inversion H; subst; unfold same_config, same_data; repeat split; auto.
  Qed.

  Theorem train_inner_ok : forall t t', train_inner B t = (Ok tt, t') -> 1 <= t_epochs t -> inner_done t t'.
  Proof.
    intros t t' H He. unfold train_inner in H.
    destruct (t_train t) as [dt|] eqn:D1; [|discriminate].
    destruct (t_eval t) as [de|] eqn:D2; [|discriminate].
    destruct (negb (kinds_match (Some dt) (Some de))); [discriminate|].
    destruct (bk_construct B (t_m t) (t_n_jobs t) (t_seed t) dt) as [[cbs|e] m] eqn:Co; [|discriminate].
    cbn [with_m t_epochs t_state t_n_jobs t_seed t_early t_load t_best] in H.
    destruct (Z.ltb_spec (t_epochs t) 1); [lia|].
    destruct (bk_launch B m cbs (t_state t) (t_n_jobs t) (t_seed t) dt) as [x0|e] eqn:La; [|discriminate].
    match type of H with context [epochs B ?a ?b ?c ?d ?e ?f ?g ?h ?i] => destruct (epochs B a b c d e f g h i) as [[ex|] l] eqn:E end;
      [discriminate|].
    replace (t_epochs t) with (Z.of_nat (0 + Z.to_nat (t_epochs t))) in E at 1 by lia.
    apply (epochs_spec M C X S P B (t_early t) (t_load t) m dt de x0 (t_best t)) in E; cbn; auto.
    - destruct E as [n [R1 [R2 [R3 [R4 [R5 [R6 [R7 [R8 R9]]]]]]]]].
      inversion H; subst t'. cbn.
      exists dt, de, m, x0, n. eexists. exists (l_be l).
      split; [split; [|split]; auto; exists cbs; auto|].
      split; [lia|]. split; [reflexivity|]. cbn.
      split; [f_equal; rewrite R4, map_length, seq_length; reflexivity|].
      split; [auto|]. split; [auto|]. split; [auto|]. split; [exact R6|]. split; [exact R8|].
      split; [|split; [|split; [reflexivity|]]].
      + destruct R9 as [[A1 A2]|[A1 [A2 A3]]]; [left|right]; rewrite A1; auto.
      + rewrite <- R3. reflexivity.
      + intros i Hi. apply R7. lia.
    - left. repeat split; auto. intros; lia.
    - intros; lia.
  Qed.

  (** A failing call leaves the state and the results alone. *)
  Theorem train_inner_fail : forall t e t', train_inner B t = (Raise e, t') ->
    t_state t' = t_state t /\ t_results t' = t_results t /\ same_config t t' /\ same_data t t'.
  Proof.
    intros t e t' H. pose proof (train_inner_config _ _ _ H) as [HA HB]. split; [|split; [|split; auto]];
    unfold train_inner in H;
    (destruct (t_train t) as [dt|]; [|inversion H; subst; reflexivity]);
    (destruct (t_eval t) as [de|]; [|inversion H; subst; reflexivity]);
    (destruct (negb (kinds_match (Some dt) (Some de))); [inversion H; subst; reflexivity|]);
    (destruct (bk_construct B (t_m t) (t_n_jobs t) (t_seed t) dt) as [[cbs|e'] m]; [|inversion H; subst; reflexivity]);
    cbn [with_m t_epochs] in H;
    (destruct (t_epochs t <? 1); [discriminate|]);
    (destruct (bk_launch B m cbs _ _ _ dt) as [x0|e']; [|inversion H; subst; reflexivity]);
    (destruct (epochs B _ _ _ m dt de _ _ _) as [[e'|] l]; [inversion H; subst; reflexivity|discriminate]).
  Qed.

  Theorem train_inner_no_epochs : forall t t', train_inner B t = (Ok tt, t') -> t_epochs t < 1 ->
    t_state t' = t_state t /\ t_results t' = t_results t.
  Proof.
    intros t t' H He. unfold train_inner in H.
    destruct (t_train t) as [dt|]; [|discriminate]. destruct (t_eval t) as [de|]; [|discriminate].
    destruct (negb (kinds_match (Some dt) (Some de))); [discriminate|].
    destruct (bk_construct B (t_m t) (t_n_jobs t) (t_seed t) dt) as [[cbs|e] m]; [|discriminate].
    cbn [with_m t_epochs] in H. destruct (Z.ltb_spec (t_epochs t) 1); [|lia]. inversion H; subst. auto.
  Qed.

  (** ** Folds *)

  Definition is_fold (all : data) (folds : list nat) (i : nat) (t : trainer M S) : Prop :=
    t_train t = Some (let '(x, y) := pick all (fst (fold_indices i folds)) in mkData x y) /\
    t_eval t = Some (let '(x, y) := pick all (snd (fold_indices i folds)) in mkData x y).

  (** The runs follow each other: every fold starts with the machine and the
      state the previous one left. *)
  Fixpoint linked (t : trainer M S) (runs : list (fold_run M S)) (t' : trainer M S) : Prop :=
    match runs with
    | [] => t' = t
    | u :: rs => t_state (fr_before u) = t_state t /\ t_m (fr_before u) = t_m t /\ t_best (fr_before u) = t_best t /\
                 same_config t (fr_before u) /\ linked (fr_after u) rs t'
    end.

  Definition run_ok (all : data) (folds : list nat) (i : nat) (u : fold_run M S) : Prop :=
    is_fold all folds i (fr_before u) /\ train_inner B (fr_before u) = (Ok tt, fr_after u) /\
    t_results (fr_after u) = Some (fr_results u).

  Definition best_of (best : fl) (runs : list (fold_run M S)) : fl :=
    fold_left (fun b u => if fl_ltb b (r_best (fr_results u)) then r_best (fr_results u) else b) runs best.

  Lemma check_data_ok : forall nl sp o x y d, check_data nl sp o (Some x) y = Ok d -> d = mkData x (atleast_1d y).
  Proof.
    intros nl sp o x y d H. unfold check_data in H.
    repeat match type of H with
    | (if ?b then _ else _) = _ => destruct b; try discriminate
    | match ?b with [] => _ | _ => _ end = _ => destruct b; try discriminate
    end. now inversion H.
  Qed.

  Lemma fold_loop_ok : forall all folds is best tl el t best' tl' el' t',
    fold_loop B all folds is best tl el t = (Ok (best', tl', el'), t') ->
    exists runs, Forall2 (run_ok all folds) is runs /\ linked t runs t' /\
      best' = best_of best runs /\
      tl' = tl ++ concat (map (fun u => r_tlog (fr_results u)) runs) /\
      el' = el ++ concat (map (fun u => r_elog (fr_results u)) runs).
  Proof.
    intros all folds is. induction is as [|i is IH]; intros best tl el t best' tl' el' t' H; cbn [fold_loop] in H.
    - inversion H; subst. exists []. cbn. rewrite !app_nil_r. repeat split; auto.
    - destruct (fold_indices i folds) as [ti ei] eqn:FI.
      destruct (pick all ti) as [xt yt] eqn:Pt. destruct (pick all ei) as [xe ye] eqn:Pe.
      destruct (set_train_data B (Some xt) yt t) as [[u1|e1] t1] eqn:S1; [|discriminate].
      destruct (set_eval_data B (Some xe) ye t1) as [[u2|e2] t2] eqn:S2; [|discriminate].
      destruct (train_inner B t2) as [[u3|e3] t3] eqn:S3; [|discriminate].
      destruct (t_results t3) as [r|] eqn:R; [|discriminate].
      apply IH in H. destruct H as [runs [H1 [H2 [H3 [H4 H5]]]]].
      unfold set_train_data in S1. destruct (check_data _ _ _ _ yt) as [dt|] eqn:C1; [|discriminate].
      unfold set_eval_data in S2. destruct (check_data _ _ _ _ ye) as [de|] eqn:C2; [|discriminate].
      apply check_data_ok in C1. apply check_data_ok in C2.
      assert (Yt : atleast_1d yt = yt). { unfold pick in Pt. inversion Pt. reflexivity. }
      assert (Ye : atleast_1d ye = ye). { unfold pick in Pe. inversion Pe. reflexivity. }
      rewrite Yt in C1. rewrite Ye in C2.
      inversion S1; subst t1. inversion S2; subst t2. clear S1 S2.
      destruct u3. exists (mkRun (with_eval (Some de) (with_train (Some dt) t)) t3 r :: runs).
      split; [constructor; auto|].
      + unfold run_ok, is_fold. cbn [fr_before fr_after fr_results with_eval with_train t_train t_eval]. rewrite FI. cbn [fst snd]. rewrite Pt, Pe. subst. auto.
      + cbn [linked fr_before fr_after with_eval with_train t_state t_m t_best]. split; [|split; [|split]].
        * repeat split; auto.
        * rewrite H3. reflexivity.
        * rewrite H4. cbn. now rewrite <- app_assoc.
        * rewrite H5. cbn. now rewrite <- app_assoc.
  Qed.
End Inner.

Arguments is_fold {M S}. Arguments linked {M S}. Arguments run_ok {M C X S P}. Arguments best_of {M S}.
Arguments same_config {M S}. Arguments same_data {M S}. Arguments inner_done {M C X S P}.

(** ** The folds partition the examples *)

Lemma filter_split_perm : forall (A : Type) (f : A -> bool) l,
  Permutation (filter (fun a => negb (f a)) l ++ filter f l) l.
Proof.
  induction l as [|a l IH]; simpl; auto. destruct (f a); simpl.
  - eapply Permutation_trans; [|apply perm_skip, IH]. apply Permutation_sym, Permutation_middle.
  - apply perm_skip, IH.
Qed.

Lemma flat_map_split : forall (A B : Type) (g h : A -> list B) l,
  Permutation (flat_map (fun a => g a ++ h a) l) (flat_map g l ++ flat_map h l).
Proof.
  induction l as [|a l IH]; simpl; auto.
  eapply Permutation_trans; [apply Permutation_app_head, IH|].
  rewrite <- !app_assoc. apply Permutation_app_head. rewrite !app_assoc. apply Permutation_app_tail, Permutation_app_comm.
Qed.

Lemma flat_map_eqb : forall (A : Type) (a : A) v k s, (s <= v < s + k)%nat ->
  flat_map (fun i => if Nat.eqb v i then [a] else []) (seq s k) = [a].
Proof.
  intros A a v. induction k as [|k IH]; intros s H; [lia|]. simpl. destruct (Nat.eqb_spec v s).
  - subst. simpl. f_equal.
    assert (E : forall n s', (s < s')%nat -> flat_map (fun i => if Nat.eqb s i then [a] else []) (seq s' n) = []).
    { induction n as [|n IHn]; intros s' Hs; simpl; auto. destruct (Nat.eqb_spec s s'); [lia|]. apply IHn. lia. }
    apply E. lia.
  - apply IH. lia.
Qed.

Lemma classes_perm : forall (A : Type) (f : A -> nat) k l, Forall (fun a => (f a < k)%nat) l ->
  Permutation (flat_map (fun i => filter (fun a => Nat.eqb (f a) i) l) (seq 0 k)) l.
Proof.
  induction l as [|a l IH]; intros H.
  - simpl. induction (seq 0 k); simpl; auto.
  - inversion H; subst. specialize (IH H3).
    assert (E : flat_map (fun i => filter (fun x => Nat.eqb (f x) i) (a :: l)) (seq 0 k) =
                flat_map (fun i => (if Nat.eqb (f a) i then [a] else []) ++ filter (fun x => Nat.eqb (f x) i) l) (seq 0 k)).
    { apply flat_map_ext. intros i. simpl. destruct (Nat.eqb (f a) i); reflexivity. }
    rewrite E. eapply Permutation_trans; [apply flat_map_split|].
    rewrite flat_map_eqb by lia. simpl. apply perm_skip, IH.
Qed.

Lemma take_app : forall (A : Type) (l : list A) a b, take l (a ++ b) = take l a ++ take l b.
Proof. intros. apply flat_map_app. Qed.

Lemma take_perm : forall (A : Type) (l : list A) a b, Permutation a b -> Permutation (take l a) (take l b).
Proof. intros. now apply Permutation_flat_map. Qed.

Lemma take_seq_from : forall (A : Type) (l pre : list A), take (pre ++ l) (seq (length pre) (length l)) = l.
Proof.
  induction l as [|a l IH]; intros pre; simpl; auto.
  unfold take in *. simpl. rewrite nth_error_app2 by lia. rewrite Nat.sub_diag. simpl. f_equal.
  specialize (IH (pre ++ [a])). rewrite <- app_assoc, app_length in IH. simpl in IH.
  rewrite Nat.add_1_r in IH. exact IH.
Qed.
Lemma take_all : forall (A : Type) (l : list A), take l (seq 0 (length l)) = l.
Proof. intros. apply (take_seq_from A l []). Qed.

Lemma take_length : forall (A : Type) (l : list A) idx, Forall (fun j => (j < length l)%nat) idx ->
  length (take l idx) = length idx.
Proof.
  induction idx as [|j idx IH]; intros H; simpl; auto. inversion H; subst.
  destruct (nth_error l j) eqn:E; [|apply nth_error_None in E; lia]. simpl. f_equal. now apply IH.
Qed.

Lemma nth_error_combine : forall (A B : Type) (a : list A) (b : list B) j,
  nth_error (combine a b) j =
  match nth_error a j, nth_error b j with Some x, Some y => Some (x, y) | _, _ => None end.
Proof.
  induction a as [|x a IH]; intros [|y b] [|j]; simpl; auto. destruct (nth_error a j); auto.
Qed.

Lemma take_combine : forall (A B : Type) (a : list A) (b : list B) idx, length a = length b ->
  combine (take a idx) (take b idx) = take (combine a b) idx.
Proof.
  intros A B a b idx L. induction idx as [|j idx IH]; auto.
  unfold take in *. cbn [flat_map]. rewrite nth_error_combine.
  destruct (nth_error a j) eqn:Ea.
  - assert (j < length b)%nat by (rewrite <- L; apply nth_error_Some; congruence).
    destruct (nth_error b j) eqn:Eb; [|apply nth_error_None in Eb; lia]. simpl. now f_equal.
  - apply nth_error_None in Ea. assert (Eb : nth_error b j = None) by (apply nth_error_None; lia). rewrite Eb. exact IH.
Qed.

Lemma flat_map_take : forall (A : Type) (l : list A) (h : nat -> list nat) is,
  flat_map (fun i => take l (h i)) is = take l (flat_map h is).
Proof. induction is as [|i is IH]; simpl; auto. now rewrite take_app, IH. Qed.

Lemma combine_app : forall (A B : Type) (a a' : list A) (b b' : list B), length a = length b ->
  combine (a ++ a') (b ++ b') = combine a b ++ combine a' b'.
Proof. induction a as [|x a IH]; intros a' [|y b] b' L; simpl in *; try discriminate; auto. f_equal. auto. Qed.

Lemma stack_examples : forall a b all, data_wf a -> data_wf b -> stack a b = Ok all ->
  examples all = examples a ++ examples b /\ length (x_rows (d_x all)) = length (y_rows (d_y all)).
Proof.
  intros a b all [n [c [ys [A1 [A2 [A3 A4]]]]]] [n' [c' [ys' [B1 [B2 [B3 B4]]]]]] H. unfold stack in H.
  rewrite A1, B1, A2, B2 in H. destruct (_ && _); [|discriminate]. destruct (Nat.eqb c c'); [|discriminate].
  inversion H; subst. unfold examples. simpl. split; [apply combine_app; congruence|]. rewrite !app_length. congruence.
Qed.

Section Partition.
  Variables M C X S P : Type.
  Variable B : backend M C X S P.
  Variables (all : data) (folds : list nat).
  Hypothesis L1 : length (x_rows (d_x all)) = length (y_rows (d_y all)).
  Hypothesis L2 : length folds = length (x_rows (d_x all)).

  Lemma fold_train : forall i (u : fold_run M S), run_ok B all folds i u ->
    trained_on u = take (examples all) (fst (fold_indices i folds)) /\
    validated_on u = take (examples all) (snd (fold_indices i folds)).
  Proof.
    intros i u [[F1 F2] _]. unfold trained_on, validated_on. rewrite F1, F2.
    unfold pick, examples. cbn [d_x d_y x_rows y_rows]. rewrite !take_combine by auto. auto.
  Qed.

  Lemma seq_all : take (examples all) (seq 0 (length folds)) = examples all.
  Proof.
    assert (L : length (examples all) = length folds). { unfold examples. rewrite combine_length. lia. }
    rewrite <- L. apply take_all.
  Qed.

  Lemma fold_cover : forall i (u : fold_run M S), run_ok B all folds i u ->
    Permutation (trained_on u ++ validated_on u) (examples all).
  Proof.
    intros i u H. destruct (fold_train i u H) as [E1 E2]. rewrite E1, E2, <- take_app.
    rewrite <- seq_all at 2. apply take_perm. unfold fold_indices. cbn. apply filter_split_perm.
  Qed.

  Lemma folds_partition : forall k (runs : list (fold_run M S)), Forall (fun f => (f < k)%nat) folds ->
    Forall2 (run_ok B all folds) (seq 0 k) runs ->
    Permutation (flat_map validated_on runs) (examples all).
  Proof.
    intros k runs Hf H.
    assert (E : flat_map validated_on runs = flat_map (fun i => take (examples all) (snd (fold_indices i folds))) (seq 0 k)).
    { clear Hf. remember (seq 0 k) as is. clear Heqis. induction H; simpl; auto.
      destruct (fold_train _ _ H) as [_ E]. now rewrite E, IHForall2. }
    rewrite E, flat_map_take. rewrite <- seq_all at 2. apply take_perm.
    unfold fold_indices. cbn [snd]. apply classes_perm. apply Forall_forall. intros j Hj. apply in_seq in Hj.
    rewrite Forall_forall in Hf. apply Hf, nth_In. lia.
  Qed.
End Partition.

Lemma best_of_spec : forall (M S : Type) (runs : list (fold_run M S)) b0,
  let b := best_of b0 runs in
  (forall u, In u runs -> ~ fl_lt b (r_best (fr_results u))) /\ ~ fl_lt b b0 /\
  (b = b0 \/ exists u, In u runs /\ b = r_best (fr_results u) /\ fl_lt b0 b).
Proof.
  induction runs as [|u runs IH]; intros b0 b; subst b.
  - cbn. split; [intros u []|]. split; [apply fl_lt_irrefl|auto].
  - cbn [best_of fold_left]. fold (best_of (if fl_ltb b0 (r_best (fr_results u)) then r_best (fr_results u) else b0) runs).
    destruct (IH (if fl_ltb b0 (r_best (fr_results u)) then r_best (fr_results u) else b0)) as [I1 [I2 I3]]. clear IH.
    set (b1 := best_of _ runs) in *.
    destruct (fl_ltb b0 (r_best (fr_results u))) eqn:E.
    + apply fl_ltb_iff in E. split; [|split].
      * intros v [Hv|Hv]; [subst; auto|auto].
      * destruct I3 as [I3|[v [V1 [V2 V3]]]]; [rewrite I3; intros H; apply (fl_lt_irrefl b0); eapply fl_lt_trans; eauto|].
        intros H. apply I2. eapply fl_lt_trans; eauto.
      * right. destruct I3 as [I3|[v [V1 [V2 V3]]]]; [exists u|exists v].
        -- rewrite I3. simpl; auto.
        -- repeat split; simpl; auto. eapply fl_lt_trans; eauto.
    + apply fl_ltb_false in E. split; [|split]; auto.
      * intros v [Hv|Hv]; [subst v|auto]. destruct I3 as [I3|[v [V1 [V2 V3]]]]; [rewrite I3; auto|].
        intros H. apply E. eapply fl_lt_trans; eauto.
      * destruct I3 as [I3|[v [V1 [V2 V3]]]]; [now left|right; exists v; simpl; auto].
Qed.

(** ** Results of a run as seen from outside *)

Section Outside.
  Variables M C X S P : Type.
  Variable B : backend M C X S P.

  Lemma nth_map_seq0 : forall (f : nat -> fl) n i, (i < n)%nat -> nth i (map f (seq 0 n)) Fnan = f i.
  Proof.
    intros f n i H. rewrite (nth_indep _ Fnan (f O)) by now rewrite map_length, seq_length.
    rewrite map_nth, seq_nth by auto. reflexivity.
  Qed.

  Lemma inner_reports : forall t t', inner_done B t t' ->
    exists dtrain deval m x0 n r, launched B t dtrain deval m x0 /\ (1 <= n <= Z.to_nat (t_epochs t))%nat /\
      t_results t' = Some r /\ reports B dtrain deval x0 n r.
  Proof.
    intros t t' [dt [de [m [x0 [n [r [be [L [N [R [N1 [T1 [E1 [B1 [I [_ [_ [_ [_ SC]]]]]]]]]]]]]]]]]]].
    exists dt, de, m, x0, n, r. split; [auto|]. split; [auto|]. split; [auto|].
    unfold reports. split; [auto|]. split; [auto|]. split; [auto|].
    split; [intros i Hi; destruct (SC i Hi) as [s [A _]]; eauto|].
    destruct I as [[H1 [H2 [H3 H4]]]|[b [H1 [H2 [H3 [H4 [H5 [H6 H7]]]]]]]].
    - right. subst be. split; [|split; auto]. rewrite E1. apply Forall_forall. intros s Hs.
      apply in_map_iff in Hs. destruct Hs as [i [<- Hi]]. apply in_seq in Hi. apply H4. lia.
    - left. exists b. subst be. unfold first_best. rewrite !E1, map_length, seq_length, nth_map_seq0 by auto.
      split; [|split; [auto|split; auto]]. split; [auto|]. split.
      + intros j Hj. rewrite nth_map_seq0 by auto. auto.
      + intros j Hj. rewrite nth_map_seq0 by lia. auto.
  Qed.

  Lemma train_no_folds : forall t o t', t_folds t <= 1 -> train B t = (Ok o, t') ->
    train_inner B t = (Ok tt, t') /\ o = t_results t'.
  Proof.
    intros t o t' F H. unfold train in H. rewrite Z.gtb_ltb in H. destruct (Z.ltb_spec 1 (t_folds t)); [lia|].
    destruct (train_inner B t) as [[[]|e] t1]; inversion H; subst; auto.
  Qed.

  Lemma train_no_folds_fail : forall t e t', t_folds t <= 1 -> train B t = (Raise e, t') ->
    train_inner B t = (Raise e, t').
  Proof.
    intros t o t' F H. unfold train in H. rewrite Z.gtb_ltb in H. destruct (Z.ltb_spec 1 (t_folds t)); [lia|].
    destruct (train_inner B t) as [[[]|e] t1]; inversion H; subst; auto.
  Qed.

  Lemma linked_config : forall runs t t', linked t runs t' ->
    (forall u, In u runs -> exists e, train_inner B (fr_before u) = (e, fr_after u)) ->
    (forall u, In u runs -> same_config t (fr_before u)) /\ same_config t t'.
  Proof.
    induction runs as [|u runs IH]; intros t t' H R; cbn [linked] in H.
    - subst. split; [intros v []|]. unfold same_config. repeat split.
    - destruct H as [_ [_ [_ [Hc H]]]]. destruct (R u (or_introl eq_refl)) as [e E].
      apply train_inner_config in E. destruct E as [E _].
      assert (K : same_config t (fr_after u)).
      { unfold same_config in *. intuition congruence. }
      destruct (IH _ _ H) as [I1 I2]; [intros v Hv; apply R; now right|].
      split.
      + intros v [->|Hv]; auto. specialize (I1 v Hv). unfold same_config in *. intuition congruence.
      + unfold same_config in *. intuition congruence.
  Qed.

  Lemma linked_next : forall runs (t t' : trainer M S), linked t runs t' -> forall i u v,
    nth_error runs i = Some u -> nth_error runs (Datatypes.S i) = Some v -> t_state (fr_before v) = t_state (fr_after u).
  Proof.
    induction runs as [|w runs IH]; intros t t' H i u v Hu Hv; [destruct i; discriminate|].
    destruct H as [_ [_ [_ [_ H]]]]. destruct i as [|i].
    - cbn in Hu, Hv. inversion Hu; subst. destruct runs as [|z runs]; [discriminate|].
      cbn in Hv. inversion Hv; subst. destruct H as [H _]. auto.
    - cbn in Hu. apply (IH _ _ H i u v Hu Hv).
  Qed.
  Lemma linked_first : forall runs (t t' : trainer M S) u, linked t runs t' -> nth_error runs 0 = Some u -> t_state (fr_before u) = t_state t.
  Proof. intros [|w runs] t t' u H Hu; [discriminate|]. cbn in Hu. inversion Hu; subst. apply H. Qed.
  Lemma linked_last : forall runs (t t' : trainer M S) u, linked t runs t' -> nth_error runs (pred (length runs)) = Some u -> t_state t' = t_state (fr_after u).
  Proof.
    induction runs as [|w runs IH]; intros t t' u H Hu; [discriminate|].
    destruct H as [_ [_ [_ [_ H]]]]. destruct runs as [|z runs].
    - cbn in Hu. inversion Hu; subst. cbn in H. now subst.
    - cbn [length pred nth_error] in Hu. eapply IH; [exact H|]. exact Hu.
  Qed.

  Theorem train_folds : forall t o t', 1 < t_folds t -> train B t = (Ok o, t') ->
    exists a b all folds runs t1 best r,
      t_train t = Some a /\ t_eval t = Some b /\ stack a b = Ok all /\
      bk_assign B (t_folds t) (t_seed t) all = Ok folds /\
      Forall2 (run_ok B all folds) (seq 0 (Z.to_nat (t_folds t))) runs /\ linked t runs t1 /\
      best = best_of (Fin (-1)) runs /\ o = Some r /\ t' = with_results (Some r) t1 /\
      r = mkR best None None (concat (map (fun u => r_tlog (fr_results u)) runs))
              (concat (map (fun u => r_elog (fr_results u)) runs)) None (Some (t_folds t)).
  Proof.
    intros t o t' F H. unfold train in H. rewrite Z.gtb_ltb in H. destruct (Z.ltb_spec 1 (t_folds t)); [|lia].
    destruct (t_train t) as [a|]; [|discriminate]. destruct (t_eval t) as [b|]; [|discriminate].
    destruct (stack a b) as [all|] eqn:St; [|discriminate].
    destruct (bk_assign B (t_folds t) (t_seed t) all) as [folds|] eqn:As; [|discriminate].
    destruct (fold_loop _ _ _ _ _ _ _ t) as [[[[best tl] el]|e] t1] eqn:Fo; [|discriminate].
    apply fold_loop_ok in Fo. destruct Fo as [runs [R1 [R2 [R3 [R4 R5]]]]].
    assert (K : t_folds t1 = t_folds t).
    { apply linked_config in R2; [unfold same_config in R2; tauto|]. intros u Hu.
      apply In_nth_error in Hu. destruct Hu as [i Hi].
      assert (Z : exists j, run_ok B all folds j u).
      { clear - R1 Hi. revert i Hi. induction R1; intros i Hi; [destruct i; discriminate|].
        destruct i; cbn in Hi; [inversion Hi; subst; eauto|eauto]. }
      destruct Z as [j [_ [Z _]]]. eauto. }
    inversion H; subst o t'. rewrite K.
    cbn [t_results with_results app] in *. exists a, b, all, folds, runs, t1, best. eexists.
    split; [reflexivity|]. split; [reflexivity|]. split; [auto|]. split; [auto|]. split; [auto|]. split; [auto|].
    split; [auto|]. split; [reflexivity|]. split; [reflexivity|]. now rewrite R4, R5.
  Qed.
End Outside.

Lemma Forall2_nth_l : forall (A B : Type) (R : A -> B -> Prop) l1 l2 i b, Forall2 R l1 l2 -> nth_error l2 i = Some b ->
  exists a, nth_error l1 i = Some a /\ R a b.
Proof.
  intros A B R l1 l2 i b H. revert i. induction H; intros i Hi; [destruct i; discriminate|].
  destruct i; cbn in *; [inversion Hi; subst; eauto|auto].
Qed.

Lemma nth_error_seq0 : forall k i a, nth_error (seq 0 k) i = Some a -> a = i /\ (i < k)%nat.
Proof.
  intros k i a H. assert (L : (i < k)%nat). { rewrite <- (seq_length k 0). apply nth_error_Some. congruence. }
  split; auto. apply (nth_error_nth _ _ O) in H. rewrite seq_nth in H; auto.
Qed.

(** Validation examples of one fold are training examples of every other. *)
Lemma fold_leak : forall (A : Type) (l : list A) folds i j, i <> j ->
  incl (take l (snd (fold_indices j folds))) (take l (fst (fold_indices i folds))).
Proof.
  intros A l folds i j N e He. unfold take in *. apply in_flat_map in He. destruct He as [q [Q1 Q2]].
  apply in_flat_map. exists q. split; auto. unfold fold_indices in *. cbn [fst snd] in *.
  apply filter_In in Q1. destruct Q1 as [Q1 Q3]. apply filter_In. split; auto.
  apply Nat.eqb_eq in Q3. rewrite Q3. destruct (Nat.eqb_spec j i); [congruence|reflexivity].
Qed.

Lemma Forall2_same_length : forall (A B : Type) (R : A -> B -> Prop) l1 l2, Forall2 R l1 l2 -> length l1 = length l2.
Proof. intros A B R l1 l2 H. induction H; cbn; auto. Qed.
