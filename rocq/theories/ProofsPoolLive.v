(** The pool cannot get stuck before its threads are stopped, and every execution
    is finite. *)
From Coq Require Import ZArith List Bool Lia Arith.
From Verif Require Import Base ModelPool SpecPool ProofsPool.
Import ListNotations.
Open Scope Z_scope.

Section Live.
  Variables M T : Type.
  Variable act : T -> M -> tres M T.
  Implicit Types (s : pool M T).

  Definition moves s : Prop := exists x s', pool_step act s x s' /\ x <> LSpurious.
  Definition blocked s : Prop := exists i t, nth_error (p_ws s) i = Some (WRun t) /\ act t (p_mem s) = Blocked.

  Lemma mv : forall s s', (main_step s LTau s' \/ exists i, worker_step act i s LTau s') -> moves s.
  Proof. intros s s' H. exists LTau, s'. split; [exact H|discriminate]. Qed.
  Lemma mvm : forall s s', main_step s LTau s' -> moves s. Proof. intros. eapply mv. left. eauto. Qed.
  Lemma mvw : forall i s s', worker_step act i s LTau s' -> moves s. Proof. intros. eapply mv. right. eauto. Qed.

  (** A thread inside the critical section moves. *)
  Lemma main_holder : forall s, m_hold (p_main s) = 1 -> moves s.
  Proof.
    intros s H. destruct (p_main s) eqn:E; cbn [m_hold] in H; try lia.
    - exists (LPush t). eexists. split; [left; apply SPPush; eauto|discriminate].
    - eapply mvm, SPUnlock; eauto.
    - destruct (Z.eq_dec (p_total s) 0); [eapply mvm, SWTrue|eapply mvm, SWFalse]; eauto.
    - eapply mvm, SWBlock; eauto.
    - eapply mvm, SWClear; eauto.
    - exists LWaited. eexists. split; [left; apply SWUnlock; eauto|discriminate].
  Qed.

  Definition wmoves s : Prop := exists i x s', worker_step act i s x s' /\ x <> LSpurious.
  Lemma wmv : forall i s s', worker_step act i s LTau s' -> wmoves s. Proof. intros i s s' H. exists i, LTau, s'. split; [auto|discriminate]. Qed.
  Lemma wmoves_moves : forall s, wmoves s -> moves s.
  Proof. intros s [i [x [s' [H N]]]]. exists x, s'. split; auto. right. eauto. Qed.

  Lemma worker_holder : forall n s i w, pool_ok M T n s -> nth_error (p_ws s) i = Some w -> w_hold w = 1 -> wmoves s.
  Proof.
    intros n s i w K H E. destruct w; cbn [w_hold] in E; try lia.
    - destruct (p_queue s) eqn:Q; [destruct (p_running s) eqn:R|].
      + eapply wmv, WSFalse; eauto.
      + eapply wmv, WSTrue; eauto.
      + eapply wmv, WSTrue; eauto. left. rewrite Q. discriminate.
    - eapply wmv, WSBlock; eauto.
    - destruct (p_running s) eqn:R.
      + assert (Q : p_queue s <> []).
        { eapply ok_check; eauto. pose proof (wcount_le T w_check _ _ _ (w_check_nn T) H). cbn [w_check] in *. lia. }
        destruct (p_queue s) as [|t q] eqn:E2; [congruence|].
        exists i, (LStart t). eexists. split; [apply WSTake; eauto|discriminate].
      + eapply wmv, WSSkip; eauto.
    - eapply wmv, WSUnlock; eauto.
    - eapply wmv, WSDec; eauto.
    - eapply wmv, WSAsk; eauto.
    - eapply wmv, WSNotify; eauto.
    - eapply wmv, WSRelease; eauto.
  Qed.

  Lemma holder_worker : forall n s, pool_ok M T n s -> p_mutex s = true -> m_hold (p_main s) = 0 -> wmoves s.
  Proof.
    intros n s K E D. pose proof (ok_mutex _ _ _ _ K) as H. rewrite E in H. cbn [b2z] in H.
    destruct (wcount_pos T w_hold (p_ws s) ltac:(lia) (w_hold_nn T)) as [i [w [H1 H2]]].
    eapply worker_holder; eauto. destruct w; cbn [w_hold] in *; lia.
  Qed.

  Lemma holder : forall n s, pool_ok M T n s -> p_mutex s = true -> moves s.
  Proof.
    intros n s K E. pose proof (ok_mutex _ _ _ _ K) as H. rewrite E in H. cbn [b2z] in H.
    assert (D : m_hold (p_main s) = 1 \/ m_hold (p_main s) = 0) by (destruct (p_main s); cbn [m_hold]; auto).
    destruct D as [D|D]; [apply main_holder; auto|].
    apply wmoves_moves. eapply holder_worker; eauto.
  Qed.

  (** A worker that is neither asleep nor gone moves, or somebody else does, or its
      task is blocked. *)
  Lemma awake_wmoves : forall n s i w, pool_ok M T n s -> m_hold (p_main s) = 0 ->
    nth_error (p_ws s) i = Some w -> w_awake w = 1 -> wmoves s \/ blocked s.
  Proof.
    intros n s i w K MH H A. destruct (p_mutex s) eqn:Mx; [left; eapply holder_worker; eauto|].
    destruct w; cbn [w_awake] in A; try lia;
      try (left; eapply worker_holder; eauto; reflexivity).
    - left. destruct (p_running s) eqn:R; [eapply wmv, WSLoop|eapply wmv, WSExit]; eauto.
    - left. eapply wmv, WSLock; eauto.
    - left. eapply wmv, WSWake; eauto.
    - destruct (act t (p_mem s)) as [|t' m|m] eqn:E.
      + right. exists i, t. auto.
      + left. eapply wmv, WSAct; eauto.
      + left. exists i, LFinish. eexists. split; [eapply WSFinish; eauto|discriminate].
    - left. eapply wmv, WSRelock; eauto.
  Qed.
  Lemma awake_moves : forall n s i w, pool_ok M T n s -> nth_error (p_ws s) i = Some w -> w_awake w = 1 -> moves s \/ blocked s.
  Proof.
    intros n s i w K H A.
    assert (D : m_hold (p_main s) = 1 \/ m_hold (p_main s) = 0) by (destruct (p_main s); cbn [m_hold]; auto).
    destruct D as [D|D]; [left; apply main_holder; auto|].
    destruct (awake_wmoves n s i w K D H A); auto. left. apply wmoves_moves. auto.
  Qed.

  (** Where an execution can end. *)
  Lemma progress : forall n s, (0 < n)%nat -> pool_ok M T n s ->
    moves s \/ blocked s \/ pool_finished s \/ (exists i, p_main s = MSJoin i /\ nth_error (p_ws s) i = Some WSleep).
  Proof.
    intros n s N K.
    assert (LK : p_mutex s = true \/ p_mutex s = false) by (destruct (p_mutex s); auto).
    assert (HD : forall P : Prop, (p_mutex s = false -> P) -> moves s \/ P).
    { intros P HP. destruct LK as [L|L]; [left; eapply holder; eauto|right; auto]. }
    destruct (p_main s) eqn:E.
    - destruct (p_ops s) as [|[f| |g|] o] eqn:O.
      + right; right; left. split; auto.
      + left. eapply mvm, SPush; eauto.
      + left. eapply mvm, SWait; eauto.
      + left. eapply mvm, SDo; eauto.
      + left. eapply mvm, SStop; eauto.
    - left. destruct LK as [L|L]; [eapply holder; eauto|]. eapply mvm, SPLock; eauto.
    - left. apply main_holder. rewrite E. auto.
    - left. apply main_holder. rewrite E. auto.
    - left. eapply mvm, SPInc; eauto.
    - left. destruct (wcount w_sleep (p_ws s)) eqn:C.
      + eapply mvm, SPNobody; auto. intros I. apply In_nth_error in I. destruct I as [i I].
        assert (NN : forall w : wpc T, 0 <= w_sleep w) by (intros []; cbn; lia).
        pose proof (wcount_le T w_sleep _ _ _ NN I). cbn [w_sleep] in *. lia.
      + assert (NN : forall w : wpc T, 0 <= w_sleep w) by (intros []; cbn; lia).
        destruct (wcount_pos T w_sleep (p_ws s) ltac:(lia) NN) as [i [w [H1 H2]]].
        destruct w; cbn [w_sleep] in H2; try lia. eapply mvm, SPNotify; eauto.
      + assert (NN : forall w : wpc T, 0 <= w_sleep w) by (intros []; cbn; lia).
        pose proof (wcount_nonneg T w_sleep (p_ws s) NN). lia.
    - left. eapply mvm, SWSet; eauto.
    - left. destruct LK as [L|L]; [eapply holder; eauto|]. eapply mvm, SWLock; eauto.
    - left. apply main_holder. rewrite E. auto.
    - left. apply main_holder. rewrite E. auto.
    - (* the client sleeps: somebody has work to do *)
      pose proof (ok_client _ _ _ _ K) as C. rewrite E in C. cbn [client_ok] in C. destruct C as [_ [_ [_ C]]].
      assert (RN : p_running s = true).
      { destruct (p_running s) eqn:R; auto. destruct (ok_down _ _ _ _ K R) as [_ [_ [X|X]]]; rewrite E in X; discriminate. }
      assert (AW : 0 < wcount w_awake (p_ws s)).
      { destruct (p_queue s) as [|t q] eqn:Q.
        - unfold owed in C. rewrite Q in C. cbn [length] in C.
          assert (X : 0 < wcount (fun w => w_fly w + w_tell w) (p_ws s)).
          { clear -C. assert (Y : forall ws : list (wpc T), wcount (fun w => w_fly w + w_tell w) ws = wcount w_fly ws + wcount w_tell ws).
            { induction ws as [|w ws IH]; cbn [wcount]; lia. } rewrite Y. lia. }
          apply wcount_pos in X; [|intros []; cbn; lia]. destruct X as [i [w [X1 X2]]].
          pose proof (wcount_le T w_awake _ _ _ (w_awake_nn T) X1). destruct w; cbn [w_fly w_tell w_awake] in *; lia.
        - eapply ok_awake; eauto; [rewrite Q; discriminate|rewrite E; auto]. }
      apply wcount_pos in AW; [|apply w_awake_nn]. destruct AW as [i [w [X1 X2]]].
      destruct (awake_moves n s i w K X1); auto. destruct w; cbn [w_awake] in *; lia.
    - left. destruct LK as [L|L]; [eapply holder; eauto|]. eapply mvm, SWWake; eauto.
    - left. apply main_holder. rewrite E. auto.
    - left. apply main_holder. rewrite E. auto.
    - left. eapply mvm, SSStore; eauto.
    - left. eapply mvm, SSNotify; eauto.
    - destruct (nth_error (p_ws s) i) as [w|] eqn:W.
      + destruct w; try (destruct (awake_moves n s i _ K W eq_refl); auto; fail).
        * right; right; right. exists i. auto.
        * left. eapply mvm, SSJoin; eauto.
      + left. eapply mvm, SSEnd; eauto. apply nth_error_None. auto.
  Qed.

  (** ** Termination *)

  Variable cost : T -> Z.
  Hypothesis cost_nn : forall t, 0 <= cost t.
  Hypothesis cost_act : forall t m t' m', act t m = Next t' m' -> cost t' < cost t.
  Variable K : Z.
  Hypothesis K_nn : 0 <= K.

  Definition w_weight (r : bool) (w : wpc T) : Z :=
    match w with
    | WSleep | WExit => 0
    | WBlock => 1
    | WTest => if r then 2 else 4
    | WLock | WWake => if r then 3 else 5
    | WLoop => if r then 4 else 1
    | WRelease => if r then 5 else 2
    | WCheck => if r then 1 else 3
    | WNotify => 9
    | WAsk => 10
    | WDec => 11
    | WRelock => 12
    | WRun t => 13 + cost t
    | WUnlock t => 14 + cost t
    end.
  Definition m_weight (n : nat) (p : mpc T) : Z :=
    match p with
    | MNext => 0
    | MPLock t => 24 + cost t | MPPush t => 23 + cost t | MPUnlock => 6 | MPInc => 5 | MPNotify => 4
    | MWSet => 5 | MWLock => 4 | MWTest => 3 | MWBlock => 2 | MWSleep => 1 | MWWake => 4 | MWClear => 2 | MWUnlock => 1
    | MSJoin i => Z.max 0 (Z.of_nat n - Z.of_nat i) + 1
    | MSNotify => 6 * Z.of_nat n + 2
    | MSStore => 8 * Z.of_nat n + 3
    end.
  Definition op_weight (n : nat) (o : op M T) : Z :=
    match o with OPush _ => 25 + K | OWait => 6 | ODo _ => 1 | OStop => 8 * Z.of_nat n + 4 end.
  Fixpoint sumz {A} (f : A -> Z) (l : list A) : Z := match l with [] => 0 | a :: r => f a + sumz f r end.
  Definition task_weight (t : T) : Z := 16 + cost t.

  Definition weight s : Z :=
    sumz (op_weight (length (p_ws s))) (p_ops s) + m_weight (length (p_ws s)) (p_main s)
    + sumz task_weight (p_queue s) + wcount (w_weight (p_running s)) (p_ws s).

  Definition cheap (o : op M T) : Prop := match o with OPush f => forall m, cost (f m) <= K | _ => True end.

  Lemma sumz_nn : forall A (f : A -> Z) l, (forall a, 0 <= f a) -> 0 <= sumz f l.
  Proof. intros A f l H. induction l as [|a l IH]; cbn [sumz]; [lia|]. specialize (H a). lia. Qed.
  Lemma sumz_snoc : forall A (f : A -> Z) l a, sumz f (l ++ [a]) = sumz f l + f a.
  Proof. intros A f l a. induction l as [|b l IH]; cbn [sumz app]; lia. Qed.

  Lemma weight_nn : forall s, 0 <= weight s.
  Proof.
    intros s. unfold weight.
    pose proof (sumz_nn _ (op_weight (length (p_ws s))) (p_ops s) ltac:(intros []; cbn [op_weight]; lia)).
    pose proof (sumz_nn _ task_weight (p_queue s) ltac:(intros t; unfold task_weight; specialize (cost_nn t); lia)).
    pose proof (wcount_nonneg T (w_weight (p_running s)) (p_ws s) ltac:(intros []; cbn [w_weight]; try destruct (p_running s); try (specialize (cost_nn t)); lia)).
    assert (0 <= m_weight (length (p_ws s)) (p_main s)).
    { destruct (p_main s); cbn [m_weight]; try (specialize (cost_nn t)); lia. }
    lia.
  Qed.

  Ltac fields := cbn [main_at worker_at with_ops with_workers with_queue with_total with_mutex with_waiting with_running with_mem
    p_ops p_main p_ws p_queue p_total p_mutex p_waiting p_running p_mem] in *.
  Ltac setc := repeat match goal with
    | X : nth_error ?ws ?i = Some _ |- context [wcount ?f (set_nth ?i ?w ?ws)] => rewrite (wcount_set T f ws i _ w X); fields
    end.

  Lemma weight_step : forall n s x s', (0 < n)%nat -> pool_ok M T n s -> Forall cheap (p_ops s) -> pool_step act s x s' ->
    (x <> LSpurious -> weight s' < weight s) /\ (x = LSpurious -> weight s' <= weight s + 5) /\ Forall cheap (p_ops s').
  Proof.
    intros n s x s' N Ok C H.
    assert (RN : forall p, p_main s = p -> stopping p = false -> p <> MNext -> p_running s = true).
    { intros p E1 E2 E3. destruct (p_running s) eqn:R; auto. destruct (ok_down _ _ _ _ Ok R) as [_ [_ [X|X]]]; rewrite E1 in X; congruence. }
    destruct s as [ops mn ws q tot mx wt rn mem]. unfold weight. fields.
    destruct H as [H|[i H]]; inversion H; subst; clear H; fields; subst; rewrite ?set_nth_len, ?map_length;
      try match goal with Y : Forall cheap (_ :: _) |- _ => inversion Y; subst; clear Y end;
      (split; [|split; [|auto; fail]]); intros X; try congruence; clear X; setc;
      cbn [sumz op_weight m_weight w_weight task_weight]; rewrite ?sumz_snoc; unfold task_weight; try lia;
      try (destruct rn; lia).
    - match goal with X : cheap _ |- _ => cbn [cheap] in X; specialize (X mem) end. lia.
    - specialize (RN _ eq_refl eq_refl ltac:(discriminate)). subst rn. lia.
    - (* stop *) pose proof (wcount_le_mono T (w_weight false) (w_weight rn) ws 2 ltac:(intros []; cbn [w_weight]; destruct rn; lia)). lia.
    - rewrite wcount_map.
      pose proof (wcount_le_mono T (fun w => w_weight rn (wake w)) (w_weight rn) ws 5 ltac:(intros []; cbn [w_weight wake]; destruct rn; lia)). lia.
    - assert (i < length ws)%nat by (apply nth_error_Some; congruence). lia.
    - match goal with X : act _ _ = Next _ _ |- _ => apply cost_act in X end. lia.
    - specialize (cost_nn t). lia.
    - destruct wt, rn; cbn [w_weight]; lia.
    - destruct mn, rn; cbn [wake_main m_weight]; lia.
  Qed.

  (** Every execution is finite: its length is bounded but for spurious wake-ups. *)
  Lemma run_length : forall n s l s', (0 < n)%nat -> pool_ok M T n s -> Forall cheap (p_ops s) -> pool_run act s l s' ->
    Z.of_nat (length l) + weight s' <= weight s + 6 * Z.of_nat (spurious l) /\ Forall cheap (p_ops s').
  Proof.
    intros n s l s' N Ok C R. revert Ok C. induction R as [s|s l s1 x s2 R IH St]; intros Ok C.
    - cbn [length spurious filter]. split; [lia|auto].
    - destruct (IH Ok C) as [I1 I2]. pose proof (pool_run_ok M T act n s l s1 N Ok R) as Ok1.
      destruct (weight_step n s1 x s2 N Ok1 I2 St) as [W1 [W2 W3]]. split; auto.
      unfold spurious in *. rewrite filter_app, !app_length. cbn [length filter].
      destruct x; cbn [length]; try (specialize (W1 ltac:(discriminate)); lia). specialize (W2 eq_refl). lia.
  Qed.

  Lemma run_trans : forall s l s1, pool_run act s l s1 -> forall l' s2, pool_run act s1 l' s2 -> pool_run act s (l ++ l') s2.
  Proof.
    intros s l s1 R1 l' s2 R2. induction R2 as [s1|s1 l' s2 x s3 R2 IH St].
    - rewrite app_nil_r. auto.
    - rewrite app_assoc. econstructor; eauto.
  Qed.

  (** From a state in which a blocked task never stops everybody, some execution
      without spurious wake-ups runs to its end. *)
  Lemma run_end : forall n s, (0 < n)%nat -> pool_ok M T n s -> Forall cheap (p_ops s) ->
    (forall l s', pool_run act s l s' -> blocked s' -> moves s') ->
    exists l s', pool_run act s l s' /\ spurious l = O /\
      (pool_finished s' \/ exists i, p_main s' = MSJoin i /\ nth_error (p_ws s') i = Some WSleep).
  Proof.
    intros n s N Ok C B. remember (Z.to_nat (weight s)) as k eqn:E. revert s E Ok C B.
    induction k as [k IH] using lt_wf_ind. intros s E Ok C B.
    assert (D : moves s \/ (pool_finished s \/ exists i, p_main s = MSJoin i /\ nth_error (p_ws s) i = Some WSleep)).
    { destruct (progress n s N Ok) as [P|[P|P]]; auto. left. eapply B; [constructor|auto]. }
    destruct D as [[x [s1 [St X]]]|D].
    - destruct (weight_step n s x s1 N Ok C St) as [W1 [_ W3]]. specialize (W1 X).
      pose proof (weight_nn s1). pose proof (pool_step_ok M T act n s x s1 N Ok St) as Ok1.
      assert (R0 : pool_run act s [x] s1) by (apply (RunSnoc _ _ _ s [] s x s1); [constructor|auto]).
      destruct (IH (Z.to_nat (weight s1)) ltac:(lia) s1 eq_refl Ok1 W3) as [l [s2 [R [Z0 F]]]].
      { intros l s' R. apply (B ([x] ++ l)). eapply run_trans; eauto. }
      exists ([x] ++ l), s2. split; [eapply run_trans; eauto|]. split; auto.
      unfold spurious in *. rewrite filter_app, app_length, Z0. destruct x; cbn [filter length]; auto. congruence.
    - exists [], s. split; [constructor|]. split; auto.
  Qed.
End Live.
