(** Stopping the threads. *)
From Coq Require Import ZArith List Bool Lia Arith.
From Verif Require Import Base ModelPool SpecPool ProofsPool ProofsPoolLive.
Import ListNotations.
Open Scope Z_scope.

Section Stop.
  Variables M T : Type.
  Variable act : T -> M -> tres M T.
  Implicit Types (s : pool M T).

  Ltac fields := cbn [main_at worker_at with_ops with_workers with_queue with_total with_mutex with_waiting with_running with_mem
    p_ops p_main p_ws p_queue p_total p_mutex p_waiting p_running p_mem] in *.

  Lemma run_cons : forall s x s1 l s2, pool_step act s x s1 -> pool_run act s1 l s2 -> pool_run act s (x :: l) s2.
  Proof.
    intros s x s1 l s2 St R. change (x :: l) with ([x] ++ l). eapply run_trans; eauto.
    apply (RunSnoc _ _ _ s [] s x s1); [constructor|auto].
  Qed.

  Lemma spurious_app : forall (l1 l2 : list (label T)), spurious (l1 ++ l2) = (spurious l1 + spurious l2)%nat.
  Proof. intros. unfold spurious. rewrite filter_app, app_length. auto. Qed.

  (** The client joins a thread that sleeps. *)
  Definition hung (i : nat) s : Prop := p_main s = MSJoin i /\ nth_error (p_ws s) i = Some WSleep.

  Lemma nth_set_other : forall A (l : list A) i j v, i <> j -> nth_error (set_nth i v l) j = nth_error l j.
  Proof.
    intros A. induction l as [|a l IH]; intros [|i] [|j] v N; cbn [set_nth nth_error]; auto; congruence.
  Qed.
  Lemma nth_set_same : forall A (l : list A) i v a, nth_error l i = Some a -> nth_error (set_nth i v l) i = Some v.
  Proof. intros A. induction l as [|b l IH]; intros [|i] v a H; cbn [set_nth nth_error] in *; auto; try discriminate. eapply IH; eauto. Qed.

  Lemma hung_step : forall i s x s', hung i s -> pool_step act s x s' -> x <> LSpurious -> hung i s'.
  Proof.
    intros i s x s' [E1 E2] H N. destruct s as [ops mn ws q tot mx wt rn mem]. fields. subst mn.
    destruct H as [H|[j H]]; inversion H; subst; clear H; fields; try discriminate; try congruence.
    { match goal with X : (length ws <= _)%nat |- _ => apply nth_error_None in X; congruence end. }
    all: destruct (Nat.eq_dec j i) as [->|Hji]; [congruence|]; split; fields; [reflexivity|rewrite nth_set_other by auto; auto].
  Qed.

  Lemma hung_run : forall i s l s', hung i s -> pool_run act s l s' -> spurious l = O -> hung i s'.
  Proof.
    intros i s l s' H R. induction R as [s|s l s1 x s2 R IH St]; intros E; auto.
    rewrite spurious_app in E. eapply hung_step; [apply IH; auto; lia|eauto|].
    intros ->. cbn [spurious filter length] in E. unfold spurious in E. cbn [filter length] in E. lia.
  Qed.

  Lemma hung_unfinished : forall i s, hung i s -> ~ pool_finished s.
  Proof. intros i s [H _] [F _]. congruence. Qed.

  (** A pool destroyed right after its construction can hang. *)
  Lemma hang_at_once : forall n m, exists l s,
    pool_run act (pool_start (S n) destructor m) l s /\ spurious l = O /\ hung 0 s.
  Proof.
    intros n m. unfold pool_start, destructor. cbn [repeat].
    do 2 eexists. split; [|split].
    { eapply run_cons; [left; eapply SWait; reflexivity|fields].
      eapply run_cons; [left; eapply SWSet; reflexivity|fields].
      eapply run_cons; [left; eapply SWLock; reflexivity|fields].
      eapply run_cons; [left; eapply SWTrue; reflexivity|fields].
      eapply run_cons; [left; eapply SWClear; reflexivity|fields].
      eapply run_cons; [left; eapply SWUnlock; reflexivity|fields].
      eapply run_cons; [right; exists O; eapply WSLoop; reflexivity|fields; cbn [set_nth]].
      eapply run_cons; [right; exists O; eapply WSLock; reflexivity|fields; cbn [set_nth]].
      eapply run_cons; [right; exists O; eapply WSFalse; reflexivity|fields; cbn [set_nth]].
      eapply run_cons; [left; eapply SStop; reflexivity|fields].
      eapply run_cons; [left; eapply SSStore; reflexivity|fields].
      eapply run_cons; [left; eapply SSNotify; reflexivity|fields].
      eapply run_cons; [right; exists O; eapply WSBlock; reflexivity|fields; cbn [set_nth map wake]].
      constructor. }
    - reflexivity.
    - split; reflexivity.
  Qed.

  (** ** From any idle state *)

  Definition idle s : Prop := p_main s = MNext /\ p_ops s = [OStop].

  Definition i_weight (w : wpc T) : Z :=
    match w with WBlock => 1 | WTest => 2 | WLock | WWake => 3 | WLoop => 4 | WRelease => 5 | WNotify => 6 | WAsk => 7 | _ => 0 end.

  Lemma idle_facts : forall n s, pool_ok M T n s -> idle s ->
    p_running s = true /\ p_queue s = [] /\ wcount w_fly (p_ws s) = 0.
  Proof.
    intros n s K [E1 E2].
    assert (R : p_running s = true).
    { destruct (p_running s) eqn:R; auto. destruct (ok_down _ _ _ _ K R) as [_ [D _]]. congruence. }
    pose proof (ok_client _ _ _ _ K) as C. rewrite E1, E2 in C. cbn [client_ok stops_last] in C. destruct C as [w [[C1 _] [_ C2]]].
    specialize (C2 C1). unfold owed in C2. pose proof (wcount_nonneg T w_fly (p_ws s) (w_fly_nn T)).
    split; auto. split; [|lia]. destruct (p_queue s); auto. cbn [length] in C2. lia.
  Qed.

  Lemma idle_step : forall n s i x s', (0 < n)%nat -> pool_ok M T n s -> idle s -> worker_step act i s x s' -> x <> LSpurious ->
    idle s' /\ wcount i_weight (p_ws s') < wcount i_weight (p_ws s).
  Proof.
    intros n s i x s' N K I H X. destruct (idle_facts n s K I) as [R [Q F]]. destruct I as [E1 E2].
    pose proof (ok_check _ _ _ _ K) as CK. unfold idle.
    destruct s as [ops mn ws q tot mx wt rn mem]. fields. subst.
    inversion H; subst; clear H; fields; try discriminate; try congruence;
      match goal with W : nth_error ws i = Some _ |- _ =>
        pose proof (wcount_le T w_fly _ _ _ (w_fly_nn T) W);
        rewrite (wcount_set T i_weight ws i _ _ W) end; cbn [w_fly i_weight wake_main] in *; try lia; (split; [auto|]); try lia.
    - destruct wt; cbn [i_weight]; lia.
  Qed.

  Lemma quiet : forall n s, (0 < n)%nat -> pool_ok M T n s -> idle s ->
    exists l s', pool_run act s l s' /\ spurious l = O /\ idle s' /\ wcount w_awake (p_ws s') = 0.
  Proof.
    intros n s N K I. remember (Z.to_nat (wcount i_weight (p_ws s))) as k eqn:E. revert s E K I.
    induction k as [k IH] using lt_wf_ind. intros s E K I.
    destruct (Z.eq_dec (wcount w_awake (p_ws s)) 0) as [A|A].
    - exists [], s. split; [constructor|]. auto.
    - pose proof (wcount_nonneg T w_awake (p_ws s) (w_awake_nn T)).
      destruct (wcount_pos T w_awake (p_ws s) ltac:(lia) (w_awake_nn T)) as [i [w [H1 H2]]].
      destruct (idle_facts n s K I) as [R [Q F]].
      destruct (awake_wmoves M T act n s i w K ltac:(destruct I as [-> _]; auto) H1 ltac:(destruct w; cbn [w_awake] in *; lia)) as [[j [x [s1 [St X]]]]|[j [t [B _]]]].
      + destruct (idle_step n s j x s1 N K I St X) as [I1 L1].
        pose proof (wcount_nonneg T i_weight (p_ws s1) ltac:(intros []; cbn [i_weight]; lia)).
        assert (P1 : pool_step act s x s1) by (right; eauto).
        destruct (IH (Z.to_nat (wcount i_weight (p_ws s1))) ltac:(lia) s1 eq_refl (pool_step_ok M T act n s x s1 N K P1) I1) as [l [s2 [R2 [Z2 F2]]]].
        exists (x :: l), s2. split; [eapply run_cons; eauto|]. split; auto.
        change (x :: l) with ([x] ++ l). rewrite spurious_app, Z2. unfold spurious. destruct x; cbn [filter length]; auto. congruence.
      + pose proof (wcount_le T w_fly _ _ _ (w_fly_nn T) B). cbn [w_fly] in *. lia.
  Qed.

  (** Whatever was run before, the destructor can hang. *)
  Lemma hang_later : forall n s, pool_ok M T (S n) s -> idle s -> exists l s', pool_run act s l s' /\ hung 0 s'.
  Proof.
    intros n s K I. destruct (quiet (S n) s ltac:(lia) K I) as [l [s1 [R [_ [I1 A]]]]].
    pose proof (pool_run_ok M T act (S n) s l s1 ltac:(lia) K R) as K1.
    destruct (idle_facts (S n) s1 K1 I1) as [Rn [Q F]]. destruct I1 as [E1 E2].
    pose proof (ok_n _ _ _ _ K1) as L. pose proof (ok_mutex _ _ _ _ K1) as Mx. rewrite E1 in Mx. cbn [m_hold] in Mx.
    destruct (ok_up _ _ _ _ K1 Rn) as [X _].
    assert (H0 : wcount w_hold (p_ws s1) <= wcount w_awake (p_ws s1)).
    { clear. induction (p_ws s1) as [|w ws IH]; cbn [wcount]; [lia|]. destruct w; cbn [w_hold w_awake]; lia. }
    pose proof (wcount_nonneg T w_hold (p_ws s1) (w_hold_nn T)).
    destruct s1 as [ops mn ws q tot mx wt rn mem]. fields. subst.
    assert (mx = false) by (destruct mx; cbn [b2z] in *; auto; lia). subst mx.
    destruct ws as [|w ws]; [discriminate|]. cbn [wcount] in *.
    pose proof (wcount_nonneg T w_awake ws (w_awake_nn T)). pose proof (wcount_nonneg T w_exit ws (w_exit_nn T)).
    assert (w = WSleep) by (destruct w; cbn [w_awake w_exit] in *; auto; lia). subst w.
    eexists (l ++ _), _. split.
    { eapply run_trans; [exact R|].
      eapply run_cons; [right; exists O; eapply WSSpurious; reflexivity|fields; cbn [set_nth]].
      eapply run_cons; [right; exists O; eapply WSWake; reflexivity|fields; cbn [set_nth]].
      eapply run_cons; [right; exists O; eapply WSFalse; reflexivity|fields; cbn [set_nth]].
      eapply run_cons; [left; eapply SStop; reflexivity|fields].
      eapply run_cons; [left; eapply SSStore; reflexivity|fields].
      eapply run_cons; [left; eapply SSNotify; reflexivity|fields].
      eapply run_cons; [right; exists O; eapply WSBlock; reflexivity|fields; cbn [set_nth map wake]].
      constructor. }
    split; reflexivity.
  Qed.

  (** ** When no worker is about to block at notify_all, the destructor returns *)
  Definition drained s : Prop :=
    p_running s = false /\ wcount w_sleep (p_ws s) = 0 /\ wcount w_block (p_ws s) = 0 /\ (stopping (p_main s) = true -> exists i, p_main s = MSJoin i).

  Lemma drained_step : forall n s x s', pool_ok M T n s -> drained s -> pool_step act s x s' -> drained s'.
  Proof.
    intros n s x s' K [R [A [B C]]] H.
    assert (NS : forall w : wpc T, 0 <= w_sleep w) by (intros []; cbn; lia).
    destruct (ok_down _ _ _ _ K R) as [_ [D1 D2]]. unfold drained.
    destruct s as [ops mn ws q tot mx wt rn mem]. fields. subst.
    destruct H as [H|[i H]]; inversion H; subst; clear H; fields; subst; try discriminate;
      try (exfalso; destruct D2 as [D2|D2]; discriminate);
      try match goal with W : nth_error ws _ = Some _ |- _ =>
        pose proof (wcount_le T w_sleep _ _ _ NS W); pose proof (wcount_le T w_block _ _ _ (w_block_nn T) W) end;
      try match goal with W : nth_error ws ?j = Some _ |- context [set_nth ?j ?w ws] =>
        rewrite (wcount_set T w_sleep ws j _ w W), (wcount_set T w_block ws j _ w W) end;
      cbn [w_sleep w_block stopping] in *; try lia.
    all: try (split; [reflexivity|split; [lia|split; [lia|auto; fail]]]).
    - destruct (C eq_refl) as [j C1]. discriminate.
    - split; auto. split; auto. split; auto. intros _. eauto.
    - destruct wt; cbn [w_sleep w_block]; (split; [reflexivity|split; [lia|split; [lia|auto; fail]]]).
    - split; auto. split; [lia|]. split; [lia|]. destruct D2 as [D2| ->]; [|discriminate]. intros _. destruct (C D2) as [j ->]. cbn [wake_main]. eauto.
  Qed.

  Lemma drained_run : forall n s l s', (0 < n)%nat -> pool_ok M T n s -> drained s -> pool_run act s l s' -> drained s'.
  Proof.
    intros n s l s' N K D R. induction R as [s|s l s1 x s2 R IH St]; auto.
    eapply drained_step; [|apply IH; auto|eauto]. eapply pool_run_ok; eauto.
  Qed.

  Definition announcing s : Prop := p_main s = MSNotify /\ wcount w_block (p_ws s) = 0.

  Lemma announcing_step : forall n s x s', pool_ok M T n s -> announcing s -> pool_step act s x s' -> announcing s' \/ drained s'.
  Proof.
    intros n s x s' K [E B] H.
    assert (R : p_running s = false).
    { destruct (p_running s) eqn:R; auto. destruct (ok_up _ _ _ _ K R) as [_ U]. rewrite E in U. discriminate. }
    unfold announcing, drained. destruct s as [ops mn ws q tot mx wt rn mem]. fields. subst.
    destruct H as [H|[i H]]; inversion H; subst; clear H; fields; try discriminate.
    { right. split; auto. rewrite !wcount_map, (wcount_ext T _ _ ws (block_wake T)). split; [|split; auto; intros _; eauto].
      clear. induction ws as [|w ws IH]; cbn [wcount]; auto. destruct w; cbn [wake w_sleep]; auto. }
    all: left; split; auto; match goal with W : nth_error ?l ?j = Some _ |- context [set_nth ?j ?w ?l] =>
        pose proof (wcount_le T w_block _ _ _ (w_block_nn T) W); rewrite (wcount_set T w_block l j _ w W) end;
        cbn [w_block] in *; try lia.
    match goal with |- context [if ?b then WNotify else _] => destruct b end; cbn [w_block]; lia.
  Qed.

  Lemma stop_run : forall n s l s', (0 < n)%nat -> pool_ok M T n s -> announcing s -> pool_run act s l s' -> announcing s' \/ drained s'.
  Proof.
    intros n s l s' N K D R. induction R as [s|s l s1 x s2 R IH St]; auto.
    pose proof (pool_run_ok M T act n s l s1 N K R) as K1.
    destruct (IH K D) as [I|I]; [eapply announcing_step; eauto|right; eapply drained_step; eauto].
  Qed.

  Lemma stop_returns : forall n s l s', (0 < n)%nat -> pool_ok M T n s -> p_main s = MSNotify -> ~ In WBlock (p_ws s) ->
    pool_run act s l s' -> ~ moves M T act s' -> pool_finished s'.
  Proof.
    intros n s l s' N K E B R NM.
    pose proof (pool_run_ok M T act n s l s' N K R) as K'.
    assert (A : announcing s).
    { split; auto. clear -B. induction (p_ws s) as [|w ws IH]; cbn [wcount]; auto.
      rewrite IH by (intros X; apply B; right; auto). destruct w; cbn [w_block]; auto. exfalso. apply B. left. auto. }
    destruct (stop_run n s l s' N K A R) as [[A1 _]|[D1 [D2 [D3 D4]]]].
    - exfalso. apply NM. eapply mvm, SSNotify. auto.
    - destruct (progress M T act n s' N K') as [P|[[i [t [P _]]]|[P|[i [_ P]]]]]; auto; [tauto| |].
      + destruct (ok_down _ _ _ _ K' D1) as [O _]. unfold owed in O.
        pose proof (wcount_le T w_fly _ _ _ (w_fly_nn T) P). cbn [w_fly] in *. lia.
      + pose proof (wcount_le T w_sleep _ _ _ ltac:(intros []; cbn; lia) P). cbn [w_sleep] in *. lia.
  Qed.
End Stop.
