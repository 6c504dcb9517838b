(** The pool is a fork/join machine. *)
From Coq Require Import ZArith List Bool Lia Arith Permutation.
From Verif Require Import Base ModelPool SpecPool ProofsPool ProofsPoolLive ProofsPoolStop.
Import ListNotations.
Open Scope Z_scope.

Section Fork.
  Variables M T : Type.
  Variable act : T -> M -> tres M T.
  Implicit Types (s : pool M T).

  Ltac fields := cbn [main_at worker_at with_ops with_workers with_queue with_total with_mutex with_waiting with_running with_mem
    p_ops p_main p_ws p_queue p_total p_mutex p_waiting p_running p_mem] in *.

  Definition refines s (a : fj M T) : Prop :=
    let '(o, k, m) := a in o = calls_left s /\ Permutation k (outstanding s) /\ m = p_mem s.

  Lemma hand_set : forall ws i w (w' : wpc T), nth_error ws i = Some w ->
    exists l1 l2, flat_map in_hand ws = l1 ++ in_hand w ++ l2 /\ flat_map in_hand (set_nth i w' ws) = l1 ++ in_hand w' ++ l2.
  Proof.
    induction ws as [|a ws IH]; intros [|i] w w' H; cbn [nth_error] in H; try discriminate; cbn [set_nth flat_map].
    - injection H as ->. exists [], (flat_map in_hand ws). auto.
    - destruct (IH i w w' H) as [l1 [l2 [E1 E2]]]. exists (in_hand a ++ l1), l2. rewrite E1, E2, <- !app_assoc. auto.
  Qed.

  Lemma hand_same : forall ws i w (w' : wpc T), nth_error ws i = Some w -> in_hand w = in_hand w' ->
    flat_map in_hand (set_nth i w' ws) = flat_map in_hand ws.
  Proof. intros ws i w w' H E. destruct (hand_set ws i w w' H) as [l1 [l2 [E1 E2]]]. rewrite E1, E2, E. auto. Qed.

  Lemma hand_wake : forall ws : list (wpc T), flat_map in_hand (map wake ws) = flat_map in_hand ws.
  Proof. induction ws as [|w ws IH]; cbn [map flat_map]; auto. rewrite IH. destruct w; auto. Qed.

  Lemma no_hand : forall ws : list (wpc T), wcount w_fly ws = 0 -> flat_map in_hand ws = [].
  Proof.
    induction ws as [|w ws IH]; cbn [wcount flat_map]; intros H; auto.
    pose proof (wcount_nonneg T w_fly ws (w_fly_nn T)). pose proof (w_fly_nn T w).
    rewrite IH by lia. destruct w; cbn [w_fly in_hand] in *; auto; lia.
  Qed.

  Lemma perm_split : forall (A : Type) (k : list A) l1 t l2, Permutation k (l1 ++ t :: l2) ->
    exists k1 k2, k = k1 ++ t :: k2 /\ Permutation (k1 ++ k2) (l1 ++ l2).
  Proof.
    intros A k l1 t l2 P. assert (I : In t k) by (eapply Permutation_in; [symmetry; eauto|apply in_or_app; right; left; auto]).
    apply in_split in I. destruct I as [k1 [k2 ->]]. exists k1, k2. split; auto.
    eapply Permutation_app_inv; eauto.
  Qed.

  Lemma fork_step : forall n s x s' a, (0 < n)%nat -> pool_ok M T n s -> refines s a -> pool_step act s x s' ->
    refines s' a \/ exists b, fj_step act a b /\ refines s' b.
  Proof.
    intros n s x s' [[o k] m] N K [E1 [E2 E3]] H. subst o m.
    pose proof (ok_client _ _ _ _ K) as C. unfold owed in C.
    pose proof (wcount_nonneg T w_fly (p_ws s) (w_fly_nn T)) as NF.
    pose proof (no_hand (p_ws s)) as NH.
    unfold refines, calls_left, outstanding in *.
    destruct s as [ops mn ws q tot mx wt rn mem]. fields. clear K.
    destruct H as [H|[i H]]; inversion H; subst; clear H; fields; subst; fields;
      try (left; (split; [reflexivity|]); (split; [|reflexivity]);
           try match goal with W : nth_error ?l ?j = Some ?w0 |- context [set_nth ?j ?w ?l] => rewrite (hand_same l j w0 w W eq_refl) end; rewrite ?hand_wake; auto; fail).
    - right. eexists. split; [apply FPush|]. split; auto. split; auto.
      cbn [app] in *. rewrite Permutation_app_comm. cbn [app]. rewrite E2. apply Permutation_middle.
    - left. split; auto. split; auto. rewrite E2. rewrite <- !app_assoc. auto.
    - right. cbn [client_ok] in C. destruct C as [_ [_ C]].
      assert (q = []) by (destruct q; auto; cbn [length] in C; lia). subst q. cbn [length] in C.
      rewrite NH in E2 |- * by lia. cbn [app] in *. apply Permutation_sym, Permutation_nil in E2. subst k.
      eexists. split; [apply FWait|]. repeat split; auto.
    - right. eexists. split; [apply FDo|]. repeat split; auto.
    - right. eexists. split; [apply FStop|]. repeat split; auto.
    - left. split; auto. split; auto. match goal with W : nth_error _ _ = Some _ |- _ => destruct (hand_set _ _ _ (WUnlock t) W) as [l1 [l2 [X1 X2]]] end.
      rewrite X2. rewrite E2, X1. cbn [in_hand app].
      rewrite !app_assoc, <- Permutation_middle, <- !app_assoc. cbn [app]. auto.
    - right. match goal with W : nth_error _ _ = Some _ |- _ => destruct (hand_set _ _ _ (WRun t') W) as [l1 [l2 [X1 X2]]] end.
      rewrite X1 in E2. cbn [in_hand app] in *. rewrite !app_assoc in E2. apply perm_split in E2. destruct E2 as [k1 [k2 [-> P]]].
      eexists. split; [apply FAct; eauto|]. split; auto. split; auto. rewrite X2, !app_assoc.
      rewrite <- !Permutation_middle. constructor. rewrite P. auto.
    - right. match goal with W : nth_error _ _ = Some _ |- _ => destruct (hand_set _ _ _ WRelock W) as [l1 [l2 [X1 X2]]] end.
      rewrite X1 in E2. cbn [in_hand app] in *. rewrite !app_assoc in E2. apply perm_split in E2. destruct E2 as [k1 [k2 [-> P]]].
      eexists. split; [apply FEnd; eauto|]. split; auto. split; auto. rewrite X2, !app_assoc. auto.
    - left. split; auto. split; auto. destruct wt; [rewrite (hand_same _ _ _ WNotify H0 eq_refl)|rewrite (hand_same _ _ _ WRelease H0 eq_refl)]; auto.
    - left. destruct mn; cbn [wake_main]; (split; [auto|]); (split; [|auto]); rewrite (hand_same _ _ _ WRelease H0 eq_refl); auto.
  Qed.

  Lemma fork_run : forall n s l s' a, (0 < n)%nat -> pool_ok M T n s -> refines s a -> pool_run act s l s' ->
    exists b, fj_steps act a b /\ refines s' b.
  Proof.
    intros n s l s' a N K R H. induction H as [s|s l s1 x s2 H IH St].
    - exists a. split; [constructor|auto].
    - destruct (IH K R) as [b [B1 B2]]. pose proof (pool_run_ok M T act n s l s1 N K H) as K1.
      destruct (fork_step n s1 x s2 b N K1 B2 St) as [Q|[c [C1 C2]]]; [eauto|].
      exists c. split; auto. econstructor; eauto.
  Qed.

  Lemma fork_start : forall n ops m, refines (pool_start n ops m) (ops, [], m).
  Proof.
    intros n ops m. split; auto. split; auto. unfold outstanding. cbn [pool_start p_queue p_main p_ws app].
    assert (E : flat_map in_hand (repeat (@WLoop T) n) = []) by (clear; induction n; auto). rewrite E. auto.
  Qed.

  Lemma fork_reachable : forall n ops m s, (0 < n)%nat -> client ops -> reachable act n ops m s ->
    exists k, fj_steps act (ops, [], m) (calls_left s, k, p_mem s) /\ Permutation k (outstanding s).
  Proof.
    intros n ops m s N [C1 C2] [l R].
    destruct (fork_run n _ l s (ops, [], m) N (start_ok M T n ops m C1 C2) (fork_start n ops m) R) as [[[o k] m'] [B1 [B2 [B3 B4]]]].
    subst. eauto.
  Qed.
End Fork.
