(** Invariant of the thread pool. *)
From Coq Require Import ZArith List Bool Lia Arith.
From Verif Require Import Base ModelPool SpecPool.
Import ListNotations.
Open Scope Z_scope.

(** Counting workers. *)
Fixpoint wcount {T} (f : wpc T -> Z) (ws : list (wpc T)) : Z :=
  match ws with [] => 0 | w :: r => f w + wcount f r end.

Lemma wcount_set : forall T (f : wpc T -> Z) ws i w w', nth_error ws i = Some w ->
  wcount f (set_nth i w' ws) = wcount f ws - f w + f w'.
Proof.
  intros T f. induction ws as [|a ws IH]; intros [|i] w w' H; cbn [nth_error] in H; try discriminate; cbn [set_nth wcount].
  - injection H as ->. lia.
  - rewrite (IH i w w' H). lia.
Qed.

Lemma wcount_nonneg : forall T (f : wpc T -> Z) ws, (forall w, 0 <= f w) -> 0 <= wcount f ws.
Proof. intros T f ws H. induction ws as [|a ws IH]; cbn [wcount]; [lia|]. specialize (H a). lia. Qed.

Lemma wcount_le : forall T (f : wpc T -> Z) ws i w, (forall w, 0 <= f w) -> nth_error ws i = Some w -> f w <= wcount f ws.
Proof.
  intros T f. induction ws as [|a ws IH]; intros [|i] w P H; cbn [nth_error] in H; try discriminate; cbn [wcount].
  - injection H as ->. pose proof (wcount_nonneg T f ws P). lia.
  - pose proof (IH i w P H). specialize (P a). lia.
Qed.

Lemma wcount_pos : forall T (f : wpc T -> Z) ws, 0 < wcount f ws -> (forall w, 0 <= f w) ->
  exists i w, nth_error ws i = Some w /\ 0 < f w.
Proof.
  intros T f. induction ws as [|a ws IH]; cbn [wcount]; intros H P; [lia|].
  destruct (Z_lt_le_dec 0 (f a)).
  - exists O, a. split; auto.
  - destruct (IH ltac:(specialize (P a); lia) P) as [i [w [H1 H2]]]. exists (S i), w. split; auto.
Qed.

Lemma wcount_map : forall T (f : wpc T -> Z) (g : wpc T -> wpc T) ws, wcount f (map g ws) = wcount (fun w => f (g w)) ws.
Proof. intros T f g ws. induction ws as [|a ws IH]; cbn [map wcount]; [auto|]. rewrite IH. auto. Qed.

Lemma wcount_ext : forall T (f g : wpc T -> Z) ws, (forall w, f w = g w) -> wcount f ws = wcount g ws.
Proof. intros T f g ws H. induction ws as [|a ws IH]; cbn [wcount]; [auto|]. rewrite IH, H. auto. Qed.

Lemma wcount_le_mono : forall T (f g : wpc T -> Z) ws c, (forall w, f w <= g w + c) -> wcount f ws <= wcount g ws + c * Z.of_nat (length ws).
Proof. intros T f g ws c H. induction ws as [|a ws IH]; cbn [wcount length]; [lia|]. specialize (H a). lia. Qed.

Lemma set_nth_len : forall A (l : list A) i v, length (set_nth i v l) = length l.
Proof. intros A. induction l as [|h l IH]; intros [|i] v; cbn [set_nth length]; auto. Qed.

(** Who holds tasks_mutex. *)
Definition w_hold {T} (w : wpc T) : Z :=
  match w with WTest | WBlock | WCheck | WUnlock _ | WDec | WAsk | WNotify | WRelease => 1 | _ => 0 end.
Definition m_hold {T} (p : mpc T) : Z :=
  match p with MPPush _ | MPUnlock | MWTest | MWBlock | MWClear | MWUnlock => 1 | _ => 0 end.
(** Tasks taken from the queue and not yet subtracted from tasks_total. *)
Definition w_fly {T} (w : wpc T) : Z :=
  match w with WUnlock _ | WRun _ | WRelock | WDec => 1 | _ => 0 end.
(** Tasks queued and not yet added to tasks_total. *)
Definition m_pend {T} (p : mpc T) : Z := match p with MPUnlock | MPInc => 1 | _ => 0 end.
Definition w_check {T} (w : wpc T) : Z := match w with WCheck => 1 | _ => 0 end.
Definition w_block {T} (w : wpc T) : Z := match w with WBlock => 1 | _ => 0 end.
Definition w_tell {T} (w : wpc T) : Z := match w with WAsk | WNotify => 1 | _ => 0 end.
Definition w_awake {T} (w : wpc T) : Z := match w with WSleep | WExit => 0 | _ => 1 end.
Definition w_exit {T} (w : wpc T) : Z := match w with WExit => 1 | _ => 0 end.
Definition w_sleep {T} (w : wpc T) : Z := match w with WSleep => 1 | _ => 0 end.

Section Pool.
  Variables M T : Type.
  Variable act : T -> M -> tres M T.
  Implicit Types (s : pool M T).

  Definition b2z (b : bool) : Z := if b then 1 else 0.
  (** Queued or taken tasks. *)
  Definition owed s : Z := Z.of_nat (length (p_queue s)) + wcount w_fly (p_ws s).

  Lemma fits_mono : forall (ops : list (op M T)) k k', k' <= k -> fits k ops -> fits k' ops.
  Proof.
    induction ops as [|[f| |g|] ops IH]; intros k k' L H; cbn [fits] in *; try lia.
    - apply (IH (k + 1)); auto; lia.
    - destruct H. split; auto; lia.
    - apply (IH k); auto.
  Qed.
  Lemma fits_lt : forall (ops : list (op M T)) k, fits k ops -> k < 2 ^ 64.
  Proof.
    induction ops as [|[f| |g|] ops IH]; intros k H; cbn [fits] in *; auto.
    - specialize (IH _ H). lia.
    - tauto.
  Qed.

  (** Where the client is, against the calls it has left. *)
  Definition client_ok (p : mpc T) (ops : list (op M T)) (k tell : Z) : Prop :=
    match p with
    | MNext => exists w, stops_last w ops /\ fits k ops /\ (w = true -> k = 0)
    | MPLock _ | MPPush _ => stops_last false ops /\ fits (k + 1) ops
    | MPUnlock | MPInc | MPNotify => stops_last false ops /\ fits k ops
    | MWSet | MWLock | MWTest | MWWake => stops_last true ops /\ fits 0 ops /\ k < 2 ^ 64
    | MWBlock => stops_last true ops /\ fits 0 ops /\ 0 < k < 2 ^ 64
    | MWSleep => stops_last true ops /\ fits 0 ops /\ k < 2 ^ 64 /\ 0 < k + tell
    | MWClear | MWUnlock => stops_last true ops /\ fits 0 ops /\ k = 0
    | MSStore | MSNotify | MSJoin _ => ops = [] /\ k = 0
    end.

  Definition waits {U} (p : mpc U) : bool :=
    match p with MWLock | MWTest | MWBlock | MWSleep | MWWake | MWClear => true | _ => false end.
  Definition pushing {U} (p : mpc U) : bool :=
    match p with MPUnlock | MPInc | MPNotify => true | _ => false end.
  Definition stopping {U} (p : mpc U) : bool :=
    match p with MSNotify | MSJoin _ => true | _ => false end.

  Record pool_ok (n : nat) s : Prop := {
    ok_n : length (p_ws s) = n;
    ok_mutex : m_hold (p_main s) + wcount w_hold (p_ws s) = b2z (p_mutex s);
    ok_total : p_total s = wrap64u (owed s - m_pend (p_main s));
    ok_check : 0 < wcount w_check (p_ws s) -> p_running s = true -> p_queue s <> [];
    ok_block : 0 < wcount w_block (p_ws s) -> p_queue s = [];
    ok_waiting : waits (p_main s) = true -> p_waiting s = true;
    ok_awake : p_running s = true -> p_queue s <> [] -> pushing (p_main s) = false -> 0 < wcount w_awake (p_ws s);
    ok_up : p_running s = true -> wcount w_exit (p_ws s) = 0 /\ stopping (p_main s) = false;
    ok_down : p_running s = false -> owed s = 0 /\ p_ops s = [] /\ (stopping (p_main s) = true \/ p_main s = MNext);
    ok_client : client_ok (p_main s) (p_ops s) (owed s) (wcount w_tell (p_ws s))
  }.

  Lemma w_hold_nn : forall w : wpc T, 0 <= w_hold w. Proof. intros []; cbn; lia. Qed.
  Lemma w_fly_nn : forall w : wpc T, 0 <= w_fly w. Proof. intros []; cbn; lia. Qed.
  Lemma w_check_nn : forall w : wpc T, 0 <= w_check w. Proof. intros []; cbn; lia. Qed.
  Lemma w_block_nn : forall w : wpc T, 0 <= w_block w. Proof. intros []; cbn; lia. Qed.
  Lemma w_tell_nn : forall w : wpc T, 0 <= w_tell w. Proof. intros []; cbn; lia. Qed.
  Lemma w_awake_nn : forall w : wpc T, 0 <= w_awake w. Proof. intros []; cbn; lia. Qed.
  Lemma w_exit_nn : forall w : wpc T, 0 <= w_exit w. Proof. intros []; cbn; lia. Qed.

  (** Whoever is counted by check, block or tell holds the mutex. *)
  Lemma wcount_sum : forall ws : list (wpc T), wcount w_check ws + wcount w_block ws + wcount w_tell ws <= wcount w_hold ws.
  Proof. induction ws as [|w ws IH]; cbn [wcount]; [lia|]. destruct w; cbn [w_check w_block w_tell w_hold]; lia. Qed.

  Lemma b2z_mutex : forall b, 0 <= b2z b <= 1. Proof. intros []; cbn; lia. Qed.

  Ltac facts ws :=
    pose proof (wcount_nonneg T w_hold ws w_hold_nn);
    pose proof (wcount_nonneg T w_fly ws w_fly_nn);
    pose proof (wcount_nonneg T w_check ws w_check_nn);
    pose proof (wcount_nonneg T w_block ws w_block_nn);
    pose proof (wcount_nonneg T w_tell ws w_tell_nn);
    pose proof (wcount_nonneg T w_awake ws w_awake_nn);
    pose proof (wcount_nonneg T w_exit ws w_exit_nn);
    pose proof (wcount_sum ws).

  Lemma nobody_sleeps : forall (ws : list (wpc T)), ~ In WSleep ws -> wcount w_exit ws = 0 -> wcount w_awake ws = Z.of_nat (length ws).
  Proof.
    induction ws as [|w ws IH]; cbn [wcount length]; intros H E; [lia|].
    pose proof (wcount_nonneg T w_exit ws w_exit_nn). pose proof (w_exit_nn w).
    rewrite IH; [|intros X; apply H; right; auto|lia].
    destruct w; cbn [w_exit w_awake] in *; try lia. exfalso. apply H. left. reflexivity.
  Qed.

  Lemma len_nil : forall A (l : list A), Z.of_nat (length l) = 0 <-> l = [].
  Proof. intros A [|a l]; split; intros H; auto; cbn [length] in H; try lia; discriminate. Qed.
  Lemma len_pos : forall A (l : list A), 0 < Z.of_nat (length l) <-> l <> [].
  Proof. intros A [|a l]; split; intros H; cbn [length] in *; try lia; try discriminate; congruence. Qed.

  Lemma start_ok : forall n ops m, stops_last true ops -> fits 0 ops -> pool_ok n (pool_start n ops m).
  Proof.
    intros n ops m H F.
    assert (C : forall f : wpc T -> Z, f WLoop = 0 -> wcount f (repeat WLoop n) = 0).
    { intros f E. clear -E. induction n as [|n IH]; cbn [repeat wcount]; lia. }
    constructor; cbn [pool_start p_ws p_main p_ops p_queue p_total p_mutex p_waiting p_running p_mem m_hold m_pend pushing stopping waits b2z];
      unfold owed; cbn [pool_start p_ws p_main p_ops p_queue p_total p_mutex p_waiting p_running p_mem]; rewrite ?C by reflexivity;
      cbn [length]; try discriminate; try congruence; try reflexivity; try lia.
    - apply repeat_length.
    - exists true. auto.
  Qed.

  Lemma wrap64u_add : forall z c, wrap64u (wrap64u z + c) = wrap64u (z + c).
  Proof. intros z c. unfold wrap64u. rewrite Zplus_mod_idemp_l. reflexivity. Qed.
  Lemma wrap64u_sub : forall z c, wrap64u (wrap64u z - c) = wrap64u (z - c).
  Proof. intros z c. unfold wrap64u. rewrite Zminus_mod_idemp_l. reflexivity. Qed.

  Ltac fields := cbn [main_at worker_at with_ops with_workers with_queue with_total with_mutex with_waiting with_running with_mem
    p_ops p_main p_ws p_queue p_total p_mutex p_waiting p_running p_mem
    w_hold m_hold w_fly m_pend w_check w_block w_tell w_awake w_exit waits pushing stopping b2z wake_main] in *.


  Ltac setc := repeat match goal with
    | X : nth_error ?ws ?i = Some _ |- context [wcount ?f (set_nth ?i ?w ?ws)] => rewrite (wcount_set T f ws i _ w X); fields
    end.

  (** A worker lowers what is owed and then tells. *)
  Lemma client_worker : forall p ops k t k' t', 0 <= k' <= k -> (m_hold p = 0 -> k' + t' >= k + t) -> (m_hold p = 1 -> k' = k) ->
    client_ok p ops k t -> client_ok p ops k' t'.
  Proof.
    intros p ops k t' k1 t1 L A B H. destruct p; cbn [client_ok m_hold] in *;
      try specialize (A eq_refl); try specialize (B eq_refl); try (destruct H as [w H]; exists w); try (destruct H as [H H0]);
      try (let X := type of H0 in match X with _ /\ _ => destruct H0 as [H0 H1] end); repeat split; auto; try lia; try (intros E; specialize (H1 E); lia); try (eapply fits_mono; [|eauto]; lia).
  Qed.

  Lemma client_woken : forall p ops k t, client_ok p ops k t -> client_ok (wake_main p) ops k t.
  Proof. intros p ops k tl H. destruct p; cbn [wake_main client_ok] in *; auto. tauto. Qed.
  Lemma client_tell : forall p ops k t t', p <> MWSleep -> client_ok p ops k t -> client_ok p ops k t'.
  Proof. intros p ops k t1 t2 N H. destruct p; cbn [client_ok] in *; auto. congruence. Qed.
  Lemma hold_woken : forall U (p : mpc U), m_hold (wake_main p) = m_hold p. Proof. intros U []; reflexivity. Qed.
  Lemma pend_woken : forall U (p : mpc U), m_pend (wake_main p) = m_pend p. Proof. intros U []; reflexivity. Qed.
  Lemma waits_woken : forall U (p : mpc U), waits (wake_main p) = waits p. Proof. intros U []; reflexivity. Qed.
  Lemma pushing_woken : forall U (p : mpc U), pushing (wake_main p) = pushing p. Proof. intros U []; reflexivity. Qed.
  Lemma stopping_woken : forall U (p : mpc U), stopping (wake_main p) = stopping p. Proof. intros U []; reflexivity. Qed.

  Lemma worker_step_ok : forall n i s l s', (0 < n)%nat -> pool_ok n s -> worker_step act i s l s' -> pool_ok n s'.
  Proof.
    intros n i [ops mn ws q tot mx wt rn mem] l s' NP [Kn Kmx Ktot Kchk Kblk Kw Kaw Kup Kdn Kc] H.
    unfold owed in *. fields.
    pose proof (b2z_mutex mx).
    facts ws.
    assert (HM : 0 <= m_hold mn <= 1) by (destruct mn; cbn [m_hold]; lia).
    inversion H; subst; clear H; fields; subst; fields;
    match goal with X : nth_error ws i = Some ?w |- _ =>
      pose proof (wcount_le T w_hold _ _ _ w_hold_nn X);
      pose proof (wcount_le T w_fly _ _ _ w_fly_nn X);
      pose proof (wcount_le T w_check _ _ _ w_check_nn X);
      pose proof (wcount_le T w_block _ _ _ w_block_nn X);
      pose proof (wcount_le T w_tell _ _ _ w_tell_nn X);
      pose proof (wcount_le T w_awake _ _ _ w_awake_nn X);
      pose proof (wcount_le T w_exit _ _ _ w_exit_nn X) end; fields.
    all: try match goal with |- context [if ?b then WNotify else _] => destruct b end.
    all: constructor; unfold owed; fields; rewrite ?set_nth_len, ?hold_woken, ?pend_woken, ?waits_woken, ?pushing_woken, ?stopping_woken; auto; setc; intros;
      try (apply Kblk; lia); try (apply Kchk; [lia|auto]); try lia; try (f_equal; cbn [length]; lia);
      try (eapply client_worker; [| | |exact Kc]; cbn [length]; lia);
      try (destruct (Kup ltac:(auto)) as [U1 U2]; split; [lia|auto; fail]);
      try (destruct (Kdn ltac:(auto)) as [D1 [D2 D3]]; split; [lia|split; [auto; fail|auto; fail]]).
    - (* testing: the queue is not empty *) match goal with X : q <> [] \/ _ |- _ => destruct X as [X|X]; [auto|congruence] end.
    - (* going to sleep: nothing is queued *) exfalso. match goal with X : q <> [] |- _ => apply X end. apply Kblk. lia.
    - rewrite wrap64u_sub. f_equal. lia.
    - (* finished, nobody waits *) apply (client_tell mn ops _ (wcount w_tell ws)); [intros ->; specialize (Kw eq_refl); discriminate|].
      replace (Z.of_nat (length q) + (wcount w_fly ws - 0 + 0)) with (Z.of_nat (length q) + wcount w_fly ws) by lia. auto.
    - destruct (Kdn ltac:(auto)) as [D1 [D2 D3]]. split; [lia|]. split; auto. destruct D3 as [D3| ->]; auto.
    - replace (Z.of_nat (length q) + (wcount w_fly ws - 0 + 0)) with (Z.of_nat (length q) + wcount w_fly ws) by lia.
      apply (client_tell (wake_main mn) ops _ (wcount w_tell ws)); [destruct mn; discriminate|]. apply client_woken. auto.
  Qed.

  Lemma fly_wake : forall w : wpc T, w_fly (wake w) = w_fly w. Proof. intros []; reflexivity. Qed.
  Lemma hold_wake : forall w : wpc T, w_hold (wake w) = w_hold w. Proof. intros []; reflexivity. Qed.
  Lemma check_wake : forall w : wpc T, w_check (wake w) = w_check w. Proof. intros []; reflexivity. Qed.
  Lemma block_wake : forall w : wpc T, w_block (wake w) = w_block w. Proof. intros []; reflexivity. Qed.
  Lemma tell_wake : forall w : wpc T, w_tell (wake w) = w_tell w. Proof. intros []; reflexivity. Qed.
  Lemma exit_wake : forall w : wpc T, w_exit (wake w) = w_exit w. Proof. intros []; reflexivity. Qed.

  Lemma main_step_ok : forall n s l s', (0 < n)%nat -> pool_ok n s -> main_step s l s' -> pool_ok n s'.
  Proof.
    intros n [ops mn ws q tot mx wt rn mem] l s' NP [Kn Kmx Ktot Kchk Kblk Kw Kaw Kup Kdn Kc] H.
    unfold owed in *. fields.
    pose proof (b2z_mutex mx).
    facts ws.
    inversion H; subst; clear H; fields; subst; fields;
    try match goal with X : nth_error ws ?i = Some ?w |- _ =>
      pose proof (wcount_le T w_awake _ _ _ w_awake_nn X);
      pose proof (wcount_le T w_exit _ _ _ w_exit_nn X) end; fields.
    all: constructor; unfold owed; fields; rewrite ?set_nth_len, ?map_length, ?app_length; cbn [length]; auto; setc; intros;
      rewrite ?wcount_map, ?(wcount_ext T _ _ ws fly_wake), ?(wcount_ext T _ _ ws hold_wake), ?(wcount_ext T _ _ ws check_wake), ?(wcount_ext T _ _ ws block_wake), ?(wcount_ext T _ _ ws tell_wake), ?(wcount_ext T _ _ ws exit_wake) in *;
      try (apply Kblk; lia); try (apply Kchk; [lia|auto; fail]); try lia; try (f_equal; cbn [length]; lia); try discriminate; auto.
    all: try (exfalso; destruct (Kdn ltac:(auto)) as [_ [D1 [D2|D2]]]; discriminate);
      try (exfalso; destruct (Kup ltac:(auto)) as [_ D2]; discriminate);
      try (destruct (Kup ltac:(auto)) as [U1 U2]; split; [lia|auto; fail]);
      try (destruct (Kdn ltac:(auto)) as [D1 [D2 D3]]; split; [lia|split; [auto; fail|auto; fail]]);
      try (rewrite wrap64u_add; f_equal; lia).
    - (* push_task: called *) cbn [client_ok stops_last fits] in *. destruct Kc as [w [C1 [C2 C3]]]. auto.
    - cbn [client_ok] in *. destruct Kc as [C1 C2]. split; auto.
      replace (Z.of_nat (length q + 1) + wcount w_fly ws) with (Z.of_nat (length q) + wcount w_fly ws + 1) by lia. auto.
    - cbn [client_ok] in *. destruct Kc as [C1 C2]. exists false. split; auto. split; [|discriminate].
      replace (Z.of_nat (length q) + (wcount w_fly ws - 0 + 0)) with (Z.of_nat (length q) + wcount w_fly ws) by lia. auto.
    - (* nobody sleeps *) destruct (Kup ltac:(auto)) as [U1 U2]. rewrite nobody_sleeps by auto. lia.
    - cbn [client_ok] in *. destruct Kc as [C1 C2]. exists false. split; auto. split; [auto|discriminate].
    - (* wait_for_tasks: called *) cbn [client_ok stops_last fits] in *. destruct Kc as [w [C1 [[C2 C3] C4]]]. auto.
    - (* the test succeeds: nothing is owed *) cbn [client_ok] in *. destruct Kc as [C1 [C2 C3]]. split; [auto|]. split; [auto|].
      match goal with X : wrap64u _ = 0 |- _ => unfold wrap64u in X; rewrite Z.mod_small in X by lia; lia end.
    - (* the test fails *) cbn [client_ok] in *. destruct Kc as [C1 [C2 C3]]. split; [auto|]. split; [auto|].
      split; auto. destruct (Z.eq_dec (Z.of_nat (length q) + wcount w_fly ws) 0) as [E|E]; [|lia].
      exfalso. match goal with X : wrap64u _ <> 0 |- _ => apply X end. rewrite E. reflexivity.
    - cbn [client_ok] in *. destruct Kc as [C1 [C2 C3]]. split; [auto|]. split; [auto|]. split; lia.
    - cbn [client_ok] in *. tauto.
    - (* wait_for_tasks returns *) cbn [client_ok] in *. destruct Kc as [C1 [C2 C3]]. exists true. rewrite C3. auto.
    - cbn [client_ok stops_last fits] in *. destruct Kc as [w [[C1 C2] [C3 C4]]]. auto.
    - cbn [client_ok] in Kc. destruct Kc as [C1 C2]. auto.
    - cbn [client_ok stops_last fits] in *. destruct Kc as [C1 C2]. subst ops. exists true. cbn [stops_last fits]. split; auto. split; [lia|auto].
  Qed.

  Lemma pool_step_ok : forall n s l s', (0 < n)%nat -> pool_ok n s -> pool_step act s l s' -> pool_ok n s'.
  Proof. intros n s l s' N K [H|[i H]]; [eapply main_step_ok|eapply worker_step_ok]; eauto. Qed.

  Lemma pool_run_ok : forall n s l s', (0 < n)%nat -> pool_ok n s -> pool_run act s l s' -> pool_ok n s'.
  Proof. intros n s l s' N K H. induction H; auto. eapply pool_step_ok; [auto| |eauto]. apply IHpool_run. auto. Qed.

  Lemma reachable_ok : forall n ops m s, (0 < n)%nat -> client ops -> reachable act n ops m s -> pool_ok n s.
  Proof. intros n ops m s N [C1 C2] [l R]. eapply pool_run_ok; [auto| |eauto]. apply start_ok; auto. Qed.

  (** ** What is seen *)
  Lemma pushed_app : forall (l1 l2 : list (label T)), pushed (l1 ++ l2) = pushed l1 ++ pushed l2.
  Proof. intros. unfold pushed. apply flat_map_app. Qed.
  Lemma started_app : forall (l1 l2 : list (label T)), started (l1 ++ l2) = started l1 ++ started l2.
  Proof. intros. unfold started. apply flat_map_app. Qed.
  Lemma ended_app : forall (l1 l2 : list (label T)), ended (l1 ++ l2) = (ended l1 + ended l2)%nat.
  Proof. intros. unfold ended. rewrite filter_app, app_length. auto. Qed.

  Definition w_task (w : wpc T) : Z := match w with WUnlock _ | WRun _ => 1 | _ => 0 end.
  Lemma w_task_nn : forall w, 0 <= w_task w. Proof. intros []; cbn; lia. Qed.
  Lemma w_task_fly : forall w, w_task w <= w_fly w. Proof. intros []; cbn; lia. Qed.
  Lemma task_wake : forall w : wpc T, w_task (wake w) = w_task w. Proof. intros []; reflexivity. Qed.

  (** Tasks leave the queue in the order they came, each once; those taken and
      not ended are in the hands of workers. *)
  Lemma trace_inv : forall n s0 l s, p_queue s0 = [] -> wcount w_task (p_ws s0) = 0 -> pool_run act s0 l s ->
    pool_ok n s0 -> (0 < n)%nat ->
    pushed l = started l ++ p_queue s /\
    Z.of_nat (length (started l)) = Z.of_nat (ended l) + wcount w_task (p_ws s).
  Proof.
    intros n s0 l s Q W R. induction R as [s|s l s1 x s2 R IH St]; intros K N.
    - rewrite Q, W. split; auto.
    - specialize (IH Q W K N). destruct IH as [I1 I2].
      rewrite pushed_app, started_app, ended_app, app_length. rewrite I1. clear I1 R.
      destruct s1 as [ops mn ws q tot mx wt rn mem].
      destruct St as [H|[i H]]; inversion H; subst; clear H; fields;
        cbn [pushed started ended flat_map filter length app] in *; rewrite ?app_nil_r, <- ?app_assoc; setc; cbn [w_task];
        rewrite ?wcount_map, ?(wcount_ext T _ _ ws task_wake); (split; [auto; try congruence|]); try lia.
      + f_equal. cbn [app]. auto.
      + destruct wt; cbn [w_task]; lia.
  Qed.
End Pool.
