(** Proofs of the thread pool properties. *)
From Coq Require Import ZArith List Bool QArith Lia Arith Permutation.
From Verif Require Import Base BaseProofs ModelInference ModelFeedback ModelExecutor ProofsInference ProofsExecutor
  ModelPool SpecPool ModelPoolExec SpecPoolExec ProofsPool ProofsPoolLive ProofsPoolStop ProofsPoolFork ProofsPoolExec ProofsPoolExecLive.
Import ListNotations.
Open Scope Z_scope.

Section Any.
  Variables M T : Type.
  Variable ac : T -> M -> tres M T.

  Lemma count_filter : forall (ws : list (wpc T)) f g, (forall w, g w = if f w : bool then 1 else 0) ->
    wcount g ws = Z.of_nat (length (filter f ws)).
  Proof.
    intros ws f g H. induction ws as [|w ws IH]; cbn [wcount filter length]; auto. rewrite H, IH. destruct (f w); cbn [length]; lia.
  Qed.

  Lemma top_trace : forall n ops m l s, (0 < n)%nat -> client ops -> pool_run ac (pool_start n ops m) l s ->
    pushed l = started l ++ p_queue s /\ length (started l) = (ended l + length (filter has_task (p_ws s)))%nat.
  Proof.
    intros n ops m l s N [C1 C2] R.
    assert (W : wcount (w_task T) (p_ws (pool_start (M:=M) (T:=T) n ops m)) = 0) by (cbn [pool_start p_ws]; clear; induction n; cbn [repeat wcount w_task]; auto).
    destruct (trace_inv M T ac n (pool_start n ops m) l s eq_refl W R (start_ok M T n ops m C1 C2) N) as [H1 H2].
    split; auto. rewrite (count_filter (p_ws s) has_task (w_task T)) in H2 by (intros []; auto). lia.
  Qed.

  Lemma top_mutex : forall n ops m s, (0 < n)%nat -> client ops -> reachable ac n ops m s ->
    ((if client_holds (p_main s) then 1 else 0) + length (filter worker_holds (p_ws s)) = if p_mutex s then 1 else 0)%nat.
  Proof.
    intros n ops m s N [C1 C2] [l R].
    pose proof (ok_mutex _ _ _ _ (pool_run_ok M T ac n _ l s N (start_ok M T n ops m C1 C2) R)) as H.
    rewrite (count_filter (p_ws s) worker_holds w_hold) in H by (intros []; auto).
    assert (m_hold (p_main s) = if client_holds (p_main s) then 1 else 0) by (destruct (p_main s); auto).
    destruct (client_holds (p_main s)), (p_mutex s); cbn [b2z] in H; lia.
  Qed.

  Lemma top_barrier : forall n ops m l s, (0 < n)%nat -> client ops -> pool_run ac (pool_start n ops m) (l ++ [LWaited]) s ->
    started l = pushed l /\ ended l = length (pushed l) /\ outstanding s = [].
  Proof.
    intros n ops m l s N C R. pose proof C as [C1 C2].
    inversion R as [s0 H0|s0 l' s1 x s2 R1 St]; [destruct l; discriminate|].
    match goal with X : _ ++ [_] = _ ++ [_] |- _ => apply app_inj_tail in X; destruct X as [-> ->] end. subst.
    pose proof (ok_client _ _ _ _ (pool_run_ok M T ac n _ l s1 N (start_ok M T n ops m C1 C2) R1)) as K.
    destruct (top_trace n ops m l s1 N C R1) as [T1 T2].
    destruct St as [St|[i St]]; inversion St; subst.
    match goal with X : p_main s1 = MWUnlock |- _ => rename X into Em end. rewrite Em in K. cbn [client_ok] in K. destruct K as [_ [_ K]]. unfold owed in K.
    pose proof (wcount_nonneg T w_fly (p_ws s1) (w_fly_nn T)).
    assert (Q0 : p_queue s1 = []) by (destruct (p_queue s1); auto; cbn [length] in K; lia).
    assert (F0 : filter has_task (p_ws s1) = []).
    { assert (X : wcount w_fly (p_ws s1) = 0) by lia. clear -X. induction (p_ws s1) as [|w ws IH]; auto. cbn [wcount] in X.
      pose proof (wcount_nonneg T w_fly ws (w_fly_nn T)). pose proof (w_fly_nn T w).
      cbn [filter]. rewrite IH by lia. destruct w; cbn [has_task w_fly] in *; auto; lia. }
    rewrite Q0, F0 in *. rewrite app_nil_r in T1. cbn [length] in T2. split; auto. split; [rewrite T1; lia|].
    unfold outstanding. cbn [main_at with_mutex p_queue p_main p_ws app]. rewrite Q0. cbn [app].
    clear -F0. induction (p_ws s1) as [|w ws IH]; auto. cbn [filter] in F0. cbn [flat_map]. destruct w; cbn [has_task in_hand app] in *; auto; discriminate.
  Qed.

  Lemma top_nonempty : forall n ops m s i, (0 < n)%nat -> client ops -> reachable ac n ops m s ->
    nth_error (p_ws s) i = Some WCheck -> p_running s = true -> p_queue s <> [].
  Proof.
    intros n ops m s i N [C1 C2] [l R] W Rn. eapply ok_check; [exact (pool_run_ok M T ac n _ l s N (start_ok M T n ops m C1 C2) R)| |auto].
    pose proof (wcount_le T w_check _ _ _ (w_check_nn T) W). cbn [w_check] in *. lia.
  Qed.

  (** What is left when nothing moves. *)
  Lemma stuck_moves : forall s, stuck ac s -> ~ moves M T ac s.
  Proof. intros s H [x [s' [H1 H2]]]. apply H2. eapply H; eauto. Qed.

  Lemma top_hang : forall n m, exists l s, pool_run ac (pool_start (S n) destructor m) l s /\ spurious l = O /\
    forall l' s', pool_run ac s l' s' -> spurious l' = O -> ~ pool_finished s'.
  Proof.
    intros n m. destruct (hang_at_once M T ac n m) as [l [s [R [Z H]]]]. exists l, s. split; auto. split; auto.
    intros l' s' R' Z'. eapply hung_unfinished. eapply hung_run; eauto.
  Qed.

  Lemma top_hang_later : forall n ops m s, client ops -> reachable ac (S n) ops m s -> p_main s = MNext -> p_ops s = [OStop] ->
    exists l s', pool_run ac s l s' /\ forall l' s'', pool_run ac s' l' s'' -> spurious l' = O -> ~ pool_finished s''.
  Proof.
    intros n ops m s [C1 C2] [l R] H1 H2.
    destruct (hang_later M T ac n s (pool_run_ok M T ac (S n) _ l s ltac:(lia) (start_ok M T (S n) ops m C1 C2) R) (conj H1 H2)) as [l1 [s1 [R1 Hg]]].
    exists l1, s1. split; auto. intros l' s'' R' Z'. eapply hung_unfinished. eapply hung_run; eauto.
  Qed.

  Lemma top_returns : forall n ops m s l s', (0 < n)%nat -> client ops -> reachable ac n ops m s ->
    p_main s = MSNotify -> ~ In WBlock (p_ws s) -> pool_run ac s l s' -> stuck ac s' -> pool_finished s'.
  Proof.
    intros n ops m s l s' N [C1 C2] [l0 R0] H1 H2 R St.
    eapply (stop_returns M T ac n s l s' N (pool_run_ok M T ac n _ l0 s N (start_ok M T n ops m C1 C2) R0)); eauto. apply stuck_moves. auto.
  Qed.
End Any.

Section Top.
  Variables B E : Type.
  Variable train_ex eval_ex : E -> B -> B * list Z.
  Variable update : E -> nat -> Q -> nat -> Q -> B -> B.
  Variable L : Type.
  Variable process : L -> fblock -> fblock.
  Variable ncls : nat.
  Notation mem := (xmem B E).
  Notation ac := (act train_ex eval_ex update ncls).

  Variable x : exec B.
  Variable qs : list (request E L).
  Variable e0 : E.
  Hypothesis few : Z.of_nat (length (x_blocks x)) < 2 ^ 64.
  Notation calls := (session_calls process (map fst (x_blocks x)) qs (x_rng x)).

  Lemma calls_client : forall rest : list (op mem ktask), client rest -> client (calls ++ rest).
  Proof. intros rest C. apply client_session; auto. unfold small. rewrite map_length. auto. Qed.
  Lemma calls_seg : forall rest : list (op mem ktask), ok_seg B E rest -> ok_seg B E (calls ++ rest).
  Proof. intros rest C. apply seg_session; auto. Qed.

  Lemma nil_client : client (@nil (op mem ktask)). Proof. split; cbn; lia. Qed.
  Lemma nil_seg : ok_seg B E []. Proof. exists []. split; constructor. Qed.
  Lemma destr_client : client (@destructor mem ktask). Proof. unfold destructor, client. cbn. repeat split; lia. Qed.
  Lemma destr_seg : ok_seg B E destructor. Proof. exists []. split; [constructor|]. eapply SegWait; [|apply SegStop; constructor]. constructor. Qed.

  Lemma session_no_stop : no_stop (calls : list (op mem ktask)).
  Proof.
    unfold no_stop. intros X.
    assert (G : forall (q : list (request E L)) r, ~ In OStop (session_calls (B:=B) process (map fst (x_blocks x)) q r)); [|eapply G; eauto].
    clear. induction q as [|[data|data] q IH]; intros r X; cbn [session_calls request_calls] in X; [contradiction| |].
    - destruct (shuffle (seq 0 (length data)) r) as [idx r']. apply in_app_or in X. destruct X as [X|X]; [|eapply IH; eauto].
      cbn [app] in X. destruct X as [X|X]; [discriminate|]. apply in_app_or in X. destruct X as [X|[X|[]]]; [|discriminate].
      apply in_flat_map in X. destruct X as [d [_ X]]. unfold train_calls in X. cbn [app] in X.
      destruct X as [X|X]; [discriminate|]. apply in_app_or in X. destruct X as [X|X].
      + apply in_map_iff in X. destruct X as [j [X _]]. discriminate.
      + destruct X as [X|[X|X]]; try discriminate. apply in_app_or in X. destruct X as [X|[X|[]]]; [|discriminate].
        apply in_map_iff in X. destruct X as [j [X _]]. discriminate.
    - apply in_app_or in X. destruct X as [X|X]; [|eapply IH; eauto].
      apply in_flat_map in X. destruct X as [d [_ X]]. unfold eval_calls in X. cbn [app] in X.
      destruct X as [X|X]; [discriminate|]. apply in_app_or in X. destruct X as [X|X].
      + apply in_map_iff in X. destruct X as [j [X _]]. discriminate.
      + destruct X as [X|[X|[]]]; discriminate.
  Qed.

  (** ** Progress and termination *)
  Lemma top_stuck : forall n s, (0 < n)%nat -> reachable ac n calls (start_mem x e0) s -> stuck ac s -> pool_finished s.
  Proof.
    intros n s N R St. rewrite <- (app_nil_r calls) in R.
    pose proof (calls_client [] nil_client) as C. pose proof (calls_seg [] nil_seg) as Sg.
    pose proof R as [l R0].
    pose proof (pool_run_ok mem ktask ac n _ l s N (start_ok mem ktask n _ _ (proj1 C) (proj2 C)) R0) as K.
    destruct (progress mem ktask ac n s N K) as [P|[P|[P|P]]]; auto.
    - exfalso. eapply stuck_moves; eauto.
    - exfalso. apply (stuck_moves _ _ _ _ St). exact (holder_moves B E train_ex eval_ex update ncls n _ (start_mem x e0) s N C Sg eq_refl R P).
    - destruct P as [i [P _]]. rewrite app_nil_r in R0.
      destruct (no_stop_run mem ktask ac (pool_start n calls (start_mem x e0)) l s session_no_stop eq_refl R0) as [_ Y]. rewrite P in Y. discriminate.
  Qed.

  Lemma top_stuck_stop : forall n s, (0 < n)%nat -> reachable ac n (calls ++ destructor) (start_mem x e0) s -> stuck ac s ->
    pool_finished s \/ exists i, p_main s = MSJoin i /\ nth_error (p_ws s) i = Some WSleep.
  Proof.
    intros n s N R St.
    pose proof (calls_client _ destr_client) as C. pose proof (calls_seg _ destr_seg) as Sg.
    pose proof R as [l R0].
    pose proof (pool_run_ok mem ktask ac n _ l s N (start_ok mem ktask n _ _ (proj1 C) (proj2 C)) R0) as K.
    destruct (progress mem ktask ac n s N K) as [P|[P|[P|P]]]; auto.
    - exfalso. eapply stuck_moves; eauto.
    - exfalso. apply (stuck_moves _ _ _ _ St). exact (holder_moves B E train_ex eval_ex update ncls n _ (start_mem x e0) s N C Sg eq_refl R P).
  Qed.

  Lemma start_weight : forall n ops (m : mem), wcount (w_weight ktask (kcost ncls) true) (p_ws (pool_start n ops m)) = 4 * Z.of_nat n.
  Proof. intros n ops m. cbn [pool_start p_ws]. induction n; cbn [repeat wcount w_weight]; lia. Qed.

  Lemma top_length : forall n l s, (0 < n)%nat -> pool_run ac (pool_start n calls (start_mem x e0)) l s ->
    Z.of_nat (length l) <= 4 * Z.of_nat n + 2 * Z.of_nat (length qs)
      + Z.of_nat (session_size qs) * (14 + 2 * Z.of_nat (length (x_blocks x)) * (28 + 2 * Z.of_nat ncls)) + 6 * Z.of_nat (spurious l).
  Proof.
    intros n l s N R.
    pose proof (calls_client [] nil_client) as C. pose proof (calls_seg [] nil_seg) as [js [_ Sg]]. rewrite app_nil_r in C, Sg.
    destruct (run_length mem ktask ac (kcost ncls) (kcost_nn ncls) (kcost_act B E train_ex eval_ex update ncls) (kmax ncls)
      n _ l s N (start_ok mem ktask n _ _ (proj1 C) (proj2 C)) (seg_cheap B E ncls js _ Sg) R) as [W _].
    pose proof (weight_nn mem ktask (kcost ncls) (kcost_nn ncls) (kmax ncls) ltac:(unfold kmax; lia) s) as W0.
    unfold weight in W at 2. rewrite start_weight in W.
    cbn [pool_start p_ops p_main p_queue p_running m_weight sumz] in W.
    pose proof (weight_session B E L process ncls (length (repeat (@WLoop ktask) n)) (map fst (x_blocks x)) qs (x_rng x)) as W1.
    unfold per_example, kmax in W1. rewrite map_length in W1. cbn [p_ws pool_start] in W.
    replace (28 + 2 * Z.of_nat ncls) with (25 + (2 * Z.of_nat ncls + 3)) by lia. fold (kmax ncls) in W1 |- *. lia.
  Qed.

  Lemma run_from : forall n ops m (s : pool mem ktask) l s', reachable ac n ops m s -> pool_run ac s l s' -> reachable ac n ops m s'.
  Proof. intros n ops m s l s' [l0 R0] R. exists (l0 ++ l). eapply run_trans; eauto. Qed.

  Lemma top_ends : forall n s, (0 < n)%nat -> reachable ac n calls (start_mem x e0) s ->
    exists l s', pool_run ac s l s' /\ spurious l = O /\ pool_finished s'.
  Proof.
    intros n s N R. rewrite <- (app_nil_r calls) in R.
    pose proof (calls_client [] nil_client) as C. pose proof (calls_seg [] nil_seg) as Sg. pose proof Sg as [js [_ Sg1]].
    pose proof R as [l0 R0].
    pose proof (pool_run_ok mem ktask ac n _ l0 s N (start_ok mem ktask n _ _ (proj1 C) (proj2 C)) R0) as K.
    destruct (run_length mem ktask ac (kcost ncls) (kcost_nn ncls) (kcost_act B E train_ex eval_ex update ncls) (kmax ncls)
      n _ l0 s N (start_ok mem ktask n _ _ (proj1 C) (proj2 C)) (seg_cheap B E ncls js _ Sg1) R0) as [_ Ch].
    destruct (run_end mem ktask ac (kcost ncls) (kcost_nn ncls) (kcost_act B E train_ex eval_ex update ncls) (kmax ncls) ltac:(unfold kmax; lia) n s N K Ch)
      as [l [s' [R1 [Z F]]]].
    - intros l s' R1 Bk. exact (holder_moves B E train_ex eval_ex update ncls n _ (start_mem x e0) s' N C Sg eq_refl (run_from _ _ _ _ _ _ R R1) Bk).
    - exists l, s'. split; auto. split; auto. destruct F as [F|[i [P _]]]; auto. exfalso.
      rewrite app_nil_r in R0. destruct (no_stop_run mem ktask ac (pool_start n calls (start_mem x e0)) _ s' session_no_stop eq_refl (run_trans _ _ ac _ _ _ R0 _ _ R1)) as [_ Y]. rewrite P in Y. discriminate.
  Qed.

  (** ** Blocks and votes are not shared *)
  Lemma top_private : forall n s, (0 < n)%nat -> reachable ac n calls (start_mem x e0) s ->
    NoDup (map kblock (outstanding s)) /\ (length (filter kholds (outstanding s)) <= 1)%nat.
  Proof.
    intros n s N R. rewrite <- (app_nil_r calls) in R.
    pose proof (calls_client [] nil_client) as C. pose proof (calls_seg [] nil_seg) as [js [J1 J2]].
    destruct (fork_reachable _ _ ac n _ _ s N C R) as [k [F P]].
    assert (S0 : safe B E (calls ++ [], [], start_mem x e0)) by (exists js; cbn [fst snd map app filter length start_mem m_lock]; auto).
    destruct (safe_steps B E train_ex eval_ex update ncls _ _ S0 F) as [js' [_ [S2 S3]]]. cbn [fst snd] in *. split.
    - eapply Permutation_NoDup; [apply Permutation_map; exact P|].
      clear -S2. induction (map kblock k) as [|a r IH]; [constructor|]. cbn [app] in S2. inversion S2; subst. constructor; [|auto].
      intros X. apply H1. apply in_or_app. auto.
    - assert (length (filter kholds (outstanding s)) = length (filter kholds k)).
      { clear -P. induction P; cbn [filter]; auto; repeat match goal with |- context [if ?b then _ else _] => destruct b end; cbn [length]; congruence. }
      destruct (m_lock (p_mem s)); lia.
  Qed.

  (** ** Results *)
  Variable inv : B -> Prop.
  Hypothesis train_good : good_ex B E ncls inv train_ex.
  Hypothesis eval_good : good_ex B E ncls inv eval_ex.
  Hypothesis update_good : forall e p pp n np b, inv b -> inv (update e p pp n np b).
  Hypothesis process_good : forall l f, fb_ok ncls f -> fb_ok ncls (process l f).
  Hypothesis x_inv : all_inv B inv (x_blocks x).
  Hypothesis x_ok : fb_ok ncls (x_fb x).

  Lemma top_result : forall n s, (0 < n)%nat -> reachable ac n calls (start_mem x e0) s -> pool_finished s ->
    served train_ex eval_ex update process qs x (p_mem s).
  Proof.
    intros n s N R [F1 F2]. rewrite <- (app_nil_r calls) in R.
    destruct (fork_reachable _ _ ac n _ _ s N (calls_client [] nil_client) R) as [k [F P]].
    unfold calls_left in F. rewrite F1, F2 in F.
    assert (G0 : good_mem B E ncls inv (start_mem x e0)) by (split; [auto|split; auto]).
    destruct (session_run B E train_ex eval_ex update L process ncls inv train_good eval_good update_good process_good
      qs x (start_mem x e0) [] [] k (p_mem s) G0 eq_refl eq_refl F ltac:(auto)) as [m1 [S1 [_ [A1 [A2 A3]]]]].
    apply fj_nil in S1. destruct S1 as [_ [_ ->]]. unfold served. rewrite A1, A2, A3. auto.
  Qed.

  (** Also when the destructor follows. *)
  Lemma fj_destr : forall (m : mem) o k m', fj_steps ac (destructor, [], m) (o, k, m') -> m' = m /\ k = [].
  Proof.
    intros m o k m' H. remember (destructor, [], m) as a eqn:Ea. remember (o, k, m') as b eqn:Eb. revert o k m' Eb.
    induction H as [a|a b c H IH St]; intros o k m' Eb; subst; [inversion Eb; auto|].
    destruct b as [[ob kb] mb]. destruct (IH eq_refl _ _ _ eq_refl) as [-> ->].
    pose proof (fj_suffix _ _ _ _ _ H) as [p Ep]. cbn [fst] in Ep. unfold destructor in Ep.
    inversion St; subst; auto; try (destruct k1; discriminate).
    - destruct p as [|? [|? [|? p]]]; cbn [app] in Ep; try discriminate. 
    - destruct p as [|? [|? [|? p]]]; cbn [app] in Ep; try discriminate.
  Qed.
  Lemma top_result_stop : forall n s, (0 < n)%nat -> reachable ac n (calls ++ destructor) (start_mem x e0) s -> (length (calls_left s) <= 2)%nat ->
    served train_ex eval_ex update process qs x (p_mem s).
  Proof.
    intros n s N R Le.
    destruct (fork_reachable _ _ ac n _ _ s N (calls_client _ destr_client) R) as [k [F P]].
    assert (G0 : good_mem B E ncls inv (start_mem x e0)) by (split; [auto|split; auto]).
    destruct (session_run B E train_ex eval_ex update L process ncls inv train_good eval_good update_good process_good
      qs x (start_mem x e0) destructor (calls_left s) k (p_mem s) G0 eq_refl eq_refl F Le) as [m1 [S1 [_ [A1 [A2 A3]]]]].
    apply fj_destr in S1. destruct S1 as [-> _]. unfold served. rewrite A1, A2, A3. auto.
  Qed.
End Top.
