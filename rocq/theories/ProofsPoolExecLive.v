(** The executor on the pool: no two tasks on one block, no deadlock, a bound on
    the length of every execution. *)
From Coq Require Import ZArith List Bool QArith Lia Arith Permutation.
From Verif Require Import Base BaseProofs ModelInference ModelFeedback ModelExecutor ProofsInference ProofsExecutor
  ModelPool SpecPool ModelPoolExec SpecPoolExec ProofsPool ProofsPoolLive ProofsPoolStop ProofsPoolFork ProofsPoolExec.
Import ListNotations.
Open Scope Z_scope.

(** ** Tasks that have not been started are as pushed *)
Section Fresh.
  Variables M T : Type.
  Variable ac : T -> M -> tres M T.
  Variable P : T -> Prop.
  Definition push_P (o : op M T) : Prop := match o with OPush f => forall m, P (f m) | _ => True end.
  Definition main_P (p : mpc T) : Prop := match p with MPLock t | MPPush t => P t | _ => True end.
  Definition work_P (w : wpc T) : Prop := match w with WUnlock t => P t | _ => True end.
  Definition all_P (s : pool M T) : Prop :=
    Forall push_P (p_ops s) /\ main_P (p_main s) /\ Forall P (p_queue s) /\ Forall work_P (p_ws s).

  Lemma Forall_set : forall A (R : A -> Prop) l i v, Forall R l -> R v -> Forall R (set_nth i v l).
  Proof. intros A R. induction l as [|a l IH]; intros [|i] v H1 H2; cbn [set_nth]; auto; inversion H1; subst; constructor; auto. Qed.

  Ltac fields := cbn [main_at worker_at with_ops with_workers with_queue with_total with_mutex with_waiting with_running ModelPool.with_mem
    p_ops p_main p_ws p_queue p_total p_mutex p_waiting p_running p_mem] in *.

  Lemma all_P_step : forall s x s', all_P s -> pool_step ac s x s' -> all_P s'.
  Proof.
    intros s x s' [H1 [H2 [H3 H4]]] H. unfold all_P in *. destruct s as [ops mn ws q tot mx wt rn mem]. fields.
    destruct H as [H|[i H]]; inversion H; subst; clear H; fields; subst;
      try match goal with Y : Forall push_P (_ :: _) |- _ => inversion Y; subst; clear Y end;
      try match goal with Y : Forall P (_ :: _) |- _ => inversion Y; subst; clear Y end;
      cbn [push_P main_P work_P] in *; repeat (apply conj); auto; try (apply Forall_set; cbn [work_P]; auto; fail).
    - apply Forall_app. auto.
    - rewrite Forall_map. eapply Forall_impl; [|exact H4]. intros []; cbn [wake work_P]; auto.
    - apply Forall_set; auto. destruct wt; cbn [work_P]; auto.
    - destruct mn; cbn [wake_main main_P] in *; auto.
  Qed.

  Lemma all_P_run : forall s l s', all_P s -> pool_run ac s l s' -> all_P s'.
  Proof. intros s l s' H R. induction R as [s|s l s1 x s2 R IH St]; auto. eapply all_P_step; [apply IH; auto|exact St]. Qed.

  Lemma all_P_start : forall n ops m, Forall push_P ops -> all_P (pool_start n ops m).
  Proof. intros n ops m H. unfold all_P, pool_start. fields. repeat (apply conj); cbn [main_P]; auto. induction n; cbn [repeat]; constructor; cbn [work_P]; auto. Qed.

  (** A task that is not as pushed is running. *)
  Lemma running_task : forall s t, all_P s -> In t (outstanding s) -> ~ P t -> In (WRun t) (p_ws s).
  Proof.
    intros s t [H1 [H2 [H3 H4]]] I N. unfold outstanding in I. apply in_app_or in I. destruct I as [I|I].
    - rewrite Forall_forall in H3. exfalso. auto.
    - apply in_app_or in I. destruct I as [I|I].
      + revert H2 I. generalize (p_main s). intros p H2 I. exfalso. destruct p; cbn [main_P In] in *; try contradiction; destruct I as [->|[]]; contradiction.
      + apply in_flat_map in I. destruct I as [w [W1 W2]]. rewrite Forall_forall in H4. specialize (H4 w W1).
        destruct w; cbn [in_hand In work_P] in *; try contradiction; destruct W2 as [->|[]]; [contradiction|auto].
  Qed.

  (** Threads that are never told to stop are never joined. *)
  Definition leaving (p : mpc T) : bool := match p with MSStore | MSNotify | MSJoin _ => true | _ => false end.
  Lemma no_stop_run : forall s l s', no_stop (p_ops s) -> leaving (p_main s) = false -> pool_run ac s l s' ->
    no_stop (p_ops s') /\ leaving (p_main s') = false.
  Proof.
    intros s l s' H1 H2 R. induction R as [s|s l s1 x s2 R IH St]; auto.
    destruct (IH H1 H2) as [I1 I2]. clear IH H1 H2 R. unfold no_stop in *. destruct s1 as [ops mn ws q tot mx wt rn mem]. fields.
    destruct St as [H|[i H]]; inversion H; subst; clear H; fields; subst; cbn [leaving] in *; try discriminate; auto;
      try (split; auto; intros X; apply I1; right; exact X).
    - exfalso. apply I1. left. auto.
    - split; auto. destruct mn; auto.
  Qed.
End Fresh.

Section ExecLive.
  Variables B E : Type.
  Variable train_ex eval_ex : E -> B -> B * list Z.
  Variable update : E -> nat -> Q -> nat -> Q -> B -> B.
  Variable L : Type.
  Variable process : L -> fblock -> fblock.
  Variable ncls : nat.

  Notation mem := (xmem B E).
  Notation ac := (act train_ex eval_ex update ncls).

  Definition kfresh (t : ktask) : Prop := match t with KEx _ _ | KUp _ _ _ _ _ => True | _ => False end.

  (** ** Scripts: what they push up to the next barrier *)
  Inductive seg : list nat -> list (op mem ktask) -> Prop :=
  | SegNil : seg [] []
  | SegPush : forall f j js o, (forall m, kblock (f m) = j) -> (forall m, kfresh (f m)) -> seg js o -> seg (j :: js) (OPush f :: o)
  | SegWait : forall js o, NoDup js -> seg js o -> seg [] (OWait :: o)
  | SegDo : forall g js o, (forall m, m_lock (g m) = m_lock m) -> seg js o -> seg js (ODo g :: o)
  | SegStop : forall js o, seg js o -> seg js (OStop :: o).

  Definition safe (a : list (op mem ktask) * list ktask * mem) : Prop :=
    exists js, seg js (fst (fst a)) /\ NoDup (map kblock (snd (fst a)) ++ js) /\
      length (filter kholds (snd (fst a))) = (if m_lock (snd a) then 1 else 0)%nat.

  Lemma act_next : forall t m t' m', ac t m = Next t' m' -> kblock t' = kblock t /\
    (length (filter kholds [t']) + (if m_lock m then 1 else 0) = length (filter kholds [t]) + (if m_lock m' then 1 else 0))%nat.
  Proof.
    intros t m t' m' H. destruct t; cbn [act] in H.
    - destruct (nth_error (m_blocks m) k) as [[tr b]|]; [|discriminate]. destruct ((if ev then eval_ex else train_ex) (m_cur m) b).
      inversion H; subst. cbn. auto.
    - destruct (m_lock m) eqn:X; [discriminate|]. inversion H; subst. cbn. auto.
    - destruct (i <? ncls)%nat; inversion H; subst. cbn. auto.
    - inversion H; subst. cbn. auto.
    - destruct (nth_error (m_blocks m) k) as [[tr b]|]; discriminate.
  Qed.
  Lemma act_finished : forall t m m', kholds t = true -> ac t m = Finished m' -> m_lock m' = false.
  Proof.
    intros t m m' K H. destruct t; try discriminate. cbn [act] in H.
    destruct (i <? ncls)%nat; inversion H; subst. auto.
  Qed.
  Lemma act_finished' : forall t m m', kholds t = false -> ac t m = Finished m' -> m_lock m' = m_lock m.
  Proof.
    intros t m m' K H. destruct t; try discriminate; cbn [act] in H.
    - destruct (nth_error (m_blocks m) k) as [[tr b]|]; [|inversion H; auto]. destruct ((if ev then eval_ex else train_ex) (m_cur m) b). discriminate.
    - destruct (m_lock m); discriminate.
    - destruct (nth_error (m_blocks m) k) as [[tr b]|]; inversion H; subst; auto.
  Qed.

  Lemma filter_len_mid : forall (k1 : list ktask) t k2, length (filter kholds (k1 ++ t :: k2)) =
    (length (filter kholds [t]) + length (filter kholds (k1 ++ k2)))%nat.
  Proof. intros. rewrite !filter_app, !app_length. cbn [filter]. destruct (kholds t); cbn [length]; lia. Qed.

  Lemma safe_step : forall a b, safe a -> fj_step ac a b -> safe b.
  Proof.
    intros a b [js [H1 [H2 H3]]] St. unfold safe. inversion St; subst; clear St; cbn [fst snd] in *.
    - inversion H1; subst. exists js0. split; auto. split.
      + rewrite map_app. cbn [map]. rewrite <- app_assoc. cbn [app]. match goal with X : forall m, kblock (f m) = j |- _ => rewrite X end. auto.
      + rewrite filter_len_mid, app_nil_r. match goal with X : forall m, kfresh (f m) |- _ => specialize (X m) end.
        destruct (f m); cbn [kfresh] in *; try contradiction; cbn [filter kholds length]; lia.
    - inversion H1; subst. exists js0. auto.
    - inversion H1; subst. exists js. split; auto. split; auto. match goal with X : forall m, m_lock (g m) = m_lock m |- _ => rewrite X end. auto.
    - inversion H1; subst. exists js. auto.
    - match goal with X : _ = Next _ _ |- _ => apply act_next in X; destruct X as [X1 X2] end.
      exists js. split; auto. split; [rewrite map_app in *; cbn [map] in *; rewrite X1; auto|].
      rewrite filter_len_mid in *. lia.
    - match goal with X : _ = Finished _ |- _ => rename X into X1 end.
      exists js. split; auto. split.
      + rewrite map_app in *. cbn [map] in H2. rewrite <- app_assoc in *. cbn [app] in H2. apply NoDup_remove_1 in H2. auto.
      + rewrite filter_len_mid in H3. destruct (kholds t) eqn:K.
        * rewrite (act_finished t m m' K X1). cbn [filter] in H3. rewrite K in H3. cbn [length] in H3. destruct (m_lock m); lia.
        * rewrite (act_finished' t m m' K X1). cbn [filter] in H3. rewrite K in H3. cbn [length] in H3. auto.
  Qed.
  Lemma safe_steps : forall a b, safe a -> fj_steps ac a b -> safe b.
  Proof. intros a b H St. induction St as [a|a b c St IH X]; auto. eapply safe_step; [apply IH; auto|exact X]. Qed.

  (** ** The executor's scripts are of that kind *)
  Definition tame (o : op mem ktask) : Prop :=
    match o with
    | OPush f => (exists j, forall m, kblock (f m) = j) /\ (forall m, kfresh (f m))
    | ODo g => forall m, m_lock (g m) = m_lock m
    | _ => True
    end.

  Lemma seg_pushes : forall (p : nat -> op mem ktask) js o, (forall j, exists f, p j = OPush f /\ (forall m, kblock (f m) = j) /\ forall m, kfresh (f m)) ->
    seg [] o -> seg js (map p js ++ o).
  Proof.
    intros p js o Hp H. induction js as [|j js IH]; cbn [map app]; auto.
    destruct (Hp j) as [f [-> [F1 F2]]]. constructor; auto.
  Qed.
  Lemma push_ex_ok : forall ev j, exists f, push_ex ev j = OPush f /\ (forall m : mem, kblock (f m) = j) /\ forall m : mem, kfresh (f m).
  Proof. intros. eexists. split; [reflexivity|]. split; intros; cbn; auto. Qed.
  Lemma push_up_ok : forall j, exists f, push_up j = OPush f /\ (forall m : mem, kblock (f m) = j) /\ forall m : mem, kfresh (f m).
  Proof. intros. eexists. split; [reflexivity|]. split; intros; cbn; auto. Qed.

  Lemma trainable_ge : forall flags i j, In j (trainable_from i flags) -> (i <= j)%nat.
  Proof.
    induction flags as [|[] flags IH]; intros i j H; cbn [trainable_from] in H; [contradiction| |].
    - destruct H as [->|H]; auto. apply IH in H. lia.
    - apply IH in H. lia.
  Qed.
  Lemma trainable_nodup : forall flags i, NoDup (trainable_from i flags).
  Proof.
    induction flags as [|[] flags IH]; intros i; cbn [trainable_from]; try constructor; auto.
    intros X. apply trainable_ge in X. lia.
  Qed.
  Lemma trainable_len : forall flags i, (length (trainable_from i flags) <= length flags)%nat.
  Proof. induction flags as [|[] flags IH]; intros i; cbn [trainable_from length]; auto; specialize (IH (S i)); lia. Qed.

  Definition ok_seg (o : list (op mem ktask)) : Prop := exists js, NoDup js /\ seg js o.

  Lemma seg_train : forall flags d o, ok_seg o -> ok_seg (train_calls process flags d ++ o).
  Proof.
    intros flags d o [js [H1 H2]]. unfold train_calls. repeat (rewrite <- app_assoc || cbn [app]).
    exists (seq 0 (length flags)). split; [apply seq_NoDup|]. apply SegDo; [auto|].
    apply seg_pushes; [apply push_ex_ok|]. apply SegWait with (js := trainable_from 0 flags); [apply trainable_nodup|].
    apply SegDo; [auto|]. apply seg_pushes; [apply push_up_ok|]. apply SegWait with (js := js); auto.
  Qed.
  Lemma seg_eval : forall flags e o, ok_seg o -> ok_seg (eval_calls flags e ++ o).
  Proof.
    intros flags e o [js [H1 H2]]. unfold eval_calls. repeat (rewrite <- app_assoc || cbn [app]).
    exists (seq 0 (length flags)). split; [apply seq_NoDup|]. apply SegDo; [auto|].
    apply seg_pushes; [apply push_ex_ok|]. apply SegWait with (js := js); auto. apply SegDo; auto.
  Qed.
  Lemma seg_do : forall g o, (forall m, m_lock (g m) = m_lock m) -> ok_seg o -> ok_seg (ODo g :: o).
  Proof. intros g o G [js [H1 H2]]. exists js. split; auto. apply SegDo; auto. Qed.
  Lemma seg_session : forall flags qs r o, ok_seg o -> ok_seg (session_calls process flags qs r ++ o).
  Proof.
    intros flags. induction qs as [|[data|data] qs IH]; intros r o H; cbn [session_calls request_calls app]; auto.
    - destruct (shuffle (seq 0 (length data)) r) as [idx r']. repeat (rewrite <- app_assoc || cbn [app]). apply seg_do; auto.
      match goal with |- context [flat_map _ ?l] => generalize l end. intros ds. induction ds as [|d ds IHd]; cbn [flat_map app].
      + apply seg_do; auto.
      + rewrite <- app_assoc. apply seg_train. auto.
    - rewrite <- app_assoc. induction (map fst data) as [|e es IHe]; cbn [flat_map app]; auto.
      rewrite <- app_assoc. apply seg_eval. auto.
  Qed.

  (** ** They are clients of the pool *)
  Definition small (flags : list bool) : Prop := Z.of_nat (length flags) < 2 ^ 64.

  Lemma fits_pushes : forall (p : nat -> op mem ktask) js o k, (forall j, exists f, p j = OPush f) ->
    fits (k + Z.of_nat (length js)) o -> fits k (map p js ++ o).
  Proof.
    intros p js o k Hp. revert k. induction js as [|j js IH]; intros k H; cbn [map app length] in *.
    - rewrite Z.add_0_r in H. auto.
    - destruct (Hp j) as [f ->]. cbn [fits]. apply IH. replace (k + 1 + Z.of_nat (length js)) with (k + Z.of_nat (S (length js))) by lia. auto.
  Qed.
  Lemma stops_pushes : forall (p : nat -> op mem ktask) js o b, (forall j, exists f, p j = OPush f) ->
    stops_last true (OWait :: o) -> stops_last b (map p js ++ OWait :: o).
  Proof.
    intros p js o b Hp. revert b. induction js as [|j js IH]; intros b H; cbn [map app] in *; auto.
    destruct (Hp j) as [f ->]. cbn [stops_last]. auto.
  Qed.

  Lemma client_train : forall flags (d : E * L) (o : list (op mem ktask)), small flags -> client o -> client (train_calls process flags d ++ o).
  Proof.
    intros flags d o Sm [C1 C2]. unfold train_calls, small in *. repeat (rewrite <- app_assoc || cbn [app]). pose proof (trainable_len flags 0). split.
    - cbn [stops_last]. apply stops_pushes; [intros; eexists; reflexivity|]. cbn [stops_last]. apply stops_pushes; [intros; eexists; reflexivity|]. auto.
    - cbn [fits]. apply fits_pushes; [intros; eexists; reflexivity|]. cbn [fits]. rewrite seq_length. split; [lia|].
      apply fits_pushes; [intros; eexists; reflexivity|]. cbn [fits]. split; [lia|auto].
  Qed.
  Lemma client_eval : forall flags (e : E) (o : list (op mem ktask)), small flags -> client o -> client (eval_calls flags e ++ o).
  Proof.
    intros flags d o Sm [C1 C2]. unfold eval_calls, small in *. repeat (rewrite <- app_assoc || cbn [app]). split.
    - cbn [stops_last]. apply stops_pushes; [intros; eexists; reflexivity|]. auto.
    - cbn [fits]. apply fits_pushes; [intros; eexists; reflexivity|]. cbn [fits]. rewrite seq_length. split; [lia|auto].
  Qed.
  Lemma client_do : forall g (o : list (op mem ktask)), client o -> client (ODo g :: o).
  Proof. intros g o [C1 C2]. split; auto. Qed.
  Lemma client_session : forall flags (qs : list (request E L)) r (o : list (op mem ktask)), small flags -> client o -> client (session_calls process flags qs r ++ o).
  Proof.
    intros flags. induction qs as [|[data|data] qs IH]; intros r o Sm H; cbn [session_calls request_calls app]; auto.
    - destruct (shuffle (seq 0 (length data)) r) as [idx r']. repeat (rewrite <- app_assoc || cbn [app]). apply client_do; auto.
      match goal with |- context [flat_map _ ?l] => generalize l end. intros ds. induction ds as [|d ds IHd]; cbn [flat_map app].
      + apply client_do; auto.
      + rewrite <- app_assoc. apply client_train; auto.
    - rewrite <- app_assoc. induction (map fst data) as [|e es IHe]; cbn [flat_map app]; auto.
      rewrite <- app_assoc. apply client_eval; auto.
  Qed.

  (** ** Nobody waits for ever for the votes *)
  Lemma seg_fresh : forall js o, seg js o -> Forall (push_P mem ktask kfresh) o.
  Proof. intros js o H. induction H; constructor; cbn [push_P]; auto. Qed.

  Lemma act_moves : forall t m, kholds t = true -> ac t m <> Blocked.
  Proof. intros t m H. destruct t; try discriminate. cbn [act]. destruct (i <? ncls)%nat; discriminate. Qed.

  Lemma holder_moves : forall n ops m s, (0 < n)%nat -> client ops -> ok_seg ops -> m_lock m = false -> reachable ac n ops m s ->
    blocked mem ktask ac s -> moves mem ktask ac s.
  Proof.
    intros n ops m s N C [js [J1 J2]] Lk R [i [t [W1 W2]]].
    destruct (fork_reachable _ _ ac n ops m s N C R) as [k [F P]].
    assert (S0 : safe (ops, [], m)) by (exists js; cbn [fst snd map app filter length]; rewrite Lk; auto).
    destruct (safe_steps _ _ S0 F) as [js' [_ [_ S3]]]. cbn [fst snd] in S3.
    assert (Lm : m_lock (p_mem s) = true).
    { destruct t; cbn [act] in W2.
      - destruct (nth_error (m_blocks (p_mem s)) k0) as [[tr b]|]; [|discriminate]. destruct ((if ev then eval_ex else train_ex) (m_cur (p_mem s)) b). discriminate.
      - destruct (m_lock (p_mem s)); [auto|discriminate].
      - destruct (i0 <? ncls)%nat; discriminate.
      - discriminate.
      - destruct (nth_error (m_blocks (p_mem s)) k0) as [[tr b]|]; discriminate. }
    rewrite Lm in S3.
    assert (H : exists h, In h k /\ kholds h = true).
    { destruct (filter kholds k) as [|h r] eqn:Ef; [discriminate|]. exists h. apply filter_In. rewrite Ef. left. auto. }
    destruct H as [h [H1 H2]].
    assert (Fr : all_P mem ktask kfresh s).
    { destruct R as [l R]. eapply all_P_run; [|exact R]. apply all_P_start. eapply seg_fresh; eauto. }
    assert (Rn : In (WRun h) (p_ws s)).
    { eapply running_task; eauto; [eapply Permutation_in; eauto|]. destruct h; try discriminate; intros []. }
    apply In_nth_error in Rn. destruct Rn as [j Hj].
    destruct (ac h (p_mem s)) as [|h' m'|m'] eqn:A.
    - exfalso. eapply act_moves; eauto.
    - exists LTau. eexists. split; [right; exists j; eapply WSAct; eauto|discriminate].
    - exists LFinish. eexists. split; [right; exists j; eapply WSFinish; eauto|discriminate].
  Qed.

  (** ** Cost *)
  Definition kcost (t : ktask) : Z :=
    match t with
    | KEx _ _ => 2 * Z.of_nat ncls + 3
    | KLock _ _ => 2 * Z.of_nat ncls + 2
    | KLoad _ _ i => 2 * Z.max 0 (Z.of_nat ncls - Z.of_nat i) + 1
    | KStore _ _ i _ => 2 * Z.max 1 (Z.of_nat ncls - Z.of_nat i)
    | KUp _ _ _ _ _ => 0
    end.
  Lemma kcost_nn : forall t, 0 <= kcost t. Proof. intros []; cbn [kcost]; lia. Qed.
  Lemma kcost_act : forall t m t' m', ac t m = Next t' m' -> kcost t' < kcost t.
  Proof.
    intros t m t' m' H. destruct t; cbn [act] in H.
    - destruct (nth_error (m_blocks m) k) as [[tr b]|]; [|discriminate]. destruct ((if ev then eval_ex else train_ex) (m_cur m) b).
      inversion H; subst. cbn [kcost]. lia.
    - destruct (m_lock m); inversion H; subst. cbn [kcost]. lia.
    - destruct (i <? ncls)%nat eqn:X; inversion H; subst. apply Nat.ltb_lt in X. cbn [kcost]. lia.
    - inversion H; subst. cbn [kcost]. lia.
    - destruct (nth_error (m_blocks m) k) as [[tr b]|]; discriminate.
  Qed.
  Definition kmax : Z := 2 * Z.of_nat ncls + 3.
  Lemma seg_cheap : forall js o, seg js o -> Forall (cheap mem ktask kcost kmax) o.
  Proof.
    intros js o H. induction H; constructor; cbn [cheap]; auto. intros m.
    match goal with X : forall m, kfresh (f m) |- _ => specialize (X m) end. unfold kmax. destruct (f m); cbn [kfresh kcost] in *; try contradiction; lia.
  Qed.

  (** What the calls of one session weigh. *)
  Notation ow := (op_weight mem ktask kmax).
  Lemma sumz_app : forall A (f : A -> Z) l1 l2, sumz f (l1 ++ l2) = sumz f l1 + sumz f l2.
  Proof. intros A f. induction l1 as [|a l1 IH]; intros; cbn [app sumz]; [lia|]. rewrite IH. lia. Qed.
  Lemma sumz_pushes : forall n (p : nat -> op mem ktask) js, (forall j, exists f, p j = OPush f) ->
    sumz (ow n) (map p js) = Z.of_nat (length js) * (25 + kmax).
  Proof.
    intros n p js Hp. induction js as [|j js IH]; cbn [map sumz length]; [lia|]. destruct (Hp j) as [f ->]. cbn [op_weight]. rewrite IH. lia.
  Qed.
  Definition per_example (nb : nat) : Z := 14 + 2 * Z.of_nat nb * (25 + kmax).
  Lemma weight_train : forall n flags d, sumz (ow n) (train_calls process flags d) <= per_example (length flags).
  Proof.
    intros n flags d. unfold train_calls, per_example. repeat (rewrite sumz_app || cbn [sumz op_weight]).
    rewrite !sumz_pushes by (intros; eexists; reflexivity). rewrite seq_length. pose proof (trainable_len flags 0).
    assert (0 <= kmax) by (unfold kmax; lia). nia.
  Qed.
  Lemma weight_eval : forall n flags e, sumz (ow n) (eval_calls flags e) <= per_example (length flags).
  Proof.
    intros n flags d. unfold eval_calls, per_example. repeat (rewrite sumz_app || cbn [sumz op_weight]).
    rewrite !sumz_pushes by (intros; eexists; reflexivity). rewrite seq_length.
    assert (0 <= kmax) by (unfold kmax; lia). nia.
  Qed.
  Lemma select_len : forall (data : list (E * L)) idx, (length (select E L data idx) <= length idx)%nat.
  Proof.
    intros data. induction idx as [|i idx IH]; cbn [select flat_map length]; auto. rewrite app_length.
    unfold select in IH. destruct (nth_error data i); cbn [length]; lia.
  Qed.
  Lemma weight_flat : forall n A (c : A -> list (op mem ktask)) w l, (forall a, sumz (ow n) (c a) <= w) ->
    sumz (ow n) (flat_map c l) <= Z.of_nat (length l) * w.
  Proof.
    intros n A c w l H. induction l as [|a l IH]; cbn [flat_map sumz length]; [lia|]. rewrite sumz_app. specialize (H a). lia.
  Qed.
  Lemma weight_session : forall n flags qs r,
    sumz (ow n) (session_calls process flags qs r) <= 2 * Z.of_nat (length qs) + Z.of_nat (session_size qs) * per_example (length flags).
  Proof.
    intros n flags. unfold session_size. assert (0 <= per_example (length flags)) by (unfold per_example, kmax; nia).
    induction qs as [|[data|data] qs IH]; intros r; cbn [session_calls request_calls app sumz length map list_sum fold_right]; [lia| |].
    - destruct (shuffle (seq 0 (length data)) r) as [idx r'] eqn:Sh. repeat (rewrite sumz_app || cbn [sumz op_weight]).
      specialize (IH r'). pose proof (weight_flat n _ (train_calls process flags) _ (select E L data (firstn (length data) idx)) (weight_train n flags)).
      pose proof (select_len data (firstn (length data) idx)). rewrite firstn_length in *. unfold list_sum in *.
      cbn [fold_right]. nia.
    - repeat (rewrite sumz_app || cbn [sumz op_weight]). specialize (IH r).
      pose proof (weight_flat n _ (eval_calls flags) _ (map fst data) (weight_eval n flags)). rewrite map_length in *. unfold list_sum in *.
      cbn [fold_right]. nia.
  Qed.
End ExecLive.
