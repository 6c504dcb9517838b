(** Hyper-parameter search: C117, C118, C119. *)
From Coq Require Import ZArith List Bool QArith Qround Lia ZifyBool.
From Verif Require Import Base BaseProofs Spec ModelMachine ProofsMachine ModelTrainer ModelTrainerDense SpecTraining SpecTrainerDense ProofsTrainer
  ProofsTrainerPool ModelSearch SpecSearch ProofsSearch ProofsSearchB PropertiesTrainerDense.
Import ListNotations.
Open Scope Z_scope.

(** A machine with these parameters, for these labels. *)
Definition trial_machine (nlit : nat) (cl th bu : Z) (f : fl) (bo : bool) (yt : yarr) (m : tm) : Prop :=
  tm_nlit m = nlit /\ tm_ncl m = cl /\ tm_threshold m = th /\ tm_budgets m = [Some bu] /\ tm_s m = [f] /\ tm_boost m = bo /\
  tm_multi m = false /\ exists classes, NoDup classes /\ (forall v, In v classes <-> label yt v) /\ tm_ncls m = length classes.

Lemma init_machine : forall nlit cl th bu f bo yt m, tm_init nlit cl (n_unique yt) (SFloat f) th (Some bu) bo false = Ok m ->
  trial_machine nlit cl th bu f bo yt m.
Proof.
  intros nlit cl th bu f bo yt m H. unfold tm_init in H. destruct (existsb _ _); [discriminate|]. destruct (th <? 1); [discriminate|].
  inversion H. unfold trial_machine. cbn. do 7 (split; [reflexivity|]). exists (nodup Z.eq_dec (concat (y_rows yt))).
  split; [apply NoDup_nodup|]. split; [|reflexivity]. intros v. rewrite nodup_In. symmetry. apply label_in.
Qed.

(** ** C117 *)

(** A trial trains a machine whose parameters are points of the documented
    spaces; for s given as a pair the step is 0.1.  The value of the trial is the
    score of that training and, when asked for, the literal budget. *)
Theorem C117_spaces_partial : forall C X S P (B : backend tm C X S P) cpus h a v,
  s_form (h_s h) -> int_form (h_clauses h) -> int_form (h_threshold h) -> int_form (h_budget h) -> int_form (h_epochs h) ->
  trial_value B cpus h a = Ok v ->
  exists xt yt xe ye rows nlit rest f cl th bu ep bo m,
    h_train h = Some (Some xt, yt) /\ h_eval h = Some (Some xe, ye) /\ x_shape xt = rows :: nlit :: rest /\
    s_value (1 # 10) (h_s h) f /\ int_value (h_clauses h) cl /\ int_value (h_threshold h) th /\
    int_value (h_budget h) bu /\ int_value (h_epochs h) ep /\ (fst (h_boost h) = false -> bo = snd (h_boost h)) /\
    trial_machine nlit cl th bu f bo yt m /\
    objective B cpus (h_jobs h) (h_seed h) ep (h_folds h) m (Some xt) yt (Some xe) ye = Ok (fst v) /\
    snd v = if h_minimize h then Some bu else None.
Proof.
  intros C X S P B cpus h a v Fs Fc Ft Fb Fe H. unfold trial_value in H. apply bind_ok in H. destruct H as [[[xt yt] [xe ye]] [H1 H]].
  unfold check_set in H1. destruct (h_eval h) as [[[xe'|] ye']|]; try discriminate. destruct (h_train h) as [[[xt'|] yt']|]; try discriminate.
  inversion H1; subst xt' yt' xe' ye'. apply bind_ok in H. destruct H as [[m ep] [H2 H]]. cbn [fst snd] in H.
  apply bind_ok in H. destruct H as [sc [H3 H4]]. unfold trial_setup in H2.
  apply bind_ok in H2. destruct H2 as [s [G1 H2]]. apply bind_ok in H2. destruct H2 as [cl [G2 H2]]. apply bind_ok in H2. destruct H2 as [th [G3 H2]].
  apply bind_ok in H2. destruct H2 as [bu [G4 H2]]. apply bind_ok in H2. destruct H2 as [ep' [G5 H2]]. apply bind_ok in H2. destruct H2 as [bo [G6 H2]].
  apply bind_ok in H2. destruct H2 as [nlit [G7 H2]]. apply bind_ok in H2. destruct H2 as [m' [G8 H2]]. inversion H2; subst m' ep'.
  destruct (choose_s_value _ _ _ Fs G1) as [f [-> G9]].
  destruct (x_shape xt) as [|rows [|c rest]] eqn:Ex; try discriminate. inversion G7; subst c.
  pose proof (init_machine _ _ _ _ _ _ _ _ G8) as TM.
  exists xt, yt, xe, ye, rows, nlit, rest, f, cl, th, bu, ep, bo, m. do 3 (split; [auto|]). split; [exact G9|].
  do 4 (split; [eapply choose_int_value; eauto|]). split.
  { intros Nb. unfold choose_boost in G6. rewrite Nb in G6. now inversion G6. }
  split; [exact TM|]. destruct TM as [_ [_ [_ [Tb _]]]]. rewrite Tb in H4. destruct (h_minimize h); inversion H4; auto.
Qed.

(** Same value of s. *)
Definition same_s (f g : fl) : Prop := match f, g with Fin p, Fin q => (p == q)%Q | _, _ => f = g end.

(** Every point of the spaces is tried for some answers of Optuna. *)
Theorem C117_reaches : forall h xt yt rows nlit rest f cl th bu ep bo,
  x_shape xt = rows :: nlit :: rest ->
  s_value (1 # 10) (h_s h) f -> (forall z, h_s h <> VInt z) ->
  (forall lo hi st, h_s h = VTup [lo; hi; st] -> 0 < st)%Q ->
  int_value (h_clauses h) cl -> int_value (h_threshold h) th -> int_value (h_budget h) bu -> int_value (h_epochs h) ep ->
  (fst (h_boost h) = false -> bo = snd (h_boost h)) ->
  Forall (fun sp => forall lo hi st, sp = VTup [lo; hi; st] -> 1 <= st) [h_clauses h; h_threshold h; h_budget h; h_epochs h] ->
  ~ fl_lt f (Fin 1) -> 1 <= th ->
  exists a m f', trial_setup h a xt yt = Ok (m, ep) /\ same_s f' f /\ trial_machine nlit cl th bu f' bo yt m.
Proof.
  intros h xt yt rows nlit rest f cl th bu ep bo Ex Vs Ns Ps Vc Vt Vb Ve Bo St F1 T1.
  assert (A : forall sp v, In sp [h_clauses h; h_threshold h; h_budget h; h_epochs h] -> int_value sp v -> exists a, choose_int sp a = Ok v).
  { intros sp v I V. rewrite Forall_forall in St. specialize (St sp I). cbv beta in St. apply choose_int_any; auto.
    destruct sp as [| | |l]; auto. destruct l as [|lo [|hi [|s0 [|? ?]]]]; auto. eapply St; reflexivity. }
  destruct (A (h_clauses h) cl ltac:(cbn; auto) Vc) as [a1 A1]. destruct (A (h_threshold h) th ltac:(cbn; auto) Vt) as [a2 A2].
  destruct (A (h_budget h) bu ltac:(cbn; auto) Vb) as [a3 A3]. destruct (A (h_epochs h) ep ltac:(cbn; auto) Ve) as [a4 A4].
  assert (A5 : exists a f', choose_s (h_s h) a = Ok (SFloat f') /\ same_s f' f).
  { assert (Gr : forall lo hi st k q, (0 < st)%Q -> 0 <= k -> (q == lo + inject_Z k * st)%Q -> (q <= hi)%Q ->
        exists q', suggest_float lo hi st k = Ok q' /\ (q' == q)%Q).
    { intros lo hi st k q S0 K0 Eq Le. unfold suggest_float.
      assert (L0 : (lo <= hi)%Q).
      { apply Qle_trans with q; auto. rewrite Eq. apply Qle_trans with (lo + 0)%Q; [rewrite Qplus_0_r; apply Qle_refl|]. apply Qplus_le_r.
        apply Qmult_le_0_compat; [change 0%Q with (inject_Z 0); rewrite <- Zle_Qle; auto|apply Qlt_le_weak; auto]. }
      destruct (Qle_bool st 0) eqn:E0; [apply Qle_bool_iff in E0; exfalso; apply (Qlt_not_le _ _ S0 E0)|].
      apply Qle_bool_iff in L0. rewrite L0. cbn [negb orb]. eexists. split; [reflexivity|].
      assert (K1 : k <= Qfloor ((hi - lo) / st)).
      { rewrite <- (Qfloor_Z k). apply Qfloor_resp_le. apply Qle_shift_div_l; auto.
        apply (Qplus_le_r _ _ lo). setoid_replace (lo + (hi - lo))%Q with hi by ring. rewrite <- Eq. auto. }
      rewrite Z.mod_small by lia. rewrite Eq. ring. }
    destruct (h_s h) as [g|z| |l]; try contradiction.
    - cbn in Vs. subst g. exists 0, f. split; auto. destruct f; cbn; auto; reflexivity.
    - exfalso. eapply Ns. reflexivity.
    - destruct l as [|lo [|hi [|s0 [|? ?]]]]; try contradiction; cbn [s_value] in Vs; destruct Vs as [k [q [K0 [-> [Eq Le]]]]].
      + destruct (Gr lo hi (1 # 10) k q) as [q' [E1 E2]]; auto; [reflexivity|]. exists k, (Fin q'). cbn [choose_s]. rewrite E1. split; [auto|exact E2].
      + destruct (Gr lo hi s0 k q) as [q' [E1 E2]]; auto; [eapply Ps; reflexivity|]. exists k, (Fin q'). cbn [choose_s]. rewrite E1. split; [auto|exact E2]. }
  destruct A5 as [a5 [f' [A5 A6]]].
  assert (A7 : exists a, choose_boost (h_boost h) a = Ok bo).
  { unfold choose_boost. destruct (fst (h_boost h)); [|exists 0; now rewrite Bo]. exists (if bo then 1 else 0). destruct bo; reflexivity. }
  destruct A7 as [a7 A7].
  assert (F2 : fl_ltb f' (Fin 1) = false).
  { apply fl_ltb_false. intros L. apply F1. destruct f', f; cbn in *; try discriminate; auto. now rewrite <- A6. }
  assert (E : exists m, tm_init nlit cl (n_unique yt) (SFloat f') th (Some bu) bo false = Ok m).
  { unfold tm_init. cbn [existsb]. rewrite F2. cbn [orb]. destruct (th <? 1) eqn:Et; [lia|]. eauto. }
  destruct E as [m E]. exists (mkAns a5 a1 a2 a3 a4 a7), m, f'. split; [|split; [exact A6|now apply init_machine]].
  unfold trial_setup. cbn [an_s an_clauses an_threshold an_budget an_epochs an_boost]. rewrite A5, A1, A2, A3, A4, A7, Ex. cbn [bind_res]. now rewrite E.
Qed.

(** A fixed s that is an int: every trial fails. *)
Theorem C117_fixed_int_s_refuted : forall C X S P (B : backend tm C X S P) cpus h a z xt yt xe ye,
  h_s h = VInt z -> h_train h = Some (Some xt, yt) -> h_eval h = Some (Some xe, ye) ->
  trial_value B cpus h a = Raise TypeError.
Proof.
  intros C X S P B cpus h a z xt yt xe ye H1 H2 H3. unfold trial_value, check_set. rewrite H3, H2. cbn [bind_res].
  unfold trial_setup. rewrite H1. reflexivity.
Qed.
(** Without data: AttributeError, although the check wants to say what is missing. *)
Theorem C117_no_data_refuted : forall C X S P (B : backend tm C X S P) cpus h a,
  h_eval h = None -> trial_value B cpus h a = Raise AttributeError.
Proof. intros C X S P B cpus h a H. unfold trial_value, check_set. now rewrite H. Qed.

Definition from2to10 : space Q := VTup [2; 10]%Q.
Definition hp_k (k : Z) (clauses : space Z) (s : space Q) (jobs : Z) (mini : bool) : search :=
  mkSearch s clauses (VTup [3; 6]) (VInt 2) (VTup [1; 5; 2]) (true, false) mini 42 jobs k
           (Some (Some (d_x run_train), d_y run_train)) (Some (Some (d_x run_eval), d_y run_eval)).
Definition hp : space Z -> space Q -> Z -> bool -> search := hp_k 1.

(** A pair for s is documented to scan the integers; 2.1 is tried. *)
Theorem C117_pair_s_refuted : exists a m ep q, h_s (hp (VInt 4) from2to10 1 false) = VTup [2; 10]%Q /\
  trial_setup (hp (VInt 4) from2to10 1 false) a (d_x run_train) (d_y run_train) = Ok (m, ep) /\
  tm_s m = [Fin q] /\ forall z, ~ (q == inject_Z z)%Q.
Proof.
  exists (mkAns 1 0 0 0 0 0). do 3 eexists. split; [reflexivity|]. split; [reflexivity|]. split; [reflexivity|].
  intros z. unfold Qeq. cbn. lia.
Qed.

Example C117_case :
  let h := hp (VTup [2; 8; 3]) from2to10 2 true in
  s_form (h_s h) /\ int_form (h_clauses h) /\ int_form (h_threshold h) /\ int_form (h_budget h) /\ int_form (h_epochs h) /\
  (exists v, trial_value run_backend 8 h (mkAns 3 1 2 1 0 1) = Ok v) /\
  (exists m, trial_setup h (mkAns 3 1 2 1 0 1) (d_x run_train) (d_y run_train) = Ok (m, 2) /\ tm_ncl m = 5 /\ tm_threshold m = 5 /\
     tm_budgets m = [Some 3] /\ tm_boost m = true /\ tm_ncls m = 2%nat).
Proof.
  cbv zeta. do 5 (split; [exact I|]). split; [|eexists; repeat split].
  match goal with |- exists v, ?a = _ => destruct a as [v|e] eqn:E end; [eauto|exfalso].
  assert (X : match trial_value run_backend 8 (hp (VTup [2; 8; 3]) from2to10 2 true) (mkAns 3 1 2 1 0 1) with Ok _ => true | Raise _ => false end = true)
    by (vm_compute; reflexivity).
  rewrite E in X. discriminate.
Qed.
Example C117_reaches_case :
  let h := hp (VTup [2; 8; 3]) from2to10 2 true in
  s_value (1 # 10) (h_s h) (Fin (23 # 10)) /\ int_value (h_clauses h) 8 /\ int_value (h_threshold h) 6 /\ int_value (h_budget h) 5 /\
  int_value (h_epochs h) 2 /\ ~ fl_lt (Fin (23 # 10)) (Fin 1).
Proof.
  cbn. split; [exists 3, (23 # 10); repeat split; discriminate|]. split; [split; [lia|exists 2; split; [lia|reflexivity]]|]. split; [lia|]. split; [split; [lia|exists 2; split; [lia|reflexivity]]|].
  split; [reflexivity|]. unfold Qlt. cbn. lia.
Qed.
Example C117_int_s_case : trial_value run_backend 8 (hp (VInt 4) (VInt 2) 1 false) (mkAns 0 0 0 0 0 0) = Raise TypeError.
Proof. reflexivity. Qed.

(** ** C118 *)

(** Better in the study's sense: a higher score, or with two directions at least
    as good a score and budget, one of them better. *)
Definition better (mini : bool) (u t : fl * option Z) : Prop :=
  if mini then exists bu bt, snd u = Some bu /\ snd t = Some bt /\ fl_le (fst t) (fst u) /\ bu <= bt /\ (fl_lt (fst t) (fst u) \/ bu < bt)
  else fl_lt (fst t) (fst u).

(** Any successful search: told are n_trials trials, each with its value, and
    best_trials are exactly those with a number as score that no other such one
    beats. *)
Theorem C118_best : forall C X S P (B : backend tm C X S P) cpus ask h n best l,
  optimize B cpus ask h n = (Ok best, l) ->
  length l = Z.to_nat n /\
  Forall (fun t => trial_value B cpus h (td_answers t) = Ok (td_value t)) l /\
  forall t, In t best <-> In t l /\ fst (td_value t) <> Fnan /\
    forall u, In u l -> fst (td_value u) <> Fnan -> ~ better (h_minimize h) (td_value u) (td_value t).
Proof.
  intros C X S P B cpus ask h n best l H. unfold optimize in H.
  assert (L : forall k l0, Forall (fun t => trial_value B cpus h (td_answers t) = Ok (td_value t)) l0 -> optimize_loop B cpus ask h k l0 = (Ok best, l) ->
    length l = (length l0 + k)%nat /\ Forall (fun t => trial_value B cpus h (td_answers t) = Ok (td_value t)) l /\ best = best_trials l).
  { clear H. intros k. induction k as [|k IH]; intros l0 F0 H; cbn [optimize_loop] in H.
    - inversion H; subst. split; [lia|auto].
    - cbv zeta in H. destruct (trial_value B cpus h (ask l0)) as [v|e] eqn:Tv; [|discriminate].
      destruct (best_trials (l0 ++ [mkTold (ask l0) v])); [discriminate|]. apply IH in H; [|apply Forall_app; split; auto].
      rewrite app_length in H. cbn [length] in H. destruct H as [H1 H2]. split; [lia|auto]. }
  apply L in H; [|constructor]. destruct H as [H1 [H2 ->]]. split; [exact H1|]. split; [exact H2|].
  assert (V : forall t, In t l -> if h_minimize h then exists b, snd (td_value t) = Some b else snd (td_value t) = None).
  { intros t Ht. rewrite Forall_forall in H2. specialize (H2 t Ht). unfold trial_value in H2. apply bind_ok in H2. destruct H2 as [[[xt yt] [xe ye]] [_ H2]].
    apply bind_ok in H2. destruct H2 as [[m ep] [H3 H2]]. cbn [fst snd] in H2. apply bind_ok in H2. destruct H2 as [sc [_ H2]].
    destruct (h_minimize h) eqn:Em; [|now inversion H2].
    unfold trial_setup in H3. do 4 (apply bind_ok in H3; destruct H3 as [? [? H3]]). do 4 (apply bind_ok in H3; destruct H3 as [? [? H3]]).
    inversion H3; subst. match goal with K : tm_init _ _ _ _ _ _ _ _ = Ok _ |- _ => unfold tm_init in K; rename K into K0 end.
    destruct (match _ with SFloat f => _ | SInt _ => _ | SList l => _ end); [|discriminate]. destruct (existsb _ _); [discriminate|].
    destruct (_ <? 1); [discriminate|]. inversion K0; subst. cbn [tm_budgets] in H2. inversion H2; cbn [snd]; eauto. }
  assert (D : forall u t, In u l -> In t l -> (dominates u t = true <-> better (h_minimize h) (td_value u) (td_value t))).
  { intros u t Hu Ht. pose proof (V u Hu) as Vu. pose proof (V t Ht) as Vt. unfold dominates, better. destruct (h_minimize h).
    - destruct Vu as [bu Vu]. destruct Vt as [bt Vt]. rewrite Vu, Vt, !andb_true_iff, orb_true_iff, fl_leb_iff, fl_ltb_iff. split.
      + intros [[K1 K2] K3]. exists bu, bt. repeat split; auto; [lia|]. destruct K3; [left; auto|right; lia].
      + intros [bu' [bt' [K1 [K2 [K3 [K4 K5]]]]]]. inversion K1; inversion K2; subst bu' bt'. repeat split; auto; [lia|]. destruct K5; [left; auto|right; lia].
    - rewrite Vu. apply fl_ltb_iff. }
  assert (Cp : forall t, complete t = true <-> fst (td_value t) <> Fnan).
  { intros t. unfold complete. destruct (fst (td_value t)); split; congruence. }
  intros t. split.
  - intros I. destruct (best_spec _ _ I) as [K1 [K2 K3]]. split; [exact K1|]. split; [now apply Cp|].
    intros u Hu Nu Bt. apply D in Bt; auto. rewrite K3 in Bt; [discriminate|auto|now apply Cp].
  - intros [K1 [K2 K3]]. unfold best_trials. apply filter_In. split; [apply filter_In; split; [auto|now apply Cp]|].
    apply negb_true_iff, not_true_iff_false. intros Ex. apply existsb_exists in Ex. destruct Ex as [u [U1 U2]]. apply filter_In in U1.
    destruct U1 as [U1 U3]. apply (K3 u U1); [now apply Cp|]. now apply D.
Qed.

(** A search over workable ranges in which no trial has fewer clauses than jobs
    ends after n_trials trials with at least one best trial, whatever Optuna asks
    for and however the pool schedules its tasks.  Every score is a number.  With
    k_folds > 1 some class needs k_folds examples. *)
Theorem C118_completes_partial : forall G Sc assign cpus ask h n, pool_schedule Sc -> stratified assign -> workable h -> enough_clauses h ->
  exists best l, optimize (threaded_backend G Sc accuracy_score (fun _ _ _ => None) assign) cpus ask h n = (Ok best, l) /\
    length l = Z.to_nat n /\ (1 <= n -> best <> []) /\ Forall (fun t => exists q, fst (td_value t) = Fin q) l.
Proof.
  intros G Sc assign cpus ask h n HS HA W E. unfold optimize.
  destruct (loop_fine G Sc assign cpus HS HA ask h (Z.to_nat n) [] W E (Forall_nil _)) as [new [N1 [N2 N3]]]. cbn [app] in *.
  exists (best_trials new), new. split; [exact N1|]. split; [exact N2|].
  assert (F : Forall (fun t => exists q, fst (td_value t) = Fin q) new).
  { eapply Forall_impl; [|exact N3]. intros t Ht. cbv beta in Ht. destruct (trial_fine G Sc assign cpus HS HA h (td_answers t) W E) as [q [b Tv]].
    rewrite Tv in Ht. inversion Ht as [V]. exists q. reflexivity. }
  split; [|exact F]. intros N. apply (best_exists (h_minimize h)).
  - unfold uniform. eapply Forall_impl; [|exact N3]. intros t Ht. cbv beta in Ht. destruct (trial_fine G Sc assign cpus HS HA h (td_answers t) W E) as [q [b Tv]].
    rewrite Tv in Ht. inversion Ht. destruct (h_minimize h); cbn [snd]; eauto.
  - destruct new as [|t new]; [cbn in N2; lia|]. cbn [filter]. apply Forall_inv in F. destruct F as [q F].
    unfold complete at 1. rewrite F. discriminate.
Qed.

Lemma hp_k_workable : forall k clauses s jobs mini,
  int_form clauses -> match clauses with VTup [lo; hi] => lo <= hi | VTup [lo; hi; st] => lo <= hi /\ 1 <= st | _ => True end ->
  s = from2to10 -> 1 <= jobs <= 100 -> k <= 5 -> workable (hp_k k clauses s jobs mini).
Proof.
  intros k clauses s jobs mini F R -> J K. unfold workable, hp_k.
  cbn [h_s h_clauses h_threshold h_epochs h_budget h_boost h_minimize h_seed h_jobs h_folds h_train h_eval].
  split; [exact I|]. split; [exact F|]. do 3 (split; [exact I|]). split; [split; discriminate|].
  split; [repeat (apply Forall_cons || apply Forall_nil); auto; lia|].
  split; [cbn; lia|]. split; [cbn; lia|]. split; [cbn; lia|]. do 3 (split; [lia|]).
  exists 3%nat, (d_x run_train), (d_y run_train), (d_x run_eval), (d_y run_eval).
  split; [reflexivity|]. split; [reflexivity|].
  assert (P : forall d, d = run_train \/ d = run_eval -> plain 3 (d_x d) (d_y d)).
  { intros d [->| ->]; unfold plain; cbn; (do 6 (split; [reflexivity|])); (split; [discriminate|]); split;
      repeat (apply Forall_cons || apply Forall_nil); try reflexivity; split; try reflexivity; unfold binary; repeat (apply Forall_cons || apply Forall_nil); auto. }
  split; [apply P; auto|]. split; [apply P; auto|].
  split; [|right; exists 1; exact K].
  exists 2. unfold label. cbn. split.
  - intros v. split.
    + intros [r [H1 H2]]. repeat (destruct H1 as [<-|H1]; [destruct H2 as [<-|[]]; lia|]). destruct H1.
    + intros Kv. assert (v = 0 \/ v = 1) as [->| ->] by lia; [exists [0]|exists [1]]; cbn; auto.
  - intros v [r [H1 H2]]. repeat (destruct H1 as [<-|H1]; [destruct H2 as [<-|[]]; lia|]). destruct H1.
Qed.

Lemma hp_workable : forall clauses s jobs mini,
  int_form clauses -> match clauses with VTup [lo; hi] => lo <= hi | VTup [lo; hi; st] => lo <= hi /\ 1 <= st | _ => True end ->
  s = from2to10 -> 1 <= jobs <= 100 -> workable (hp clauses s jobs mini).
Proof. intros. apply hp_k_workable; auto. lia. Qed.

(** Examples dealt to the folds in turn. *)
Definition dealt (k _ : Z) (d : data) : res (list nat) := Ok (map (fun j => (j mod Z.to_nat k)%nat) (seq 0 (length (y_rows (d_y d))))).
Lemma labels_bound : forall (rows : list (list Z)) v, Forall (fun r => length r = 1%nat) rows ->
  (count_occ Z.eq_dec (concat rows) v <= length rows)%nat.
Proof.
  intros rows v H. assert (L : length (concat rows) = length rows).
  { induction H as [|r rows Hr H IH]; [reflexivity|]. cbn [concat length]. rewrite app_length, IH, Hr. reflexivity. }
  rewrite <- L. clear. induction (concat rows) as [|a l IH]; [cbn; lia|]. cbn [count_occ length]. destruct (Z.eq_dec a v); lia.
Qed.

Lemma dealt_stratified : stratified dealt.
Proof.
  intros k seed d v Hk H1 Hv. eexists. split; [reflexivity|]. split; [now rewrite map_length, seq_length|]. intros i Hi.
  pose proof (labels_bound _ v H1) as Lb. apply in_map_iff. exists i. split; [now apply Nat.mod_small|]. apply in_seq. lia.
Qed.
Definition search_backend := threaded_backend run_gens first_come accuracy_score (fun _ _ _ => None) dealt.

Example C118_case : forall k, k = 1 \/ k = 3 -> let h := hp_k k (VTup [2; 8; 3]) from2to10 2 true in
  workable h /\ enough_clauses h /\ pool_schedule first_come /\ stratified dealt /\
  match optimize search_backend 8 (fun l => mkAns 3 (Z.of_nat (length l)) 2 (Z.of_nat (length l)) 0 1) h 3 with
  | (Ok (_ :: _), [t1; t2; t3]) => map (fun t => snd (td_value t)) [t1; t2; t3] = [Some 1; Some 3; Some 5]
  | _ => False
  end.
Proof.
  intros k K h. split; [apply hp_k_workable; cbn; auto; lia|]. split; [intros v [Kv _]; cbn; lia|]. split; [apply first_come_ok|].
  split; [apply dealt_stratified|]. destruct K as [->| ->]; vm_compute; reflexivity.
Qed.

(** The ranges are workable, but some trials have fewer clauses than jobs: such a
    trial raises and the whole search is lost, the trials told before included
    (best_trials is never set). *)
Theorem C118_refuted : exists h ask, workable h /\
  match optimize run_backend 8 ask h 3 with (Raise ValueError, [_]) => True | _ => False end.
Proof.
  exists (hp (VTup [1; 3]) from2to10 2 false), (fun l => mkAns 0 (match l with [] => 1 | _ => 0 end) 0 0 0 0).
  split; [apply hp_workable; cbn; auto; lia|]. vm_compute. exact I.
Qed.
(** In general: a trial whose parameters or data do not suit ends the search. *)
Theorem C118_aborts : forall C X S P (B : backend tm C X S P) cpus ask h n l e,
  trial_value B cpus h (ask l) = Raise e -> optimize_loop B cpus ask h (Datatypes.S n) l = (Raise e, l).
Proof. intros C X S P B cpus ask h n l e H. cbn [optimize_loop]. cbv zeta. now rewrite H. Qed.
Example C118_aborts_case : trial_value run_backend 8 (hp (VTup [1; 3]) from2to10 2 false) (mkAns 0 0 0 0 0 0) = Raise ValueError.
Proof. vm_compute. reflexivity. Qed.

(** ** C119 *)

(** The machine of a trial has a class for every training label exactly if the
    labels are 0, 1, ..., k-1. *)
Theorem C119_classes_partial : forall h a xt yt m ep, trial_setup h a xt yt = Ok (m, ep) -> (forall v, label yt v -> 0 <= v) ->
  ((forall v, label yt v -> v < Z.of_nat (tm_ncls m)) <-> exists k, forall v, label yt v <-> 0 <= v < k).
Proof.
  intros h a xt yt m ep H Nn. assert (U : tm_ncls m = n_unique yt).
  { unfold trial_setup in H. do 4 (apply bind_ok in H; destruct H as [? [? H]]). do 4 (apply bind_ok in H; destruct H as [? [? H]]).
    inversion H; subst. match goal with K : tm_init _ _ _ _ _ _ _ _ = Ok _ |- _ => unfold tm_init in K; rename K into K0 end.
    destruct (match _ with SFloat f => _ | SInt _ => _ | SList l => _ end); [|discriminate]. destruct (existsb _ _); [discriminate|].
    destruct (_ <? 1); [discriminate|]. inversion K0; subst. reflexivity. }
  rewrite U. split.
  - intros K. exists (Z.of_nat (n_unique yt)). apply below_unique. intros v Hv. specialize (K v Hv). specialize (Nn v Hv). lia.
  - intros [k K] v Hv. pose proof (n_unique_range _ _ K) as R. apply K in Hv. lia.
Qed.

(** Labels 0 and 2: a machine with two classes. *)
Theorem C119_refuted : exists h a xt yt m ep, trial_setup h a xt yt = Ok (m, ep) /\ (forall v, label yt v -> 0 <= v) /\
  exists v, label yt v /\ Z.of_nat (tm_ncls m) <= v.
Proof.
  exists (hp (VInt 4) from2to10 1 false), (mkAns 0 0 0 0 0 0), (d_x run_train), (run_y [0; 2; 0; 2; 0; 2]). do 2 eexists.
  split; [reflexivity|]. split.
  - unfold label. cbn. intros v [r [H1 H2]]. repeat (destruct H1 as [<-|H1]; [destruct H2 as [<-|[]]; lia|]). destruct H1.
  - exists 2. split; [exists [2]; cbn; auto|]. vm_compute. discriminate.
Qed.
Example C119_case : exists m ep, trial_setup (hp (VInt 4) from2to10 1 false) (mkAns 0 0 0 0 0 0) (d_x run_train) (d_y run_train) = Ok (m, ep) /\
  tm_ncls m = 2%nat /\ (forall v, label (d_y run_train) v -> 0 <= v).
Proof.
  do 2 eexists. split; [reflexivity|]. split; [reflexivity|].
  unfold label. cbn. intros v [r [H1 H2]]. repeat (destruct H1 as [<-|H1]; [destruct H2 as [<-|[]]; lia|]). destruct H1.
Qed.

Print Assumptions C117_spaces_partial.
Print Assumptions C117_reaches.
Print Assumptions C117_fixed_int_s_refuted.
Print Assumptions C117_no_data_refuted.
Print Assumptions C117_pair_s_refuted.
Print Assumptions C118_best.
Print Assumptions C118_completes_partial.
Print Assumptions C118_refuted.
Print Assumptions C118_aborts.
Print Assumptions C119_classes_partial.
Print Assumptions C119_refuted.
