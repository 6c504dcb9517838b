(** C23-C28, C38, C49, C56, C57: the trainer.  Every theorem holds for every
    [backend]: any machine, epoch function, score function, callback and fold
    assignment. *)
From Coq Require Import ZArith List Bool QArith Lia Permutation.
From Verif Require Import Base ModelMachine ProofsMachine ModelTrainer SpecTraining ProofsTrainer.
Import ListNotations.
Open Scope Z_scope.

(** ** A small backend for the examples

    The state is the list of everything the machine was trained on, newest
    epoch first; epoch number i gets score [nth i scores]. *)
Definition toy_seen := list (list (list Z * list Z)).
Definition toy (scores : list fl) : backend unit unit toy_seen toy_seen nat :=
  mkBk (fun _ => 2%nat) (fun _ => false) (fun m _ _ _ => (Ok tt, m))
       (fun _ _ st _ _ _ => Ok (match st with Some s => s | None => [] end))
       (fun d x => (Fin (1#2), examples d :: x)) (fun _ x => (length x, x)) (fun _ x => x)
       (fun _ p => Ok (nth (pred p) scores (Fin 0))) (fun _ _ _ => None)
       (fun k _ d => if k <? 1 then Raise ValueError else
                     Ok (map (fun j => Nat.modulo j (Z.to_nat k)) (seq 0 (length (x_rows (d_x d)))))).
Definition toy_x (rows : list (list Z)) : xarr := mkX KArray [length rows; 2%nat] true rows.
Definition toy_y (ys : list Z) : yarr := mkY [length ys] true (map (fun y => [y]) ys).
Definition toy_train : data := mkData (toy_x [[0;0];[0;1];[1;0]]) (toy_y [0;1;1]).
Definition toy_eval : data := mkData (toy_x [[1;1];[1;1]]) (toy_y [0;0]).
Definition toy_trainer (epochs : Z) (early : fl) (load : pyb) (folds : Z) : trainer unit toy_seen :=
  with_eval (Some toy_eval) (with_train (Some toy_train) (new_trainer 8 1 42 epochs early load folds tt None)).
Definition toy_scores := [Fin (1#4); Fin (3#4); Fin (1#2); Fin (3#4); Fin (1#8)].

Lemma pair_ex : forall (A B : Type) (p : A * B) a, fst p = a -> exists b, p = (a, b).
Proof. intros A B [x y] a H. exists y. cbn in H. now subst. Qed.

Lemma last_nth : forall (A : Type) (l : list A) d, last l d = nth (length l - 1) l d.
Proof.
  induction l as [|a l IH]; intros d; auto. destruct l as [|b l]; auto.
  change (last (a :: b :: l) d) with (last (b :: l) d). rewrite IH. cbn [length].
  replace (Datatypes.S (Datatypes.S (length l)) - 1)%nat with (Datatypes.S (length l)) by lia.
  replace (Datatypes.S (length l) - 1)%nat with (length l) by lia. reflexivity.
Qed.

(** ** C23 *)

Theorem C23_logs_and_best : forall (M C X S P : Type) (B : backend M C X S P) t o t',
  t_folds t <= 1 -> 1 <= t_epochs t -> train B t = (Ok o, t') ->
  exists dtrain deval m x0 n r, launched B t dtrain deval m x0 /\ (1 <= n <= Z.to_nat (t_epochs t))%nat /\
    o = Some r /\ t_results t' = Some r /\ reports B dtrain deval x0 n r.
Proof.
  intros M C X S P B t o t' F E H. apply train_no_folds in H; auto. destruct H as [H ->].
  apply train_inner_ok in H; auto. apply inner_reports in H.
  destruct H as [dt [de [m [x0 [n [r [H1 [H2 [H3 H4]]]]]]]]]. exists dt, de, m, x0, n, r. rewrite H3. auto.
Qed.

(** The same in plain terms, without naming the course of the run: one entry per
    epoch in both logs and the best values read off the evaluation log. *)
Theorem C23_best_of_log : forall (M C X S P : Type) (B : backend M C X S P) t r t',
  t_folds t <= 1 -> 1 <= t_epochs t -> train B t = (Ok (Some r), t') ->
  exists n, r_n_epochs r = Some (Z.of_nat n) /\ (1 <= n)%nat /\ Z.of_nat n <= t_epochs t /\
    length (r_tlog r) = n /\ length (r_elog r) = n /\
    (Exists (fun s => fl_lt (Fin (-1)) s) (r_elog r) ->
     exists b, first_best (r_elog r) b /\ r_best_epoch r = Some (Z.of_nat b) /\ r_best r = nth b (r_elog r) Fnan).
Proof.
  intros M C X S P B t r t' F E H. apply C23_logs_and_best in H; auto.
  destruct H as [dt [de [m [x0 [n [r' [_ [H2 [H3 [_ [R1 [R2 [R3 [_ R4]]]]]]]]]]]]]]. inversion H3; subst r'.
  exists n. split; [auto|]. split; [lia|]. split; [lia|]. rewrite R2, R3, !map_length, !seq_length.
  split; [auto|]. split; [auto|]. rewrite <- R3. intros X1. destruct R4 as [[b [A1 [A2 [A3 A4]]]]|[A1 _]]; eauto.
  exfalso. apply Exists_exists in X1. destruct X1 as [s [I1 I2]]. rewrite Forall_forall in A1. now apply (A1 s).
Qed.

Example C23_case : (exists t', train (toy toy_scores) (toy_trainer 5 (Fin 1) PTrue 1) =
  (Ok (Some (mkR (Fin (3#4)) (Some 1) (Some 5) (repeat (Fin (1#2)) 5) toy_scores (Some false) None)), t')) /\
  first_best toy_scores 1.
Proof.
  split; [apply pair_ex; vm_compute; reflexivity|]. unfold first_best, toy_scores. cbn [length]. split; [lia|].
  split; intros j Hj; do 5 (destruct j as [|j]; [unfold fl_le, fl_lt, fl_same, Qlt, Qeq; cbn; lia|]); lia.
Qed.

(** ** C24 *)

Theorem C24_early_exit : forall (M C X S P : Type) (B : backend M C X S P) t r t',
  t_folds t <= 1 -> 1 <= t_epochs t -> train B t = (Ok (Some r), t') ->
  exists n, length (r_elog r) = n /\ (1 <= n)%nat /\
    (forall i, (Datatypes.S i < n)%nat -> ~ fl_le (t_early t) (nth i (r_elog r) Fnan)) /\
    (r_early r = Some true /\ fl_le (t_early t) (nth (n - 1) (r_elog r) Fnan) \/
     r_early r = Some false /\ Z.of_nat n = t_epochs t /\ ~ fl_le (t_early t) (nth (n - 1) (r_elog r) Fnan)).
Proof.
  intros M C X S P B t r t' F E H. apply train_no_folds in H; auto. destruct H as [H O].
  apply train_inner_ok in H; auto.
  destruct H as [dt [de [m [x0 [n [r' [be [L [N [R [N1 [T1 [E1 [B1 [I [A1 [A2 _]]]]]]]]]]]]]]]]].
  rewrite R in O. inversion O; subst r'. exists n. rewrite E1, map_length, seq_length.
  split; [auto|]. split; [lia|]. split.
  - intros i Hi. rewrite nth_map_seq0 by lia. auto.
  - rewrite nth_map_seq0 by lia. destruct A2 as [[X1 [i [X2 X3]]]|[X1 [X2 X3]]]; [left|right].
    + split; auto. subst n. replace (Datatypes.S i - 1)%nat with i by lia. auto.
    + split; auto. split; [lia|]. apply X3. lia.
Qed.

Example C24_case : exists t', train (toy toy_scores) (toy_trainer 5 (Fin (1#2)) PTrue 1) =
  (Ok (Some (mkR (Fin (3#4)) (Some 1) (Some 2) (repeat (Fin (1#2)) 2) (firstn 2 toy_scores) (Some true) None)), t').
Proof. apply pair_ex. vm_compute. reflexivity. Qed.

(** ** C25 *)

(** [after (S b)]: the backend right after epoch [b] (counted from 0). *)
Theorem C25_best_state : forall (M C X S P : Type) (B : backend M C X S P) t r t' b,
  t_folds t <= 1 -> 1 <= t_epochs t -> train B t = (Ok (Some r), t') ->
  t_load t = PTrue -> r_best_epoch r = Some (Z.of_nat b) ->
  exists dtrain deval m x0, launched B t dtrain deval m x0 /\
    t_state t' = Some (bk_snap B m (after B dtrain deval x0 (Datatypes.S b))) /\
    score_of B dtrain deval x0 b = r_best r.
Proof.
  intros M C X S P B t r t' b F E H Ld Be. apply train_no_folds in H; auto. destruct H as [H O].
  apply train_inner_ok in H; auto.
  destruct H as [dt [de [m [x0 [n [r' [be [L [N [R [N1 [T1 [E1 [B1 [I [A1 [A2 [A3 _]]]]]]]]]]]]]]]]]].
  rewrite R in O. inversion O; subst r'. rewrite B1 in Be. inversion Be; subst be. rewrite Ld in *. cbn [is_true truthy] in *.
  exists dt, de, m, x0. split; [auto|].
  destruct I as [[H1 _]|[c [H1 [H2 [H3 [H4 [H5 [H6 H7]]]]]]]]; [lia|]. apply Nat2Z.inj in H1. subst c.
  rewrite A3, H7. auto.
Qed.

Theorem C25_last_state : forall (M C X S P : Type) (B : backend M C X S P) t r t',
  t_folds t <= 1 -> 1 <= t_epochs t -> train B t = (Ok (Some r), t') -> t_load t <> PTrue ->
  exists dtrain deval m x0 n, launched B t dtrain deval m x0 /\ r_n_epochs r = Some (Z.of_nat n) /\
    t_state t' = Some (bk_snap B m (after B dtrain deval x0 n)).
Proof.
  intros M C X S P B t r t' F E H Ld. apply train_no_folds in H; auto. destruct H as [H O].
  apply train_inner_ok in H; auto.
  destruct H as [dt [de [m [x0 [n [r' [be [L [N [R [N1 [T1 [E1 [B1 [I [A1 [A2 [A3 _]]]]]]]]]]]]]]]]]].
  rewrite R in O. inversion O; subst r'. exists dt, de, m, x0, n. split; [auto|]. split; [auto|].
  rewrite A3. destruct (t_load t); [congruence| |]; auto.
Qed.

(** Outside the claim: when no score exceeds -1, load_best_state installs what an
    earlier call left in _best_tm_state (None on a first call: the machine then
    has no state at all after training). *)
Theorem C25_no_score : forall (M C X S P : Type) (B : backend M C X S P) t r t',
  t_folds t <= 1 -> 1 <= t_epochs t -> train B t = (Ok (Some r), t') -> t_load t = PTrue ->
  r_best_epoch r = Some (-1) -> t_state t' = t_best t.
Proof.
  intros M C X S P B t r t' F E H Ld Be. apply train_no_folds in H; auto. destruct H as [H O].
  apply train_inner_ok in H; auto.
  destruct H as [dt [de [m [x0 [n [r' [be [L [N [R [N1 [T1 [E1 [B1 [I [A1 [A2 [A3 _]]]]]]]]]]]]]]]]]].
  rewrite R in O. inversion O; subst r'. rewrite Ld in *. cbn [is_true] in *. rewrite A3.
  destruct I as [[H1 [H2 [H3 H4]]]|[c [H1 _]]]; auto. rewrite B1 in Be. inversion Be. lia.
Qed.

Example C25_case : match train (toy toy_scores) (toy_trainer 5 (Fin 1) PTrue 1) with
  | (Ok (Some r), t') => r_best_epoch r = Some 1 /\ t_state t' = Some [examples toy_train; examples toy_train]
  | _ => False end.
Proof. vm_compute. repeat split. Qed.
Example C25_case_last : match train (toy toy_scores) (toy_trainer 5 (Fin 1) PFalsy 1) with
  | (Ok (Some r), t') => t_state t' = Some (repeat (examples toy_train) 5)
  | _ => False end.
Proof. vm_compute. repeat split. Qed.
Example C25_case_no_score : match train (toy [Fin (-2); Fnan]) (toy_trainer 2 (Fin 1) PTrue 1) with
  | (Ok (Some r), t') => r_best_epoch r = Some (-1) /\ t_state t' = None
  | _ => False end.
Proof. vm_compute. repeat split. Qed.

(** ** C26 *)

(** What scikit-learn promises about a split into [k] parts: every example is in
    one of the parts 0..k-1. *)
Definition splits {M C X S P} (B : backend M C X S P) : Prop :=
  forall k seed d folds, bk_assign B k seed d = Ok folds ->
    length folds = length (x_rows (d_x d)) /\ Forall (fun f => (f < Z.to_nat k)%nat) folds.

Theorem C26_folds : forall (M C X S P : Type) (B : backend M C X S P) t a b o t',
  splits B -> t_train t = Some a -> t_eval t = Some b -> data_wf a -> data_wf b ->
  1 < t_folds t -> 1 <= t_epochs t -> train B t = (Ok o, t') ->
  exists (runs : list (fold_run M S)) r, o = Some r /\ t_results t' = Some r /\ r_k r = Some (t_folds t) /\
    Z.of_nat (length runs) = t_folds t /\
    (* every fold is a training run of its own, on examples that together with
       its validation examples are all examples, each once *)
    (forall u, In u runs ->
       Permutation (trained_on u ++ validated_on u) (examples a ++ examples b) /\
       exists dtrain deval m x0 n, launched B (fr_before u) dtrain deval m x0 /\
         (1 <= n <= Z.to_nat (t_epochs t))%nat /\ reports B dtrain deval x0 n (fr_results u)) /\
    (* the validation sets partition the examples *)
    Permutation (flat_map validated_on runs) (examples a ++ examples b) /\
    (* logs in fold order *)
    r_tlog r = flat_map (fun u => r_tlog (fr_results u)) runs /\
    r_elog r = flat_map (fun u => r_elog (fr_results u)) runs /\
    (* best over the folds *)
    (forall u, In u runs -> ~ fl_lt (r_best r) (r_best (fr_results u))) /\
    (r_best r = Fin (-1) \/ exists u, In u runs /\ r_best r = r_best (fr_results u)).
Proof.
  intros M C X S P B t a b o t' Sp Ha Hb Wa Wb F E H. apply train_folds in H; auto.
  destruct H as [a' [b' [all [folds [runs [t1 [best [r [H1 [H2 [H3 [H4 [H5 [H6 [H7 [H8 [H9 H10]]]]]]]]]]]]]]]]].
  rewrite Ha in H1. inversion H1; subst a'. rewrite Hb in H2. inversion H2; subst b'.
  destruct (stack_examples a b all Wa Wb H3) as [S1 S2]. destruct (Sp _ _ _ _ H4) as [Q1 Q2].
  assert (RO : forall u, In u runs -> exists i, run_ok B all folds i u).
  { intros u Hu. apply In_nth_error in Hu. destruct Hu as [i Hi].
    destruct (Forall2_nth_l _ _ _ _ _ _ _ H5 Hi) as [j [_ J]]. eauto. }
  assert (CF : forall u, In u runs -> same_config t (fr_before u)).
  { apply (linked_config M C X S P B runs t t1 H6). intros u Hu. destruct (RO u Hu) as [i [_ [R _]]]. eauto. }
  destruct (best_of_spec _ _ runs (Fin (-1))) as [B1 [B2 B3]].
  exists runs, r. split; [auto|]. split; [now rewrite H9|]. split; [now rewrite H10|].
  split; [apply Forall2_same_length in H5; rewrite seq_length in H5; lia|].
  split; [|split; [|split; [|split; [|split]]]].
  - intros u Hu. destruct (RO u Hu) as [i R]. split.
    + rewrite <- S1. apply (fold_cover M C X S P B all folds S2 Q1 i u R).
    + destruct R as [_ [R1 R2]]. specialize (CF u Hu). destruct CF as [_ [_ [C3 _]]].
      apply train_inner_ok in R1; [|lia]. apply inner_reports in R1.
      destruct R1 as [dt [de [m [x0 [n [r' [L1 [L2 [L3 L4]]]]]]]]]. rewrite R2 in L3. inversion L3; subst r'.
      exists dt, de, m, x0, n. rewrite C3 in L2. auto.
  - rewrite <- S1. apply (folds_partition M C X S P B all folds S2 Q1 _ runs Q2 H5).
  - rewrite H10. cbn. now rewrite flat_map_concat_map.
  - rewrite H10. cbn. now rewrite flat_map_concat_map.
  - intros u Hu. rewrite H10, H7. apply B1. auto.
  - rewrite H10, H7. cbn [r_best]. destruct B3 as [B3|[u [U1 [U2 U3]]]]; eauto.
Qed.

Lemma toy_splits : forall sc, splits (toy sc).
Proof.
  intros sc k seed d folds H. cbn in H. destruct (Z.ltb_spec k 1); [discriminate|]. inversion H.
  split; [now rewrite map_length, seq_length|].
  apply Forall_forall. intros f Hf. apply in_map_iff in Hf. destruct Hf as [j [<- Hj]]. apply Nat.mod_upper_bound. lia.
Qed.

Example C26_case : splits (toy toy_scores) /\ data_wf toy_train /\ data_wf toy_eval /\
  exists t', train (toy toy_scores) (toy_trainer 2 (Fin 1) PFalsy 2) =
    (Ok (Some (mkR (Fin (3#4)) None None (repeat (Fin (1#2)) 4) [Fin (1#4); Fin (3#4); Fin (1#2); Fin (3#4)] None (Some 2))), t').
Proof.
  split; [apply toy_splits|]. split; [exists 3%nat, 2%nat, []; repeat split|].
  split; [exists 2%nat, 2%nat, []; repeat split|]. apply pair_ex. vm_compute. reflexivity.
Qed.

(** ** C27 *)

Theorem C27_n_jobs_partial : forall cpus n_jobs,
  (1 <= n_jobs -> resolve_n_jobs cpus n_jobs = n_jobs) /\
  (n_jobs = 0 -> resolve_n_jobs cpus n_jobs = 1) /\
  (forall left_out, n_jobs = - (left_out + 1) -> 0 <= left_out < cpus ->
     resolve_n_jobs cpus n_jobs = cpus - left_out /\ 1 <= resolve_n_jobs cpus n_jobs <= cpus).
Proof.
  intros cpus n_jobs. unfold resolve_n_jobs.
  split; [|split]; intros; destruct (Z.ltb_spec n_jobs 0); try lia; destruct (Z.eqb_spec n_jobs 0); try lia; lia.
Qed.

(** Missing in the code: a request below -cpus is neither rejected nor clamped.
    The constructor stores a count below 1, and training without explicit block
    sizes then raises. *)
Theorem C27_not_clamped_refuted : forall cpus n_jobs, n_jobs < - cpus -> 0 <= cpus ->
  resolve_n_jobs cpus n_jobs < 1 /\
  forall seed t, tm_sizes t = None -> exists e t', train_start (resolve_n_jobs cpus n_jobs) seed t = (Raise e, t').
Proof.
  intros cpus n_jobs H Hc.
  assert (K : resolve_n_jobs cpus n_jobs < 1).
  { unfold resolve_n_jobs. destruct (Z.ltb_spec n_jobs 0); lia. }
  split; auto. intros seed t Hs. unfold train_start. rewrite Hs.
  set (j := resolve_n_jobs cpus n_jobs) in *. clearbody j.
  pose proof (set_blocks_int j t) as B. destruct (set_num_clause_blocks (BInt j) t) as [[u|e] t1]; [|eauto].
  exfalso. destruct B as [B1 B2]. destruct u. pose proof (proj1 B1 eq_refl). lia.
Qed.

Example C27_case : resolve_n_jobs 8 (-1) = 8 /\ resolve_n_jobs 8 (-2) = 7 /\ resolve_n_jobs 8 (-8) = 1 /\
  resolve_n_jobs 8 3 = 3 /\ resolve_n_jobs 8 0 = 1 /\ resolve_n_jobs 8 (-9) = 0 /\ resolve_n_jobs 8 (-10) = -1.
Proof. repeat split. Qed.

(** ** C28 *)

(** The documented conditions: [x] is an array of uint8 with [nlit] columns, [y]
    an array of uint32 with as many entries as [x] has rows, [x] is a dense array
    or a csr matrix, the same as what is set on the other side, and no dense
    array for a sparse machine. *)
Definition documented (nlit : nat) (sparse_machine : bool) (other : option xarr) (x : xarr) (y : yarr) : Prop :=
  (exists rows rest, x_shape x = rows :: nlit :: rest /\
     (y_shape y = [] /\ rows = 1%nat \/ exists yrest, y_shape y = rows :: yrest)) /\
  x_u8 x = true /\ y_u32 y = true /\
  x_kind x <> KOther /\
  (forall o, other = Some o -> x_kind o = x_kind x) /\
  (x_kind x = KArray -> sparse_machine = false).

Lemma check_data_documented : forall nlit sp other x y,
  x_kind x <> KOther -> (forall o, other = Some o -> x_kind o <> KOther) ->
  ((exists d, check_data nlit sp other (Some x) y = Ok d) <-> documented nlit sp other x y).
Proof.
  intros nlit sp other x y Kx Ko. unfold check_data, documented.
  set (oa := match other with Some v => is_array v | None => false end).
  set (oc := match other with Some v => is_csr v | None => false end).
  assert (KA : is_array x = negb (is_csr x)). { unfold is_array, is_csr. destruct (x_kind x); solve [auto | congruence]. }
  split.
  - intros [d H].
    destruct (oa && negb (is_array x)) eqn:G1; [discriminate|].
    destruct (negb oa && oc && negb (is_csr x)) eqn:G2; [discriminate|].
    destruct (is_array x && sp) eqn:G3; [discriminate|].
    destruct (x_shape x) as [|rx cols]; [discriminate|].
    destruct (y_shape (atleast_1d y)) as [|ry yr] eqn:Y; [discriminate|].
    destruct (Nat.eqb_spec rx ry); [|discriminate]. cbn [negb] in H.
    destruct (x_u8 x); [|discriminate]. destruct (y_u32 (atleast_1d y)) eqn:Y3; [|discriminate]. cbn [negb] in H.
    destruct cols as [|c rest]; [discriminate|]. destruct (Nat.eqb_spec c nlit); [|discriminate]. subst c ry.
    split; [|split; [|split; [|split; [|split]]]]; auto.
    + exists rx, rest. split; auto. unfold atleast_1d in Y. destruct (y_shape y) eqn:Y2; cbn in Y.
      * left. split; auto. congruence.
      * right. rewrite Y2 in Y. inversion Y; subst. eauto.
    + unfold atleast_1d in Y3. destruct (y_shape y); auto.
    + intros o Ho. subst other. unfold oa, oc, is_array, is_csr in *. specialize (Ko o eq_refl).
      destruct (x_kind o), (x_kind x); try congruence; discriminate.
    + intros Q. unfold is_array in G3. rewrite Q in G3. destruct sp; auto.
  - intros [[rx [rest [Sx Sy]]] [U8 [U32 [_ [Ot Sp]]]]].
    assert (G1 : oa && negb (is_array x) = false).
    { unfold oa, is_array. destruct other as [o|]; auto. rewrite (Ot o eq_refl). destruct (x_kind x); auto. }
    assert (G2 : negb oa && oc && negb (is_csr x) = false).
    { unfold oa, oc, is_array, is_csr. destruct other as [o|]; auto. rewrite (Ot o eq_refl). destruct (x_kind x); auto. }
    assert (G3 : is_array x && sp = false).
    { unfold is_array. destruct (x_kind x); cbn; auto. }
    rewrite G1, G2, G3, Sx. unfold atleast_1d.
    assert (Y : exists yr, y_shape match y_shape y with [] => mkY [1%nat] (y_u32 y) (y_rows y) | _ :: _ => y end = rx :: yr).
    { destruct Sy as [[Sy R]|[yr Sy]]; rewrite Sy; cbn; [subst|]; eauto. }
    destruct Y as [yr Y]. rewrite Y, Nat.eqb_refl. cbn [negb]. rewrite U8. cbn [negb].
    assert (Y2 : y_u32 match y_shape y with [] => mkY [1%nat] (y_u32 y) (y_rows y) | _ :: _ => y end = true) by (destruct (y_shape y); auto).
    rewrite Y2, Nat.eqb_refl. cbn [negb]. eauto.
Qed.

(** With dense arrays and csr matrices only, the documented conditions decide. *)
Theorem C28_acceptance_partial : forall (M C X S P : Type) (B : backend M C X S P) t x y,
  x_kind x <> KOther ->
  (forall d, t_train t = Some d \/ t_eval t = Some d -> x_kind (d_x d) <> KOther) ->
  (fst (set_train_data B (Some x) y t) = Ok tt <->
   documented (bk_nlit B (t_m t)) (bk_sparse_cb B (t_m t)) (option_map d_x (t_eval t)) x y) /\
  (fst (set_eval_data B (Some x) y t) = Ok tt <->
   documented (bk_nlit B (t_m t)) (bk_sparse_cb B (t_m t)) (option_map d_x (t_train t)) x y).
Proof.
  intros M C X S P B t x y Kx Kd. unfold set_train_data, set_eval_data. split.
  - rewrite <- check_data_documented; auto.
    + destruct (check_data _ _ _ _ _); cbn; split; [eauto|auto|discriminate|intros [? ?]; discriminate].
    + intros o Ho. destruct (t_eval t) eqn:E; [|discriminate]. inversion Ho; subst. apply Kd. auto.
  - rewrite <- check_data_documented; auto.
    + destruct (check_data _ _ _ _ _); cbn; split; [eauto|auto|discriminate|intros [? ?]; discriminate].
    + intros o Ho. destruct (t_train t) eqn:E; [|discriminate]. inversion Ho; subst. apply Kd. auto.
Qed.

(** A rejected call changes nothing; an accepted one sets its own side only, to
    exactly the data given. *)
Theorem C28_effect : forall (M C X S P : Type) (B : backend M C X S P) t x y,
  (forall e t', set_train_data B x y t = (Raise e, t') -> t' = t) /\
  (forall e t', set_eval_data B x y t = (Raise e, t') -> t' = t) /\
  (forall t', set_train_data B x y t = (Ok tt, t') -> exists v, x = Some v /\ t' = with_train (Some (mkData v (atleast_1d y))) t) /\
  (forall t', set_eval_data B x y t = (Ok tt, t') -> exists v, x = Some v /\ t' = with_eval (Some (mkData v (atleast_1d y))) t).
Proof.
  intros M C X S P B t x y.
  assert (K : forall nl sp o d, check_data nl sp o x y = Ok d -> exists v, x = Some v /\ d = mkData v (atleast_1d y)).
  { intros nl sp o d H. destruct x as [v|]; [apply check_data_ok in H; eauto|]. exfalso. unfold check_data in H.
    repeat match type of H with (if ?b then _ else _) = _ => destruct b end; discriminate. }
  unfold set_train_data, set_eval_data.
  split; [|split; [|split]]; intros; destruct (check_data _ _ _ _ _) eqn:E; inversion H; subst; auto;
    apply K in E; destruct E as [v [-> ->]]; eauto.
Qed.

(** Not rejected: another kind of matrix (a coo_matrix) when the other side is not
    set yet, and then anything on the other side. *)
Theorem C28_other_kinds_refuted : exists t (B : backend unit unit toy_seen toy_seen nat) x1 x2 y,
  x_kind x1 = KOther /\ x_kind x2 = KArray /\
  fst (set_train_data B (Some x1) y t) = Ok tt /\
  fst (set_eval_data B (Some x2) y (snd (set_train_data B (Some x1) y t))) = Ok tt.
Proof.
  exists (new_trainer 8 1 42 1 (Fin 1) PTrue 1 tt None), (toy []), (mkX KOther [1;2]%nat true [[0;1]]), (toy_x [[0;1]]), (toy_y [1]).
  repeat split.
Qed.

(** Such a mixture never trains: the kinds are compared again. *)
Theorem C28_mixture_does_not_train : forall (M C X S P : Type) (B : backend M C X S P) t o t',
  t_folds t <= 1 -> train B t = (Ok o, t') ->
  exists a b, t_train t = Some a /\ t_eval t = Some b /\ x_kind (d_x a) = x_kind (d_x b) /\ x_kind (d_x a) <> KOther.
Proof.
  intros M C X S P B t o t' F H. apply train_no_folds in H; auto. destruct H as [H _]. unfold train_inner in H.
  destruct (t_train t) as [a|]; [|discriminate]. destruct (t_eval t) as [b|]; [|discriminate].
  destruct (kinds_match (Some a) (Some b)) eqn:K; [|discriminate]. exists a, b. split; [auto|]. split; [auto|].
  cbn in K. unfold is_csr, is_array in K. destruct (x_kind (d_x a)), (x_kind (d_x b)); cbn in K; split; congruence.
Qed.

Example C28_case :
  documented 2 false (Some (toy_x [[1;1]])) (toy_x [[0;0];[0;1]]) (toy_y [0;1]) /\
  ~ documented 2 false (Some (mkX KCsr [1;2]%nat true [[1]])) (toy_x [[0;0];[0;1]]) (toy_y [0;1]) /\
  ~ documented 2 false None (toy_x [[0;0];[0;1]]) (toy_y [0;1;1]).
Proof.
  split; [|split].
  - unfold documented. cbn. split; [|split; [|split; [|split; [|split]]]]; auto; try discriminate.
    + exists 2%nat, []. split; auto. right. exists []. auto.
    + intros o H. inversion H. reflexivity.
  - intros [_ [_ [_ [_ [H _]]]]]. specialize (H _ eq_refl). discriminate.
  - intros [[r [rest [H1 [[H2 _]|[yr H2]]]]] _]; cbn in *; congruence.
Qed.

(** ** C38 *)

(** A trial returns the last evaluation score of its run, and that need not be
    the best one. *)
Theorem C38_best_refuted : exists (B : backend unit unit toy_seen toy_seen nat) x y xe ye s best,
  objective B 8 1 42 5 1 tt (Some x) y (Some xe) ye = Ok s /\
  (exists t' r, train B (toy_trainer 5 (Fin 1) PTrue 1) = (Ok (Some r), t') /\ r_best r = best) /\
  (x, y, xe, ye) = (d_x toy_train, d_y toy_train, d_x toy_eval, d_y toy_eval) /\
  fl_lt s best.
Proof.
  exists (toy toy_scores), (d_x toy_train), (d_y toy_train), (d_x toy_eval), (d_y toy_eval), (Fin (1#8)), (Fin (3#4)).
  split; [vm_compute; reflexivity|]. split; [|split; [reflexivity|]].
  { destruct (pair_ex _ _ (train (toy toy_scores) (toy_trainer 5 (Fin 1) PTrue 1))
      (Ok (Some (mkR (Fin (3#4)) (Some 1) (Some 5) (repeat (Fin (1#2)) 5) toy_scores (Some false) None)))) as [t' H];
      [vm_compute; reflexivity|]. eauto. }
  unfold fl_lt, Qlt. cbn. lia.
Qed.

(** What holds: the value is the score of the last epoch of the trial's run, and
    it is the best one when the run stopped early. *)
Theorem C38_last_score_partial : forall (M C X S P : Type) (B : backend M C X S P) cpus n_jobs seed n m x y xe ye s,
  1 <= n -> objective B cpus n_jobs seed n 1 m x y xe ye = Ok s ->
  exists t r t', train B t = (Ok (Some r), t') /\ t_state t = None /\ t_epochs t = n /\
    r_elog r <> [] /\ s = last (r_elog r) Fnan /\
    (r_early r = Some true -> forall v, In v (r_elog r) -> ~ fl_lt s v).
Proof.
  intros M C X S P B cpus n_jobs seed n m x y xe ye s Hn H. unfold objective in H.
  set (t0 := new_trainer cpus n_jobs seed n (Fin 1) PTrue 1 m None) in *.
  destruct (C28_effect M C X S P B t0 x y) as [_ [_ [E1 _]]].
  destruct (set_train_data B x y t0) as [[[]|e] t1]; [|discriminate].
  destruct (E1 t1 eq_refl) as [v1 [_ T1]].
  destruct (C28_effect M C X S P B t1 xe ye) as [_ [_ [_ E2]]].
  destruct (set_eval_data B xe ye t1) as [[[]|e] t2]; [|discriminate].
  destruct (E2 t2 eq_refl) as [v2 [_ T2]].
  destruct (train B t2) as [[o|e] t3] eqn:T; [|discriminate].
  assert (F : t_folds t2 = 1) by (rewrite T2, T1; reflexivity).
  assert (E : t_epochs t2 = n) by (rewrite T2, T1; reflexivity).
  assert (EE : t_early t2 = Fin 1) by (rewrite T2, T1; reflexivity).
  pose proof T as T'. apply train_no_folds in T'; [|lia]. destruct T' as [_ O].
  destruct (t_results t3) as [r|]; [|discriminate]. subst o.
  exists t2, r, t3. split; [auto|]. split; [rewrite T2, T1; reflexivity|]. split; [auto|].
  assert (L : s = last (r_elog r) Fnan /\ r_elog r <> []).
  { destruct (rev (r_elog r)) as [|z zs] eqn:R; [discriminate|]. inversion H; subst z.
    assert (Q : r_elog r = rev zs ++ [s]) by (rewrite <- (rev_involutive (r_elog r)), R; reflexivity).
    rewrite Q. rewrite last_last. split; auto. now destruct (rev zs). }
  destruct L as [L1 L2]. split; [auto|]. split; [auto|].
  intros Ex v Hv. apply C24_early_exit in T; [|lia|lia]. destruct T as [k [K1 [K2 [K3 K4]]]].
  apply (In_nth _ _ Fnan) in Hv. destruct Hv as [i [Hi <-]].
  assert (Ls : s = nth (k - 1) (r_elog r) Fnan) by (rewrite L1, <- K1; apply last_nth).
  destruct (Nat.eq_dec (Datatypes.S i) k) as [Q|Q].
  - rewrite Ls. replace (k - 1)%nat with i by lia. apply fl_lt_irrefl.
  - intros Hlt. destruct K4 as [[_ K4]|[K4 _]]; [|congruence].
    apply (K3 i ltac:(lia)). rewrite EE in *. left. rewrite Ls in Hlt. eapply fl_le_lt_trans; eauto.
Qed.

Example C38_case : objective (toy [Fin (1#4); Fin 1; Fin (1#2)]) 8 1 42 5 1 tt
    (Some (d_x toy_train)) (d_y toy_train) (Some (d_x toy_eval)) (d_y toy_eval) = Ok (Fin 1).
Proof. vm_compute. reflexivity. Qed.

(** ** C49 *)

(** Every fold but the first starts from the state the fold before it left, and
    that fold trained on every one of its validation examples: for every backend,
    data set and k. *)
Theorem C49_folds_share_state_refuted : forall (M C X S P : Type) (B : backend M C X S P) t a b o t',
  splits B -> t_train t = Some a -> t_eval t = Some b -> data_wf a -> data_wf b ->
  1 < t_folds t -> 1 <= t_epochs t -> train B t = (Ok o, t') ->
  exists runs : list (fold_run M S), Z.of_nat (length runs) = t_folds t /\
    Permutation (flat_map validated_on runs) (examples a ++ examples b) /\
    forall i u v, nth_error runs i = Some u -> nth_error runs (Datatypes.S i) = Some v ->
      train_inner B (fr_before u) = (Ok tt, fr_after u) /\ train_inner B (fr_before v) = (Ok tt, fr_after v) /\
      t_state (fr_before v) = t_state (fr_after u) /\
      incl (validated_on v) (trained_on u).
Proof.
  intros M C X S P B t a b o t' Sp Ha Hb Wa Wb F E H. apply train_folds in H; auto.
  destruct H as [a' [b' [all [folds [runs [t1 [best [r [H1 [H2 [H3 [H4 [H5 [H6 [H7 [H8 [H9 H10]]]]]]]]]]]]]]]]].
  rewrite Ha in H1. inversion H1; subst a'. rewrite Hb in H2. inversion H2; subst b'.
  destruct (stack_examples a b all Wa Wb H3) as [S1 S2]. destruct (Sp _ _ _ _ H4) as [Q1 Q2].
  exists runs. split; [apply Forall2_same_length in H5; rewrite seq_length in H5; lia|].
  split; [rewrite <- S1; apply (folds_partition M C X S P B all folds S2 Q1 _ runs Q2 H5)|].
  intros i u v Hu Hv.
  destruct (Forall2_nth_l _ _ _ _ _ _ _ H5 Hu) as [iu [Iu Ru]]. destruct (Forall2_nth_l _ _ _ _ _ _ _ H5 Hv) as [iv [Iv Rv]].
  apply nth_error_seq0 in Iu. destruct Iu as [-> _]. apply nth_error_seq0 in Iv. destruct Iv as [-> _].
  split; [apply Ru|]. split; [apply Rv|]. split; [eapply linked_next; eauto|].
  destruct (fold_train M C X S P B all folds S2 i u Ru) as [E1 _].
  destruct (fold_train M C X S P B all folds S2 _ v Rv) as [_ E2]. rewrite E1, E2. apply fold_leak. lia.
Qed.

(** What does hold: no epoch of a fold trains on that fold's own validation
    positions, and the first fold starts from the state train() was called with. *)
Theorem C49_first_fold_partial : forall (M C X S P : Type) (B : backend M C X S P) t a b o t',
  splits B -> t_train t = Some a -> t_eval t = Some b -> data_wf a -> data_wf b ->
  1 < t_folds t -> 1 <= t_epochs t -> train B t = (Ok o, t') ->
  exists (u : fold_run M S) rest, 
    Permutation (trained_on u ++ validated_on u) (examples a ++ examples b) /\
    t_state (fr_before u) = t_state t /\ train_inner B (fr_before u) = (Ok tt, fr_after u) /\
    Z.of_nat (length (u :: rest)) = t_folds t /\
    Permutation (flat_map validated_on (u :: rest)) (examples a ++ examples b).
Proof.
  intros M C X S P B t a b o t' Sp Ha Hb Wa Wb F E H. apply train_folds in H; auto.
  destruct H as [a' [b' [all [folds [runs [t1 [best [r [H1 [H2 [H3 [H4 [H5 [H6 [H7 [H8 [H9 H10]]]]]]]]]]]]]]]]].
  rewrite Ha in H1. inversion H1; subst a'. rewrite Hb in H2. inversion H2; subst b'.
  destruct (stack_examples a b all Wa Wb H3) as [S1 S2]. destruct (Sp _ _ _ _ H4) as [Q1 Q2].
  assert (L : length runs = Z.to_nat (t_folds t)) by (apply Forall2_same_length in H5; rewrite seq_length in H5; lia).
  destruct runs as [|u rest]; [cbn in L; lia|]. exists u, rest.
  destruct (Forall2_nth_l _ _ _ _ _ O u H5 eq_refl) as [j [_ R]].
  split; [rewrite <- S1; eapply fold_cover; eauto|]. split; [apply H6|]. split; [apply R|].
  split; [rewrite L; lia|]. rewrite <- S1. apply (folds_partition M C X S P B all folds S2 Q1 _ _ Q2 H5).
Qed.

(** With the backend that records its training examples: the state two folds
    leave behind lists the examples of the second fold's epoch, then those of the
    first fold's epoch - and the latter are exactly the two examples the second
    fold was validated on. *)
Example C49_case :
  t_state (snd (train (toy toy_scores) (toy_trainer 1 (Fin 1) PFalsy 2))) =
    Some [[([0;0],[0]); ([1;0],[1]); ([1;1],[0])]; [([0;1],[1]); ([1;1],[0])]] /\
  option_map (fun d => examples d) (t_eval (snd (train (toy toy_scores) (toy_trainer 1 (Fin 1) PFalsy 2)))) =
    Some [([0;1],[1]); ([1;1],[0])].
Proof. vm_compute. repeat split. Qed.

(** ** C56 *)

(** train() without folds that ends in an exception (bad data, a failing score
    function or callback, ...) changes neither the machine's state nor the results
    of the last successful call, nor data and settings. *)
Theorem C56_failed_train : forall (M C X S P : Type) (B : backend M C X S P) t e t',
  t_folds t <= 1 -> train B t = (Raise e, t') ->
  t_state t' = t_state t /\ t_results t' = t_results t /\
  t_train t' = t_train t /\ t_eval t' = t_eval t /\
  t_n_jobs t' = t_n_jobs t /\ t_seed t' = t_seed t /\ t_epochs t' = t_epochs t /\ t_early t' = t_early t /\
  t_load t' = t_load t /\ t_folds t' = t_folds t.
Proof.
  intros M C X S P B t e t' F H. apply train_no_folds_fail in H; auto. apply train_inner_fail in H.
  unfold same_config, same_data in H. tauto.
Qed.

(** With folds the claim fails: the trainer keeps the data of the fold that failed
    and the state of the folds before it. *)
Theorem C56_folds_refuted : exists (B : backend unit unit toy_seen toy_seen nat) t e t',
  train B t = (Raise e, t') /\ 1 < t_folds t /\ t_state t' <> t_state t /\ t_train t' <> t_train t.
Proof.
  set (B := mkBk (bk_nlit (toy [])) (bk_sparse_cb (toy [])) (bk_construct (toy [])) (bk_launch (toy []))
       (bk_train_epoch (toy [])) (bk_evaluate (toy [])) (bk_snap (toy []))
       (fun _ p => if Nat.eqb p 2 then Raise ValueError else Ok (Fin (1#2))) (bk_callback (toy [])) (bk_assign (toy []))).
  exists B, (toy_trainer 1 (Fin 1) PFalsy 2), ValueError, (snd (train B (toy_trainer 1 (Fin 1) PFalsy 2))).
  split; [vm_compute; reflexivity|]. split; [reflexivity|]. split; vm_compute; discriminate.
Qed.

Example C56_case :
  let B := mkBk (bk_nlit (toy [])) (bk_sparse_cb (toy [])) (bk_construct (toy [])) (bk_launch (toy []))
       (bk_train_epoch (toy [])) (bk_evaluate (toy [])) (bk_snap (toy []))
       (bk_score (toy [])) (fun i _ _ => if Nat.eqb i 2 then Some RuntimeError else None) (bk_assign (toy [])) in
  fst (train B (with_state (Some []) (toy_trainer 5 (Fin 1) PFalsy 1))) = Raise RuntimeError /\
  t_state (snd (train B (with_state (Some []) (toy_trainer 5 (Fin 1) PFalsy 1)))) = Some [].
Proof. vm_compute. repeat split. Qed.

(** ** C57 *)

(** With at least one epoch, train() returns the report of this very call
    (previous results and the previously stored best score play no part). *)
Theorem C57_fresh_results_partial : forall (M C X S P : Type) (B : backend M C X S P) t o t' old,
  t_folds t <= 1 -> 1 <= t_epochs t -> train B t = (Ok o, t') ->
  fst (train B (with_results old t)) = Ok o /\ o <> None.
Proof.
  intros M C X S P B t o t' old F E H. pose proof H as H0. apply C23_logs_and_best in H; auto.
  destruct H as [dt [de [m [x0 [n [r [_ [_ [Ho _]]]]]]]]]. split; [|congruence].
  unfold train in *. cbn [t_folds with_results]. rewrite Z.gtb_ltb in *. destruct (Z.ltb_spec 1 (t_folds t)); [lia|].
  unfold train_inner in *. cbn [with_results t_train t_eval t_m t_n_jobs t_seed] in *.
  destruct (t_train t) as [a|]; [|discriminate]. destruct (t_eval t) as [b|]; [|discriminate].
  destruct (negb _); [discriminate|].
  destruct (bk_construct B (t_m t) (t_n_jobs t) (t_seed t) a) as [[cbs|e] m']; [|discriminate].
  cbn [with_m with_results t_epochs t_state t_n_jobs t_seed t_early t_load t_best] in *.
  destruct (Z.ltb_spec (t_epochs t) 1); [lia|].
  destruct (bk_launch _ _ _ _ _ _ _) as [xx|e]; [|discriminate].
  destruct (epochs _ _ _ _ _ _ _ _ _ _) as [[e|] l]; [discriminate|]. inversion H0. reflexivity.
Qed.

(** With no epoch to run, the results of an earlier call are returned again. *)
Theorem C57_no_epochs_refuted : forall (M C X S P : Type) (B : backend M C X S P) t o t',
  t_folds t <= 1 -> t_epochs t < 1 -> train B t = (Ok o, t') -> o = t_results t.
Proof.
  intros M C X S P B t o t' F E H. apply train_no_folds in H; auto. destruct H as [H ->].
  apply train_inner_no_epochs in H; auto. apply H.
Qed.

Example C57_case : forall r, fst (train (toy []) (with_results (Some r) (toy_trainer 0 (Fin 1) PTrue 1))) = Ok (Some r).
Proof. intros r. vm_compute. reflexivity. Qed.
Example C57_case_fresh : forall old, fst (train (toy toy_scores) (with_results old (toy_trainer 2 (Fin 1) PTrue 1))) =
  Ok (Some (mkR (Fin (3#4)) (Some 1) (Some 2) (repeat (Fin (1#2)) 2) (firstn 2 toy_scores) (Some false) None)).
Proof. intros old. vm_compute. reflexivity. Qed.

Print Assumptions C23_logs_and_best.
Print Assumptions C23_best_of_log.
Print Assumptions C24_early_exit.
Print Assumptions C25_best_state.
Print Assumptions C25_last_state.
Print Assumptions C25_no_score.
Print Assumptions C26_folds.
Print Assumptions C27_n_jobs_partial.
Print Assumptions C27_not_clamped_refuted.
Print Assumptions C28_acceptance_partial.
Print Assumptions C28_effect.
Print Assumptions C28_other_kinds_refuted.
Print Assumptions C28_mixture_does_not_train.
Print Assumptions C38_best_refuted.
Print Assumptions C38_last_score_partial.
Print Assumptions C49_folds_share_state_refuted.
Print Assumptions C49_first_fold_partial.
Print Assumptions C56_failed_train.
Print Assumptions C56_folds_refuted.
Print Assumptions C57_fresh_results_partial.
Print Assumptions C57_no_epochs_refuted.
