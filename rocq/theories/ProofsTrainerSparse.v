(** The sparse machine inside the trainer: invariants of a run, the state copied
    out of it, launching, and the thread pool. *)
From Coq Require Import ZArith List Bool QArith Lia ZifyBool.
From Verif Require Import Base BaseProofs Spec ModelInference ModelRuleSet ModelDense ModelFeedback ModelExecutor ModelDenseExec ModelPredictor
  ModelSparse ModelMachine ModelTrainer ModelTrainerDense ModelTrainerSparse SpecSparse SpecTraining SpecTrainerDense SpecTrainerSparse
  ProofsExecutor ProofsDenseExec ProofsEval ProofsMachine ProofsSparseState ProofsSparseInv ProofsSparseRules ProofsAvx2Hist ProofsLearning
  ProofsTrainer ProofsTrainerDense ProofsTrainerPool ProofsTrainerAvx2.
Import ListNotations.
Open Scope Z_scope.

(** ** Constructing *)

Lemma construct_blocks_sizes : forall m n_jobs seed d cbs m', cfg_ok m -> dense_construct m n_jobs seed d = (Ok cbs, m') ->
  tm_sizes m' = Some (map c_ncl cbs) /\ (forall sz, tm_sizes m = Some sz -> sz = map c_ncl cbs).
Proof.
  intros m n_jobs seed d cbs m' K H. unfold dense_construct in H.
  assert (S0 : forall r m1, (match tm_sizes m with None => set_num_clause_blocks (BInt n_jobs) m | Some _ => (Ok tt, m) end) = (Ok r, m1) ->
    cfg_ok m1 /\ (forall sz, tm_sizes m = Some sz -> m1 = m)).
  { intros [] m1 E. destruct (tm_sizes m).
    - inversion E; subst; auto.
    - destruct (cstep_ok (CBlocks (BInt n_jobs)) m m1 K E) as [A _]. split; [auto|discriminate]. }
  destruct (match tm_sizes m with None => set_num_clause_blocks (BInt n_jobs) m | Some _ => (Ok tt, m) end) as [[r|e] m1]; [|discriminate].
  destruct (S0 r m1 eq_refl) as [[F S B Zs C] S1]. destruct (tm_sizes m1) as [sz|] eqn:Ez.
  - pose proof (construct_spec m1 sz Ez F S B) as P. rewrite H in P. destruct P as [_ P]. destruct (P cbs eq_refl) as [E [L N]].
    assert (M : map c_ncl cbs = sz).
    { pose (d0 := mkCb (true, true) 0 0 0 Fnan 0).
      apply nth_ext with (d := c_ncl d0) (d' := 0); [rewrite map_length; auto|].
      intros i Hi. rewrite map_length in Hi. rewrite (map_nth c_ncl). destruct (N i d0 ltac:(lia)) as [b [_ Q]]. rewrite Q. reflexivity. }
    subst m'. cbn [with_cbs tm_sizes]. rewrite M. split; [exact Ez|]. intros sz0 Hz. rewrite (S1 _ Hz) in Ez. congruence.
  - unfold construct_clause_blocks in H. rewrite Ez, F in H. discriminate.
Qed.

Lemma sparse_construct_ok : forall m n_jobs seed d cbs m', sparse_construct m n_jobs seed d = (Ok cbs, m') ->
  dense_construct (sm_tm m) n_jobs seed d = (Ok cbs, sm_tm m') /\ m' = with_tm (sm_tm m') m /\ (cbs = [] \/ extra_bad m = false).
Proof.
  intros m n_jobs seed d cbs m' H. unfold sparse_construct in H. unfold dense_construct.
  destruct (match tm_sizes (sm_tm m) with None => set_num_clause_blocks (BInt n_jobs) (sm_tm m) | Some _ => (Ok tt, sm_tm m) end) as [[r|e] t]; [|discriminate].
  unfold sparse_build in H. cbn [with_tm sm_tm] in H. change (extra_bad (with_tm t m)) with (extra_bad m) in H.
  destruct (construct_clause_blocks t) as [r' t'] eqn:C.
  assert (D : forall c, r' = Ok c -> exists sz, tm_sizes t = Some sz /\ tm_cbs t' = Some c).
  { intros c ->. unfold construct_clause_blocks in C. destruct (tm_sizes t) as [sz|]; [|destruct (tm_flags t); discriminate].
    exists sz. split; auto. destruct (build_loop _ _ _ _ _) as [b [x|]]; inversion C; subst. reflexivity. }
  destruct (extra_bad m); [|inversion H; subst; cbn [with_tm sm_tm]; auto].
  destruct (tm_sizes t) as [sz|] eqn:Es.
  - destruct (tm_cbs t') as [[|c0 c1]|] eqn:Ec; inversion H; subst; cbn [with_tm sm_tm].
    + destruct (D cbs eq_refl) as [sz' [_ D2]]. inversion D2. auto.
    + destruct (D cbs eq_refl) as [sz' [_ D2]]. discriminate.
  - inversion H; subst. destruct (D cbs eq_refl) as [sz' [D1 _]]. discriminate.
Qed.

(** ** Blocks *)

Lemma legal_train : forall m bo e b, legal_block m b -> legal_block m (fst (sp_train_ex bo e b)).
Proof. intros m bo e b [[I [N [W1 W2]]] [C A]]. split; [|auto]. split; [apply sp_train_ex_inv; auto|]. auto. Qed.
Lemma legal_eval : forall m e b, legal_block m b -> legal_block m (fst (sp_eval_ex e b)).
Proof. intros m e b [G [C A]]. split; [apply sp_good_eval; auto|]. auto. Qed.
Lemma legal_update : forall m bo boost dyn e pc pp nc np b, Forall (fun l => (l < tm_nlit (sm_tm m))%nat) e -> legal_block m b ->
  legal_block m (sp_train_update bo boost dyn e pc pp nc np b).
Proof.
  intros m bo boost dyn e pc pp nc np b HL [G [C A]]. split; [apply sp_good_update; auto|].
  destruct (sp_train_update_inv bo boost dyn e pc pp nc np _ b (proj1 G) HL) as [_ [_ [_ [S1 [S2 _]]]]]. split; congruence.
Qed.

(** What the executor needs of a block, whatever the example. *)
Definition sparse_inv (ncls : nat) (b : sblock) : Prop := sp_ncls b = ncls /\ rows_of ncls (sp_weights b).
Lemma sparse_train_good : forall bo ncls, good_ex sblock (list nat) ncls (sparse_inv ncls) (sp_train_ex bo).
Proof.
  intros bo ncls e b [H1 H2]. unfold sp_train_ex, sp_count_votes, sp_train_output, sparse_inv.
  cbn [fst snd sp_with_outputs sp_votes sp_outputs sp_weights sp_ncls]. split; [auto|]. apply count_votes_loop_length; auto. now rewrite repeat_length.
Qed.
Lemma sparse_eval_good : forall ncls, good_ex sblock (list nat) ncls (sparse_inv ncls) sp_eval_ex.
Proof.
  intros ncls e b [H1 H2]. unfold sp_eval_ex, sp_count_votes, sp_eval_set, sparse_inv.
  cbn [fst snd sp_with_outputs sp_votes sp_outputs sp_weights sp_ncls]. split; [auto|]. apply count_votes_loop_length; auto. now rewrite repeat_length.
Qed.

(** Sizes and weight shape after any update, legal or not. *)
Definition dims (b : sblock) := (sp_ncl b, sp_ncls b).
Lemma store_shape : forall ncls b k s c al repl w r, rows_of ncls (sp_weights b) ->
  rows_of ncls (sp_weights (sp_store b k s c al repl w r)) /\ dims (sp_store b k s c al repl w r) = dims b.
Proof.
  intros ncls b k s c al repl w r W. split; [|reflexivity]. unfold sp_store. cbn [sp_weights].
  destruct (lt_dec k (length (sp_weights b))) as [H|H].
  - apply Forall_set_nth; auto. rewrite set_nth_length. unfold rows_of in W. rewrite Forall_forall in W. apply W. now apply nth_In.
  - rewrite set_nth_out by lia. auto.
Qed.
Lemma clause_update_shape : forall ncls boost dyn lits k c t b, rows_of ncls (sp_weights b) ->
  rows_of ncls (sp_weights (sp_clause_update boost dyn lits k c t b)) /\ dims (sp_clause_update boost dyn lits k c t b) = dims b.
Proof.
  intros ncls boost dyn lits k c t b W. unfold sp_clause_update. cbv zeta.
  destruct (_ >? 0).
  - destruct (_ =? 1); [now apply store_shape|]. destruct (_ =? 0); auto.
    destruct (sp_t1b_row _ _ _) as [ps r]. destruct (sp_t1b_row _ _ _) as [ns r2]. now apply store_shape.
  - destruct (_ && _); auto. now apply store_shape.
Qed.
Lemma update_clause_shape : forall ncls bo boost dyn lits pc pp nc np k b, rows_of ncls (sp_weights b) ->
  rows_of ncls (sp_weights (sp_update_clause bo boost dyn lits pc pp nc np b k)) /\ dims (sp_update_clause bo boost dyn lits pc pp nc np b k) = dims b.
Proof.
  intros ncls bo boost dyn lits pc pp nc np k b W. unfold sp_update_clause. destruct (draw_lt (sp_fast b) pp) as [d r]. cbv zeta.
  set (outs := if bo && _ then _ else _). clearbody outs.
  set (b1 := if d then _ else _).
  assert (W1 : rows_of ncls (sp_weights b1) /\ dims b1 = dims b) by (unfold b1; destruct d; [apply (clause_update_shape ncls boost dyn lits k pc 1 (sp_with_fast b outs r))|split]; auto).
  clearbody b1. destruct W1 as [W1 D1]. destruct (draw_lt (sp_fast b1) np) as [d2 r2].
  destruct d2; [|split; auto]. destruct (clause_update_shape ncls boost dyn lits k nc (-1) (sp_with_fast b1 (sp_outputs b1) r2) W1) as [Q1 Q2].
  split; [exact Q1|]. rewrite Q2. exact D1.
Qed.
Lemma update_shape : forall ncls bo boost dyn lits pc pp nc np b, rows_of ncls (sp_weights b) ->
  rows_of ncls (sp_weights (sp_train_update bo boost dyn lits pc pp nc np b)) /\ dims (sp_train_update bo boost dyn lits pc pp nc np b) = dims b.
Proof.
  intros ncls bo boost dyn lits pc pp nc np b. unfold sp_train_update. generalize (seq 0 (sp_ncl b)). intros ks. revert b.
  induction ks as [|k ks IH]; intros b W; cbn [fold_left]; auto.
  destruct (update_clause_shape ncls bo boost dyn lits pc pp nc np k b W) as [Q1 Q2]. destruct (IH _ Q1) as [Q3 Q4]. split; congruence.
Qed.
Lemma sparse_update_inv : forall ncls bo boost dyn lits pc pp nc np b, sparse_inv ncls b -> sparse_inv ncls (sp_train_update bo boost dyn lits pc pp nc np b).
Proof.
  intros ncls bo boost dyn lits pc pp nc np b [N W]. destruct (update_shape ncls bo boost dyn lits pc pp nc np b W) as [Q1 Q2].
  unfold dims in Q2. split; [congruence|exact Q1].
Qed.

Lemma update_dims : forall bo boost dyn lits pc pp nc np b, dims (sp_train_update bo boost dyn lits pc pp nc np b) = dims b.
Proof.
  intros bo boost dyn lits pc pp nc np b. unfold sp_train_update. generalize (seq 0 (sp_ncl b)). intros ks. revert b.
  assert (CU : forall k c t b, dims (sp_clause_update boost dyn lits k c t b) = dims b).
  { intros. unfold sp_clause_update. cbv zeta. destruct (_ >? 0).
    - destruct (_ =? 1); [reflexivity|]. destruct (_ =? 0); auto.
      destruct (sp_t1b_row _ _ _) as [ps r]. destruct (sp_t1b_row _ _ _) as [ns r2]. reflexivity.
    - destruct (_ && _); reflexivity. }
  induction ks as [|k ks IH]; intros b; cbn [fold_left]; auto. rewrite IH. unfold sp_update_clause.
  destruct (draw_lt (sp_fast b) pp) as [d r]. cbv zeta. set (outs := if bo && _ then _ else _). clearbody outs.
  set (b1 := if d then _ else _). assert (D1 : dims b1 = dims b) by (unfold b1; destruct d; [rewrite CU|]; reflexivity).
  clearbody b1. destruct (draw_lt (sp_fast b1) np) as [d2 r2]. destruct d2; [rewrite CU|]; exact D1.
Qed.

(** ** Invariant of a run *)

Record srun_ok (m : smachine) (x : srun) : Prop := {
  so_blocks : Forall (fun tb => legal_block m (snd tb)) (x_blocks (su_exec x));
  so_sizes : tm_sizes (sm_tm m) = Some (map (fun tb : bool * sblock => Z.of_nat (sp_ncl (snd tb))) (x_blocks (su_exec x)));
  so_total : nsum (map sp_ncl (map snd (x_blocks (su_exec x)))) = Z.to_nat (tm_ncl (sm_tm m));
  so_fb : fb_ready (tm_ncls (sm_tm m)) (x_fb (su_exec x))
}.

Lemma legal_all_inv : forall m bs, Forall (fun tb : bool * sblock => legal_block m (snd tb)) bs -> all_inv sblock (sparse_inv (tm_ncls (sm_tm m))) bs.
Proof. intros m bs H. eapply Forall_impl; [|apply H]. intros tb [[_ [N [_ W]]] _]. split; auto. Qed.

Lemma dims_keys : forall bs bs', keys sblock (nat * nat) dims bs' = keys sblock (nat * nat) dims bs ->
  map (fun tb : bool * sblock => sp_ncl (snd tb)) bs' = map (fun tb : bool * sblock => sp_ncl (snd tb)) bs.
Proof.
  intros bs bs' H. apply (f_equal (map (fun p : bool * (nat * nat) => fst (snd p)))) in H. unfold keys in H. rewrite !map_map in H. exact H.
Qed.

Lemma srun_ok_blocks : forall m x bo boost dyn e, srun_ok m x -> Forall (fun tb => legal_block m (snd tb)) (x_blocks e) ->
  keys sblock (nat * nat) dims (x_blocks e) = keys sblock (nat * nat) dims (x_blocks (su_exec x)) -> fb_ready (tm_ncls (sm_tm m)) (x_fb e) ->
  srun_ok m (mkSrun bo boost dyn e).
Proof.
  intros m x bo boost dyn e [F Sz T R] F' K R'. apply dims_keys in K. constructor; cbn [su_exec]; auto.
  - rewrite Sz. f_equal. rewrite <- !(map_map (fun tb : bool * sblock => sp_ncl (snd tb)) Z.of_nat). now rewrite K.
  - rewrite <- T, !map_map. now rewrite K.
Qed.

Lemma sparse_feed_in : forall n ncls d, csr_data n ncls d ->
  Forall (fun e : list nat * nat => Forall (fun l => (l < n)%nat) (fst e)) (sparse_feed d).
Proof.
  intros n ncls d [_ [L [F _]]]. unfold sparse_feed. apply Forall_forall. intros [e l] H. apply in_combine_l in H.
  apply in_map_iff in H. destruct H as [r [<- H]]. rewrite Forall_forall in F. destruct (F r H) as [_ Q]. cbn [fst]. rewrite Forall_map. exact Q.
Qed.

Lemma sparse_epoch_ok : forall m d x, csr_data (tm_nlit (sm_tm m)) (tm_ncls (sm_tm m)) d -> srun_ok m x -> srun_ok m (snd (sparse_epoch d x)).
Proof.
  intros m d x D OK. pose proof OK as [F Sz T R]. pose proof (legal_all_inv _ _ F) as I. unfold sparse_epoch.
  pose proof (train_epoch_P sblock (list nat) (sp_train_ex (su_bo x)) (sp_train_update (su_bo x) (su_boost x) (su_dyn x)) nat fb_process (legal_block m)
    (Forall (fun l => (l < tm_nlit (sm_tm m))%nat)) (fun e b _ H => legal_train m (su_bo x) e b H)
    (fun e pc pp nc np b He H => legal_update m (su_bo x) (su_boost x) (su_dyn x) e pc pp nc np b He H)
    (sparse_feed d) (su_exec x) (sparse_feed_in _ _ d D) F) as F'.
  pose proof (train_epoch_key sblock (list nat) (nat * nat) (sp_train_ex (su_bo x)) (sp_train_update (su_bo x) (su_boost x) (su_dyn x)) nat fb_process dims
    (fun e b => eq_refl) (fun e pc pp nc np b => update_dims _ _ _ e pc pp nc np b) (sparse_feed d) (su_exec x)) as T'.
  pose proof (train_epoch_ready sblock (list nat) (tm_ncls (sm_tm m)) (sparse_inv (tm_ncls (sm_tm m))) (sp_train_ex (su_bo x))
    (sp_train_update (su_bo x) (su_boost x) (su_dyn x)) nat fb_process
    (sparse_train_good (su_bo x) _) (fun e p pp n np b => sparse_update_inv _ _ _ _ e p pp n np b) (fb_process_good _) (process_ready _)
    (sparse_feed d) (su_exec x) I R) as R'.
  destruct (train_epoch _ _ _ _ _ _ _ _) as [acc e]. cbn [snd] in *. apply (srun_ok_blocks m x); auto.
Qed.

(** What is copied out of a block. *)
Definition learned (b : sblock) := (sp_ncl b, sp_ncls b, sp_rows b, sp_states b, sp_al b, sp_weights b).

Lemma sparse_evaluate_ok : forall m d x, srun_ok m x -> srun_ok m (snd (sparse_evaluate d x)) /\
  map (fun tb : bool * sblock => learned (snd tb)) (x_blocks (su_exec (snd (sparse_evaluate d x)))) =
  map (fun tb : bool * sblock => learned (snd tb)) (x_blocks (su_exec x)).
Proof.
  intros m d x OK. pose proof OK as [F Sz T R]. pose proof (legal_all_inv _ _ F) as I. unfold sparse_evaluate.
  set (out := repeat O (length (y_rows (d_y d)))).
  pose proof (eval_predict_P sblock (list nat) sp_eval_ex nat (legal_block m) (fun _ => True) (fun e b _ H => legal_eval m e b H)
    (sparse_feed d) out (su_exec x) ltac:(apply Forall_forall; auto) F) as F'.
  pose proof (eval_predict_key sblock (list nat) (nat * nat) sp_eval_ex nat dims (fun e b => eq_refl) (sparse_feed d) out (su_exec x)) as T'.
  pose proof (eval_predict_key sblock (list nat) _ sp_eval_ex nat learned (fun e b => eq_refl) (sparse_feed d) out (su_exec x)) as L'.
  pose proof (eval_predict_ready sblock (list nat) (tm_ncls (sm_tm m)) (sparse_inv (tm_ncls (sm_tm m))) sp_eval_ex nat
    (sparse_eval_good _) (sparse_feed d) out (su_exec x) I R) as R'.
  destruct (eval_predict _ _ _ _ _ _ _) as [[ok ys] e]. cbn [snd su_exec] in *. split; [apply (srun_ok_blocks m x); auto|].
  apply (f_equal (map snd)) in L'. unfold keys in L'. rewrite !map_map in L'. exact L'.
Qed.

Lemma learned_csr : forall a b, learned a = learned b -> csr_get a = csr_get b /\ al_get a = al_get b /\ wts a = wts b.
Proof.
  intros a b H. unfold learned in H. injection H as H1 H2 H3 H4 H5 H6. unfold csr_get, csr_get_step, al_get, wts.
  rewrite H1, H2, H5, H6. split; [|auto]. rewrite H3, H4. reflexivity.
Qed.

Lemma learned_load : forall nlit ncls a b, map learned a = map learned b ->
  sp_load_state nlit (nsum (map sp_ncl a)) ncls a = sp_load_state nlit (nsum (map sp_ncl b)) ncls b.
Proof.
  intros nlit ncls a b H. rewrite !sp_load_state_eq.
  assert (K : map csr_get a = map csr_get b /\ map al_get a = map al_get b /\ map wts a = map wts b).
  { revert b H. induction a as [|x a IH]; intros [|y b] H; try discriminate; auto. cbn [map] in H. injection H as H1 H2 H3 H4 H5 H6 H'.
    destruct (learned_csr x y) as [A1 [A2 A3]]; [unfold learned; congruence|]. destruct (IH b H') as [B1 [B2 B3]]. cbn [map]. repeat split; congruence. }
  destruct K as [-> [-> ->]]. reflexivity.
Qed.

Lemma sparse_snap_read : forall m x, srun_ok m x -> read_from m (sparse_snap m x) (map snd (x_blocks (su_exec x))).
Proof.
  intros m x [F Sz T R]. split; [rewrite Forall_map; exact F|]. split; [now rewrite map_map|].
  unfold sparse_snap. now rewrite T.
Qed.

Lemma sparse_evaluate_snap : forall m d x, srun_ok m x -> sparse_snap m (snd (sparse_evaluate d x)) = sparse_snap m x.
Proof.
  intros m d x OK. destruct (sparse_evaluate_ok m d x OK) as [OK' L].
  destruct (sparse_snap_read _ _ OK) as [_ [_ ->]]. destruct (sparse_snap_read _ _ OK') as [_ [_ ->]].
  apply learned_load. rewrite !map_map. exact L.
Qed.

(** ** What the copied state predicts *)

Lemma sparse_feed_fst : forall d, length (x_rows (d_x d)) = length (y_rows (d_y d)) -> map fst (sparse_feed d) = map (map Z.to_nat) (x_rows (d_x d)).
Proof.
  intros d L. unfold sparse_feed.
  assert (H : length (map (map Z.to_nat) (x_rows (d_x d))) = length (map label_of (y_rows (d_y d)))) by now rewrite !map_length.
  clear L. revert H. generalize (map label_of (y_rows (d_y d))). generalize (map (map Z.to_nat) (x_rows (d_x d))).
  induction l as [|a l IH]; intros [|b l'] H; try discriminate; auto. cbn [combine map fst]. f_equal. apply IH. cbn in H. lia.
Qed.

Lemma sparse_snap_scores : forall m x d score v, srun_ok m x -> csr_data (tm_nlit (sm_tm m)) (tm_ncls (sm_tm m)) d ->
  score (d_y d) (fst (sparse_evaluate d x)) = Ok v ->
  sparse_scores score (tm_nlit (sm_tm m)) (tm_ncls (sm_tm m)) (sparse_snap m x) (map snd (x_blocks (su_exec x))) d v.
Proof.
  intros m x d score v OK D Hs. pose proof OK as [F Sz T R]. destruct (sparse_snap_read m x OK) as [_ [_ Es]].
  set (n := tm_nlit (sm_tm m)) in *. set (ncls := tm_ncls (sm_tm m)) in *.
  assert (HG : Forall (fun tb : bool * sblock => sp_good n ncls (snd tb)) (x_blocks (su_exec x))).
  { eapply Forall_impl; [|apply F]. intros tb [H _]. exact H. }
  assert (HG' : Forall (sp_good n ncls) (map snd (x_blocks (su_exec x)))) by (rewrite Forall_map; exact HG).
  destruct (compile_sparse_ok n ncls _ HG') as [mm [Ec _]].
  eexists. split; [rewrite Es; exact Ec|]. intros mode excl junk p Hp HP HV. destruct D as [_ [D1 [D2 D3]]].
  assert (Lf : length (sparse_feed d) = length (y_rows (d_y d))) by (rewrite <- (map_length fst), sparse_feed_fst, map_length; auto).
  destruct (sparse_predictor_agrees nat n ncls (su_exec x) _ mode excl junk p (sparse_feed d) (repeat O (length (y_rows (d_y d)))) HG R Ec Hp
    ltac:(rewrite repeat_length; lia)) as [ys [e' [Ev Ep]]].
  { apply Forall_forall. intros e He. assert (Hi : In (fst e) (map (map Z.to_nat) (x_rows (d_x d)))).
    { rewrite <- (sparse_feed_fst d) by auto. now apply in_map. }
    apply in_map_iff in Hi. destruct Hi as [r [Er Hr]]. rewrite <- Er. unfold csr_vectors in HV. rewrite Forall_map in HV.
    rewrite Forall_forall in D2, HP, HV. destruct (D2 r Hr) as [B1 _]. split; [exact B1|]. split; [|apply (HV r Hr)].
    specialize (HP r Hr). rewrite Forall_map in HP. exact HP. }
  exists ys. unfold sparse_evaluate in Hs. rewrite Ev in Hs. cbn [fst] in Hs. split; [|exact Hs].
  rewrite <- Ep. unfold answers, csr_vectors.
  rewrite <- (map_map (map Z.to_nat) (vec n)), <- (sparse_feed_fst d) by auto. rewrite !map_map. reflexivity.
Qed.

(** ** Launching *)

Lemma legal_sized : forall m b, (1 <= tm_ncls (sm_tm m))%nat -> legal_block m b -> sized b.
Proof.
  intros m b Hn [[I [N [W1 W2]]] _]. destruct I as [I1 I2 I3 I4 I5 I6 I7 I8]. unfold sized. repeat (split; auto); [|lia].
  intros i Hi. specialize (I3 i Hi). apply I3.
Qed.

(** What writing a state leaves alone. *)
Definition fixed (b : sblock) := (sp_nlit b, sp_ncl b, sp_ncls b, sp_csize b, sp_alsize b, sp_repl b).

Lemma csr_set_fixed : forall c b, fixed (csr_set c b) = fixed b.
Proof. intros [[a i] p] b. reflexivity. Qed.

Lemma save_fixed : forall s cbs i off r, sp_save_loop s cbs i off = Ok r -> map fixed r = map fixed cbs.
Proof.
  intros s cbs. induction cbs as [|b cbs IH]; intros i off r H; cbn [sp_save_loop] in H; [inversion H; auto|].
  destruct (nth_error (ss_c s) i) as [c|]; [|discriminate]. destruct (nth_error (ss_al s) i) as [al|]; [|discriminate].
  unfold al_set in H. destruct (forallb _ al); [|discriminate]. destruct (length al =? 0)%nat; [discriminate|].
  destruct (sp_save_loop s cbs (S i) (off + sp_ncl b)) as [t'|] eqn:E; [|discriminate]. injection H as <-. cbn [map]. f_equal; [|eauto].
  rewrite <- (csr_set_fixed c b). reflexivity.
Qed.

Lemma even_al_dec : forall al, {even_al al} + {~ even_al al}.
Proof.
  intros al. destruct (forallb (fun r => (length r =? length (hd [] al))%nat) al) eqn:F.
  - left. intros r Hr. rewrite forallb_forall in F. now apply Nat.eqb_eq, F.
  - right. intros H. assert (forallb (fun r => (length r =? length (hd [] al))%nat) al = true); [|congruence].
    apply forallb_forall. intros r Hr. apply Nat.eqb_eq. auto.
Qed.

Lemma save_ragged_loop : forall src tgt s prec preal posc posal off,
  Forall sized src -> ~ Forall (fun b => even_al (sp_al b)) src -> length tgt = length src ->
  ss_c s = prec ++ map csr_get src ++ posc -> ss_al s = preal ++ map al_get src ++ posal -> length prec = length preal ->
  sp_save_loop s tgt (length prec) off = Raise TypeError.
Proof.
  intros src. induction src as [|a src IH]; intros tgt s prec preal posc posal off HS HE HL HC HA HP.
  - exfalso. apply HE. constructor.
  - destruct tgt as [|b tgt]; [discriminate|]. inversion HS as [|? ? S1 S2]; subst. cbn [sp_save_loop].
    cbn [map app] in HC, HA.
    assert (C1 : nth_error (ss_c s) (length prec) = Some (csr_get a)) by (rewrite HC, nth_error_app2, Nat.sub_diag by lia; reflexivity).
    assert (C2 : nth_error (ss_al s) (length prec) = Some (al_get a)) by (rewrite HA, nth_error_app2, HP, Nat.sub_diag by lia; reflexivity).
    destruct S1 as [Q1 [Q2 [Q3 [Q4 [Q5 Q6]]]]].
    rewrite C1, C2, al_get_full by auto. destruct (even_al_dec (sp_al a)) as [Ev|Ev].
    + rewrite al_set_even; auto. 2:{ intros C. rewrite C in Q5. cbn [length] in Q5. lia. }
      replace (S (length prec)) with (length (prec ++ [csr_get a])) by (rewrite app_length; cbn [length]; lia).
      assert (HE' : ~ Forall (fun b => even_al (sp_al b)) src) by (intros HF; apply HE; constructor; auto).
      assert (HL' : length tgt = length src) by (cbn [length] in HL; lia).
      rewrite (IH tgt s (prec ++ [csr_get a]) (preal ++ [al_get a]) posc posal); [reflexivity|auto|auto|auto| | |].
      * rewrite HC, <- app_assoc. reflexivity.
      * rewrite HA, <- app_assoc. reflexivity.
      * rewrite !app_length. cbn [length]. lia.
    + unfold al_set. destruct (forallb _ (sp_al a)) eqn:F; [|reflexivity]. exfalso. apply Ev. intros r Hr. rewrite forallb_forall in F.
      specialize (F r Hr). now apply Nat.eqb_eq in F.
Qed.

Lemma read_even : forall m s cbs, (1 <= tm_ncls (sm_tm m))%nat -> read_from m s cbs -> (even_state s <-> Forall (fun b => even_al (sp_al b)) cbs).
Proof.
  intros m s cbs Hn [F [_ ->]]. unfold even_state. rewrite sp_load_state_eq. cbn [ss_al]. rewrite Forall_map.
  assert (E : Forall (fun b => al_get b = sp_al b) cbs).
  { eapply Forall_impl; [|apply F]. intros b H. apply al_get_full. apply (legal_sized m b Hn H). }
  rewrite !Forall_forall in *. split; intros H b Hb; specialize (E b Hb); specialize (H b Hb); cbn beta in *; [rewrite <- E|rewrite E]; exact H.
Qed.

Lemma saved_sparse : forall m s src bs, (1 <= tm_ncls (sm_tm m))%nat -> read_from m s src -> Forall (legal_block m) bs ->
  map sp_ncl bs = map sp_ncl src ->
  if Forall_dec (fun b => even_al (sp_al b)) (fun b => even_al_dec (sp_al b)) src
  then exists r, sp_save_state s bs = Ok r /\ Forall (legal_block m) r /\ map sp_ncl r = map sp_ncl bs /\
         sp_load_state (tm_nlit (sm_tm m)) (nsum (map sp_ncl bs)) (tm_ncls (sm_tm m)) r = s
  else sp_save_state s bs = Raise TypeError.
Proof.
  intros m s src bs Hn RF FB EN. pose proof RF as [FS [_ Es]].
  assert (HS : Forall sized src) by (eapply Forall_impl; [|apply FS]; intros b; apply legal_sized; auto).
  destruct (Forall_dec _ _ src) as [Ev|Ev].
  - assert (F2 : Forall2 (fun a b => sp_ncl a = sp_ncl b /\ sp_ncls a = sp_ncls b) src bs).
    { clear - EN FS FB. revert bs EN FB. induction src as [|a src IH]; intros [|b bs] EN FB; try discriminate; constructor; cbn [map] in EN; inversion EN;
        inversion FS as [|? ? L1 FS']; inversion FB as [|? ? L2 FB']; subst; auto.
      split; [auto|]. destruct L1 as [[_ [N1 _]] _]. destruct L2 as [[_ [N2 _]] _]. congruence. }
    destruct (sp_save_after_load (tm_nlit (sm_tm m)) (tm_ncls (sm_tm m)) src bs HS Ev F2) as [r [R1 R2]]. rewrite <- Es in R1.
    exists r. split; [exact R1|]. pose proof (save_fixed _ _ _ _ _ R1) as Fx.
    assert (K : Forall (legal_block m) r /\ map sp_ncl r = map sp_ncl bs /\ map learned r = map learned src).
    { clear - R2 Fx FS FB F2. revert src bs R2 Fx FS FB F2. induction r as [|c r IH]; intros src bs R2 Fx FS FB F2.
      - inversion R2; subst. inversion F2; subst. repeat split; constructor.
      - inversion R2 as [|? a ? src' SS R2']; subst. inversion F2 as [|? b ? bs' [N1 N2] F2']; subst.
        inversion FS as [|? ? L1 FS']; subst. inversion FB as [|? ? L2 FB']; subst. cbn [map] in Fx. injection Fx as G1 G2 G3 G4 G5 G6 Fx'.
        destruct (IH src' bs' R2' Fx' FS' FB' F2') as [I1 [I2 I3]]. destruct SS as [E1 [E2 [E3 E4]]].
        split; [constructor; auto|split].
        + destruct L1 as [[I [N [W1 W2]]] [Cs As]]. destruct L2 as [[J [N' _]] [Cs' As']].
          destruct I as [A1 A2 A3 A4 A5 A6 A7 A8]. destruct J as [B1 B2 B3 B4 B5 B6 B7 B8].
          split; [split; [|split; [congruence|split; [rewrite E3; congruence|rewrite E3; exact W2]]]|split; congruence].
          constructor; rewrite ?E1, ?E2, ?E4, ?G2, ?G3, ?G4, ?G5, ?G6, <- ?N1, <- ?N2; auto.
          * intros i Hi. rewrite Cs', <- Cs. auto.
          * intros c0 Hc. rewrite As', <- As. auto.
          * congruence.
          * intros c0 Hc. apply B8. congruence.
        + cbn [map]. f_equal; auto.
        + cbn [map]. f_equal; auto. unfold learned. congruence. }
    destruct K as [K1 [K2 K3]]. split; [exact K1|]. split; [exact K2|]. rewrite <- K2, (learned_load _ _ _ _ K3). symmetry. exact Es.
  - rewrite Es, sp_load_state_eq. unfold sp_save_state. apply (save_ragged_loop src bs _ [] [] [] [] O); auto; cbn [ss_c ss_al app]; rewrite ?app_nil_r; auto.
    rewrite <- (map_length sp_ncl bs), EN. apply map_length.
Qed.

Lemma sparse_alloc_spec : forall G m m' l bs, sparse_alloc_all G m l = Some bs ->
  Forall (fun e : cblock * Z * bool => c_nlit (fst (fst e)) = tm_nlit (sm_tm m') /\ c_ncls (fst (fst e)) = tm_ncls (sm_tm m')) l ->
  sm_csize m' = sm_csize m -> sm_alsize m' = sm_alsize m -> 1 <= sm_alsize m ->
  Forall (legal_block m') bs /\ map sp_ncl bs = map (fun e : cblock * Z * bool => Z.to_nat (c_ncl (fst (fst e)))) l.
Proof.
  intros G m m' l bs H F Hc Ha H1. revert bs H F. induction l as [|e l IH]; intros bs H F; cbn [sparse_alloc_all] in H; [inversion H; split; auto|].
  inversion F as [|? ? [F1 F2] F']; subst.
  destruct (sparse_alloc_block G m (fst (fst e)) (snd (fst e))) as [b|] eqn:A; [|discriminate].
  destruct (sparse_alloc_all G m l) as [bs'|]; [|discriminate]. inversion H; subst. destruct (IH bs' eq_refl F') as [I1 I2].
  unfold sparse_alloc_block in A. assert (H1' : (1 <= Z.to_nat (sm_alsize m))%nat) by lia.
  pose proof (sp_initialize_good _ _ _ _ _ _ _ _ _ _ _ _ _ _ H1' A) as GD.
  destruct (sp_initialize_inv _ _ _ _ _ _ _ _ _ _ _ _ _ _ H1' A) as [_ [N1 [_ [N2 N3]]]].
  split; [constructor; auto; split; [|split; congruence]|cbn [map]; f_equal; auto]. rewrite <- F1, <- F2. exact GD.
Qed.

Lemma fits_after : forall m m' sz, tm_sizes (sm_tm m') = Some sz -> tm_nlit (sm_tm m') = tm_nlit (sm_tm m) -> tm_ncls (sm_tm m') = tm_ncls (sm_tm m) ->
  sm_csize m' = sm_csize m -> sm_alsize m' = sm_alsize m -> (forall z, tm_sizes (sm_tm m) = Some z -> z = sz) ->
  forall s cbs, read_from m s cbs -> read_from m' s cbs.
Proof.
  intros m m' sz Hs H1 H2 H3 H4 Hz s cbs [F [E ->]]. unfold read_from, legal_block in *. rewrite H1, H2, H3, H4. split; [exact F|].
  split; [|reflexivity]. rewrite Hs. f_equal. symmetry. apply Hz. exact E.
Qed.

(** Everything about a machine after construction. *)
Record constructed (m m' : smachine) (cbs : list cblock) : Prop := {
  co_cfg : configured (sm_tm m');
  co_ncl : tm_ncl (sm_tm m') = tm_ncl (sm_tm m);
  co_nlit : tm_nlit (sm_tm m') = tm_nlit (sm_tm m);
  co_ncls : tm_ncls (sm_tm m') = tm_ncls (sm_tm m);
  co_with : m' = with_tm (sm_tm m') m;
  co_sizes : tm_sizes (sm_tm m') = Some (map c_ncl cbs);
  co_total : zsum (map c_ncl cbs) = tm_ncl (sm_tm m') /\ Forall (fun c => 1 <= c_ncl c) cbs;
  co_cbs : Forall (fun c => c_nlit c = tm_nlit (sm_tm m) /\ c_ncls c = tm_ncls (sm_tm m)) cbs;
  co_extra : cbs = [] \/ extra_bad m = false;
  co_fits : forall s src, read_from m s src -> read_from m' s src
}.

Lemma sparse_constructed : forall m n_jobs seed d cbs m', configured (sm_tm m) -> sparse_construct m n_jobs seed d = (Ok cbs, m') -> constructed m m' cbs.
Proof.
  intros m n_jobs seed d cbs m' K H. destruct (sparse_construct_ok _ _ _ _ _ _ H) as [HD [HW HX]].
  pose proof (configured_ok _ K) as K0. destruct (construct_dims _ _ _ _ _ _ K0 HD) as [C0 [D1 [D2 [D3 [D4 D5]]]]].
  destruct (construct_blocks_sizes _ _ _ _ _ _ K0 HD) as [Z1 Z2]. destruct C0 as [_ _ _ _ K5].
  constructor; auto.
  - eapply construct_configured; eauto.
  - apply (fits_after m m' (map c_ncl cbs)); auto; rewrite HW; reflexivity.
Qed.

Lemma sparse_launch_ok : forall G m m' cbs st n_jobs seed d x, constructed m m' cbs -> (1 <= tm_ncls (sm_tm m))%nat -> sparse_fits m st ->
  sparse_launch G m' cbs st n_jobs seed d = Ok x ->
  srun_ok m' x /\ (forall s, st = Some s -> sparse_snap m' x = s /\ even_state s) /\ 1 <= seed.
Proof.
  intros G m m' cbs st n_jobs seed d x CO Hn MF HL. pose proof CO as [_ Dl1 Dl2 Dl3 HW Hsz [Tz Tc] Dc HX FF].
  unfold sparse_launch in HL. destruct (allocate_clause_blocks cbs seed) as [l|e] eqn:EA; [|discriminate].
  assert (Ml : map (fun e : cblock * Z * bool => fst (fst e)) l = cbs).
  { unfold allocate_clause_blocks in EA. destruct cbs; [discriminate|]. eapply allocate_loop_cbs; eauto. }
  assert (Sd : cbs <> []) by (intros ->; discriminate).
  pose proof (allocate_spec cbs seed Sd) as AS. rewrite EA in AS. destruct AS as [AS1 [_ [_ [_ [_ AS2]]]]].
  destruct (executor_accepts l) eqn:EX; [|discriminate]. cbn [negb] in HL. assert (EX' : seed <> 0) by now apply AS2.
  destruct HX as [HX|HX]; [congruence|]. unfold extra_bad in HX.
  destruct (sparse_alloc_all G m' l) as [bs|] eqn:EB; [|discriminate].
  assert (Dl : Forall (fun e : cblock * Z * bool => c_nlit (fst (fst e)) = tm_nlit (sm_tm m') /\ c_ncls (fst (fst e)) = tm_ncls (sm_tm m')) l).
  { rewrite Dl2, Dl3. rewrite <- Ml in Dc. rewrite Forall_map in Dc. exact Dc. }
  assert (Al : 1 <= sm_alsize m') by (rewrite HW; cbn [with_tm sm_alsize]; lia).
  destruct (sparse_alloc_spec G m' m' l bs EB Dl eq_refl eq_refl Al) as [B1 B2].
  assert (B3 : map sp_ncl bs = map Z.to_nat (map c_ncl cbs)) by (rewrite B2, <- Ml, !map_map; reflexivity).
  assert (Hn' : (1 <= tm_ncls (sm_tm m'))%nat) by now rewrite Dl3.
  assert (R : exists r, (match st with None => Ok bs | Some s => sp_save_state s bs end) = Ok r /\ Forall (legal_block m') r /\
    map sp_ncl r = map sp_ncl bs /\
    forall s, st = Some s -> even_state s /\ sp_load_state (tm_nlit (sm_tm m')) (nsum (map sp_ncl bs)) (tm_ncls (sm_tm m')) r = s).
  { destruct st as [s|]; [|exists bs; repeat split; auto; discriminate].
    destruct MF as [src RF]. apply FF in RF.
    assert (EN : map sp_ncl bs = map sp_ncl src).
    { destruct RF as [_ [E _]]. rewrite Hsz in E. injection E as E. rewrite B3, E, map_map. apply map_ext. intros b. apply Nat2Z.id. }
    pose proof (saved_sparse m' s src bs Hn' RF B1 EN) as SV. destruct (Forall_dec _ _ src) as [Ev|Ev].
    - destruct SV as [r [R1 [R2 [R3 R4]]]]. exists r. split; [exact R1|]. split; [exact R2|]. split; [exact R3|].
      intros s' Es. inversion Es; subst s'. split; [apply (read_even m' s src Hn' RF); exact Ev|exact R4].
    - rewrite SV in HL. discriminate. }
  destruct R as [r [R1 [R2 [R3 R4]]]]. rewrite R1 in HL. destruct (1 <? _)%nat; [discriminate|]. injection HL as <-.
  assert (Tot : nsum (map sp_ncl r) = Z.to_nat (tm_ncl (sm_tm m'))).
  { rewrite R3, B3, <- Tz. assert (F1 : Forall (fun z => 1 <= z) (map c_ncl cbs)) by (rewrite Forall_map; exact Tc). apply (to_nat_sum _ F1). }
  split; [constructor; cbn [su_exec x_blocks x_fb]|split; [|lia]].
  - rewrite Forall_map. exact R2.
  - rewrite Hsz. f_equal. rewrite map_map. cbn [snd]. rewrite <- (map_map sp_ncl Z.of_nat), R3, B3, map_map, <- (map_id (map c_ncl cbs)) at 1.
    apply map_ext_in. intros z Hz. apply in_map_iff in Hz. destruct Hz as [c [<- Hc]]. rewrite Forall_forall in Tc. specialize (Tc c Hc). lia.
  - rewrite <- Tot. rewrite !map_map. reflexivity.
  - unfold new_fblock. split; cbn [fb_ncls fb_votes]; [reflexivity|now rewrite repeat_length].
  - intros s Es. destruct (R4 s Es) as [R5 R6]. split; [|exact R5]. unfold sparse_snap. cbn [su_exec x_blocks]. rewrite map_map. cbn [snd].
    rewrite map_id, <- Tot, R3. exact R6.
Qed.

(** Launching with a state succeeds exactly when launching without one does and
    the state is even; when only the latter fails the exception is a TypeError. *)
Lemma sparse_launch_with : forall G m m' cbs s n_jobs seed d x, constructed m m' cbs -> (1 <= tm_ncls (sm_tm m))%nat -> sparse_fits m (Some s) ->
  sparse_launch G m' cbs None n_jobs seed d = Ok x ->
  (even_state s -> exists x', sparse_launch G m' cbs (Some s) n_jobs seed d = Ok x') /\
  (~ even_state s -> sparse_launch G m' cbs (Some s) n_jobs seed d = Raise TypeError).
Proof.
  intros G m m' cbs s n_jobs seed d x CO Hn MF HL. pose proof CO as [_ Dl1 Dl2 Dl3 HW Hsz [Tz Tc] Dc HX FF].
  unfold sparse_launch in *. destruct (allocate_clause_blocks cbs seed) as [l|e] eqn:EA; [|discriminate].
  assert (Ml : map (fun e : cblock * Z * bool => fst (fst e)) l = cbs).
  { unfold allocate_clause_blocks in EA. destruct cbs; [discriminate|]. eapply allocate_loop_cbs; eauto. }
  assert (Sd : cbs <> []) by (intros ->; discriminate).
  destruct (executor_accepts l) eqn:EX; [|discriminate]. cbn [negb] in *.
  destruct HX as [HX|HX]; [congruence|]. unfold extra_bad in HX.
  destruct (sparse_alloc_all G m' l) as [bs|] eqn:EB; [|discriminate].
  assert (Dl : Forall (fun e : cblock * Z * bool => c_nlit (fst (fst e)) = tm_nlit (sm_tm m') /\ c_ncls (fst (fst e)) = tm_ncls (sm_tm m')) l).
  { rewrite Dl2, Dl3. rewrite <- Ml in Dc. rewrite Forall_map in Dc. exact Dc. }
  assert (Al : 1 <= sm_alsize m') by (rewrite HW; cbn [with_tm sm_alsize]; lia).
  destruct (sparse_alloc_spec G m' m' l bs EB Dl eq_refl eq_refl Al) as [B1 B2].
  assert (B3 : map sp_ncl bs = map Z.to_nat (map c_ncl cbs)) by (rewrite B2, <- Ml, !map_map; reflexivity).
  assert (Hn' : (1 <= tm_ncls (sm_tm m'))%nat) by now rewrite Dl3.
  destruct MF as [src RF]. apply FF in RF.
  assert (EN : map sp_ncl bs = map sp_ncl src).
  { destruct RF as [_ [E _]]. rewrite Hsz in E. injection E as E. rewrite B3, E, map_map. apply map_ext. intros b. apply Nat2Z.id. }
  pose proof (saved_sparse m' s src bs Hn' RF B1 EN) as SV. pose proof (read_even m' s src Hn' RF) as RE.
  destruct (1 <? _)%nat; [discriminate|]. destruct (Forall_dec _ _ src) as [Ev|Ev].
  - destruct SV as [r [R1 _]]. rewrite R1. split; [eauto|]. intros N. exfalso. apply N, RE. exact Ev.
  - rewrite SV. split; [|auto]. intros E. exfalso. apply Ev, RE. exact E.
Qed.

(** ** The course of a run *)

Section SparseCourse.
  Variables (G : gens) (score : yarr -> list nat -> res fl) (callback : nat -> fl -> fl -> option exn)
            (assign : Z -> Z -> data -> res (list nat)).
  Let B := sparse_backend G score callback assign.

  Lemma sparse_after_ok : forall m dt de x0, csr_data (tm_nlit (sm_tm m)) (tm_ncls (sm_tm m)) dt -> srun_ok m x0 ->
    forall i, srun_ok m (after B dt de x0 i).
  Proof.
    intros m dt de x0 D OK i. induction i as [|i IH]; cbn [after]; auto.
    apply sparse_evaluate_ok. apply sparse_epoch_ok; auto.
  Qed.

  Lemma sparse_launched_ok : forall t dt de m x0, sparse_sound t -> launched B t dt de m x0 ->
    (exists cbs, constructed (t_m t) m cbs) /\ srun_ok m x0 /\
    (forall s, t_state t = Some s -> sparse_snap m x0 = s /\ even_state s) /\ 1 <= t_seed t.
  Proof.
    intros t dt de m x0 [K Kn MF _ _ _] [_ [_ [cbs [H1 H2]]]]. change (sparse_construct (t_m t) (t_n_jobs t) (t_seed t) dt = (Ok cbs, m)) in H1.
    change (sparse_launch G m cbs (t_state t) (t_n_jobs t) (t_seed t) dt = Ok x0) in H2.
    pose proof (sparse_constructed _ _ _ _ _ _ K H1) as CO.
    split; [eauto|]. eapply sparse_launch_ok; eauto.
  Qed.

  Lemma sparse_scored : forall t dt de m x0 i v, sparse_sound t -> launched B t dt de m x0 ->
    csr_data (tm_nlit (sm_tm (t_m t))) (tm_ncls (sm_tm (t_m t))) dt -> csr_data (tm_nlit (sm_tm (t_m t))) (tm_ncls (sm_tm (t_m t))) de ->
    score (d_y de) (pred_of B dt de x0 i) = Ok v ->
    exists cbs, read_from m (bk_snap B m (after B dt de x0 (S i))) cbs /\
      sparse_scores score (tm_nlit (sm_tm (t_m t))) (tm_ncls (sm_tm (t_m t))) (bk_snap B m (after B dt de x0 (S i))) cbs de v.
  Proof.
    intros t dt de m x0 i v SD L Dt De Hs. destruct (sparse_launched_ok _ _ _ _ _ SD L) as [[cbs CO] [OK _]]. pose proof CO as [_ _ E1 E2 _ _ _ _ _ _].
    rewrite <- E1, <- E2 in *. set (x := snd (sparse_epoch dt (after B dt de x0 i))).
    assert (OKi : srun_ok m x) by (apply sparse_epoch_ok; auto; apply sparse_after_ok; auto).
    exists (map snd (x_blocks (su_exec x))).
    assert (Es : bk_snap B m (after B dt de x0 (S i)) = sparse_snap m x).
    { cbn [after]. unfold B at 1. cbn [sparse_backend bk_snap bk_evaluate bk_train_epoch]. apply (sparse_evaluate_snap m de x OKi). }
    rewrite Es. split; [apply sparse_snap_read; exact OKi|]. apply sparse_snap_scores; auto.
  Qed.

  Let scores_t (t : trainer smachine sparse_state) := sparse_scores score (tm_nlit (sm_tm (t_m t))) (tm_ncls (sm_tm (t_m t))).

  Lemma sparse_inner_scored : forall t t', sparse_sound t -> 1 <= t_epochs t -> train_inner B t = (Ok tt, t') ->
    exists dt de r, t_train t = Some dt /\ t_eval t = Some de /\ t_results t' = Some r /\
      (forall b, t_load t = PTrue -> r_best_epoch r = Some (Z.of_nat b) ->
         exists s cbs, t_state t' = Some s /\ read_from (t_m t') s cbs /\ scores_t t s cbs de (r_best r)) /\
      (t_load t <> PTrue ->
         exists s v l cbs, t_state t' = Some s /\ read_from (t_m t') s cbs /\ r_elog r = l ++ [v] /\ scores_t t s cbs de v).
  Proof.
    intros t t' SD He H. pose proof SD as [K Kn MF _ Ft Fe]. apply train_inner_ok in H; auto.
    destruct H as [dt [de [m [x0 [n [r [be [L [N [R [N1 [T1 [E1 [B1 [I [A1 [A2 [A3 [A4 SC]]]]]]]]]]]]]]]]]]].
    pose proof L as [L1 [L2 _]]. exists dt, de, r. split; [auto|]. split; [auto|]. split; [auto|].
    assert (SCi : forall i, (i < n)%nat -> score (d_y de) (pred_of B dt de x0 i) = Ok (score_of B dt de x0 i)).
    { intros i Hi. destruct (SC i Hi) as [v [Hv _]]. unfold score_of. rewrite Hv. exact Hv. }
    rewrite A4. split.
    - intros b Ld Eb. rewrite Ld in A3, I. cbn [is_true truthy] in *. rewrite B1 in Eb. inversion Eb; subst be.
      destruct I as [[H1 _]|[b' [H1 [H2 [H3 [_ [_ [_ H4]]]]]]]]; [lia|]. assert (b' = b) by lia. subst b'. cbn [truthy] in H4.
      destruct (sparse_scored t dt de m x0 b (score_of B dt de x0 b)) as [cbs [P1 P2]]; auto.
      exists (bk_snap B m (after B dt de x0 (S b))), cbs. rewrite A3, H4. split; [reflexivity|]. rewrite H3. auto.
    - intros Ld. destruct n as [|k]; [lia|].
      destruct (sparse_scored t dt de m x0 k (score_of B dt de x0 k)) as [cbs [P1 P2]]; auto.
      exists (bk_snap B m (after B dt de x0 (S k))), (score_of B dt de x0 k), (map (score_of B dt de x0) (seq 0 k)), cbs.
      split; [rewrite A3; destruct (t_load t); [congruence| |]; reflexivity|].
      split; [exact P1|]. split; [|exact P2]. rewrite E1. rewrite seq_S, map_app. reflexivity.
  Qed.

  Definition same_machine (m m' : smachine) : Prop :=
    tm_ncl (sm_tm m') = tm_ncl (sm_tm m) /\ tm_nlit (sm_tm m') = tm_nlit (sm_tm m) /\ tm_ncls (sm_tm m') = tm_ncls (sm_tm m) /\
    sm_csize m' = sm_csize m /\ sm_alsize m' = sm_alsize m.

  Lemma constructed_same : forall m m' cbs, constructed m m' cbs -> same_machine m m'.
  Proof. intros m m' cbs [_ E1 E2 E3 W _ _ _ _ _]. unfold same_machine. repeat (split; auto); rewrite W; reflexivity. Qed.

  Lemma sparse_inner_sound : forall t t', sparse_sound t -> train_inner B t = (Ok tt, t') -> sparse_sound t' /\ same_machine (t_m t) (t_m t').
  Proof.
    intros t t' SD H. pose proof SD as [K Kn MF MB Ft Fe].
    destruct (train_inner_config _ _ _ _ _ B t (Ok tt) t' H) as [_ [Dt De]].
    assert (FF : forall m cbs st, constructed (t_m t) m cbs -> sparse_fits (t_m t) st -> sparse_fits m st).
    { intros m cbs [s|] CO Q; auto. destruct Q as [src Q]. exists src. apply (co_fits _ _ _ CO). exact Q. }
    destruct (Z_lt_le_dec (t_epochs t) 1) as [Lt|Ge].
    - unfold train_inner in H. destruct (t_train t) as [dt|] eqn:D1; [|discriminate].
      destruct (t_eval t) as [de|] eqn:D2; [|discriminate]. destruct (negb (kinds_match (Some dt) (Some de))); [discriminate|].
      destruct (bk_construct B (t_m t) (t_n_jobs t) (t_seed t) dt) as [[cbs|e] m] eqn:Co; [|discriminate].
      cbn [with_m t_epochs] in H. destruct (Z.ltb_spec (t_epochs t) 1); [|lia]. inversion H; subst t'. clear H.
      change (sparse_construct (t_m t) (t_n_jobs t) (t_seed t) dt = (Ok cbs, m)) in Co.
      pose proof (sparse_constructed _ _ _ _ _ _ K Co) as CO. pose proof (constructed_same _ _ _ CO) as SM. split; [|exact SM].
      destruct SM as [S1 [S2 [S3 _]]]. constructor; cbn [with_m t_m t_state t_best t_train t_eval]; rewrite ?S2, ?S3; auto.
      + apply CO.
      + eapply FF; eauto.
      + eapply FF; eauto.
      + intros d Hd. apply Ft. congruence.
      + intros d Hd. apply Fe. congruence.
    - apply train_inner_ok in H; auto.
      destruct H as [dt [de [m [x0 [n [r [be [L [N [R [N1 [T1 [E1 [B1 [I [A1 [A2 [A3 [A4 SC]]]]]]]]]]]]]]]]]]].
      pose proof L as [L1 [L2 _]]. destruct (sparse_launched_ok _ _ _ _ _ SD L) as [[cbs CO] [OK _]].
      pose proof (constructed_same _ _ _ CO) as SM. rewrite <- A4 in SM. split; [|exact SM]. pose proof SM as [S1 [S2 [S3 _]]].
      assert (Fa : forall i, sparse_fits m (Some (bk_snap B m (after B dt de x0 i)))).
      { intros i. eexists. apply sparse_snap_read. apply sparse_after_ok; auto. rewrite <- A4, S2, S3. auto. }
      assert (Fb : sparse_fits m (t_best t')).
      { destruct I as [[_ [_ [-> _]]]|[b [_ [_ [_ [_ [_ [_ ->]]]]]]]]; [eapply FF; eauto|]. destruct (truthy (t_load t)); auto. eapply FF; eauto. }
      constructor; rewrite ?S2, ?S3; auto.
      + rewrite A4. apply CO.
      + rewrite A4, A3. destruct (is_true (t_load t)); auto.
      + rewrite A4. auto.
      + intros d Hd. apply Ft. congruence.
      + intros d Hd. apply Fe. congruence.
  Qed.

  Lemma csr_folds : forall t o t', sparse_sound t -> train B t = (Ok o, t') -> t_folds t <= 1.
  Proof.
    intros t o t' [_ _ _ _ Ft _] H. destruct (Z_le_gt_dec (t_folds t) 1) as [Le|Gt]; [exact Le|]. exfalso. unfold train in H.
    destruct (t_folds t >? 1) eqn:E; [|lia]. destruct (t_train t) as [a|] eqn:Ea; [|discriminate]. destruct (t_eval t) as [b|]; [|discriminate].
    destruct (Ft a eq_refl) as [Ka _]. unfold stack, is_array in H. rewrite Ka in H. discriminate.
  Qed.

  Lemma sparse_train_sound : forall t o t', sparse_sound t -> train B t = (Ok o, t') -> sparse_sound t' /\ same_machine (t_m t) (t_m t').
  Proof.
    intros t o t' SD H. apply train_no_folds in H; [|eapply csr_folds; eauto]. destruct H as [H _]. now apply sparse_inner_sound.
  Qed.

  Lemma set_csr_data : forall n ncls x y, csr_data n ncls (mkData x y) -> csr_data n ncls (mkData x (atleast_1d y)).
  Proof. intros n ncls x y H. unfold atleast_1d. destruct (y_shape y); exact H. Qed.

  Lemma same_machine_trans : forall a b c, same_machine a b -> same_machine b c -> same_machine a c.
  Proof. unfold same_machine. intros a b c [A1 [A2 [A3 [A4 A5]]]] [B1 [B2 [B3 [B4 B5]]]]. repeat split; congruence. Qed.

  Lemma sparse_used_sound : forall t t', sparse_sound t -> sparse_used B t t' -> sparse_sound t' /\ same_machine (t_m t) (t_m t').
  Proof.
    intros t t' SD U. induction U as [|t1 o t2 U [IH1 IH2] H|t1 x y t2 U [IH1 IH2] H D|t1 x y t2 U [IH1 IH2] H D].
    - split; auto. repeat split.
    - destruct (sparse_train_sound _ _ _ IH1 H) as [A1 A2]. split; auto. eapply same_machine_trans; eauto.
    - unfold set_train_data in H. destruct (check_data _ _ _ _ _) as [d|] eqn:E; inversion H; subst t2. apply check_data_ok in E. subst d.
      split; [|exact IH2]. destruct IH1 as [K Kn MF MB Ft Fe]. constructor; auto. cbn [with_train t_train t_m]. intros d Hd. inversion Hd; subst.
      now apply set_csr_data.
    - unfold set_eval_data in H. destruct (check_data _ _ _ _ _) as [d|] eqn:E; inversion H; subst t2. apply check_data_ok in E. subst d.
      split; [|exact IH2]. destruct IH1 as [K Kn MF MB Ft Fe]. constructor; auto. cbn [with_eval t_eval t_m]. intros d Hd. inversion Hd; subst.
      now apply set_csr_data.
  Qed.

  (** A run that continued from a state. *)
  Lemma sparse_resumed : forall t o t' s, sparse_sound t -> 1 <= t_epochs t -> train B t = (Ok o, t') -> t_state t = Some s ->
    even_state s /\ exists dt de m x0, launched B t dt de m x0 /\ bk_snap B m x0 = s.
  Proof.
    intros t o t' s SD He H Hs. apply train_no_folds in H; [|eapply csr_folds; eauto]. destruct H as [H _]. apply train_inner_ok in H; auto.
    destruct H as [dt [de [m [x0 [n [r [be [L _]]]]]]]]. destruct (sparse_launched_ok _ _ _ _ _ SD L) as [_ [_ [Q _]]].
    destruct (Q s Hs) as [Q1 Q2]. split; [exact Q2|]. exists dt, de, m, x0. auto.
  Qed.

  (** n_jobs *)
  Lemma sparse_construct_sizes : forall m j seed d sz, tm_sizes (sm_tm m) = Some sz ->
    sparse_construct m j seed d = sparse_build m /\ tm_sizes (sm_tm (snd (sparse_build m))) = Some sz.
  Proof.
    intros m j seed d sz H. unfold sparse_construct. rewrite H. destruct m as [t c a th dy]. cbn [sm_tm] in *.
    split; [reflexivity|]. unfold sparse_build. cbn [sm_tm]. destruct (construct_sizes t j seed d sz H) as [_ E].
    destruct (construct_clause_blocks t) as [r t']. cbn [snd] in E. destruct (extra_bad _); [|exact E].
    destruct (tm_sizes t); [|exact E]. destruct (tm_cbs t') as [[|? ?]|]; exact E.
  Qed.

  Lemma sparse_inner_jobs : forall j t sz, tm_sizes (sm_tm (t_m t)) = Some sz ->
    train_inner B (with_jobs j t) = (fst (train_inner B t), with_jobs j (snd (train_inner B t))).
  Proof.
    intros j t sz H. unfold train_inner. cbn [with_jobs t_train t_eval t_m t_n_jobs t_seed t_epochs].
    destruct (t_train t) as [dt|]; [|cbn; auto]. destruct (t_eval t) as [de|]; [|cbn; auto].
    destruct (negb (kinds_match (Some dt) (Some de))); [cbn; auto|].
    change (bk_construct B) with sparse_construct. change (bk_launch B) with (sparse_launch G).
    destruct (sparse_construct_sizes (t_m t) j (t_seed t) dt sz H) as [-> _].
    destruct (sparse_construct_sizes (t_m t) (t_n_jobs t) (t_seed t) dt sz H) as [-> _].
    destruct (sparse_build (t_m t)) as [[cbs|e] m]; cbn [snd fst] in *; [|cbn; auto].
    cbn [with_m with_jobs t_train t_eval t_m t_n_jobs t_seed t_epochs t_early t_load t_best t_state].
    destruct (t_epochs t <? 1); [cbn; auto|].
    change (sparse_launch G m cbs (t_state t) j (t_seed t) dt) with (sparse_launch G m cbs (t_state t) (t_n_jobs t) (t_seed t) dt).
    destruct (sparse_launch G m cbs (t_state t) (t_n_jobs t) (t_seed t) dt) as [x0|e]; [|cbn; auto].
    match goal with |- context [epochs B ?b ?c ?d ?e ?f ?g ?h ?i ?k] => destruct (epochs B b c d e f g h i k) as [[ex|] l] end; cbn; auto.
  Qed.
End SparseCourse.

(** ** The pool *)

Section SparsePool.
  Variables (G : gens) (Sc : sschedule) (score : yarr -> list nat -> res fl) (callback : nat -> fl -> fl -> option exn)
            (assign : Z -> Z -> data -> res (list nat)).
  Hypothesis HS : sparse_pool Sc.
  Let B1 := sparse_threaded G Sc score callback assign.
  Let B2 := sparse_backend G score callback assign.

  Definition sparse_alike (p : strun) (x : srun) : Prop :=
    st_run p = x /\ exists ncls, all_inv sblock (sparse_inv ncls) (x_blocks (su_exec x)) /\ fb_ready ncls (x_fb (su_exec x)).

  Lemma sparse_alike_fits : forall ncls (x : srun), all_inv sblock (sparse_inv ncls) (x_blocks (su_exec x)) -> fb_ready ncls (x_fb (su_exec x)) ->
    sparse_exec_fits ncls (su_exec x).
  Proof. intros ncls x I R. split; [exact I|now apply ready_ok]. Qed.

  Lemma sparse_epoch_same : forall d p x, sparse_alike p x ->
    fst (sparse_mt_epoch Sc d p) = fst (sparse_epoch d x) /\ sparse_alike (snd (sparse_mt_epoch Sc d p)) (snd (sparse_epoch d x)).
  Proof.
    intros d p x [<- [ncls [I R]]].
    assert (I' : all_inv sblock (sparse_inv ncls) (x_blocks (su_exec (snd (sparse_epoch d (st_run p))))) /\
                 fb_ready ncls (x_fb (su_exec (snd (sparse_epoch d (st_run p)))))).
    { unfold sparse_epoch. set (x := st_run p) in *.
      pose proof (train_epoch_P sblock (list nat) (sp_train_ex (su_bo x)) (sp_train_update (su_bo x) (su_boost x) (su_dyn x)) nat fb_process (sparse_inv ncls)
        (fun _ => True) (fun e b _ H => proj1 (sparse_train_good (su_bo x) ncls e b H))
        (fun e pc pp nc np b _ H => sparse_update_inv ncls (su_bo x) (su_boost x) (su_dyn x) e pc pp nc np b H)
        (sparse_feed d) (su_exec x) ltac:(apply Forall_forall; auto) I) as F'.
      pose proof (train_epoch_ready sblock (list nat) ncls (sparse_inv ncls) (sp_train_ex (su_bo x)) (sp_train_update (su_bo x) (su_boost x) (su_dyn x)) nat
        fb_process (sparse_train_good (su_bo x) ncls) (fun e p pp n np b => sparse_update_inv ncls _ _ _ e p pp n np b) (fb_process_good ncls)
        (process_ready ncls) (sparse_feed d) (su_exec x) I R) as R'.
      destruct (train_epoch _ _ _ _ _ _ _ _) as [acc e]. split; assumption. }
    unfold sparse_mt_epoch. destruct (st_jobs p =? 1).
    - destruct (sparse_epoch d (st_run p)) as [acc x]. cbn [fst snd] in *. split; auto. split; [reflexivity|eauto].
    - destruct (HS (st_time p) ncls d (st_run p) (sparse_alike_fits _ _ I R)) as [E _].
      pose proof (mt_train_epoch_det sblock (list nat) ncls (sparse_inv ncls) (sp_train_ex (su_bo (st_run p)))
        (sp_train_update (su_bo (st_run p)) (su_boost (st_run p)) (su_dyn (st_run p))) nat fb_process
        (sparse_train_good _ ncls) (fun e p pp n np b => sparse_update_inv ncls _ _ _ e p pp n np b) (fb_process_good ncls) _ _ _ I (ready_ok _ _ R) E) as Q.
      unfold sparse_epoch in *. rewrite <- Q. destruct (train_epoch _ _ _ _ _ _ _ _) as [acc e]. cbn [fst snd] in *.
      split; auto. split; [reflexivity|eauto].
  Qed.

  Lemma sparse_evaluate_same : forall d p x, sparse_alike p x ->
    fst (sparse_mt_evaluate Sc d p) = fst (sparse_evaluate d x) /\ sparse_alike (snd (sparse_mt_evaluate Sc d p)) (snd (sparse_evaluate d x)).
  Proof.
    intros d p x [<- [ncls [I R]]].
    assert (I' : all_inv sblock (sparse_inv ncls) (x_blocks (su_exec (snd (sparse_evaluate d (st_run p))))) /\
                 fb_ready ncls (x_fb (su_exec (snd (sparse_evaluate d (st_run p)))))).
    { unfold sparse_evaluate. set (x := st_run p) in *. set (out := repeat O (length (y_rows (d_y d)))).
      pose proof (eval_predict_P sblock (list nat) sp_eval_ex nat (sparse_inv ncls) (fun _ => True)
        (fun e b _ H => proj1 (sparse_eval_good ncls e b H)) (sparse_feed d) out (su_exec x) ltac:(apply Forall_forall; auto) I) as F'.
      pose proof (eval_predict_ready sblock (list nat) ncls (sparse_inv ncls) sp_eval_ex nat (sparse_eval_good ncls)
        (sparse_feed d) out (su_exec x) I R) as R'.
      destruct (eval_predict _ _ _ _ _ _ _) as [[ok ys] e]. split; assumption. }
    unfold sparse_mt_evaluate. destruct (st_jobs p =? 1).
    - destruct (sparse_evaluate d (st_run p)) as [ys x]. cbn [fst snd] in *. split; auto. split; [reflexivity|eauto].
    - destruct (HS (st_time p) ncls d (st_run p) (sparse_alike_fits _ _ I R)) as [_ E]. cbv zeta in E.
      assert (Q : ss_eval Sc (st_time p) d (st_run p) = eval_predict sblock (list nat) sp_eval_ex nat (sparse_feed d)
                    (repeat O (length (y_rows (d_y d)))) (su_exec (st_run p))).
      { unfold eval_predict. destruct (Nat.eqb _ _); cbn [negb]; auto. destruct E as [ys [bs [fb [E1 E2]]]].
        pose proof (mt_eval_list_det sblock (list nat) ncls (sparse_inv ncls) sp_eval_ex (sparse_eval_good ncls) _ _ _ E1 I (ready_ok _ _ R)) as D.
        cbn [fst snd] in D. rewrite D. exact E2. }
      unfold sparse_evaluate in *. rewrite Q. destruct (eval_predict _ _ _ _ _ _ _) as [[ok ys] e]. cbn [fst snd] in *.
      split; auto. split; [reflexivity|eauto].
  Qed.

  Lemma sparse_pool_inner : forall t, sparse_sound t -> train_inner B1 t = train_inner B2 t.
  Proof.
    intros t [K Kn MF _ _ _]. apply (inner_sim _ _ _ _ _ _ B1 B2 sparse_alike); auto.
    - intros d x y. apply sparse_epoch_same.
    - intros d x y. apply sparse_evaluate_same.
    - intros m x y [<- _]. reflexivity.
    - intros dt cbs m Et Co. change (sparse_construct (t_m t) (t_n_jobs t) (t_seed t) dt = (Ok cbs, m)) in Co.
      unfold B1, B2. cbn [sparse_threaded sparse_backend bk_launch].
      destruct (sparse_launch G m cbs (t_state t) (t_n_jobs t) (t_seed t) dt) as [x|e] eqn:La; auto.
      destruct (sparse_launch_ok G _ _ _ _ _ _ _ _ (sparse_constructed _ _ _ _ _ _ K Co) Kn MF La) as [[F _ _ Fb] _].
      split; [reflexivity|]. exists (tm_ncls (sm_tm m)). split; [eapply legal_all_inv; eauto|exact Fb].
  Qed.

  Theorem sparse_pool_train : forall t, sparse_sound t -> train B1 t = train B2 t.
  Proof.
    intros t SD. unfold train. destruct (t_folds t >? 1) eqn:E; [|rewrite sparse_pool_inner by auto; reflexivity].
    destruct (t_train t) as [a|] eqn:Ea; [|reflexivity]. destruct (t_eval t) as [b|]; [|reflexivity].
    destruct SD as [_ _ _ _ Ft _]. destruct (Ft a Ea) as [Ka _]. unfold stack, is_array. rewrite Ka. reflexivity.
  Qed.

  Lemma sparse_used_same : forall t t', sparse_sound t -> sparse_used B1 t t' -> sparse_used B2 t t'.
  Proof.
    intros t t' SD U. induction U as [|t1 o t2 U IH H|t1 x y t2 U IH H D|t1 x y t2 U IH H D]; [constructor| | |].
    - eapply sused_train; [exact IH|]. rewrite <- H. symmetry. apply sparse_pool_train. apply (sparse_used_sound G score callback assign t t1 SD IH).
    - eapply sused_set_train; eauto.
    - eapply sused_set_eval; eauto.
  Qed.
End SparsePool.

(** There are such schedules. *)
Definition sparse_first_come : sschedule :=
  mkSschedule (fun _ d x => train_epoch sblock (list nat) (sp_train_ex (su_bo x)) (sp_train_update (su_bo x) (su_boost x) (su_dyn x)) nat fb_process
                              (sparse_feed d) (su_exec x))
              (fun _ d x => eval_predict sblock (list nat) sp_eval_ex nat (sparse_feed d) (repeat O (length (y_rows (d_y d)))) (su_exec x)).
Lemma sparse_first_come_ok : sparse_pool sparse_first_come.
Proof.
  intros k ncls d x [I Fb]. cbn [sparse_first_come ss_epoch ss_eval]. change (all_inv sblock (sparse_inv ncls) (x_blocks (su_exec x))) in I.
  split.
  - apply (mt_train_epoch_exists sblock (list nat) ncls (sparse_inv ncls)); auto.
    + apply sparse_train_good.
    + intros. now apply sparse_update_inv.
    + apply fb_process_good.
  - cbv zeta. unfold eval_predict. destruct (Nat.eqb _ _); cbn [negb]; auto.
    pose proof (mt_eval_list_exists sblock (list nat) ncls (sparse_inv ncls) sp_eval_ex (sparse_eval_good ncls)
      (map fst (sparse_feed d)) _ _ I Fb) as Q.
    destruct (eval_list sblock (list nat) sp_eval_ex (map fst (sparse_feed d)) (x_blocks (su_exec x)) (x_fb (su_exec x))) as [[ys bs] fb].
    exists ys, bs, fb. split; auto.
Qed.
