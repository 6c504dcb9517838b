(** The dense machine inside the trainer: invariants of a run, and what the state
    copied out of it is worth. *)
From Coq Require Import ZArith List Bool QArith Lia ZifyBool.
From Verif Require Import Base BaseProofs Spec ModelInference ModelRuleSet ModelDense ModelFeedback ModelExecutor ModelDenseExec ModelLayout
  ModelMachine ModelTrainer ModelTrainerDense ModelPredictor SpecTraining SpecTrainerDense
  ProofsRuleSet ProofsExecutor ProofsDenseExec ProofsEval ProofsLayout ProofsLearning ProofsStep ProofsHistory ProofsMachine
  ProofsTrainer ProofsTopInference ProofsTopLearning.
Import ListNotations.
Open Scope Z_scope.

(** ** The arrays of a scalar block *)

Lemma slice_flatten : forall w m i, rows_of w m -> (i < length m)%nat -> slice (flatten m) (i * w) w = nth i m [].
Proof.
  intros w m i H Hi. unfold slice. unfold flatten. revert i Hi. induction m as [|r m IH]; intros i Hi; cbn [length] in Hi; [lia|].
  inversion H as [|? ? Hr H']; subst. destruct i as [|i].
  - cbn [Nat.mul skipn concat nth]. rewrite firstn_app, Nat.sub_diag. cbn [firstn]. rewrite app_nil_r. apply firstn_all.
  - cbn [concat nth]. replace (S i * length r)%nat with (length r + i * length r)%nat by lia.
    rewrite skipn_app, skipn_all2 by lia. replace (length r + i * length r - length r)%nat with (i * length r)%nat by lia.
    apply IH; auto. lia.
Qed.

Lemma firstn_skipn_slice : forall (mem : list Z) off a b,
  slice mem off a = firstn a (slice mem off (a + b)) /\ slice mem (off + a) b = skipn a (slice mem off (a + b)).
Proof.
  intros mem off a b. unfold slice. rewrite skipn_add. generalize (skipn off mem). intros l. split.
  - rewrite firstn_firstn. f_equal. lia.
  - rewrite firstn_skipn_comm. f_equal.
Qed.

Definition rowz (c : clause) : list Z := cl_pos c ++ cl_neg c.
Lemma rows_of_clauses : forall n cs, Forall (fun c => length (cl_pos c) = n /\ length (cl_neg c) = n) cs ->
  rows_of (2 * n) (map rowz cs).
Proof.
  intros n cs H. unfold rows_of. rewrite Forall_map. eapply Forall_impl; [|apply H]. intros c [A B]. unfold rowz.
  rewrite app_length. lia.
Qed.

Lemma flat_of_block_wf : forall n ncls b, block_wf n ncls b -> b_nlit b = n ->
  flat_wf n ncls (flat_of_block b) /\ block_on n ncls (flat_of_block b) b /\ f_ncl (flat_of_block b) = length (b_clauses b).
Proof.
  intros n ncls b [W1 W2 W3 W4] Hn. pose proof (rows_of_clauses n _ W2) as R.
  split; [|split; [|reflexivity]].
  - constructor; cbn [flat_of_block f_nlit f_ncls f_lmem f_wmem f_clauses f_weights f_ncl]; try lia.
    + fold rowz. change (concat (map rowz (b_clauses b))) with (flatten (map rowz (b_clauses b))).
      rewrite (flatten_length (2 * n)) by auto. rewrite map_length. lia.
    + change (concat (b_weights b)) with (flatten (b_weights b)). rewrite (flatten_length ncls) by auto. nia.
  - split; [auto|]. unfold view_clauses, view_all_weights. cbn [flat_of_block f_ncl]. split.
    + symmetry. apply nth_ext with (d := mkClause [] []) (d' := mkClause [] []); [now rewrite map_length, seq_length|].
      intros i Hi. rewrite map_length, seq_length in Hi. rewrite (nth_indep _ _ (view_clause (flat_of_block b) 0)) by (rewrite map_length, seq_length; auto).
      rewrite (map_nth (view_clause (flat_of_block b))), seq_nth by auto. cbn [Nat.add].
      unfold view_clause. cbn [flat_of_block f_nlit f_lmem f_clauses].
      change (concat (map (fun c => cl_pos c ++ cl_neg c) (b_clauses b))) with (flatten (map rowz (b_clauses b))).
      rewrite Hn. destruct (firstn_skipn_slice (flatten (map rowz (b_clauses b))) (i * (n * 2)) n n) as [E1 E2].
      rewrite E1, E2. replace (n + n)%nat with (2 * n)%nat by lia. replace (n * 2)%nat with (2 * n)%nat by lia.
      rewrite slice_flatten by (auto; rewrite map_length; auto).
      rewrite (nth_indep _ _ (rowz (mkClause [] []))) by (rewrite map_length; auto). rewrite (map_nth rowz).
      assert (L : length (cl_pos (nth i (b_clauses b) (mkClause [] []))) = n).
      { apply (proj1 (Forall_forall _ _) W2). now apply nth_In. }
      unfold rowz. rewrite firstn_app, skipn_app. replace (n - length _)%nat with 0%nat by lia.
      rewrite firstn_all2, skipn_all2 by lia. cbn [firstn skipn]. rewrite app_nil_r. cbn [app].
      destruct (nth i (b_clauses b) (mkClause [] [])); reflexivity.
    + symmetry. apply nth_ext with (d := []) (d' := []); [rewrite map_length, seq_length; auto|].
      intros i Hi. rewrite map_length, seq_length in Hi. rewrite (nth_indep _ _ (view_weights (flat_of_block b) 0)) by (rewrite map_length, seq_length; auto).
      rewrite (map_nth (view_weights (flat_of_block b))), seq_nth by auto. cbn [Nat.add].
      unfold view_weights. cbn [flat_of_block f_wmem f_ncls f_weights]. rewrite W1.
      change (concat (b_weights b)) with (flatten (b_weights b)). apply slice_flatten; auto. lia.
Qed.

(** ** Invariant of a run *)

Definition good_block (n ncls : nat) (b : block) : Prop := block_ok n ncls b /\ b_nlit b = n.
Record drun_ok (n ncl ncls : nat) (x : drun) : Prop := {
  ro_n : dr_n x = n;
  ro_blocks : Forall (fun tb => good_block n ncls (snd tb)) (x_blocks (dr_exec x));
  ro_total : list_sum (map (fun tb : bool * block => length (b_clauses (snd tb))) (x_blocks (dr_exec x))) = ncl;
  ro_fb : fb_ready ncls (x_fb (dr_exec x))
}.

Lemma ready_ok : forall ncls f, fb_ready ncls f -> fb_ok ncls f.
Proof. intros ncls f [H1 H2]. split; [auto|lia]. Qed.

Lemma good_inv : forall n ncls bs, Forall (fun tb : bool * block => good_block n ncls (snd tb)) bs -> blocks_inv ncls bs.
Proof.
  intros n ncls bs H. unfold blocks_inv. eapply Forall_impl; [|apply H]. intros tb [[[W1 W2 W3 W4] _ _] _]. split; auto.
Qed.

Lemma same_fb_ready : forall ncls f g, same_fb f g -> fb_ready ncls g -> fb_ready ncls f.
Proof.
  intros ncls f g S [H1 H2]. unfold same_fb, fb_reset in S. injection S as E1 _ E2 _ _ _ _ _ _ _ _.
  apply (f_equal (@length Z)) in E2. rewrite !repeat_length in E2. split; congruence.
Qed.

Lemma run_train_ready : forall ncls bo e bs fb, blocks_inv ncls bs -> fb_ready ncls fb ->
  fb_ready ncls (snd (run_examples block (list Z) (dense_train_ex bo) e bs fb)).
Proof.
  intros ncls bo e bs. induction bs as [|[t b] bs IH]; intros fb I R; cbn [run_examples]; auto.
  inversion I as [|? ? Ib I']; subst. cbn [snd] in Ib. pose proof (dense_train_good bo ncls e b Ib) as G.
  destruct (dense_train_ex bo e b) as [b1 v]. destruct G as [_ G]. cbn [snd] in G.
  assert (R' : fb_ready ncls (fb_register v fb)).
  { destruct R as [R1 R2]. split; [exact R1|]. cbn [fb_register fb_votes]. rewrite add_votes_length'; lia. }
  specialize (IH _ I' R'). destruct (run_examples block (list Z) (dense_train_ex bo) e bs (fb_register v fb)). exact IH.
Qed.

Lemma train_list_ready : forall ncls bo boost ds bs fb, blocks_inv ncls bs -> fb_ready ncls fb ->
  fb_ready ncls (snd (train_list block (list Z) (dense_train_ex bo) (dense_upd bo boost) nat fb_process ds bs fb)).
Proof.
  intros ncls bo boost ds. induction ds as [|d ds IH]; intros bs fb I R; cbn [train_list]; auto.
  pose proof (train_one_inv block (list Z) ncls (dense_inv ncls) (dense_train_ex bo) (dense_upd bo boost) nat fb_process
                (dense_train_good bo ncls) (fun e p pp n np b => dense_upd_good bo boost ncls e p pp n np b)
                (fb_process_good ncls) d bs fb I (ready_ok _ _ R)) as [I1 _].
  assert (R1 : fb_ready ncls (snd (train_one block (list Z) (dense_train_ex bo) (dense_upd bo boost) nat fb_process d bs fb))).
  { unfold train_one. pose proof (run_train_ready ncls bo (fst d) bs (fb_reset fb) I (fb_reset_ready _ _ R)) as Q.
    destruct (run_examples block (list Z) (dense_train_ex bo) (fst d) bs (fb_reset fb)) as [bs1 fb1]. cbn [snd] in *.
    destruct Q as [Q1 Q2]. unfold fb_process. destruct (sample_discrete _ _) as [neg r]. split; auto. }
  destruct (train_one block (list Z) (dense_train_ex bo) (dense_upd bo boost) nat fb_process d bs fb) as [bs1 fb1].
  apply IH; auto.
Qed.

Lemma run_steps_nlit : forall bo boost h b, b_nlit (run_steps bo boost h b) = b_nlit b.
Proof.
  intros bo boost h. induction h as [|u h IH]; intros b; cbn [run_steps]; auto. rewrite IH.
  unfold step1, dense_step, dense_upd, train_update.
  destruct (train_update_loop _ _ _ _ _ _ _ _ _ _ _ _ _ _ _ _) as [[[[cs2 wss2] outs2] r2] f2]. reflexivity.
Qed.

Lemma good_learned : forall n ncls b b', learned b' = learned b -> good_block n ncls b ->
  good_block n ncls b' /\ length (b_clauses b') = length (b_clauses b).
Proof.
  intros n ncls b b' E [[[W1 W2 W3 W4] O1 O2] N]. destruct b, b'. unfold learned in E. cbn in *. inversion E; subst.
  split; [|reflexivity]. split; [|reflexivity]. constructor; [constructor|..]; auto.
Qed.

Lemma evolved_good : forall n ncls bo boost h bs bs', Forall (valid_upd n ncls) h ->
  Forall2 (evolved bo boost h) bs bs' -> Forall (fun tb : bool * block => good_block n ncls (snd tb)) bs ->
  Forall (fun tb : bool * block => good_block n ncls (snd tb)) bs' /\
  map (fun tb : bool * block => length (b_clauses (snd tb))) bs' = map (fun tb : bool * block => length (b_clauses (snd tb))) bs.
Proof.
  intros n ncls bo boost h bs bs' V H. induction H as [|[t b] [t' b'] bs bs' E H IH]; intros F; [split; auto|].
  inversion F as [|? ? G F']; subst. destruct (IH F') as [I1 I2]. destruct E as [_ E]. cbn [fst snd] in *.
  assert (K : good_block n ncls b' /\ length (b_clauses b') = length (b_clauses b)).
  { destruct G as [G N]. destruct t.
    - destruct (run_steps_ok bo boost n ncls h b G V) as [A [B _]].
      destruct (good_learned n ncls (run_steps bo boost h b) b' E) as [C D]; [split; auto; now rewrite run_steps_nlit|].
      split; [auto|congruence].
    - destruct E as [E1 [E2 [E3 [E4 _]]]]. destruct G as [[W1 W2 W3 W4] O1 O2].
      split; [|congruence]. split; [|congruence]. constructor; [constructor|..]; congruence. }
  destruct K as [K1 K2]. split; [constructor; auto|]. cbn [map snd]. congruence.
Qed.

Lemma feed_ok : forall n ncls d, data_fits n ncls d -> Forall (data_ok nat (fun l => (l < ncls)%nat) n) (feed n d).
Proof.
  intros n ncls d [H1 [H2 H3]]. unfold feed. apply Forall_forall. intros [x l] Hi. unfold data_ok. cbn [fst snd].
  pose proof (in_combine_l _ _ _ _ Hi) as Hx. pose proof (in_combine_r _ _ _ _ Hi) as Hl.
  destruct (proj1 (Forall_forall _ _) H2 x Hx) as [A B]. apply in_map_iff in Hl. destruct Hl as [y [E Hy]]. subst l.
  split; [|split]; auto. exact (proj1 (Forall_forall _ _) H3 y Hy).
Qed.

Lemma epoch_ok : forall n ncl ncls d x, data_fits n ncls d -> drun_ok n ncl ncls x -> drun_ok n ncl ncls (snd (dense_epoch d x)).
Proof.
  intros n ncl ncls d x D [N F T R]. pose proof (good_inv _ _ _ F) as I.
  assert (EI : exec_inv ncls (dr_exec x)) by (split; [exact I|now apply ready_ok]).
  destruct (train_epoch_evolved ncls (dr_bo x) (dr_boost x) nat fb_process (fun l => (l < ncls)%nat) n
              (fb_process_good ncls) (fun l f => fb_process_valid ncls l f) (feed (dr_n x) d) (dr_exec x) EI) as [h [_ [V E]]].
  rewrite N in V. specialize (V (feed_ok n ncls d D)).
  destruct (evolved_good n ncls _ _ h _ _ V E F) as [F' T'].
  unfold dense_epoch.
  assert (R' : fb_ready ncls (x_fb (snd (train_epoch block (list Z) (dense_train_ex (dr_bo x)) (dense_upd (dr_bo x) (dr_boost x)) nat
                fb_process (feed (dr_n x) d) (dr_exec x))))).
  { unfold train_epoch, train_slice. cbn [Nat.eqb x_rng x_blocks x_fb].
    destruct (shuffle (seq 0 (length (feed (dr_n x) d))) (x_rng (dr_exec x))) as [idx r].
    pose proof (train_list_ready ncls (dr_bo x) (dr_boost x)
      (select (list Z) nat (feed (dr_n x) d) (firstn (length (feed (dr_n x) d) - 0) (skipn 0 idx)))
      (x_blocks (dr_exec x)) (fb_reset_counter (x_fb (dr_exec x))) I R) as Q.
    destruct (train_list _ _ _ _ _ _ _ _ _) as [bs fb]. exact Q. }
  destruct (train_epoch _ _ _ _ _ _ _ _) as [acc e]. cbn [snd] in *. constructor; cbn [dr_n dr_exec]; auto.
  now rewrite T'.
Qed.

Lemma same_blocks_good : forall n ncls bs bs', same_blocks bs' bs ->
  Forall (fun tb : bool * block => good_block n ncls (snd tb)) bs ->
  Forall (fun tb : bool * block => good_block n ncls (snd tb)) bs' /\
  map (fun tb : bool * block => length (b_clauses (snd tb))) bs' = map (fun tb : bool * block => length (b_clauses (snd tb))) bs.
Proof.
  intros n ncls bs. induction bs as [|[t b] bs IH]; intros [|[t' b'] bs'] S F; try discriminate; [split; auto|].
  inversion S. inversion F as [|? ? G F']; subst. destruct (IH bs') as [I1 I2]; auto.
  destruct (good_learned n ncls b b') as [G1 G2]; [unfold learned; cbn [snd] in *; congruence|auto|].
  split; [constructor; auto|]. cbn [map snd]. congruence.
Qed.

Lemma evaluate_ok : forall n ncl ncls d x, drun_ok n ncl ncls x -> drun_ok n ncl ncls (snd (dense_evaluate d x)).
Proof.
  intros n ncl ncls d x [N F T R]. pose proof (good_inv _ _ _ F) as I.
  assert (EI : exec_inv ncls (dr_exec x)) by (split; [exact I|now apply ready_ok]).
  destruct (eval_predict_same ncls nat (feed (dr_n x) d) (repeat O (length (y_rows (d_y d)))) (dr_exec x) EI) as [[S1 [S2 _]] _].
  unfold dense_evaluate. destruct (eval_predict _ _ _ _ _ _ _) as [[ok ys] e]. cbn [snd] in *.
  destruct (same_blocks_good n ncls _ _ S1 F) as [F' T'].
  constructor; cbn [dr_n dr_exec]; auto; [now rewrite T'|]. eapply same_fb_ready; eauto.
Qed.

(** ** The copied state *)

Lemma snap_flats : forall n ncls bs, Forall (fun tb : bool * block => good_block n ncls (snd tb)) bs ->
  let cbs := map (fun tb : bool * block => flat_of_block (snd tb)) bs in
  Forall (flat_wf n ncls) cbs /\ Forall2 (fun f tb => block_on n ncls f (snd tb)) cbs bs /\
  total_clauses cbs = list_sum (map (fun tb : bool * block => length (b_clauses (snd tb))) bs).
Proof.
  intros n ncls bs F. cbv zeta. induction F as [|[t b] bs [[W _ _] N] F [I1 [I2 I3]]]; cbn [map snd].
  - repeat split; constructor.
  - cbn [snd] in *. destruct (flat_of_block_wf n ncls b W N) as [A1 [A2 A3]]. split; [constructor; auto|].
    split; [constructor; auto|]. unfold total_clauses in *. cbn [map list_sum fold_right] in *. rewrite A3. f_equal. exact I3.
Qed.

Lemma zero_state_shape : forall n ncl ncls, state_shape n ncl ncls (zero_state n ncl ncls).
Proof.
  intros. unfold state_shape, zero_state. cbn [ds_ncols ds_nclasses ds_c ds_w]. rewrite !repeat_length.
  repeat split; try lia; unfold rows_of; apply Forall_forall; intros r Hr; apply repeat_spec in Hr; subst; rewrite repeat_length; lia.
Qed.

Lemma load_shape : forall n ncls cbs d, Forall (flat_wf n ncls) cbs -> state_shape n (total_clauses cbs) ncls d ->
  let s := load_state_from_backend cbs d in
  state_shape n (total_clauses cbs) ncls s /\ save_state_in_backend s cbs = cbs.
Proof.
  intros n ncls cbs d HF [T1 [T2 [T3 [T4 [T5 T6]]]]]. cbv zeta. unfold load_state_from_backend, save_state_in_backend.
  assert (Lc : length (flatten (ds_c d)) = (total_clauses cbs * (2 * n))%nat) by (rewrite (flatten_length (2 * n)) by auto; lia).
  assert (Lw : length (flatten (ds_w d)) = (total_clauses cbs * ncls)%nat) by (rewrite (flatten_length ncls) by auto; lia).
  pose proof (save_load_blocks n ncls cbs 0 (flatten (ds_c d)) (flatten (ds_w d)) HF ltac:(lia) ltac:(lia)) as SL.
  destruct (load_loop_frame n ncls cbs 0 (flatten (ds_c d)) (flatten (ds_w d)) HF ltac:(lia) ltac:(lia)) as [F1 [F2 _]].
  destruct (load_loop cbs 0 (flatten (ds_c d)) (flatten (ds_w d))) as [c w]. cbn [fst snd ds_c ds_w] in *.
  rewrite T1, T2, T3, T4.
  assert (U : forall width k mem, length mem = (k * width)%nat ->
            flatten (unflatten width k mem) = mem /\ length (unflatten width k mem) = k /\ rows_of width (unflatten width k mem)).
  { intros width k. induction k as [|k IH]; intros mem Hm; cbn [unflatten].
    - destruct mem; [|cbn in Hm; lia]. repeat split; constructor.
    - destruct (IH (skipn width mem)) as [A [B C]]; [rewrite skipn_length; lia|].
      split; [unfold flatten in *; cbn [concat]; rewrite A; apply firstn_skipn|]. split; [cbn [length]; congruence|].
      constructor; auto. rewrite firstn_length. lia. }
  destruct (U (2 * n)%nat (total_clauses cbs) c) as [A1 [A2 A3]]; [lia|].
  destruct (U ncls (total_clauses cbs) w) as [B1 [B2 B3]]; [lia|].
  split; [repeat split; auto|]. rewrite A1, B1. exact SL.
Qed.

Lemma snap_spec : forall m x n ncl ncls, drun_ok n ncl ncls x -> tm_nlit m = n -> Z.to_nat (tm_ncl m) = ncl -> tm_ncls m = ncls ->
  let s := dense_snap m x in
  let cbs := map (fun tb : bool * block => flat_of_block (snd tb)) (x_blocks (dr_exec x)) in
  state_fits n ncl ncls s /\
  Forall (flat_wf n ncls) cbs /\ total_clauses cbs = ncl /\ state_shape n (total_clauses cbs) ncls s /\
  Forall2 (fun f tb => block_on n ncls f (snd tb)) (save_state_in_backend s cbs) (x_blocks (dr_exec x)) /\
  ds_c s = all_rows (x_blocks (dr_exec x)) /\ ds_w s = all_weights (x_blocks (dr_exec x)).
Proof.
  intros m x n ncl ncls [N F T R] M1 M2 M3 s cbs.
  destruct (snap_flats n ncls _ F) as [A1 [A2 A3]]. fold cbs in A1, A2, A3. rewrite T in A3.
  destruct (load_shape n ncls cbs (zero_state n ncl ncls) A1) as [B1 B2]; [rewrite A3; apply zero_state_shape|].
  assert (Es : s = load_state_from_backend cbs (zero_state n ncl ncls)) by (unfold s, dense_snap; now rewrite M1, M2, M3).
  rewrite <- Es in B1, B2. clearbody s. clear Es. rewrite B2.
  pose proof A2 as A2'. rewrite <- B2 in A2'.
  destruct (blocks_on_state n ncls s cbs (x_blocks (dr_exec x)) A1 B1 A2') as [C1 [C2 C3]].
  split; [|split; [|split; [|split; [|split]]]]; auto. rewrite A3 in B1.
  destruct B1 as [S1 [S2 [S3 [S4 [S5 S6]]]]].
  unfold state_fits. split; [auto|]. split; [auto|]. split; [auto|]. split; [auto|]. split; [auto|]. split; [auto|].
  rewrite <- C1, <- C2. unfold all_rows, all_weights. clear - F.
  induction F as [|[t b] bs [[W O1 O2] N] F [I1 I2]]; cbn [map concat]; [split; constructor|]. cbn [snd] in *.
  split; apply Forall_app; (split; [|assumption]); [|exact O2].
  unfold block_rows. rewrite Forall_map. eapply Forall_impl; [|apply O1]. intros c [P1 P2]. unfold clause_row.
  apply Forall_app. split; auto.
Qed.

(** ** Launching *)

Lemma allocate_loop_cbs : forall cbs seed l, allocate_loop seed cbs = Ok l -> map (fun e => fst (fst e)) l = cbs.
Proof.
  induction cbs as [|cb cbs IH]; intros seed l H; cbn [allocate_loop] in H; [inversion H; auto|].
  destruct (_ || _); [discriminate|]. destruct (allocate_loop (seed + 1) cbs) as [l'|] eqn:E; inversion H; subst.
  cbn [map fst]. f_equal. eauto.
Qed.

Lemma alloc_all_spec : forall G n ncls l bs, alloc_all G l = Some bs ->
  Forall (fun e : cblock * Z * bool => c_nlit (fst (fst e)) = n /\ c_ncls (fst (fst e)) = ncls) l ->
  Forall (good_block n ncls) bs /\
  map (fun b => length (b_clauses b)) bs = map (fun e : cblock * Z * bool => Z.to_nat (c_ncl (fst (fst e)))) l.
Proof.
  intros G n ncls l. induction l as [|e l IH]; intros bs H F; cbn [alloc_all] in H; [inversion H; split; auto|].
  inversion F as [|? ? [F1 F2] F']; subst.
  destruct (alloc_block G (fst (fst e)) (snd (fst e))) as [b|] eqn:A; [|discriminate].
  destruct (alloc_all G l) as [bs'|]; [|discriminate]. inversion H; subst. destruct (IH bs' eq_refl F') as [I1 I2].
  unfold alloc_block in A. pose proof (initialize_spec _ _ _ _ _ _ _ _ _ _ _ A) as [_ [S1 [S2 _]]].
  assert (N : b_nlit b = c_nlit (fst (fst e))).
  { unfold initialize in A. destruct (_ =? 0); [discriminate|]. destruct (init_clauses _ _ _). destruct (init_weights _ _ _).
    inversion A; reflexivity. }
  split; [constructor; [split|]; auto|]. cbn [map]. congruence.
Qed.

Lemma to_nat_sum : forall l, Forall (fun z => 1 <= z) l -> list_sum (map Z.to_nat l) = Z.to_nat (zsum l) /\ 0 <= zsum l.
Proof.
  intros l H. induction H as [|z l Hz H [I1 I2]]; cbn [map zsum]; [split; [reflexivity|lia]|].
  change (list_sum (Z.to_nat z :: map Z.to_nat l)) with (Z.to_nat z + list_sum (map Z.to_nat l))%nat.
  rewrite I1. lia.
Qed.

(** Blocks after the state has been written. *)
Lemma saved_blocks : forall n ncls s bs, Forall (good_block n ncls) bs ->
  state_fits n (list_sum (map (fun b => length (b_clauses b)) bs)) ncls s ->
  let fs := save_state_in_backend s (map flat_of_block bs) in
  let bs' := map2 with_flat fs bs in
  Forall (good_block n ncls) bs' /\ map (fun b => length (b_clauses b)) bs' = map (fun b => length (b_clauses b)) bs /\
  all_rows (map (fun b => (true, b)) bs') = ds_c s /\ all_weights (map (fun b => (true, b)) bs') = ds_w s.
Proof.
  intros n ncls s bs F [S1 [S2 [S3 [S4 [S5 [S6 [S7 S8]]]]]]] fs bs'.
  assert (F0 : Forall (fun tb : bool * block => good_block n ncls (snd tb)) (map (fun b => (true, b)) bs)) by (now rewrite Forall_map).
  destruct (snap_flats n ncls _ F0) as [A1 [_ A3]]. rewrite map_map in A1. rewrite !map_map in A3. cbn [snd] in A1, A3.
  change (map (fun x => flat_of_block x) bs) with (map flat_of_block bs) in *.
  assert (SS : state_shape n (total_clauses (map flat_of_block bs)) ncls s) 
    by (unfold state_shape; rewrite A3; exact (conj S1 (conj S2 (conj S3 (conj S4 (conj S5 S6)))))).
  assert (W : Forall (flat_wf n ncls) fs).
  { apply save_loop_wf; auto; [rewrite (flatten_length (2 * n)) by auto|rewrite (flatten_length ncls) by auto]; nia. }
  destruct (save_views n ncls (ds_c s) (ds_w s) (map flat_of_block bs) 0) as [V1 [V2 V3]]; auto; [congruence|cbn [Nat.add]; congruence|].
  fold (save_state_in_backend s (map flat_of_block bs)) in V1, V2, V3. fold fs in V1, V2, V3. cbn [skipn] in V1, V2.
  assert (C8 : Forall (fun c => int8s (cl_pos c) /\ int8s (cl_neg c)) (concat (map view_clauses fs))).
  { rewrite V1, Forall_map. eapply Forall_impl; [|apply S7]. intros row Hr. unfold split_row. cbn [cl_pos cl_neg].
    rewrite <- (firstn_skipn n row) in Hr. apply Forall_app in Hr. exact Hr. }
  assert (W16 : Forall (Forall is_int16) (concat (map view_all_weights fs))) by (rewrite V2; exact S8).
  assert (BO : Forall2 (fun f tb => block_on n ncls f (snd tb)) fs (map (fun b => (true, b)) bs') /\
               Forall (good_block n ncls) bs' /\ map (fun b => length (b_clauses b)) bs' = map (fun b => length (b_clauses b)) bs).
  { unfold bs'. clear bs' V1 V2 SS A1 A3 F0 S1 S2 S3 S4 S5 S6 S7 S8. clearbody fs. rewrite map_map in V3. cbn [flat_of_block f_ncl] in V3.
    revert bs F V3. induction fs as [|f fs IH]; intros [|b bs] F V3; try discriminate.
    - cbn [map2]. repeat split; constructor.
    - inversion F as [|? ? [G N] F']; subst. inversion W as [|? ? Wf W']; subst. cbn [map concat] in C8, W16, V3.
      apply Forall_app in C8. destruct C8 as [C8a C8b]. apply Forall_app in W16. destruct W16 as [Wa Wb]. injection V3 as Ef V3.
      destruct (IH W' C8b Wb bs F' V3) as [I1 [I2 I3]]. cbn [map2 map].
      destruct (view_clauses_wf _ _ _ Wf) as [Q1 [Q2 Q3]]. destruct G as [[W1 W2 W3 W4] O1 O2].
      assert (Lv : length (view_clauses f) = f_ncl f) by (unfold view_clauses; now rewrite map_length, seq_length).
      split; [constructor; auto; split; auto|]. split.
      + constructor; auto. split; [|reflexivity]. constructor; [constructor|..]; auto.
      + cbn [with_flat b_clauses]. rewrite Lv, Ef. f_equal. exact I3. }
  destruct BO as [BO1 [BO2 BO3]].
  destruct (blocks_on_state n ncls s (map flat_of_block bs) _ A1 SS BO1) as [D1 [D2 _]]. auto.
Qed.

Lemma construct_dims : forall m n_jobs seed d cbs m', cfg_ok m -> dense_construct m n_jobs seed d = (Ok cbs, m') ->
  cfg_ok m' /\ tm_ncl m' = tm_ncl m /\ tm_nlit m' = tm_nlit m /\ tm_ncls m' = tm_ncls m /\
  tm_cbs m' = Some cbs /\ Forall (fun c => c_nlit c = tm_nlit m /\ c_ncls c = tm_ncls m) cbs.
Proof.
  intros m n_jobs seed d cbs m' K H. unfold dense_construct in H.
  assert (S0 : forall r m1, (match tm_sizes m with None => set_num_clause_blocks (BInt n_jobs) m | Some _ => (Ok tt, m) end) = (Ok r, m1) ->
    cfg_ok m1 /\ tm_ncl m1 = tm_ncl m /\ tm_nlit m1 = tm_nlit m /\ tm_ncls m1 = tm_ncls m).
  { intros [] m1 E. destruct (tm_sizes m).
    - inversion E; subst; auto.
    - destruct (cstep_ok (CBlocks (BInt n_jobs)) m m1 K E) as [A [A1 [A2 [A3 _]]]]. auto. }
  destruct (match tm_sizes m with None => set_num_clause_blocks (BInt n_jobs) m | Some _ => (Ok tt, m) end) as [[r|e] m1]; [|discriminate].
  destruct (S0 r m1 eq_refl) as [K1 [D1 [D2 D3]]]. clear S0.
  assert (E : cstep CBuild m1 = (Ok tt, m')) by (cbn [cstep]; now rewrite H).
  destruct (cstep_ok CBuild m1 m' K1 E) as [K2 [D4 [D5 [D6 _]]]].
  split; [auto|]. split; [congruence|]. split; [congruence|]. split; [congruence|].
  unfold construct_clause_blocks in H. destruct (tm_sizes m1) as [sz|] eqn:Ez; [|destruct (tm_flags m1); discriminate].
  destruct K1 as [Q1 Q2 Q3 _ _]. pose proof (construct_spec m1 sz Ez Q1 Q2 Q3) as P.
  unfold construct_clause_blocks in P. rewrite Ez in P. destruct (build_loop _ _ _ _ _) as [c [e|]]; inversion H; subst c.
  split; [subst m'; reflexivity|]. destruct P as [_ P]. destruct (P cbs eq_refl) as [_ [P1 P2]].
  apply Forall_forall. intros c Hc. apply In_nth with (d := c) in Hc. destruct Hc as [i [Hi Ec]].
  destruct (P2 i c) as [b [_ Eb]]; [congruence|]. rewrite Ec in Eb. rewrite Eb. cbn [c_nlit c_ncls]. auto.
Qed.

Lemma launch_ok : forall G m n_jobs seed d cbs m' st x, cfg_ok m -> dense_construct m n_jobs seed d = (Ok cbs, m') ->
  machine_fits m st -> dense_launch G m' cbs st n_jobs seed d = Ok x ->
  drun_ok (tm_nlit m) (Z.to_nat (tm_ncl m)) (tm_ncls m) x /\
  (forall s, st = Some s -> dense_snap m' x = s) /\ 1 <= seed.
Proof.
  intros G m n_jobs seed d cbs m' st x K HC MF HL.
  destruct (construct_dims m n_jobs seed d cbs m' K HC) as [K' [D1 [D2 [D3 [D4 D5]]]]].
  unfold dense_launch in HL. destruct (allocate_clause_blocks cbs seed) as [l|e] eqn:EA; [|discriminate].
  assert (Ml : map (fun e : cblock * Z * bool => fst (fst e)) l = cbs).
  { unfold allocate_clause_blocks in EA. destruct cbs; [discriminate|]. eapply allocate_loop_cbs; eauto. }
  assert (Sd : cbs <> []) by (intros ->; discriminate).
  pose proof (allocate_spec cbs seed Sd) as AS. rewrite EA in AS. destruct AS as [AS1 [_ [_ [_ [_ AS2]]]]].
  destruct ((1 <? labels_per_example (d_y d))%nat || negb (executor_accepts l)) eqn:EX; [discriminate|].
  apply orb_false_iff in EX. destruct EX as [_ EX]. apply negb_false_iff in EX. apply AS2 in EX.
  destruct (alloc_all G l) as [bs|] eqn:EB; [|discriminate]. injection HL as Ex.
  assert (Dl : Forall (fun e : cblock * Z * bool => c_nlit (fst (fst e)) = tm_nlit m /\ c_ncls (fst (fst e)) = tm_ncls m) l).
  { rewrite <- Ml in D5. rewrite Forall_map in D5. exact D5. }
  destruct (alloc_all_spec G _ _ l bs EB Dl) as [B1 B2].
  assert (Tl : list_sum (map (fun b => length (b_clauses b)) bs) = Z.to_nat (tm_ncl m)).
  { rewrite B2. destruct K' as [_ _ _ _ K5]. destruct (K5 cbs D4) as [Z1 Z2]. rewrite <- D1, <- Z1.
    rewrite <- Forall_map in Z2. destruct (to_nat_sum _ Z2) as [E _]. rewrite <- E. f_equal. rewrite <- Ml, !map_map. reflexivity. }
  set (bs' := match st with None => bs | Some s => map2 with_flat (save_state_in_backend s (map flat_of_block bs)) bs end) in *.
  assert (R : Forall (good_block (tm_nlit m) (tm_ncls m)) bs' /\ map (fun b => length (b_clauses b)) bs' = map (fun b => length (b_clauses b)) bs /\
    (forall s, st = Some s -> all_rows (map (fun b => (true, b)) bs') = ds_c s /\ all_weights (map (fun b => (true, b)) bs') = ds_w s)).
  { unfold bs'. destruct st as [s|].
    - cbn [machine_fits] in MF. rewrite <- Tl in MF. destruct (saved_blocks _ _ s bs B1 MF) as [Q1 [Q2 [Q3 Q4]]].
      split; [exact Q1|]. split; [exact Q2|]. intros s' E. inversion E; subst. auto.
    - split; [auto|]. split; [auto|]. discriminate. }
  destruct R as [R1 [R2 R3]]. clearbody bs'.
  assert (RO : drun_ok (tm_nlit m) (Z.to_nat (tm_ncl m)) (tm_ncls m) x).
  { subst x. constructor; cbn [dr_n dr_exec x_blocks x_fb].
    - exact D2.
    - rewrite Forall_map. exact R1.
    - rewrite map_map. cbn [snd]. rewrite <- Tl. f_equal. exact R2.
    - unfold new_fblock. split; cbn [fb_ncls fb_votes]; [exact D3|rewrite repeat_length; exact D3]. }
  split; [exact RO|]. split; [|lia].
  intros s Es. destruct (R3 s Es) as [R4 R5].
  destruct (snap_spec m' x (tm_nlit m) (Z.to_nat (tm_ncl m)) (tm_ncls m) RO) as [Q1 [_ [_ [_ [_ [Q2 Q3]]]]]]; try congruence.
  assert (Eb : x_blocks (dr_exec x) = map (fun b => (true, b)) bs') by (subst x; reflexivity).
  rewrite Eb in Q2, Q3. rewrite R4 in Q2. rewrite R5 in Q3.
  subst st. cbn [machine_fits] in MF. destruct MF as [M1 [M2 _]]. destruct Q1 as [N1 [N2 _]].
  destruct (dense_snap m' x), s. cbn in *. congruence.
Qed.

(** ** Configurations *)

Lemma configured_ok : forall m, configured m -> cfg_ok m.
Proof.
  intros m [nlit [ncl [ncls [s [thr [budget [boost [m0 [calls [results [H1 [H2 [H3 H4]]]]]]]]]]]]].
  destruct (crun_ok calls m0 results m (init_cfg_ok _ _ _ _ _ _ _ _ _ H1 H2) H3 H4) as [K _]. exact K.
Qed.

Lemma crun_app : forall a b m, crun (a ++ b) m = (fst (crun a m) ++ fst (crun b (snd (crun a m))), snd (crun b (snd (crun a m)))).
Proof.
  induction a as [|c a IH]; intros b m; cbn [app crun].
  - cbn [fst snd]. destruct (crun b m); reflexivity.
  - destruct (cstep c m) as [r m1]. rewrite IH. destruct (crun a m1) as [ra m2]. cbn [fst snd app]. reflexivity.
Qed.

Lemma configured_more : forall calls m rs m', configured m -> crun calls m = (rs, m') -> Forall (fun r => r = Ok tt) rs ->
  configured m'.
Proof.
  intros calls m rs m' [nlit [ncl [ncls [s [thr [budget [boost [m0 [calls0 [results [H1 [H2 [H3 H4]]]]]]]]]]]]] H F.
  exists nlit, ncl, ncls, s, thr, budget, boost, m0, (calls0 ++ calls), (results ++ rs).
  split; [auto|]. split; [auto|]. split; [|apply Forall_app; auto]. rewrite crun_app, H3. cbn [fst snd]. rewrite H. reflexivity.
Qed.

Lemma construct_configured : forall m n_jobs seed d cbs m', configured m -> dense_construct m n_jobs seed d = (Ok cbs, m') ->
  configured m'.
Proof.
  intros m n_jobs seed d cbs m' K H. unfold dense_construct in H. destruct (tm_sizes m) eqn:Sz.
  - apply (configured_more [CBuild] m [Ok tt] m'); auto. cbn [crun cstep]. rewrite H. reflexivity.
  - destruct (set_num_clause_blocks (BInt n_jobs) m) as [[[]|e] m1] eqn:E; [|discriminate].
    apply (configured_more [CBlocks (BInt n_jobs); CBuild] m [Ok tt; Ok tt] m'); auto.
    cbn [crun cstep]. rewrite E. rewrite H. reflexivity.
Qed.

(** ** Evaluation does not change what is copied out *)

Lemma same_blocks_flats : forall bs bs', same_blocks bs' bs ->
  map (fun tb : bool * block => flat_of_block (snd tb)) bs' = map (fun tb : bool * block => flat_of_block (snd tb)) bs.
Proof.
  induction bs as [|[t b] bs IH]; intros [|[t' b'] bs'] S; try discriminate; auto.
  inversion S as [[H1 H2]]. cbn [map snd]. f_equal; [|apply IH; auto].
  cbn [snd] in *. destruct b, b'. unfold learned in *. cbn in *. unfold flat_of_block. cbn. congruence.
Qed.

Lemma evaluate_snap : forall n ncl ncls d m x, drun_ok n ncl ncls x -> dense_snap m (snd (dense_evaluate d x)) = dense_snap m x.
Proof.
  intros n ncl ncls d m x [N F T R]. pose proof (good_inv _ _ _ F) as I.
  assert (EI : exec_inv ncls (dr_exec x)) by (split; [exact I|now apply ready_ok]).
  destruct (eval_predict_same ncls nat (feed (dr_n x) d) (repeat O (length (y_rows (d_y d)))) (dr_exec x) EI) as [[S1 _] _].
  unfold dense_evaluate. destruct (eval_predict _ _ _ _ _ _ _) as [[ok ys] e]. cbn [snd] in *.
  unfold dense_snap. cbn [dr_exec]. f_equal. now apply same_blocks_flats.
Qed.

Lemma feed_fst : forall n d, length (literal_rows n (d_x d)) = length (y_rows (d_y d)) -> map fst (feed n d) = literal_rows n (d_x d).
Proof.
  intros n d H. unfold feed. assert (H' : length (literal_rows n (d_x d)) = length (map label_of (y_rows (d_y d)))) by now rewrite map_length.
  clear H. revert H'. generalize (map label_of (y_rows (d_y d))). generalize (literal_rows n (d_x d)).
  induction l as [|a l IH]; intros [|b l'] H; try discriminate; auto. cbn [combine map fst]. f_equal. apply IH. cbn in H. lia.
Qed.

(** The predictor built from the copied state answers as the run evaluates. *)
Lemma snap_predicts : forall n ncl ncls m x d, drun_ok n ncl ncls x -> data_fits n ncls d ->
  tm_nlit m = n -> Z.to_nat (tm_ncl m) = ncl -> tm_ncls m = ncls ->
  exists rs, compile_from_dense_state (dense_snap m x) = Ok rs /\
    forall mode excl junk p, from_ruleset mode excl rs junk = Ok p ->
      votes_fit n ncls (dense_snap m x) (literal_rows n (d_x d)) ->
      answers p (literal_rows n (d_x d)) = map (fun y => Ok (AClass y)) (fst (dense_evaluate d x)).
Proof.
  intros n ncl ncls m x d OK D M1 M2 M3. destruct (snap_spec m x n ncl ncls OK M1 M2 M3) as [A1 [A2 [A3 [A4 [A5 [A6 A7]]]]]].
  set (s := dense_snap m x) in *. destruct A1 as [S1 [S2 [S3 [S4 [S5 [S6 [S7 S8]]]]]]].
  assert (Hwf : dense_wf n s) by (unfold dense_wf; rewrite S2; repeat split; auto; lia).
  destruct (compile_ok n s Hwf) as [mm [Ec _]]. eexists. split; [exact Ec|].
  intros mode excl junk p Hp [V1 V2]. destruct D as [D1 [D2 D3]].
  assert (Lf : length (feed n d) = length (y_rows (d_y d))).
  { rewrite <- (map_length fst), feed_fst by auto. auto. }
  assert (HD : Forall (fun e : list Z * nat => length (fst e) = n /\ binary (fst e) /\
            forall c, (c < ncls)%nat -> is_int16 (clause_vote_total n (fst e) (ds_c s) (ds_w s) c)) (feed n d)).
  { apply Forall_forall. intros e He. assert (Hi : In (fst e) (literal_rows n (d_x d))).
    { rewrite <- (feed_fst n d) by auto. now apply in_map. }
    rewrite Forall_forall in D2, V2. destruct (D2 _ Hi) as [B1 B2]. split; [|split]; auto. }
  destruct (predictor_agrees_merged nat n ncls s _ mode excl junk p _ (dr_exec x) (feed n d)
              (repeat O (length (y_rows (d_y d)))) A2 A4 A5 (ro_fb _ _ _ _ OK) Ec Hp ltac:(rewrite repeat_length; lia) V1 HD)
    as [ys [e' [Ev Ep]]].
  unfold dense_evaluate. rewrite (ro_n _ _ _ _ OK), Ev. cbn [fst]. rewrite <- Ep.
  unfold answers. rewrite <- (feed_fst n d) at 1 by auto. rewrite map_map. reflexivity.
Qed.

(** ** The course of a run *)

Section Course.
  Variables (G : gens) (score : yarr -> list nat -> res fl) (callback : nat -> fl -> fl -> option exn)
            (assign : Z -> Z -> data -> res (list nat)).
  Let B := dense_backend G score callback assign.

  Lemma after_ok : forall n ncl ncls dt de x0, data_fits n ncls dt -> drun_ok n ncl ncls x0 ->
    forall i, drun_ok n ncl ncls (after B dt de x0 i).
  Proof.
    intros n ncl ncls dt de x0 D O i. induction i as [|i IH]; cbn [after]; auto.
    apply evaluate_ok. apply epoch_ok; auto.
  Qed.

  (** Backend right after training epoch [i], before its evaluation. *)
  Let trained dt de x0 i := snd (dense_epoch dt (after B dt de x0 i)).

  Lemma launched_ok : forall t dt de m x0, configured (t_m t) -> machine_fits (t_m t) (t_state t) -> launched B t dt de m x0 ->
    configured m /\ tm_ncl m = tm_ncl (t_m t) /\ tm_nlit m = tm_nlit (t_m t) /\ tm_ncls m = tm_ncls (t_m t) /\
    drun_ok (tm_nlit (t_m t)) (Z.to_nat (tm_ncl (t_m t))) (tm_ncls (t_m t)) x0 /\
    (forall s, t_state t = Some s -> dense_snap m x0 = s) /\ 1 <= t_seed t.
  Proof.
    intros t dt de m x0 K MF [_ [_ [cbs [H1 H2]]]]. change (dense_construct (t_m t) (t_n_jobs t) (t_seed t) dt = (Ok cbs, m)) in H1.
    change (dense_launch G m cbs (t_state t) (t_n_jobs t) (t_seed t) dt = Ok x0) in H2.
    pose proof (configured_ok _ K) as K0.
    destruct (construct_dims _ _ _ _ _ _ K0 H1) as [_ [D1 [D2 [D3 _]]]].
    destruct (launch_ok G _ _ _ _ _ _ _ _ K0 H1 MF H2) as [L1 [L2 L3]].
    split; [eapply construct_configured; eauto|]. repeat (split; auto).
  Qed.

  (** Every entry of the evaluation log scores what the state copied out after
      that epoch answers. *)
  Lemma scored : forall t dt de m x0 i v, configured (t_m t) -> machine_fits (t_m t) (t_state t) -> launched B t dt de m x0 ->
    data_fits (tm_nlit (t_m t)) (tm_ncls (t_m t)) dt -> data_fits (tm_nlit (t_m t)) (tm_ncls (t_m t)) de ->
    bk_score B (d_y de) (pred_of B dt de x0 i) = Ok v ->
    let s := bk_snap B m (after B dt de x0 (S i)) in
    state_fits (tm_nlit (t_m t)) (Z.to_nat (tm_ncl (t_m t))) (tm_ncls (t_m t)) s /\
    predictor_scores score (tm_nlit (t_m t)) (tm_ncls (t_m t)) s de v.
  Proof.
    intros t dt de m x0 i v K MF L Dt De Hs s. destruct (launched_ok _ _ _ _ _ K MF L) as [_ [D1 [D2 [D3 [O _]]]]].
    pose proof (epoch_ok _ _ _ dt _ Dt (after_ok _ _ _ dt de x0 Dt O i)) as Oi.
    assert (Es : s = dense_snap m (trained dt de x0 i)).
    { subst s. cbn [after bk_snap]. unfold B at 1. cbn [dense_backend bk_snap bk_evaluate bk_train_epoch].
      apply (evaluate_snap _ _ _ de m _ Oi). }
    rewrite Es. split; [apply (snap_spec m _ _ _ _ Oi); congruence|].
    destruct (snap_predicts _ _ _ m _ de Oi De D2 ltac:(congruence) D3) as [rs [E1 E2]].
    exists rs. split; auto. intros mode excl junk p Hp V. exists (fst (dense_evaluate de (trained dt de x0 i))). split; [|exact Hs].
    apply (E2 mode excl junk p Hp V).
  Qed.

  Let fits_t (t : trainer tm dense_state) := state_fits (tm_nlit (t_m t)) (Z.to_nat (tm_ncl (t_m t))) (tm_ncls (t_m t)).
  Let scores_t (t : trainer tm dense_state) := predictor_scores score (tm_nlit (t_m t)) (tm_ncls (t_m t)).
  Definition same_dims (m m' : tm) : Prop := tm_ncl m' = tm_ncl m /\ tm_nlit m' = tm_nlit m /\ tm_ncls m' = tm_ncls m.

  Lemma same_dims_fits : forall m m' st, same_dims m m' -> machine_fits m st -> machine_fits m' st.
  Proof. intros m m' st [E1 [E2 E3]] H. destruct st; auto. cbn in *. now rewrite E1, E2, E3. Qed.

  (** One successful _train_inner. *)
  Lemma inner_scored : forall t t', sound t -> 1 <= t_epochs t -> train_inner B t = (Ok tt, t') ->
    exists dt de r, t_train t = Some dt /\ t_eval t = Some de /\ t_results t' = Some r /\
      (forall b, t_load t = PTrue -> r_best_epoch r = Some (Z.of_nat b) ->
         exists s, t_state t' = Some s /\ fits_t t s /\ scores_t t s de (r_best r)) /\
      (t_load t <> PTrue ->
         exists s v l, t_state t' = Some s /\ fits_t t s /\ r_elog r = l ++ [v] /\ scores_t t s de v).
  Proof.
    intros t t' [K MF _ Ft Fe] He H. apply train_inner_ok in H; auto.
    destruct H as [dt [de [m [x0 [n [r [be [L [N [R [N1 [T1 [E1 [B1 [I [A1 [A2 [A3 [A4 SC]]]]]]]]]]]]]]]]]]].
    pose proof L as [L1 [L2 _]]. exists dt, de, r. split; [auto|]. split; [auto|]. split; [auto|].
    assert (SCi : forall i, (i < n)%nat -> bk_score B (d_y de) (pred_of B dt de x0 i) = Ok (score_of B dt de x0 i)).
    { intros i Hi. destruct (SC i Hi) as [v [Hv _]]. unfold score_of. rewrite Hv. reflexivity. }
    split.
    - intros b Ld Eb. rewrite Ld in A3, I. cbn [is_true truthy] in *. rewrite B1 in Eb. inversion Eb; subst be.
      destruct I as [[H1 _]|[b' [H1 [H2 [H3 [_ [_ [_ H4]]]]]]]]; [lia|]. assert (b' = b) by lia. subst b'. cbn [truthy] in H4.
      exists (bk_snap B m (after B dt de x0 (S b))). rewrite A3, H4. split; [reflexivity|]. rewrite H3.
      apply (scored t dt de m x0 b); auto.
    - intros Ld. destruct n as [|k]; [lia|].
      exists (bk_snap B m (after B dt de x0 (S k))), (score_of B dt de x0 k), (map (score_of B dt de x0) (seq 0 k)).
      split; [rewrite A3; destruct (t_load t); [congruence| |]; reflexivity|].
      destruct (scored t dt de m x0 k (score_of B dt de x0 k)) as [P1 P2]; auto.
      split; [exact P1|]. split; [|exact P2]. rewrite E1. rewrite seq_S, map_app. reflexivity.
  Qed.

  Lemma inner_sound : forall t t', sound t -> train_inner B t = (Ok tt, t') -> sound t' /\ same_dims (t_m t) (t_m t').
  Proof.
    intros t t' SD H. pose proof SD as [K MF MB Ft Fe].
    destruct (train_inner_config _ _ _ _ _ B t (Ok tt) t' H) as [_ [Dt De]].
    destruct (Z_lt_le_dec (t_epochs t) 1) as [Lt|Ge].
    - unfold train_inner in H. destruct (t_train t) as [dt|] eqn:D1; [|discriminate].
      destruct (t_eval t) as [de|] eqn:D2; [|discriminate]. destruct (negb (kinds_match (Some dt) (Some de))); [discriminate|].
      destruct (bk_construct B (t_m t) (t_n_jobs t) (t_seed t) dt) as [[cbs|e] m] eqn:Co; [|discriminate].
      cbn [with_m t_epochs] in H. destruct (Z.ltb_spec (t_epochs t) 1); [|lia]. inversion H; subst t'. clear H.
      change (dense_construct (t_m t) (t_n_jobs t) (t_seed t) dt = (Ok cbs, m)) in Co.
      destruct (construct_dims _ _ _ _ _ _ (configured_ok _ K) Co) as [_ [E1 [E2 [E3 _]]]].
      assert (SM : same_dims (t_m t) m) by (repeat split; auto). split; [|exact SM].
      constructor; cbn [with_m t_m t_state t_best t_train t_eval].
      + eapply construct_configured; eauto.
      + eapply same_dims_fits; eauto.
      + eapply same_dims_fits; eauto.
      + intros d Hd. rewrite E2, E3. apply Ft. congruence.
      + intros d Hd. rewrite E2, E3. apply Fe. congruence.
    - apply train_inner_ok in H; auto.
      destruct H as [dt [de [m [x0 [n [r [be [L [N [R [N1 [T1 [E1 [B1 [I [A1 [A2 [A3 [A4 SC]]]]]]]]]]]]]]]]]]].
      pose proof L as [L1 [L2 _]]. destruct (launched_ok _ _ _ _ _ K MF L) as [KM [M1 [M2 [M3 [O _]]]]].
      assert (SM : same_dims (t_m t) (t_m t')) by (rewrite A4; repeat split; auto). split; [|exact SM].
      assert (Fa : forall i, machine_fits (t_m t) (Some (bk_snap B m (after B dt de x0 i)))).
      { intros i. apply (snap_spec m _ _ _ _ (after_ok _ _ _ dt de x0 (Ft _ L1) O i)); congruence. }
      assert (Fb : machine_fits (t_m t) (t_best t')).
      { destruct I as [[_ [_ [-> _]]]|[b [_ [_ [_ [_ [_ [_ ->]]]]]]]]; auto. destruct (truthy (t_load t)); auto. }
      destruct SM as [S1 [S2 S3]].
      constructor; rewrite ?S2, ?S3.
      + rewrite A4. exact KM.
      + apply (same_dims_fits (t_m t)); [repeat split; auto|]. rewrite A3. destruct (is_true (t_load t)); auto.
      + apply (same_dims_fits (t_m t)); [repeat split; auto|]. auto.
      + intros d Hd. apply Ft. congruence.
      + intros d Hd. apply Fe. congruence.
  Qed.

  (** ** Folds *)

  Lemma take_lengths : forall {A C} (a : list A) (c : list C) idx, length a = length c -> length (take a idx) = length (take c idx).
  Proof.
    intros A C a c idx H. unfold take. induction idx as [|j idx IH]; cbn [flat_map]; auto. rewrite !app_length, IH. f_equal.
    destruct (nth_error a j) eqn:Ea; destruct (nth_error c j) eqn:Ec; auto.
    - apply nth_error_None in Ec. assert (nth_error a j <> None) by congruence. apply nth_error_Some in H0. lia.
    - apply nth_error_None in Ea. assert (nth_error c j <> None) by congruence. apply nth_error_Some in H0. lia.
  Qed.
  Lemma take_forall : forall {A} (Q : A -> Prop) (a : list A) idx, Forall Q a -> Forall Q (take a idx).
  Proof.
    intros A Q a idx H. unfold take. induction idx as [|j idx IH]; cbn [flat_map]; [constructor|]. apply Forall_app. split; auto.
    destruct (nth_error a j) eqn:E; constructor; auto. eapply (proj1 (Forall_forall _ _) H). eapply nth_error_In; eauto.
  Qed.

  Lemma pick_fits : forall n ncls all idx, x_kind (d_x all) = KArray -> data_fits n ncls all ->
    data_fits n ncls (let '(x, y) := pick all idx in mkData x y).
  Proof.
    intros n ncls all idx Ka [H1 [H2 H3]]. unfold pick. unfold data_fits, literal_rows in *. cbn [d_x d_y x_kind x_rows y_rows].
    rewrite Ka in *. split; [|split].
    - now apply take_lengths.
    - now apply take_forall.
    - now apply take_forall.
  Qed.

  Lemma stack_fits : forall n ncls a b all, stack a b = Ok all -> data_fits n ncls a -> data_fits n ncls b ->
    x_kind (d_x all) = KArray /\ data_fits n ncls all.
  Proof.
    intros n ncls a b all H [A1 [A2 A3]] [B1 [B2 B3]]. unfold stack in H.
    destruct (is_array (d_x a) && is_array (d_x b)) eqn:E; [|discriminate]. apply andb_prop in E. destruct E as [Ea Eb].
    unfold is_array in Ea, Eb. unfold data_fits, literal_rows in *.
    destruct (x_kind (d_x a)); try discriminate. destruct (x_kind (d_x b)); try discriminate.
    destruct (x_shape (d_x a)) as [|ra [|ca [|]]]; try discriminate. destruct (x_shape (d_x b)) as [|rb [|cb [|]]]; try discriminate.
    destruct (y_shape (d_y a)); try discriminate. destruct (y_shape (d_y b)); try discriminate.
    destruct (Nat.eqb ca cb); inversion H; subst. cbn [d_x d_y x_kind x_rows y_rows].
    split; [reflexivity|]. rewrite !app_length. split; [lia|]. split; apply Forall_app; auto.
  Qed.

  Lemma runs_sound : forall all folds is runs t t', x_kind (d_x all) = KArray ->
    data_fits (tm_nlit (t_m t)) (tm_ncls (t_m t)) all -> sound t ->
    Forall2 (run_ok B all folds) is runs -> linked t runs t' ->
    Forall (fun u => sound (fr_before u) /\ sound (fr_after u) /\ same_dims (t_m t) (t_m (fr_before u))) runs /\
    sound t' /\ same_dims (t_m t) (t_m t').
  Proof.
    intros all folds is runs t t' Ka D SD F. revert t D SD. induction F as [|i u is runs [[R1 R2] [R3 R4]] F IH]; intros t D SD L; cbn [linked] in L.
    - subst t'. split; [constructor|]. split; auto. repeat split.
    - destruct L as [L1 [L2 [L3 [L4 L5]]]].
      assert (SB : sound (fr_before u)).
      { destruct SD as [K MF MB Ft Fe]. constructor; rewrite ?L1, ?L2, ?L3; auto.
        - intros d Hd. rewrite R1 in Hd. inversion Hd; subst d. apply (pick_fits _ _ all); auto.
        - intros d Hd. rewrite R2 in Hd. inversion Hd; subst d. apply (pick_fits _ _ all); auto. }
      destruct (inner_sound _ _ SB R3) as [SA SM]. rewrite L2 in SM. destruct SM as [E1 [E2 E3]].
      assert (D' : data_fits (tm_nlit (t_m (fr_after u))) (tm_ncls (t_m (fr_after u))) all) by (rewrite E2, E3; auto).
      destruct (IH (fr_after u) D' SA L5) as [I1 [I2 [I3 [I4 I5]]]].
      split; [|split; auto; repeat split; congruence]. constructor.
      + split; [auto|]. split; [auto|]. rewrite L2. repeat split.
      + eapply Forall_impl; [|apply I1]. intros v [V1 [V2 [V3 [V4 V5]]]]. split; auto. split; auto. repeat split; congruence.
  Qed.

  Lemma with_results_sound : forall r t, sound t -> sound (with_results r t).
  Proof. intros r t [K MF MB Ft Fe]. constructor; auto. Qed.

  Lemma train_sound : forall t o t', sound t -> train B t = (Ok o, t') -> sound t' /\ same_dims (t_m t) (t_m t').
  Proof.
    intros t o t' SD H. destruct (Z_le_gt_dec (t_folds t) 1) as [Le|Gt].
    - apply train_no_folds in H; auto. destruct H as [H _]. now apply inner_sound.
    - apply train_folds in H; [|lia].
      destruct H as [a [b [all [folds [runs [t1 [best [r [Ha [Hb [Hs [_ [F [L [_ [_ [-> _]]]]]]]]]]]]]]]]].
      pose proof SD as [_ _ _ Ft Fe]. destruct (stack_fits _ _ _ _ _ Hs (Ft _ Ha) (Fe _ Hb)) as [Ka D].
      destruct (runs_sound _ _ _ _ _ _ Ka D SD F L) as [_ [S1 S2]]. split; [now apply with_results_sound|]. exact S2.
  Qed.

  Lemma set_data_fits : forall n ncls x y, data_fits n ncls (mkData x y) -> data_fits n ncls (mkData x (atleast_1d y)).
  Proof. intros n ncls x y H. unfold atleast_1d. destruct (y_shape y); exact H. Qed.

  Lemma used_sound : forall t t', sound t -> used B t t' -> sound t' /\ same_dims (t_m t) (t_m t').
  Proof.
    intros t t' SD U. induction U as [|t1 o t2 U [IH1 IH2] H|t1 x y t2 U [IH1 IH2] H D|t1 x y t2 U [IH1 IH2] H D].
    - split; auto. repeat split.
    - destruct (train_sound _ _ _ IH1 H) as [A1 [A2 [A3 A4]]]. destruct IH2 as [B1 [B2 B3]]. split; auto. repeat split; congruence.
    - unfold set_train_data in H. destruct (check_data _ _ _ _ _) as [d|] eqn:E; inversion H; subst t2. apply check_data_ok in E. subst d.
      split; [|exact IH2]. destruct IH1 as [K MF MB Ft Fe]. constructor; auto. cbn [with_train t_train t_m]. intros d Hd. inversion Hd; subst.
      now apply set_data_fits.
    - unfold set_eval_data in H. destruct (check_data _ _ _ _ _) as [d|] eqn:E; inversion H; subst t2. apply check_data_ok in E. subst d.
      split; [|exact IH2]. destruct IH1 as [K MF MB Ft Fe]. constructor; auto. cbn [with_eval t_eval t_m]. intros d Hd. inversion Hd; subst.
      now apply set_data_fits.
  Qed.
End Course.

(** ** n_jobs *)

Section Jobs.
  Variables (G : gens) (score : yarr -> list nat -> res fl) (callback : nat -> fl -> fl -> option exn)
            (assign : Z -> Z -> data -> res (list nat)).
  Let B := dense_backend G score callback assign.

  Lemma construct_sizes : forall m j seed d sz, tm_sizes m = Some sz ->
    dense_construct m j seed d = construct_clause_blocks m /\ tm_sizes (snd (construct_clause_blocks m)) = Some sz.
  Proof.
    intros m j seed d sz H. unfold dense_construct. rewrite H. split; auto.
    unfold construct_clause_blocks. rewrite H. destruct (tm_flags m).
    - destruct (build_loop _ _ _ _ _) as [c [e|]]; cbn; auto.
    - destruct (build_loop _ _ _ _ _) as [c [e|]]; cbn; auto.
  Qed.

  Lemma inner_jobs : forall j t sz, tm_sizes (t_m t) = Some sz ->
    train_inner B (with_jobs j t) = (fst (train_inner B t), with_jobs j (snd (train_inner B t))) /\
    tm_sizes (t_m (snd (train_inner B t))) = Some sz.
  Proof.
    intros j t sz H. unfold train_inner. cbn [with_jobs t_train t_eval t_m t_n_jobs t_seed t_epochs].
    destruct (t_train t) as [dt|]; [|cbn; auto]. destruct (t_eval t) as [de|]; [|cbn; auto].
    destruct (negb (kinds_match (Some dt) (Some de))); [cbn; auto|].
    change (bk_construct B) with dense_construct. change (bk_launch B) with (dense_launch G).
    destruct (construct_sizes (t_m t) j (t_seed t) dt sz H) as [-> Sz].
    destruct (construct_sizes (t_m t) (t_n_jobs t) (t_seed t) dt sz H) as [-> _].
    destruct (construct_clause_blocks (t_m t)) as [[cbs|e] m]; cbn [snd fst] in *; [|cbn; auto].
    cbn [with_m with_jobs t_train t_eval t_m t_n_jobs t_seed t_epochs t_early t_load t_best t_state].
    destruct (t_epochs t <? 1); [cbn; auto|].
    change (dense_launch G m cbs (t_state t) j (t_seed t) dt) with (dense_launch G m cbs (t_state t) (t_n_jobs t) (t_seed t) dt).
    destruct (dense_launch G m cbs (t_state t) (t_n_jobs t) (t_seed t) dt) as [x0|e]; [|cbn; auto].
    match goal with |- context [epochs B ?b ?c ?d ?e ?f ?g ?h ?i ?k] => destruct (epochs B b c d e f g h i k) as [[ex|] l] end; cbn; auto.
  Qed.

  Lemma fold_loop_jobs : forall all folds is j best tl el t sz, tm_sizes (t_m t) = Some sz ->
    fold_loop B all folds is best tl el (with_jobs j t) =
      (fst (fold_loop B all folds is best tl el t), with_jobs j (snd (fold_loop B all folds is best tl el t))).
  Proof.
    intros all folds is. induction is as [|i is IH]; intros j best tl el t sz H; cbn [fold_loop]; auto.
    destruct (fold_indices i folds) as [ti ei]. destruct (pick all ti) as [xt yt]. destruct (pick all ei) as [xe ye].
    unfold set_train_data. cbn [with_jobs t_m t_eval]. destruct (check_data _ _ _ (Some xt) yt) as [d1|e1]; [|reflexivity].
    unfold set_eval_data. cbn [with_jobs with_train t_m t_train]. destruct (check_data _ _ _ (Some xe) ye) as [d2|e2]; [|reflexivity].
    set (t2 := with_eval (Some d2) (with_train (Some d1) t)).
    change (with_eval (Some d2) (with_train (Some d1) (with_jobs j t))) with (with_jobs j t2).
    destruct (inner_jobs j t2 sz H) as [E S2]. rewrite E. destruct (train_inner B t2) as [[[]|e] t3]; cbn [fst snd] in *; [|reflexivity].
    cbn [with_jobs t_results]. change (t_results (with_jobs j t3)) with (t_results t3). destruct (t_results t3) as [r|]; [|reflexivity].
    apply (IH _ _ _ _ _ sz); auto.
  Qed.

  Lemma train_jobs : forall j t sz, tm_sizes (t_m t) = Some sz ->
    train B (with_jobs j t) = (fst (train B t), with_jobs j (snd (train B t))).
  Proof.
    intros j t sz H. unfold train. cbn [with_jobs t_folds t_train t_eval t_seed].
    destruct (t_folds t >? 1).
    - destruct (t_train t); [|reflexivity]. destruct (t_eval t); [|reflexivity]. destruct (stack _ _); [|reflexivity].
      destruct (bk_assign _ _ _ _); [|reflexivity]. rewrite (fold_loop_jobs _ _ _ j _ _ _ t sz H).
      destruct (fold_loop _ _ _ _ _ _ _ t) as [[[[bs tl] el]|e] t1]; reflexivity.
    - destruct (inner_jobs j t sz H) as [E _]. rewrite E. destruct (train_inner B t) as [[[]|e] t3]; reflexivity.
  Qed.
End Jobs.
