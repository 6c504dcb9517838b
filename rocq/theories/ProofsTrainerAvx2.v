(** The AVX2 machine inside the trainer: invariants of a run, the state copied
    out of it, launching, and the thread pool. *)
From Coq Require Import ZArith List Bool QArith Lia ZifyBool.
From Verif Require Import Base BaseProofs Spec ModelInference ModelRuleSet ModelDense ModelFeedback ModelExecutor ModelDenseExec ModelLayout
  ModelMachine ModelTrainer ModelAvx2 ModelTrainerDense ModelTrainerAvx2 ModelPredictor SpecTraining SpecTrainerDense SpecAvx2 SpecTrainerAvx2
  ProofsRuleSet ProofsExecutor ProofsDenseExec ProofsEval ProofsLayout ProofsLearning ProofsStep ProofsHistory ProofsMachine
  ProofsTrainer ProofsTopInference ProofsTopLearning ProofsAvx2 ProofsAvx2Scalar ProofsAvx2Step ProofsAvx2Hist
  ProofsTrainerDense ProofsTrainerPool ProofsTrainerGen.
Import ListNotations.
Open Scope Z_scope.

(** ** Weights of an AVX2 block *)

Definition int16_rows (ncls : nat) (ws : list (list Z)) : Prop := rows_of ncls ws /\ Forall (Forall is_int16) ws.

Lemma is_int16_0 : is_int16 0.
Proof. unfold is_int16. lia. Qed.
Lemma nth_int16 : forall l k, Forall is_int16 l -> is_int16 (nth k l 0).
Proof.
  intros l k H. destruct (nth_in_or_default k l 0) as [I|E]; [exact (proj1 (Forall_forall _ _) H _ I)|rewrite E; apply is_int16_0].
Qed.
Lemma weight_after_int16 : forall w t o, is_int16 w -> is_int16 (weight_after w t o).
Proof.
  intros w t o H. unfold weight_after.
  repeat match goal with |- context [if ?b then _ else _] => destruct b end; auto using wrap16_range.
Qed.
Lemma set_nth_int16 : forall k v l, is_int16 v -> Forall is_int16 l -> Forall is_int16 (set_nth k v l).
Proof.
  induction k as [|k IH]; intros v [|a l] Hv H; cbn [set_nth]; auto; inversion H; subst; constructor; auto.
Qed.

Lemma clause_effect_int16 : forall bo bud pc pp nc np ws o cnt f,
  let '(ws1, o1, f1) := clause_effect bo bud pc pp nc np ws o cnt f in
  length ws1 = length ws /\ (Forall is_int16 ws -> Forall is_int16 ws1).
Proof.
  intros. unfold clause_effect. destruct (draw_lt f pp) as [d1 f1]. destruct (draw_lt f1 np) as [d2 f2].
  destruct d1, d2; rewrite ?set_nth_length; split; auto; intros H;
    repeat (apply set_nth_int16; [apply weight_after_int16, nth_int16|]); auto;
    try (apply set_nth_int16; [apply weight_after_int16, nth_int16|]); auto.
Qed.

Lemma avx_update_loop_weights : forall bo boost bud cmp lmem lits pc pp nc np ncls rows wss outs counts r f,
  int16_rows ncls wss ->
  let '(rows2, wss2, outs2, r2, f2) := avx_update_loop bo boost bud cmp lmem lits pc pp nc np rows wss outs counts r f in
  int16_rows ncls wss2 /\ length wss2 = length wss /\ length rows2 = length rows.
Proof.
  intros bo boost bud cmp lmem lits pc pp nc np ncls rows.
  induction rows as [|row rows IH]; intros [|ws wss] [|o outs] counts r f H; cbn [avx_update_loop]; auto.
  destruct H as [H1 H2]. inversion H1; inversion H2; subst.
  pose proof (avx_clause_effect bo boost bud cmp lmem lits pc pp nc np row ws o (hd 0 counts) r f) as E.
  destruct (avx_update_clause _ _ _ _ _ _ _ _ _ _ _ _ _ _ _ _) as [[[[row1 ws1] o1] r1] f1].
  pose proof (clause_effect_int16 bo bud pc pp nc np ws o (hd 0 counts) f) as W. rewrite <- E in W. destruct W as [W1 W2].
  assert (HW : int16_rows (length ws) wss) by (split; assumption).
  specialize (IH wss outs (tl counts) r1 f1 HW).
  destruct (avx_update_loop _ _ _ _ _ _ _ _ _ _ _ _ _ _ _ _) as [[[[rows2 wss2] outs2] r2] f2].
  destruct IH as [[I1 I2] [I3 I4]]. cbn [length]. split; [|lia]. split; constructor; auto.
Qed.

(** ** Invariant of a block *)

Record ablk_ok (n ncls : nat) (b : ablock) : Prop := {
  ab_good : avx_good n b;
  ab_ncls : a_ncls b = ncls;
  ab_weights : int16_rows ncls (a_weights b);
  ab_len : length (a_weights b) = length (a_rows b)
}.
(** What the executor needs, whatever the buffers hold. *)
Definition avx_inv (ncls : nat) (b : ablock) : Prop := a_ncls b = ncls /\ int16_rows ncls (a_weights b).

Lemma avx_train_ex_good : forall bo ncls, good_ex ablock (list Z) ncls (avx_inv ncls) (avx_train_ex bo).
Proof.
  intros bo ncls e b [H1 [H2 H3]]. unfold avx_train_ex, avx_inv. cbn. split; [repeat split; auto|].
  apply count_votes_loop_length; auto. rewrite repeat_length. auto.
Qed.
Lemma avx_eval_ex_good : forall ncls, good_ex ablock (list Z) ncls (avx_inv ncls) avx_eval_ex.
Proof.
  intros ncls e b [H1 [H2 H3]]. unfold avx_eval_ex, avx_inv. cbn. split; [repeat split; auto|].
  apply count_votes_loop_length; auto. rewrite repeat_length. auto.
Qed.
Lemma avx_upd_inv : forall bo boost ncls e p pp n np b, avx_inv ncls b -> avx_inv ncls (avx_upd bo boost e p pp n np b).
Proof.
  intros bo boost ncls e p pp n np b [H1 H2]. unfold avx_upd, avx_train_update, avx_inv.
  pose proof (avx_update_loop_weights bo boost (a_budget b) (a_cmp b) (a_lmem b) e p pp n np ncls
                (a_rows b) (a_weights b) (a_outputs b) (a_counts b) (a_vrng b) (a_fast b) H2) as W.
  destruct (avx_update_loop _ _ _ _ _ _ _ _ _ _ _ _ _ _ _ _) as [[[[rows2 wss2] outs2] r2] f2]. cbn. split; [auto|apply W].
Qed.

Lemma ablk_train : forall n ncls bo e b, ablk_ok n ncls b -> ablk_ok n ncls (fst (avx_train_ex bo e b)).
Proof. intros n ncls bo e b [G1 G2 G3 G4]. constructor; auto. now apply avx_train_good. Qed.
Lemma ablk_eval : forall n ncls e b, ablk_ok n ncls b -> ablk_ok n ncls (fst (avx_eval_ex e b)).
Proof. intros n ncls e b [G1 G2 G3 G4]. constructor; auto. now apply avx_eval_good. Qed.
Lemma ablk_upd : forall n ncls bo boost e pc pp nc np b, (lmem_of n <= length e)%nat -> ablk_ok n ncls b ->
  ablk_ok n ncls (avx_upd bo boost e pc pp nc np b).
Proof.
  intros n ncls bo boost e pc pp nc np b HL [G1 G2 G3 G4]. pose proof (avx_upd_good n bo boost e pc pp nc np b HL G1) as Q.
  constructor; auto; unfold avx_upd, avx_train_update in *;
    pose proof (avx_update_loop_weights bo boost (a_budget b) (a_cmp b) (a_lmem b) e pc pp nc np ncls
                (a_rows b) (a_weights b) (a_outputs b) (a_counts b) (a_vrng b) (a_fast b) G3) as W;
    destruct (avx_update_loop _ _ _ _ _ _ _ _ _ _ _ _ _ _ _ _) as [[[[rows2 wss2] outs2] r2] f2]; cbn in *;
    destruct W as [W1 [W2 W3]]; auto. congruence.
Qed.

(** ** What executors keep *)

Section Keys.
  Variables B E K : Type.
  Variables train_ex eval_ex : E -> B -> B * list Z.
  Variable update : E -> nat -> Q -> nat -> Q -> B -> B.
  Variable L : Type.
  Variable process : L -> fblock -> fblock.
  Variable key : B -> K.
  Hypothesis train_key : forall e b, key (fst (train_ex e b)) = key b.
  Hypothesis eval_key : forall e b, key (fst (eval_ex e b)) = key b.
  Hypothesis upd_key : forall e pc pp nc np b, key (update e pc pp nc np b) = key b.
  Definition keys (bs : list (bool * B)) : list (bool * K) := map (fun tb : bool * B => (fst tb, key (snd tb))) bs.

  Lemma run_examples_key : forall f e bs fb, (forall b, key (fst (f e b)) = key b) -> keys (fst (run_examples B E f e bs fb)) = keys bs.
  Proof.
    intros f e bs. induction bs as [|[t b] bs IH]; intros fb H; cbn [run_examples]; auto.
    specialize (H b) as Hb. destruct (f e b) as [b1 v]. specialize (IH (fb_register v fb) H).
    destruct (run_examples B E f e bs (fb_register v fb)) as [bs2 fb2]. cbn [fst snd keys map] in *. f_equal; [now rewrite Hb|exact IH].
  Qed.
  Lemma eval_list_key : forall es bs fb, keys (snd (fst (eval_list B E eval_ex es bs fb))) = keys bs.
  Proof.
    induction es as [|e es IH]; intros bs fb; cbn [eval_list]; auto.
    pose proof (run_examples_key eval_ex e bs (fb_reset fb) (eval_key e)) as R.
    destruct (run_examples B E eval_ex e bs (fb_reset fb)) as [bs1 fb1]. specialize (IH bs1 fb1).
    destruct (eval_list B E eval_ex es bs1 fb1) as [[ys bs2] fb2]. cbn [fst snd] in *. congruence.
  Qed.
  Lemma eval_predict_key : forall data out x, keys (x_blocks (snd (eval_predict B E eval_ex L data out x))) = keys (x_blocks x).
  Proof.
    intros data out x. unfold eval_predict. destruct (negb _); auto.
    pose proof (eval_list_key (map fst data) (x_blocks x) (x_fb x)) as R.
    destruct (eval_list B E eval_ex (map fst data) (x_blocks x) (x_fb x)) as [[ys bs] fb]. exact R.
  Qed.
  Lemma train_list_key : forall ds bs fb, keys (fst (train_list B E train_ex update L process ds bs fb)) = keys bs.
  Proof.
    induction ds as [|d ds IH]; intros bs fb; cbn [train_list]; auto.
    assert (T : keys (fst (train_one B E train_ex update L process d bs fb)) = keys bs).
    { unfold train_one. pose proof (run_examples_key train_ex (fst d) bs (fb_reset fb) (train_key (fst d))) as R.
      destruct (run_examples B E train_ex (fst d) bs (fb_reset fb)) as [bs1 fb1]. cbn [fst] in *. rewrite <- R.
      unfold keys, run_updates. rewrite map_map. apply map_ext. intros [[|] b]; cbn [fst snd]; [now rewrite upd_key|reflexivity]. }
    destruct (train_one B E train_ex update L process d bs fb) as [bs1 fb1]. rewrite IH. exact T.
  Qed.
  Lemma train_epoch_key : forall data x, keys (x_blocks (snd (train_epoch B E train_ex update L process data x))) = keys (x_blocks x).
  Proof.
    intros data x. unfold train_epoch, train_slice. cbn [Nat.eqb x_rng x_blocks x_fb].
    destruct (shuffle (seq 0 (length data)) (x_rng x)) as [idx r].
    match goal with |- context [train_list B E train_ex update L process ?a ?b ?c] => pose proof (train_list_key a b c) as Q;
      destruct (train_list B E train_ex update L process a b c) as [bs fb] end. exact Q.
  Qed.
End Keys.

Section Ready.
  Variables B E : Type.
  Variable ncls : nat.
  Variable inv : B -> Prop.
  Variables train_ex eval_ex : E -> B -> B * list Z.
  Variable update : E -> nat -> Q -> nat -> Q -> B -> B.
  Variable L : Type.
  Variable process : L -> fblock -> fblock.
  Hypothesis train_good : good_ex B E ncls inv train_ex.
  Hypothesis eval_good : good_ex B E ncls inv eval_ex.
  Hypothesis update_good : forall e p pp n np b, inv b -> inv (update e p pp n np b).
  Hypothesis process_ok : forall l f, fb_ok ncls f -> fb_ok ncls (process l f).
  Hypothesis process_ready : forall l f, fb_ready ncls f -> fb_ready ncls (process l f).
  Notation all_inv := (all_inv B inv).

  Lemma run_ready : forall f e bs fb, good_ex B E ncls inv f -> all_inv bs -> fb_ready ncls fb ->
    fb_ready ncls (snd (run_examples B E f e bs fb)).
  Proof.
    intros f e bs. induction bs as [|[t b] bs IH]; intros fb G I R; cbn [run_examples]; auto.
    inversion I as [|? ? Ib I']; subst. cbn [snd] in Ib. pose proof (G e b Ib) as [_ Q].
    destruct (f e b) as [b1 v]. cbn [snd] in Q.
    assert (R' : fb_ready ncls (fb_register v fb)).
    { destruct R as [R1 R2]. split; [exact R1|]. cbn [fb_register fb_votes]. rewrite add_votes_length'; lia. }
    specialize (IH _ G I' R'). destruct (run_examples B E f e bs (fb_register v fb)). exact IH.
  Qed.
  Lemma train_list_ready' : forall ds bs fb, all_inv bs -> fb_ready ncls fb ->
    fb_ready ncls (snd (train_list B E train_ex update L process ds bs fb)).
  Proof.
    intros ds. induction ds as [|d ds IH]; intros bs fb I R; cbn [train_list]; auto.
    pose proof (train_one_inv B E ncls inv train_ex update L process train_good update_good process_ok d bs fb I (ready_ok _ _ R)) as [I1 _].
    assert (R1 : fb_ready ncls (snd (train_one B E train_ex update L process d bs fb))).
    { unfold train_one. pose proof (run_ready train_ex (fst d) bs (fb_reset fb) train_good I (fb_reset_ready _ _ R)) as Q.
      destruct (run_examples B E train_ex (fst d) bs (fb_reset fb)) as [bs1 fb1]. cbn [snd] in *. auto. }
    destruct (train_one B E train_ex update L process d bs fb) as [bs1 fb1]. auto.
  Qed.
  Lemma train_epoch_ready : forall data x, all_inv (x_blocks x) -> fb_ready ncls (x_fb x) ->
    fb_ready ncls (x_fb (snd (train_epoch B E train_ex update L process data x))).
  Proof.
    intros data x I R. unfold train_epoch, train_slice. cbn [Nat.eqb x_rng x_blocks x_fb].
    destruct (shuffle (seq 0 (length data)) (x_rng x)) as [idx r].
    match goal with |- context [train_list B E train_ex update L process ?a ?b ?c] => pose proof (train_list_ready' a b c I R) as Q;
      destruct (train_list B E train_ex update L process a b c) as [bs fb] end. exact Q.
  Qed.
  Lemma eval_list_ready : forall es bs fb, all_inv bs -> fb_ready ncls fb -> fb_ready ncls (snd (eval_list B E eval_ex es bs fb)).
  Proof.
    induction es as [|e es IH]; intros bs fb I R; cbn [eval_list]; auto.
    pose proof (run_ready eval_ex e bs (fb_reset fb) eval_good I (fb_reset_ready _ _ R)) as Q.
    pose proof (run_examples_inv B E ncls inv eval_ex e bs (fb_reset fb) eval_good I (ready_ok _ _ (fb_reset_ready _ _ R))) as [I1 _].
    destruct (run_examples B E eval_ex e bs (fb_reset fb)) as [bs1 fb1]. specialize (IH bs1 fb1 I1 Q).
    destruct (eval_list B E eval_ex es bs1 fb1) as [[ys bs2] fb2]. exact IH.
  Qed.
  Lemma eval_predict_ready : forall data out x, all_inv (x_blocks x) -> fb_ready ncls (x_fb x) ->
    fb_ready ncls (x_fb (snd (eval_predict B E eval_ex L data out x))).
  Proof.
    intros data out x I R. unfold eval_predict. destruct (negb _); auto.
    pose proof (eval_list_ready (map fst data) (x_blocks x) (x_fb x) I R) as Q.
    destruct (eval_list B E eval_ex (map fst data) (x_blocks x) (x_fb x)) as [[ys bs] fb]. exact Q.
  Qed.
End Ready.

Lemma process_ready : forall ncls l f, fb_ready ncls f -> fb_ready ncls (fb_process l f).
Proof. intros ncls l f [Q1 Q2]. unfold fb_process. destruct (sample_discrete _ _) as [neg r]. split; auto. Qed.

(** ** Invariant of a run *)

Record vrun_ok (n ncl ncls : nat) (x : vrun) : Prop := {
  vo_n : vu_n x = n;
  vo_pos : (0 < n)%nat;
  vo_blocks : Forall (fun tb => ablk_ok n ncls (snd tb)) (x_blocks (vu_exec x));
  vo_total : list_sum (map (fun tb : bool * ablock => length (a_rows (snd tb))) (x_blocks (vu_exec x))) = ncl;
  vo_fb : fb_ready ncls (x_fb (vu_exec x))
}.

Lemma ablk_inv : forall n ncls bs, Forall (fun tb : bool * ablock => ablk_ok n ncls (snd tb)) bs -> all_inv ablock (avx_inv ncls) bs.
Proof. intros n ncls bs H. eapply Forall_impl; [|apply H]. intros tb [_ G2 G3 _]. split; auto. Qed.

Lemma padded_buffer : forall n x, length x = n -> buffer_of n x (padded n x).
Proof.
  intros n x H. unfold buffer_of, padded. split; [auto|]. split.
  - rewrite app_length, repeat_length, H. unfold lmem_of. pose proof (Nat.div_mod n 32 ltac:(lia)) as D.
    pose proof (Nat.mod_upper_bound n 32 ltac:(lia)). destruct (Nat.eqb_spec (n mod 32) 0); lia.
  - rewrite firstn_app, H, Nat.sub_diag. cbn [firstn]. rewrite app_nil_r. rewrite <- H. apply firstn_all.
Qed.

Lemma avx_feed_len : forall n ncls d, data_fits n ncls d ->
  Forall (fun e : list Z * nat => (lmem_of n <= length (fst e))%nat) (avx_feed n d).
Proof.
  intros n ncls d D. pose proof (feed_ok n ncls d D) as F. unfold avx_feed. rewrite Forall_map.
  eapply Forall_impl; [|apply F]. intros [x l] [H _]. cbn [fst] in *. destruct (padded_buffer n x H) as [_ [B _]]. exact B.
Qed.

Definition nrows (b : ablock) : nat := length (a_rows b).
Lemma avx_upd_nrows : forall bo boost e pc pp nc np b, nrows (avx_upd bo boost e pc pp nc np b) = nrows b.
Proof.
  intros. unfold avx_upd, avx_train_update, nrows.
  assert (Q : forall rows wss outs counts r f, length (fst (fst (fst (fst (avx_update_loop bo boost (a_budget b) (a_cmp b) (a_lmem b) e pc pp nc np
                 rows wss outs counts r f))))) = length rows).
  { induction rows as [|row rows IH]; intros [|ws wss] [|o outs] counts r f; cbn [avx_update_loop]; auto.
    destruct (avx_update_clause _ _ _ _ _ _ _ _ _ _ _ _ _ _ _ _) as [[[[row1 ws1] o1] r1] f1].
    specialize (IH wss outs (tl counts) r1 f1). destruct (avx_update_loop _ _ _ _ _ _ _ _ _ _ _ _ _ _ _ _) as [[[[rows2 wss2] outs2] r2] f2].
    cbn [fst length] in *. congruence. }
  specialize (Q (a_rows b) (a_weights b) (a_outputs b) (a_counts b) (a_vrng b) (a_fast b)).
  destruct (avx_update_loop _ _ _ _ _ _ _ _ _ _ _ _ _ _ _ _) as [[[[rows2 wss2] outs2] r2] f2]. exact Q.
Qed.
Lemma keys_total : forall bs bs', keys ablock nat nrows bs' = keys ablock nat nrows bs ->
  list_sum (map (fun tb : bool * ablock => length (a_rows (snd tb))) bs') = list_sum (map (fun tb : bool * ablock => length (a_rows (snd tb))) bs).
Proof.
  intros bs bs' H. f_equal. apply (f_equal (map snd)) in H. unfold keys in H. rewrite !map_map in H. exact H.
Qed.

Lemma avx_epoch_ok : forall n ncl ncls d x, data_fits n ncls d -> vrun_ok n ncl ncls x -> vrun_ok n ncl ncls (snd (avx_epoch d x)).
Proof.
  intros n ncl ncls d x D [N Np F T R]. pose proof (ablk_inv _ _ _ F) as I. unfold avx_epoch.
  pose proof (train_epoch_P ablock (list Z) (avx_train_ex (vu_bo x)) (avx_upd (vu_bo x) (vu_boost x)) nat fb_process (ablk_ok n ncls)
    (fun e => (lmem_of n <= length e)%nat) (fun e b _ H => ablk_train n ncls (vu_bo x) e b H)
    (fun e pc pp nc np b He H => ablk_upd n ncls (vu_bo x) (vu_boost x) e pc pp nc np b He H)
    (avx_feed (vu_n x) d) (vu_exec x) ltac:(rewrite N; eapply avx_feed_len; eauto) F) as F'.
  pose proof (train_epoch_key ablock (list Z) nat (avx_train_ex (vu_bo x)) (avx_upd (vu_bo x) (vu_boost x)) nat fb_process nrows
    (fun e b => eq_refl) (fun e pc pp nc np b => avx_upd_nrows _ _ e pc pp nc np b) (avx_feed (vu_n x) d) (vu_exec x)) as T'.
  pose proof (train_epoch_ready ablock (list Z) ncls (avx_inv ncls) (avx_train_ex (vu_bo x)) (avx_upd (vu_bo x) (vu_boost x)) nat fb_process
    (avx_train_ex_good (vu_bo x) ncls) (fun e p pp n np b => avx_upd_inv _ _ ncls e p pp n np b) (fb_process_good ncls) (process_ready ncls)
    (avx_feed (vu_n x) d) (vu_exec x) I R) as R'.
  destruct (train_epoch _ _ _ _ _ _ _ _) as [acc e]. cbn [snd] in *. constructor; cbn [vu_n vu_exec]; auto.
  rewrite (keys_total _ _ T'). exact T.
Qed.

Lemma avx_evaluate_ok : forall n ncl ncls d x, vrun_ok n ncl ncls x -> vrun_ok n ncl ncls (snd (avx_evaluate d x)).
Proof.
  intros n ncl ncls d x [N Np F T R]. pose proof (ablk_inv _ _ _ F) as I. unfold avx_evaluate.
  set (out := repeat O (length (y_rows (d_y d)))).
  pose proof (eval_predict_P ablock (list Z) avx_eval_ex nat (ablk_ok n ncls) (fun _ => True) (fun e b _ H => ablk_eval n ncls e b H)
    (avx_feed (vu_n x) d) out (vu_exec x) ltac:(apply Forall_forall; auto) F) as F'.
  pose proof (eval_predict_key ablock (list Z) nat avx_eval_ex nat nrows (fun e b => eq_refl) (avx_feed (vu_n x) d) out (vu_exec x)) as T'.
  pose proof (eval_predict_ready ablock (list Z) ncls (avx_inv ncls) avx_eval_ex nat (avx_eval_ex_good ncls)
    (avx_feed (vu_n x) d) out (vu_exec x) I R) as R'.
  destruct (eval_predict _ _ _ _ _ _ _) as [[ok ys] e]. cbn [snd] in *. constructor; cbn [vu_n vu_exec]; auto.
  rewrite (keys_total _ _ T'). exact T.
Qed.

Lemma avx_evaluate_snap : forall n ncl ncls d m x, vrun_ok n ncl ncls x -> avx_snap m (snd (avx_evaluate d x)) = avx_snap m x.
Proof.
  intros n ncl ncls d m x _. unfold avx_evaluate.
  pose proof (eval_predict_key ablock (list Z) flat avx_eval_ex nat flat_of_ablock (fun e b => eq_refl) (avx_feed (vu_n x) d)
    (repeat O (length (y_rows (d_y d)))) (vu_exec x)) as T'.
  destruct (eval_predict _ _ _ _ _ _ _) as [[ok ys] e]. cbn [snd] in *. unfold avx_snap. cbn [vu_exec]. f_equal.
  apply (f_equal (map snd)) in T'. unfold keys in T'. rewrite !map_map in T'. exact T'.
Qed.

(** ** The copied state *)

Lemma flat_of_ablock_on : forall n ncls b, ablk_ok n ncls b ->
  flat_wf n ncls (flat_of_ablock b) /\ avx_block_on n ncls (flat_of_ablock b) b /\ f_ncl (flat_of_ablock b) = length (a_rows b).
Proof.
  intros n ncls b [[[O1 O2 O3 O4 O5] [O6 O7]] G2 [G3 G4] G5]. pose proof (lmem_of_facts n O1) as [F1 [F2 F3]].
  assert (RO : rows_of (2 * lmem_of n) (a_rows b)) by exact O5.
  split; [|split; [|reflexivity]].
  - constructor; cbn [flat_of_ablock f_ncl f_nlit f_lmem f_ncls f_wmem f_clauses f_weights]; auto; try (rewrite ?O3; lia).
    + change (concat (a_rows b)) with (flatten (a_rows b)). rewrite (flatten_length (2 * lmem_of n)) by auto. rewrite O3. lia.
    + change (concat (a_weights b)) with (flatten (a_weights b)). rewrite (flatten_length ncls) by auto. rewrite G2, G5. lia.
  - unfold avx_block_on. repeat (split; [assumption|]). cbn [flat_of_ablock f_lmem f_nlit f_ncl].
    split.
    + symmetry. apply nth_ext with (d := []) (d' := []); [rewrite map_length, seq_length; auto|].
      intros i Hi. rewrite map_length, seq_length in Hi. rewrite (nth_indep _ _ (view_row (flat_of_ablock b) 0)) by (rewrite map_length, seq_length; auto).
      rewrite (map_nth (view_row (flat_of_ablock b))), seq_nth by auto. cbn [Nat.add].
      unfold view_row. cbn [flat_of_ablock f_lmem f_clauses]. rewrite O3. replace (lmem_of n * 2)%nat with (2 * lmem_of n)%nat by lia.
      change (concat (a_rows b)) with (flatten (a_rows b)). apply slice_flatten; auto.
    + symmetry. apply nth_ext with (d := []) (d' := []); [unfold view_all_weights; rewrite map_length, seq_length; auto|].
      intros i Hi. unfold view_all_weights in *. rewrite map_length, seq_length in Hi. cbn [flat_of_ablock f_ncl] in *.
      rewrite (nth_indep _ _ (view_weights (flat_of_ablock b) 0)) by (rewrite map_length, seq_length; auto).
      rewrite (map_nth (view_weights (flat_of_ablock b))), seq_nth by auto. cbn [Nat.add].
      unfold view_weights. cbn [flat_of_ablock f_wmem f_ncls f_weights]. rewrite G2.
      change (concat (a_weights b)) with (flatten (a_weights b)). apply slice_flatten; auto. lia.
Qed.

Lemma avx_snap_flats : forall n ncls bs, Forall (fun tb : bool * ablock => ablk_ok n ncls (snd tb)) bs ->
  let cbs := map (fun tb : bool * ablock => flat_of_ablock (snd tb)) bs in
  Forall (flat_wf n ncls) cbs /\ Forall2 (fun f tb => avx_block_on n ncls f (snd tb)) cbs bs /\
  total_clauses cbs = list_sum (map (fun tb : bool * ablock => length (a_rows (snd tb))) bs).
Proof.
  intros n ncls bs F. cbv zeta. induction F as [|[t b] bs G F [I1 [I2 I3]]]; cbn [map snd].
  - repeat split; constructor.
  - cbn [snd] in *. destruct (flat_of_ablock_on n ncls b G) as [A1 [A2 A3]]. split; [constructor; auto|].
    split; [constructor; auto|]. unfold total_clauses in *. cbn [map list_sum fold_right] in *. rewrite A3. f_equal. exact I3.
Qed.

Lemma all_firstn : forall {A} (P : A -> Prop) k l, Forall P l -> Forall P (firstn k l).
Proof. intros A P k l H. rewrite <- (firstn_skipn k l) in H. apply Forall_app in H. apply H. Qed.
Lemma all_skipn : forall {A} (P : A -> Prop) k l, Forall P l -> Forall P (skipn k l).
Proof. intros A P k l H. rewrite <- (firstn_skipn k l) in H. apply Forall_app in H. apply H. Qed.

(** The rows of a block without their padding. *)
Definition bare_rows (b : ablock) : list (list Z) :=
  map (fun row => firstn (a_nlit b) row ++ slice row (a_lmem b) (a_nlit b)) (a_rows b).

Lemma avx_snap_spec : forall m x n ncl ncls, vrun_ok n ncl ncls x -> tm_nlit m = n -> Z.to_nat (tm_ncl m) = ncl -> tm_ncls m = ncls ->
  let s := avx_snap m x in
  let cbs := map (fun tb : bool * ablock => flat_of_ablock (snd tb)) (x_blocks (vu_exec x)) in
  state_fits n ncl ncls s /\
  Forall (flat_wf n ncls) cbs /\ total_clauses cbs = ncl /\ state_shape n (total_clauses cbs) ncls s /\
  Forall2 (fun f tb => avx_block_on n ncls f (snd tb)) (save_state_in_backend s cbs) (x_blocks (vu_exec x)) /\
  ds_c s = concat (map (fun tb => bare_rows (snd tb)) (x_blocks (vu_exec x))) /\
  ds_w s = concat (map (fun tb => a_weights (snd tb)) (x_blocks (vu_exec x))).
Proof.
  intros m x n ncl ncls [N Np F T R] M1 M2 M3 s cbs.
  destruct (avx_snap_flats n ncls _ F) as [A1 [A2 A3]]. fold cbs in A1, A2, A3. rewrite T in A3.
  destruct (load_shape n ncls cbs (zero_state n ncl ncls) A1) as [B1 B2]; [rewrite A3; apply zero_state_shape|].
  assert (Es : s = load_state_from_backend cbs (zero_state n ncl ncls)) by (unfold s, avx_snap; now rewrite M1, M2, M3).
  rewrite <- Es in B1, B2. clearbody s. clear Es. rewrite B2.
  set (V := view_blocks 0 0 (mkRng (fun _ => 0%Q) 0) (x_blocks (vu_exec x))).
  assert (AV : Forall2 (fun f tb => block_on n ncls f (snd tb)) (save_state_in_backend s cbs) V).
  { rewrite B2. unfold V, view_blocks. clear - A2. induction A2 as [|f tb fs bs H1 H IH]; cbn [map]; constructor; auto.
    cbn [snd]. apply avx_block_scalar. exact H1. }
  destruct (blocks_on_state n ncls s cbs V A1 B1 AV) as [C1 [C2 C3]].
  assert (E1 : all_rows V = concat (map (fun tb => bare_rows (snd tb)) (x_blocks (vu_exec x)))).
  { unfold all_rows, V, view_blocks. rewrite map_map. f_equal. apply map_ext. intros tb. unfold block_rows, bare_rows, scalar_view.
    cbn [snd b_clauses]. rewrite map_map. apply map_ext. intros row. reflexivity. }
  assert (E2 : all_weights V = concat (map (fun tb => a_weights (snd tb)) (x_blocks (vu_exec x)))).
  { unfold all_weights, V, view_blocks. rewrite map_map. reflexivity. }
  rewrite C1 in E1. rewrite C2 in E2.
  split; [|split; [|split; [|split; [|split; [|split]]]]]; auto. rewrite A3 in B1.
  destruct B1 as [S1 [S2 [S3 [S4 [S5 S6]]]]].
  unfold state_fits. split; [auto|]. split; [auto|]. split; [auto|]. split; [auto|]. split; [auto|]. split; [auto|].
  rewrite E1, E2. clear - F. induction F as [|[t b] bs G F [I1 I2]]; cbn [map concat]; [split; constructor|]. cbn [snd] in *.
  destruct G as [[_ [G8 _]] _ [_ G16] _].
  split; apply Forall_app; (split; [|assumption]); [|exact G16].
  unfold bare_rows. rewrite Forall_map. eapply Forall_impl; [|apply G8]. intros row Hr. unfold row8 in Hr. unfold slice.
  apply Forall_app. split; [apply all_firstn; auto|apply all_firstn, all_skipn; auto].
Qed.

Lemma avx_snap_predicts : forall n ncl ncls m x d, vrun_ok n ncl ncls x -> data_fits n ncls d ->
  tm_nlit m = n -> Z.to_nat (tm_ncl m) = ncl -> tm_ncls m = ncls ->
  exists rs, compile_from_dense_state (avx_snap m x) = Ok rs /\
    forall mode excl junk p, from_ruleset mode excl rs junk = Ok p ->
      votes_fit n ncls (avx_snap m x) (literal_rows n (d_x d)) ->
      answers p (literal_rows n (d_x d)) = map (fun y => Ok (AClass y)) (fst (avx_evaluate d x)).
Proof.
  intros n ncl ncls m x d OK D M1 M2 M3. destruct (avx_snap_spec m x n ncl ncls OK M1 M2 M3) as [A1 [A2 [A3 [A4 [A5 _]]]]].
  set (s := avx_snap m x) in *. destruct A1 as [S1 [S2 [S3 [S4 [S5 [S6 [S7 S8]]]]]]].
  assert (Hwf : dense_wf n s) by (unfold dense_wf; rewrite S2; repeat split; auto; lia).
  destruct (compile_ok n s Hwf) as [mm [Ec _]]. eexists. split; [exact Ec|].
  intros mode excl junk p Hp [V1 V2]. destruct D as [D1 [D2 D3]].
  assert (Lf : length (avx_feed n d) = length (y_rows (d_y d))).
  { unfold avx_feed. rewrite map_length, <- (map_length fst), feed_fst by auto. auto. }
  assert (Fx : map fst (avx_feed n d) = map (padded n) (literal_rows n (d_x d))).
  { unfold avx_feed. rewrite map_map. cbn [fst]. rewrite <- (feed_fst n d), map_map by auto. reflexivity. }
  destruct (avx_predictor_agrees nat n ncls s _ mode excl junk p _ (vu_exec x) (avx_feed n d) (literal_rows n (d_x d))
              (repeat O (length (y_rows (d_y d)))) A2 A4 A5 (vo_fb _ _ _ _ OK) Ec Hp ltac:(rewrite repeat_length; lia) V1)
    as [ys [e' [Ev Ep]]].
  - rewrite Fx. clear - D2. induction (literal_rows n (d_x d)) as [|a l IH]; cbn [map]; constructor; inversion D2 as [|? ? [Ha Hb] D2']; subst; auto.
    split; [now apply padded_buffer|exact Hb].
  - exact V2.
  - unfold avx_evaluate. rewrite (vo_n _ _ _ _ OK), Ev. cbn [fst]. exact Ep.
Qed.

(** ** Launching *)

Lemma avx_alloc_all_spec : forall G n ncls l bs, whole_vectors G -> (0 < n)%nat -> avx_alloc_all G l = Some bs ->
  Forall (fun e : cblock * Z * bool => c_nlit (fst (fst e)) = n /\ c_ncls (fst (fst e)) = ncls) l ->
  Forall (ablk_ok n ncls) bs /\
  map (fun b => length (a_rows b)) bs = map (fun e : cblock * Z * bool => Z.to_nat (c_ncl (fst (fst e)))) l.
Proof.
  intros G n ncls l bs HV Hn. revert bs. induction l as [|e l IH]; intros bs H F; cbn [avx_alloc_all] in H; [inversion H; split; auto|].
  inversion F as [|? ? [F1 F2] F']; subst.
  destruct (avx_alloc_block G (fst (fst e)) (snd (fst e))) as [b|] eqn:A; [|discriminate].
  destruct (avx_alloc_all G l) as [bs'|]; [|discriminate]. inversion H; subst. destruct (IH bs' eq_refl F') as [I1 I2].
  unfold avx_alloc_block in A. destruct (avx_initialize_good _ _ _ _ _ _ _ _ _ _ Hn HV A) as [S1 S2].
  split; [|cbn [map]; congruence]. constructor; [|exact I1].
  unfold avx_initialize in A. destruct (_ =? 0); [discriminate|]. destruct (avx_init_rows _ _ _) as [rows f].
  pose proof (init_weights_spec (c_ncls (fst (fst e))) (Z.to_nat (c_ncl (fst (fst e)))) f) as W.
  destruct (init_weights _ _ _) as [ws f2]. destruct W as [W1 [_ W2]]. injection A as A. subst b. cbn [a_rows] in S2.
  constructor; auto; cbn [a_ncls a_weights a_rows]; [|congruence].
  split; apply Forall_forall; intros w Hw; apply (In_nth _ _ []) in Hw; destruct Hw as [k [Hk <-]]; destruct (W2 k ltac:(lia)) as [W3 W4]; auto.
  apply Forall_forall. intros z Hz. apply (In_nth _ _ 7) in Hz. destruct Hz as [i [Hi <-]]. rewrite W4 by congruence.
  destruct (Qlt_bool _ _); unfold is_int16; lia.
Qed.

Lemma memcpy_int8 : forall dst o src so k, Forall is_int8 dst -> Forall is_int8 src -> Forall is_int8 (memcpy dst o src so k).
Proof.
  intros. unfold memcpy. apply Forall_app. split; [now apply all_firstn|]. apply Forall_app.
  split; [now apply all_firstn, all_skipn|now apply all_skipn].
Qed.
Lemma for_loop_keeps : forall {A} (P : A -> Prop) body n a, (forall k x, P x -> P (body k x)) -> P a -> P (for_loop n body a).
Proof. intros A P body n a H Ha. induction n as [|n IH]; cbn [for_loop]; auto. Qed.
Lemma save_loop_int8 : forall c w cbs off, Forall is_int8 c -> Forall (fun f => Forall is_int8 (f_clauses f)) cbs ->
  Forall (fun f => Forall is_int8 (f_clauses f)) (save_loop c w off cbs).
Proof.
  intros c w cbs. induction cbs as [|cb cbs IH]; intros off Hc F; cbn [save_loop]; auto. inversion F; subst.
  constructor; [|auto]. cbn [set_clause_weights set_clause_state f_clauses].
  apply for_loop_keeps; auto. intros k mem Hm. apply memcpy_int8; auto. apply memcpy_int8; auto.
Qed.

(** Blocks after the state has been written. *)
Lemma avx_saved_blocks : forall n ncls s bs, Forall (ablk_ok n ncls) bs ->
  state_fits n (list_sum (map (fun b => length (a_rows b)) bs)) ncls s ->
  let fs := save_state_in_backend s (map flat_of_ablock bs) in
  let bs' := map2 with_aflat fs bs in
  Forall (ablk_ok n ncls) bs' /\ map (fun b => length (a_rows b)) bs' = map (fun b => length (a_rows b)) bs /\
  concat (map bare_rows bs') = ds_c s /\ concat (map a_weights bs') = ds_w s.
Proof.
  intros n ncls s bs F [S1 [S2 [S3 [S4 [S5 [S6 [S7 S8]]]]]]] fs bs'.
  assert (F0 : Forall (fun tb : bool * ablock => ablk_ok n ncls (snd tb)) (map (fun b => (true, b)) bs)) by (now rewrite Forall_map).
  destruct (avx_snap_flats n ncls _ F0) as [A1 [_ A3]]. rewrite map_map in A1. rewrite !map_map in A3. cbn [snd] in A1, A3.
  change (map (fun x => flat_of_ablock x) bs) with (map flat_of_ablock bs) in *.
  assert (SS : state_shape n (total_clauses (map flat_of_ablock bs)) ncls s)
    by (unfold state_shape; rewrite A3; exact (conj S1 (conj S2 (conj S3 (conj S4 (conj S5 S6)))))).
  assert (W : Forall (flat_wf n ncls) fs).
  { apply save_loop_wf; auto; [rewrite (flatten_length (2 * n)) by auto|rewrite (flatten_length ncls) by auto]; nia. }
  destruct (save_views n ncls (ds_c s) (ds_w s) (map flat_of_ablock bs) 0) as [V1 [V2 V3]]; auto; [congruence|cbn [Nat.add]; congruence|].
  fold (save_state_in_backend s (map flat_of_ablock bs)) in V1, V2, V3. fold fs in V1, V2, V3. cbn [skipn] in V1, V2.
  assert (I8 : Forall (fun f => Forall is_int8 (f_clauses f)) fs).
  { apply save_loop_int8; [now apply Forall_concat|]. rewrite Forall_map. eapply Forall_impl; [|apply F].
    intros b [[_ [G8 _]] _ _ _]. cbn [flat_of_ablock f_clauses]. apply Forall_concat. exact G8. }
  assert (DM : Forall2 (fun f b => f_lmem f = a_lmem b) fs bs).
  { unfold fs, save_state_in_backend. generalize O. clear. induction bs as [|b bs IH]; intros off; cbn [map save_loop]; constructor; auto. }
  assert (W16 : Forall (Forall is_int16) (concat (map view_all_weights fs))) by (rewrite V2; exact S8).
  assert (BO : Forall2 (fun f tb => avx_block_on n ncls f (snd tb)) fs (map (fun b => (true, b)) bs') /\
               Forall (ablk_ok n ncls) bs' /\ map (fun b => length (a_rows b)) bs' = map (fun b => length (a_rows b)) bs).
  { unfold bs'. clear bs' V1 V2 SS A1 A3 F0 S1 S2 S3 S4 S5 S6 S7 S8. clearbody fs. rewrite map_map in V3. cbn [flat_of_ablock f_ncl] in V3.
    revert bs F V3 DM. induction fs as [|f fs IH]; intros [|b bs] F V3 DM; try discriminate.
    - cbn [map2]. repeat split; constructor.
    - inversion F as [|? ? G F']; subst. inversion W as [|? ? Wf W']; subst. inversion I8 as [|? ? I I8']; subst. inversion DM as [|? ? ? ? D DM']; subst.
      cbn [map concat] in W16, V3. apply Forall_app in W16. destruct W16 as [Wa Wb]. injection V3 as Ef V3.
      destruct (IH W' I8' Wb bs F' V3 DM') as [I1 [I2 I3]]. cbn [map2 map].
      destruct (view_clauses_wf _ _ _ Wf) as [_ [Q2 Q3]]. destruct G as [[[O1 O2 O3 O4 O5] [O6 O7]] G2 G3 G5].
      assert (Rl : length (ModelTrainerAvx2.rows_in f) = f_ncl f) by (unfold ModelTrainerAvx2.rows_in; now rewrite map_length, seq_length).
      assert (Wl : length (view_all_weights f) = f_ncl f) by (unfold view_all_weights; now rewrite map_length, seq_length).
      destruct Wf as [Z1 Z2 Z3 Z4 Z5 Z6].
      split; [constructor; auto; unfold avx_block_on; cbn [snd with_aflat a_nlit a_lmem a_mask a_ncls a_rows a_weights]; repeat (split; auto); congruence|]. split.
      + constructor; auto. constructor; cbn [with_aflat a_ncls a_weights a_rows]; auto; [|split; auto|congruence].
        split; [|split]; cbn [with_aflat a_rows a_vrng]; [| |assumption].
        * constructor; auto. cbn [with_aflat a_rows]. unfold ModelTrainerAvx2.rows_in. apply Forall_forall. intros row Hr. apply in_map_iff in Hr.
          destruct Hr as [k [<- Hk]]. apply in_seq in Hk. unfold slice. rewrite firstn_length, skipn_length. nia.
        * unfold ModelTrainerAvx2.rows_in. apply Forall_forall. intros row Hr. apply in_map_iff in Hr. destruct Hr as [k [<- Hk]].
          unfold row8, slice. apply all_firstn, all_skipn. exact I.
      + cbn [with_aflat a_rows]. rewrite Rl, Ef. f_equal. exact I3. }
  destruct BO as [BO1 [BO2 BO3]]. split; [auto|]. split; [auto|].
  set (Vw := view_blocks 0 0 (mkRng (fun _ => 0%Q) 0) (map (fun b => (true, b)) bs')).
  assert (AV : Forall2 (fun f tb => block_on n ncls f (snd tb)) fs Vw).
  { unfold Vw, view_blocks. revert BO1. generalize (map (fun b => (true, b)) bs'). clear. intros l BO1.
    induction BO1 as [|f tb fs l H1 H IH]; cbn [map]; constructor; auto.
    cbn [snd]. apply avx_block_scalar. exact H1. }
  destruct (blocks_on_state n ncls s (map flat_of_ablock bs) Vw A1 SS AV) as [D1 [D2 _]]. rewrite <- D1, <- D2.
  split; [unfold all_rows|unfold all_weights]; unfold Vw, view_blocks; rewrite !map_map; f_equal; apply map_ext; intros b.
  unfold bare_rows, block_rows, scalar_view. cbn [snd b_clauses]. rewrite map_map. apply map_ext. intros row. reflexivity.
Qed.

Lemma avx_launch_ok : forall G m n_jobs seed d cbs m' st x, whole_vectors G -> cfg_ok m -> (0 < tm_nlit m)%nat ->
  dense_construct m n_jobs seed d = (Ok cbs, m') ->
  machine_fits m st -> avx_launch G m' cbs st n_jobs seed d = Ok x ->
  vrun_ok (tm_nlit m) (Z.to_nat (tm_ncl m)) (tm_ncls m) x /\
  (forall s, st = Some s -> avx_snap m' x = s) /\ 1 <= seed.
Proof.
  intros G m n_jobs seed d cbs m' st x HV K Hn HC MF HL.
  destruct (construct_dims m n_jobs seed d cbs m' K HC) as [K' [D1 [D2 [D3 [D4 D5]]]]].
  unfold avx_launch in HL. destruct (allocate_clause_blocks cbs seed) as [l|e] eqn:EA; [|discriminate].
  assert (Ml : map (fun e : cblock * Z * bool => fst (fst e)) l = cbs).
  { unfold allocate_clause_blocks in EA. destruct cbs; [discriminate|]. eapply allocate_loop_cbs; eauto. }
  assert (Sd : cbs <> []) by (intros ->; discriminate).
  pose proof (allocate_spec cbs seed Sd) as AS. rewrite EA in AS. destruct AS as [AS1 [_ [_ [_ [_ AS2]]]]].
  destruct ((1 <? labels_per_example (d_y d))%nat || negb (executor_accepts l)) eqn:EX; [discriminate|].
  apply orb_false_iff in EX. destruct EX as [_ EX]. apply negb_false_iff in EX. apply AS2 in EX.
  destruct (avx_alloc_all G l) as [bs|] eqn:EB; [|discriminate]. injection HL as Ex.
  assert (Dl : Forall (fun e : cblock * Z * bool => c_nlit (fst (fst e)) = tm_nlit m /\ c_ncls (fst (fst e)) = tm_ncls m) l).
  { rewrite <- Ml in D5. rewrite Forall_map in D5. exact D5. }
  destruct (avx_alloc_all_spec G _ _ l bs HV Hn EB Dl) as [B1 B2].
  assert (Tl : list_sum (map (fun b => length (a_rows b)) bs) = Z.to_nat (tm_ncl m)).
  { rewrite B2. destruct K' as [_ _ _ _ K5]. destruct (K5 cbs D4) as [Z1 Z2]. rewrite <- D1, <- Z1.
    rewrite <- Forall_map in Z2. destruct (to_nat_sum _ Z2) as [E _]. rewrite <- E. f_equal. rewrite <- Ml, !map_map. reflexivity. }
  set (bs' := match st with None => bs | Some s => map2 with_aflat (save_state_in_backend s (map flat_of_ablock bs)) bs end) in *.
  assert (R : Forall (ablk_ok (tm_nlit m) (tm_ncls m)) bs' /\ map (fun b => length (a_rows b)) bs' = map (fun b => length (a_rows b)) bs /\
    (forall s, st = Some s -> concat (map bare_rows bs') = ds_c s /\ concat (map a_weights bs') = ds_w s)).
  { unfold bs'. destruct st as [s|].
    - cbn [machine_fits] in MF. rewrite <- Tl in MF. destruct (avx_saved_blocks _ _ s bs B1 MF) as [Q1 [Q2 [Q3 Q4]]].
      split; [exact Q1|]. split; [exact Q2|]. intros s' E. inversion E; subst. auto.
    - split; [auto|]. split; [auto|]. discriminate. }
  destruct R as [R1 [R2 R3]]. clearbody bs'.
  assert (RO : vrun_ok (tm_nlit m) (Z.to_nat (tm_ncl m)) (tm_ncls m) x).
  { subst x. constructor; cbn [vu_n vu_exec x_blocks x_fb]; auto.
    - rewrite Forall_map. exact R1.
    - rewrite map_map. cbn [snd]. rewrite <- Tl. f_equal. exact R2.
    - unfold new_fblock. split; cbn [fb_ncls fb_votes]; [exact D3|rewrite repeat_length; exact D3]. }
  split; [exact RO|]. split; [|lia].
  intros s Es. destruct (R3 s Es) as [R4 R5].
  destruct (avx_snap_spec m' x (tm_nlit m) (Z.to_nat (tm_ncl m)) (tm_ncls m) RO) as [Q1 [_ [_ [_ [_ [Q2 Q3]]]]]]; try congruence.
  assert (Eb : x_blocks (vu_exec x) = map (fun b => (true, b)) bs') by (subst x; reflexivity).
  rewrite Eb, map_map in Q2, Q3. cbn [snd] in Q2, Q3.
  change (map (fun b => bare_rows b) bs') with (map bare_rows bs') in Q2. change (map (fun b => a_weights b) bs') with (map a_weights bs') in Q3.
  rewrite R4 in Q2. rewrite R5 in Q3.
  subst st. cbn [machine_fits] in MF. destruct MF as [M1 [M2 _]]. destruct Q1 as [N1 [N2 _]].
  destruct (avx_snap m' x), s. cbn in *. congruence.
Qed.

(** ** The thread pool *)

Section AvxPool.
  Variables (G : vgens) (Sc : vschedule) (score : yarr -> list nat -> res fl) (callback : nat -> fl -> fl -> option exn)
            (assign : Z -> Z -> data -> res (list nat)).
  Hypothesis HV : whole_vectors G.
  Let B2 := avx_backend G score callback assign.

  Definition startable (n : nat) : Prop := (0 < n)%nat.

  Let L_snap := fun m x n ncl ncls OK M1 M2 M3 => proj1 (avx_snap_spec m x n ncl ncls OK M1 M2 M3).
  Let L_launch := fun m n_jobs seed d cbs m' st x K Hn => avx_launch_ok G m n_jobs seed d cbs m' st x HV K Hn.
  Definition avx_inner_scored := g_inner_scored vrun B2 vrun_ok startable (fun m j seed d cbs m' H => H) avx_epoch_ok avx_evaluate_ok avx_evaluate_snap
    L_snap (predictor_scores (bk_score B2)) (predicts_scores vrun B2 vrun_ok avx_snap_predicts) L_launch.
  Definition avx_inner_sound := g_inner_sound vrun B2 vrun_ok startable (fun m j seed d cbs m' H => H) avx_epoch_ok avx_evaluate_ok
    L_snap L_launch.
  Definition avx_used_sound := g_used_sound vrun B2 vrun_ok startable (fun m j seed d cbs m' H => H) avx_epoch_ok avx_evaluate_ok 
    L_snap L_launch.
  Definition avx_last_fold := g_last_fold vrun B2 vrun_ok startable (fun m j seed d cbs m' H => H) avx_epoch_ok avx_evaluate_ok avx_evaluate_snap
    L_snap (predictor_scores (bk_score B2)) (predicts_scores vrun B2 vrun_ok avx_snap_predicts) L_launch.
  Definition avx_train_jobs := g_train_jobs vrun B2 dense_construct_jobs (fun m cbs st j j' seed d => eq_refl).

  Definition avx_alike (p : vtrun) (x : vrun) : Prop :=
    vt_run p = x /\ exists ncls, all_inv ablock (avx_inv ncls) (x_blocks (vu_exec x)) /\ fb_ready ncls (x_fb (vu_exec x)).
  Lemma alike_fits : forall ncls x, all_inv ablock (avx_inv ncls) (x_blocks x) -> fb_ready ncls (x_fb x) -> avx_exec_fits ncls x.
  Proof.
    intros ncls x I F. split; [|now apply ready_ok]. eapply Forall_impl; [|apply I]. intros tb [H1 [H2 H3]]. auto.
  Qed.
  Hypothesis HS : avx_pool Sc.
  Let B1 := avx_threaded G Sc score callback assign.

  Lemma avx_epoch_same : forall d p x, avx_alike p x ->
    fst (avx_mt_epoch Sc d p) = fst (avx_epoch d x) /\ avx_alike (snd (avx_mt_epoch Sc d p)) (snd (avx_epoch d x)).
  Proof.
    intros d p x [<- [ncls [I R]]].
    assert (I' : all_inv ablock (avx_inv ncls) (x_blocks (vu_exec (snd (avx_epoch d (vt_run p))))) /\
                 fb_ready ncls (x_fb (vu_exec (snd (avx_epoch d (vt_run p)))))).
    { unfold avx_epoch. set (x := vt_run p) in *.
      pose proof (train_epoch_P ablock (list Z) (avx_train_ex (vu_bo x)) (avx_upd (vu_bo x) (vu_boost x)) nat fb_process (avx_inv ncls)
        (fun _ => True) (fun e b _ H => proj1 (avx_train_ex_good (vu_bo x) ncls e b H))
        (fun e pc pp nc np b _ H => avx_upd_inv (vu_bo x) (vu_boost x) ncls e pc pp nc np b H)
        (avx_feed (vu_n x) d) (vu_exec x) ltac:(apply Forall_forall; auto) I) as F'.
      pose proof (train_epoch_ready ablock (list Z) ncls (avx_inv ncls) (avx_train_ex (vu_bo x)) (avx_upd (vu_bo x) (vu_boost x)) nat fb_process
        (avx_train_ex_good (vu_bo x) ncls) (fun e p pp n np b => avx_upd_inv _ _ ncls e p pp n np b) (fb_process_good ncls) (process_ready ncls)
        (avx_feed (vu_n x) d) (vu_exec x) I R) as R'.
      destruct (train_epoch _ _ _ _ _ _ _ _) as [acc e]. split; assumption. }
    unfold avx_mt_epoch. destruct (vt_jobs p =? 1).
    - destruct (avx_epoch d (vt_run p)) as [acc x]. cbn [fst snd] in *. split; auto. split; [reflexivity|eauto].
    - destruct (HS (vt_time p) ncls d (vt_run p) (alike_fits _ _ I R)) as [E _].
      pose proof (mt_train_epoch_det ablock (list Z) ncls (avx_inv ncls) (avx_train_ex (vu_bo (vt_run p)))
        (avx_upd (vu_bo (vt_run p)) (vu_boost (vt_run p))) nat fb_process
        (avx_train_ex_good _ ncls) (fun e p pp n np b => avx_upd_inv _ _ ncls e p pp n np b) (fb_process_good ncls) _ _ _ I (ready_ok _ _ R) E) as Q.
      unfold avx_epoch in *. rewrite <- Q. destruct (train_epoch _ _ _ _ _ _ _ _) as [acc e]. cbn [fst snd] in *.
      split; auto. split; [reflexivity|eauto].
  Qed.

  Lemma avx_evaluate_same : forall d p x, avx_alike p x ->
    fst (avx_mt_evaluate Sc d p) = fst (avx_evaluate d x) /\ avx_alike (snd (avx_mt_evaluate Sc d p)) (snd (avx_evaluate d x)).
  Proof.
    intros d p x [<- [ncls [I R]]].
    assert (I' : all_inv ablock (avx_inv ncls) (x_blocks (vu_exec (snd (avx_evaluate d (vt_run p))))) /\
                 fb_ready ncls (x_fb (vu_exec (snd (avx_evaluate d (vt_run p)))))).
    { unfold avx_evaluate. set (x := vt_run p) in *. set (out := repeat O (length (y_rows (d_y d)))).
      pose proof (eval_predict_P ablock (list Z) avx_eval_ex nat (avx_inv ncls) (fun _ => True)
        (fun e b _ H => proj1 (avx_eval_ex_good ncls e b H)) (avx_feed (vu_n x) d) out (vu_exec x) ltac:(apply Forall_forall; auto) I) as F'.
      pose proof (eval_predict_ready ablock (list Z) ncls (avx_inv ncls) avx_eval_ex nat (avx_eval_ex_good ncls)
        (avx_feed (vu_n x) d) out (vu_exec x) I R) as R'.
      destruct (eval_predict _ _ _ _ _ _ _) as [[ok ys] e]. split; assumption. }
    unfold avx_mt_evaluate. destruct (vt_jobs p =? 1).
    - destruct (avx_evaluate d (vt_run p)) as [ys x]. cbn [fst snd] in *. split; auto. split; [reflexivity|eauto].
    - destruct (HS (vt_time p) ncls d (vt_run p) (alike_fits _ _ I R)) as [_ E]. cbv zeta in E.
      assert (Q : vs_eval Sc (vt_time p) d (vt_run p) = eval_predict ablock (list Z) avx_eval_ex nat (avx_feed (vu_n (vt_run p)) d)
                    (repeat O (length (y_rows (d_y d)))) (vu_exec (vt_run p))).
      { unfold eval_predict. destruct (Nat.eqb _ _); cbn [negb]; auto. destruct E as [ys [bs [fb [E1 E2]]]].
        pose proof (mt_eval_list_det ablock (list Z) ncls (avx_inv ncls) avx_eval_ex (avx_eval_ex_good ncls) _ _ _ E1 I (ready_ok _ _ R)) as D.
        cbn [fst snd] in D. rewrite D. exact E2. }
      unfold avx_evaluate in *. rewrite Q. destruct (eval_predict _ _ _ _ _ _ _) as [[ok ys] e]. cbn [fst snd] in *.
      split; auto. split; [reflexivity|eauto].
  Qed.

  Theorem avx_pool_train : forall t, sound t -> startable (tm_nlit (t_m t)) -> train B1 t = train B2 t.
  Proof.
    intros t0 SD0 ST0. revert t0 SD0 ST0. apply (g_train_alike vtrun vrun B1 B2 avx_alike (fun n _ => startable n)); try reflexivity.
    - intros d x y. apply avx_epoch_same.
    - intros d x y. apply avx_evaluate_same.
    - intros m x y [<- _]. reflexivity.
    - intros t dt cbs m [K MF _ _ _] ST Co. change (dense_construct (t_m t) (t_n_jobs t) (t_seed t) dt = (Ok cbs, m)) in Co.
      unfold B1, B2. cbn [avx_threaded avx_backend bk_launch].
      destruct (avx_launch G m cbs (t_state t) (t_n_jobs t) (t_seed t) dt) as [x|e] eqn:La; auto.
      destruct (avx_launch_ok G _ _ _ _ _ _ _ _ HV (configured_ok _ K) ST Co MF La) as [[_ _ F _ Fb] _].
      split; [reflexivity|]. exists (tm_ncls (t_m t)). split; [eapply ablk_inv; eauto|exact Fb].
    - intros t t'. apply avx_inner_sound.
  Qed.

  Lemma avx_used_same : forall t t', sound t -> startable (tm_nlit (t_m t)) -> used B1 t t' -> used B2 t t'.
  Proof.
    intros t t' SD ST U.
    induction U as [|t1 o t2 U IH H|t1 x y t2 U IH H D|t1 x y t2 U IH H D]; [constructor| | |].
    - eapply used_train; [exact IH|]. rewrite <- H. symmetry.
      destruct (avx_used_sound t t1 SD ST IH) as [S1 [_ [M _]]]. apply avx_pool_train; [exact S1|now rewrite M].
    - eapply used_set_train; eauto.
    - eapply used_set_eval; eauto.
  Qed.
End AvxPool.

(** There are such schedules. *)
Definition avx_first_come : vschedule :=
  mkVschedule (fun _ d x => train_epoch ablock (list Z) (avx_train_ex (vu_bo x)) (avx_upd (vu_bo x) (vu_boost x)) nat fb_process
                             (avx_feed (vu_n x) d) (vu_exec x))
             (fun _ d x => eval_predict ablock (list Z) avx_eval_ex nat (avx_feed (vu_n x) d) (repeat O (length (y_rows (d_y d)))) (vu_exec x)).
Lemma avx_first_come_ok : avx_pool avx_first_come.
Proof.
  intros k ncls d x [I0 Fb]. cbn [avx_first_come vs_epoch vs_eval].
  assert (I : all_inv ablock (avx_inv ncls) (x_blocks (vu_exec x))).
  { eapply Forall_impl; [|apply I0]. intros tb [H1 [H2 H3]]. split; [exact H1|split; assumption]. }
  split.
  - apply (mt_train_epoch_exists ablock (list Z) ncls (avx_inv ncls)); auto.
    + apply avx_train_ex_good.
    + intros. now apply avx_upd_inv.
    + apply fb_process_good.
  - cbv zeta. unfold eval_predict. destruct (Nat.eqb _ _); cbn [negb]; auto.
    pose proof (mt_eval_list_exists ablock (list Z) ncls (avx_inv ncls) avx_eval_ex (avx_eval_ex_good ncls)
      (map fst (avx_feed (vu_n x) d)) _ _ I Fb) as Q.
    destruct (eval_list ablock (list Z) avx_eval_ex (map fst (avx_feed (vu_n x) d)) (x_blocks (vu_exec x)) (x_fb (vu_exec x))) as [[ys bs] fb].
    exists ys, bs, fb. split; auto.
Qed.
