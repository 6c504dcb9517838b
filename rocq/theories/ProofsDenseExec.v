(** The dense block in the executors: schedule independence and evaluation
    without side effects on learning. *)
From Coq Require Import ZArith List Bool QArith Lia.
From Verif Require Import Base BaseProofs Spec ModelInference ModelDense ModelFeedback ModelExecutor ModelDenseExec
  ProofsInference ProofsEval ProofsExecutor.
Import ListNotations.
Open Scope Z_scope.

(** ** Shape invariant *)

Definition dense_inv (ncls : nat) (b : block) : Prop := b_ncls b = ncls /\ rows_of ncls (b_weights b).

Lemma dense_train_good : forall bo ncls, good_ex block (list Z) ncls (dense_inv ncls) (dense_train_ex bo).
Proof.
  intros bo ncls e b [H1 H2]. unfold dense_train_ex, dense_inv. simpl. split; auto.
  apply count_votes_loop_length; auto. rewrite repeat_length. auto.
Qed.

Lemma dense_eval_good : forall ncls, good_ex block (list Z) ncls (dense_inv ncls) dense_eval_ex.
Proof.
  intros ncls e b [H1 H2]. unfold dense_eval_ex, dense_inv. simpl. split; auto.
  apply count_votes_loop_length; auto. rewrite repeat_length. auto.
Qed.

Lemma train_update_clause_width : forall bo boost bud si sm lits pc pp nc np c ws out count r fast,
  let '(c1, ws1, o1, r1, f1) := train_update_clause bo boost bud si sm lits pc pp nc np c ws out count r fast in
  length ws1 = length ws.
Proof.
  intros. unfold train_update_clause. destruct (draw_lt fast pp) as [d1 fast1].
  destruct (clause_update boost si sm c (nth pc ws 0) 1 lits _ r) as [[c1 w1] r1].
  destruct d1; destruct (draw_lt fast1 np) as [d2 fast2];
    match goal with |- context [clause_update ?a ?b ?c ?d ?e ?f ?g ?h ?i] =>
      destruct (clause_update a b c d e f g h i) as [[c2 w2] r2] end;
    destruct d2; rewrite ?set_nth_length; auto.
Qed.

Lemma train_update_loop_rows : forall bo boost bud si sm lits pc pp nc np ncls cs wss outs counts r fast,
  rows_of ncls wss ->
  let '(cs2, wss2, outs2, r2, f2) :=
    train_update_loop bo boost bud si sm lits pc pp nc np cs wss outs counts r fast in
  rows_of ncls wss2.
Proof.
  intros bo boost bud si sm lits pc pp nc np ncls cs.
  induction cs as [|c cs IH]; intros [|ws wss] [|o outs] counts r fast H; cbn [train_update_loop]; auto.
  inversion H; subst.
  pose proof (train_update_clause_width bo boost bud si sm lits pc pp nc np c ws o (hd 0 counts) r fast) as W.
  destruct (train_update_clause _ _ _ _ _ _ _ _ _ _ _ _ _ _ _ _) as [[[[c1 ws1] o1] r1] f1].
  specialize (IH wss outs (tl counts) r1 f1 H3).
  destruct (train_update_loop _ _ _ _ _ _ _ _ _ _ _ _ _ _ _ _) as [[[[cs2 wss2] outs2] r2] f2].
  constructor; auto.
Qed.

Lemma dense_upd_good : forall bo boost ncls e p pp n np b, dense_inv ncls b -> dense_inv ncls (dense_upd bo boost e p pp n np b).
Proof.
  intros bo boost ncls e p pp n np b [H1 H2]. unfold dense_upd, train_update, dense_inv.
  pose proof (train_update_loop_rows bo boost (b_budget b) (b_s_inv b) (b_s_min1_inv b) e p pp n np ncls
                (b_clauses b) (b_weights b) (b_outputs b) (b_counts b) (b_rng b) (b_fast b) H2) as W.
  destruct (train_update_loop _ _ _ _ _ _ _ _ _ _ _ _ _ _ _ _) as [[[[cs2 wss2] outs2] r2] f2]. simpl. auto.
Qed.

Lemma fb_process_good : forall ncls l f, fb_ok ncls f -> fb_ok ncls (fb_process l f).
Proof. intros ncls l f [H1 H2]. unfold fb_process. destruct (sample_discrete _ _) as [neg r]. split; simpl; auto. Qed.

(** ** What evaluation may change *)

(** Everything of a block except the scratch arrays clause_outputs and
    class_votes. *)
Definition learned (b : block) : block :=
  mkBlock (b_nlit b) (b_ncls b) (b_clauses b) (b_weights b) [] (b_counts b) [] (b_budget b)
          (b_s_inv b) (b_s_min1_inv b) (b_rng b) (b_fast b).

Definition same_blocks (bs1 bs2 : list (bool * block)) : Prop :=
  map (fun tb : bool * block => (fst tb, learned (snd tb))) bs1 =
  map (fun tb : bool * block => (fst tb, learned (snd tb))) bs2.

(** The feedback block up to its vote scratch array. *)
Definition same_fb (f1 f2 : fblock) : Prop := fb_reset f1 = fb_reset f2.

Definition same_exec (x1 x2 : exec block) : Prop :=
  same_blocks (x_blocks x1) (x_blocks x2) /\ same_fb (x_fb x1) (x_fb x2) /\
  x_index x1 = x_index x2 /\ x_rng x1 = x_rng x2.

Lemma eval_learned : forall e b, learned (fst (dense_eval_ex e b)) = learned b.
Proof. reflexivity. Qed.

Lemma learned_train : forall bo e b1 b2, learned b1 = learned b2 -> dense_train_ex bo e b1 = dense_train_ex bo e b2.
Proof.
  intros bo e [] [] H. unfold learned in H. simpl in H. inversion H; subst. reflexivity.
Qed.

Lemma learned_eval : forall e b1 b2, learned b1 = learned b2 -> dense_eval_ex e b1 = dense_eval_ex e b2.
Proof.
  intros e [] [] H. unfold learned in H. simpl in H. inversion H; subst. reflexivity.
Qed.

Lemma same_blocks_refl : forall bs, same_blocks bs bs. Proof. reflexivity. Qed.
Lemma same_blocks_trans : forall a b c, same_blocks a b -> same_blocks b c -> same_blocks a c.
Proof. unfold same_blocks. congruence. Qed.

Lemma run_examples_same : forall f e bs1 bs2 fb,
  (forall b1 b2, learned b1 = learned b2 -> f e b1 = f e b2) -> same_blocks bs1 bs2 ->
  run_examples block (list Z) f e bs1 fb = run_examples block (list Z) f e bs2 fb.
Proof.
  intros f e bs1. induction bs1 as [|[t1 b1] bs1 IH]; intros [|[t2 b2] bs2] fb Hf S; inversion S; auto.
  cbn [run_examples]. rewrite (Hf b1 b2) by (unfold learned; congruence). destruct (f e b2) as [b v].
  rewrite (IH bs2); auto.
Qed.

Lemma same_fb_register : forall ncls v f, fb_ok ncls f -> length v = ncls -> same_fb (fb_register v f) f.
Proof.
  intros ncls v f [H1 H2] Hv. subst. unfold same_fb, fb_reset, fb_register. simpl.
  rewrite add_votes_length'; auto.
Qed.

Lemma same_fb_reset : forall f, same_fb (fb_reset f) f.
Proof. intros. unfold same_fb, fb_reset. simpl. rewrite repeat_length. auto. Qed.

Lemma same_fb_trans : forall a b c, same_fb a b -> same_fb b c -> same_fb a c.
Proof. unfold same_fb. congruence. Qed.

Lemma run_eval_same : forall ncls e bs fb, Forall (fun tb => dense_inv ncls (snd tb)) bs -> fb_ok ncls fb ->
  let r := run_examples block (list Z) dense_eval_ex e bs fb in
  same_blocks (fst r) bs /\ same_fb (snd r) fb.
Proof.
  intros ncls e bs. induction bs as [|[t b] bs IH]; intros fb I Hok r.
  - unfold r. simpl. split; reflexivity.
  - unfold r. clear r. cbn [run_examples]. inversion I as [|? ? Hb I']; subst. cbn [snd] in Hb.
    pose proof (dense_eval_good ncls e b Hb) as [_ G]. pose proof (eval_learned e b) as EL.
    destruct (dense_eval_ex e b) as [b1 v]. cbn [fst snd] in *.
    specialize (IH (fb_register v fb) I' (register_ok ncls v fb Hok G)).
    destruct (run_examples block (list Z) dense_eval_ex e bs (fb_register v fb)) as [bs2 fb2]. cbv zeta in IH. cbn [fst snd] in *.
    destruct IH as [I1 I2]. split.
    + unfold same_blocks in *. cbn [map fst snd]. rewrite EL, I1. auto.
    + eapply same_fb_trans; [apply I2|]. apply (same_fb_register ncls); auto.
Qed.

Section Pure.
  Variables (ncls : nat) (bo boost : bool) (L : Type) (process : L -> fblock -> fblock).
  Hypothesis process_good : forall l f, fb_ok ncls f -> fb_ok ncls (process l f).

  Let inv := dense_inv ncls.
  Definition blocks_inv (bs : list (bool * block)) : Prop := Forall (fun tb => dense_inv ncls (snd tb)) bs.
  Definition exec_inv (x : exec block) : Prop := blocks_inv (x_blocks x) /\ fb_ok ncls (x_fb x).

  Notation d_train_one := (train_one block (list Z) (dense_train_ex bo) (dense_upd bo boost) L process).
  Notation d_train_list := (train_list block (list Z) (dense_train_ex bo) (dense_upd bo boost) L process).
  Notation d_train_epoch := (train_epoch block (list Z) (dense_train_ex bo) (dense_upd bo boost) L process).
  Notation d_eval_list := (eval_list block (list Z) dense_eval_ex).
  Notation d_eval_predict := (eval_predict block (list Z) dense_eval_ex L).

  Lemma eval_list_same : forall es bs fb, blocks_inv bs -> fb_ok ncls fb ->
    let '(ys, bs', fb') := d_eval_list es bs fb in
    same_blocks bs' bs /\ same_fb fb' fb /\ blocks_inv bs' /\ fb_ok ncls fb'.
  Proof.
    induction es as [|e es IH]; intros bs fb I Hok; cbn [eval_list].
    - repeat split; auto; try reflexivity; apply Hok.
    - pose proof (run_eval_same ncls e bs (fb_reset fb) I (reset_ok ncls _ Hok)) as [S1 S2].
      pose proof (run_examples_inv block (list Z) ncls inv dense_eval_ex e bs (fb_reset fb)
                    (dense_eval_good ncls) I (reset_ok ncls _ Hok)) as [I1 O1].
      destruct (run_examples block (list Z) dense_eval_ex e bs (fb_reset fb)) as [bs1 fb1]. cbn [fst snd] in *.
      specialize (IH bs1 fb1 I1 O1).
      destruct (d_eval_list es bs1 fb1) as [[ys bs2] fb2]. destruct IH as [A [Bb [C D]]].
      split; [|split; [|split]]; auto.
      + eapply same_blocks_trans; eauto.
      + eapply same_fb_trans; [apply Bb|]. eapply same_fb_trans; [apply S2|]. apply same_fb_reset.
  Qed.

  (** Predictions of a data set are those of its examples one by one. *)
  Lemma eval_list_map : forall es bs bs0 fb fb0, blocks_inv bs -> fb_ok ncls fb ->
    same_blocks bs bs0 -> same_fb fb fb0 ->
    fst (fst (d_eval_list es bs fb)) = map (dense_eval_one bs0 fb0) es.
  Proof.
    induction es as [|e es IH]; intros bs bs0 fb fb0 I Hok S1 S2; cbn [eval_list map]; auto.
    pose proof (run_eval_same ncls e bs (fb_reset fb) I (reset_ok ncls _ Hok)) as [T1 T2].
    pose proof (run_examples_inv block (list Z) ncls inv dense_eval_ex e bs (fb_reset fb)
                  (dense_eval_good ncls) I (reset_ok ncls _ Hok)) as [I1 O1].
    assert (Q : run_examples block (list Z) dense_eval_ex e bs (fb_reset fb) =
                run_examples block (list Z) dense_eval_ex e bs0 (fb_reset fb0)).
    { rewrite S2. apply run_examples_same; auto. intros b1 b2. apply learned_eval. }
    unfold dense_eval_one at 1. rewrite <- Q.
    destruct (run_examples block (list Z) dense_eval_ex e bs (fb_reset fb)) as [bs1 fb1]. cbn [fst snd] in *.
    specialize (IH bs1 bs0 fb1 fb0 I1 O1).
    destruct (d_eval_list es bs1 fb1) as [[ys bs2] fb2]. cbn [fst snd] in *. rewrite IH; auto.
    - eapply same_blocks_trans; eauto.
    - eapply same_fb_trans; [apply T2|]. eapply same_fb_trans; [apply same_fb_reset|]. auto.
  Qed.

  Lemma eval_predict_same : forall data out x, exec_inv x ->
    same_exec (snd (d_eval_predict data out x)) x /\ exec_inv (snd (d_eval_predict data out x)).
  Proof.
    intros data out x [I Hok]. unfold eval_predict. destruct (negb _).
    - simpl. unfold same_exec, exec_inv. repeat split; auto; apply Hok.
    - pose proof (eval_list_same (map fst data) (x_blocks x) (x_fb x) I Hok) as S.
      destruct (d_eval_list (map fst data) (x_blocks x) (x_fb x)) as [[ys bs] fb]. simpl.
      destruct S as [S1 [S2 [S3 S4]]]. unfold same_exec, exec_inv. simpl. auto.
  Qed.

  Lemma train_one_same : forall d bs1 bs2 fb1 fb2, same_blocks bs1 bs2 -> same_fb fb1 fb2 ->
    d_train_one d bs1 fb1 = d_train_one d bs2 fb2.
  Proof.
    intros d bs1 bs2 fb1 fb2 S1 S2. unfold train_one. rewrite S2.
    rewrite (run_examples_same (dense_train_ex bo) (fst d) bs1 bs2); auto.
    intros b1 b2. apply learned_train.
  Qed.

  Lemma train_list_same : forall ds bs1 bs2 fb1 fb2, same_blocks bs1 bs2 -> same_fb fb1 fb2 ->
    same_blocks (fst (d_train_list ds bs1 fb1)) (fst (d_train_list ds bs2 fb2)) /\
    same_fb (snd (d_train_list ds bs1 fb1)) (snd (d_train_list ds bs2 fb2)).
  Proof.
    intros [|d ds] bs1 bs2 fb1 fb2 S1 S2; cbn [train_list]; auto.
    rewrite (train_one_same d bs1 bs2 fb1 fb2) by auto. split; reflexivity.
  Qed.

  Lemma same_fb_counter : forall f1 f2, same_fb f1 f2 -> same_fb (fb_reset_counter f1) (fb_reset_counter f2).
  Proof. unfold same_fb, fb_reset, fb_reset_counter. intros f1 f2 H. inversion H. simpl. congruence. Qed.

  Lemma train_epoch_same : forall data x1 x2, same_exec x1 x2 ->
    fst (d_train_epoch data x1) = fst (d_train_epoch data x2) /\
    same_exec (snd (d_train_epoch data x1)) (snd (d_train_epoch data x2)).
  Proof.
    intros data x1 x2 [S1 [S2 [S3 S4]]]. unfold train_epoch, train_slice. simpl. rewrite S4.
    destruct (shuffle (seq 0 (length data)) (x_rng x2)) as [idx r].
    pose proof (train_list_same (select (list Z) L data (firstn (length data - 0) idx)) _ _ _ _ S1 (same_fb_counter _ _ S2)) as [T1 T2].
    destruct (d_train_list _ (x_blocks x1) _) as [bs1 fb1]. destruct (d_train_list _ (x_blocks x2) _) as [bs2 fb2].
    cbn [fst snd] in *. split.
    - clear - T2. destruct fb1, fb2. unfold same_fb, fb_reset in T2. simpl in T2. inversion T2; subst. reflexivity.
    - unfold same_exec. simpl. auto.
  Qed.

  Lemma train_epoch_inv : forall data x, exec_inv x -> exec_inv (snd (d_train_epoch data x)).
  Proof.
    intros data x [I Hok]. unfold train_epoch, train_slice. simpl.
    destruct (shuffle (seq 0 (length data)) (x_rng x)) as [idx r].
    assert (K : forall ds bs fb, blocks_inv bs -> fb_ok ncls fb ->
      blocks_inv (fst (d_train_list ds bs fb)) /\ fb_ok ncls (snd (d_train_list ds bs fb))).
    { induction ds as [|d ds IH]; intros bs fb Ib Ob; cbn [train_list]; auto.
      pose proof (train_one_inv block (list Z) ncls inv (dense_train_ex bo) (dense_upd bo boost) L process
                    (dense_train_good bo ncls) (fun e p pp n np b => dense_upd_good bo boost ncls e p pp n np b)
                    process_good d bs fb Ib Ob) as [I1 O1].
      destruct (d_train_one d bs fb) as [bs1 fb1]. apply IH; auto. }
    specialize (K (select (list Z) L data (firstn (length data - 0) idx)) (x_blocks x) (fb_reset_counter (x_fb x)) I Hok).
    destruct (d_train_list _ (x_blocks x) _) as [bs fb]. exact K.
  Qed.

  (** Any program of training epochs and evaluations. *)
  Inductive xcall := XTrain (data : list (list Z * L)) | XEval (data : list (list Z * L)) (out : list nat).
  Fixpoint xrun (cs : list xcall) (x : exec block) : list Q * exec block :=
    match cs with
    | [] => ([], x)
    | XTrain data :: cs' => let '(a, x1) := d_train_epoch data x in
                            let '(qs, x2) := xrun cs' x1 in (a :: qs, x2)
    | XEval data out :: cs' => xrun cs' (snd (d_eval_predict data out x))
    end.
  Definition is_train (c : xcall) : bool := match c with XTrain _ => true | XEval _ _ => false end.

  Theorem evals_do_not_matter : forall cs x1 x2, exec_inv x1 -> same_exec x1 x2 ->
    fst (xrun cs x1) = fst (xrun (filter is_train cs) x2) /\
    same_exec (snd (xrun cs x1)) (snd (xrun (filter is_train cs) x2)).
  Proof.
    induction cs as [|c cs IH]; intros x1 x2 I S; cbn [xrun filter]; auto.
    destruct c as [data|data out]; cbn [is_train].
    - cbn [xrun]. pose proof (train_epoch_same data x1 x2 S) as [T1 T2].
      pose proof (train_epoch_inv data x1 I) as I1.
      destruct (d_train_epoch data x1) as [a1 y1]. destruct (d_train_epoch data x2) as [a2 y2]. cbn [fst snd] in *.
      specialize (IH y1 y2 I1 T2). destruct (xrun cs y1) as [q1 z1]. destruct (xrun (filter is_train cs) y2) as [q2 z2].
      cbn [fst snd] in *. destruct IH. split; congruence || auto.
    - pose proof (eval_predict_same data out x1 I) as [E1 E2]. apply IH; auto.
      unfold same_exec in *. destruct E1 as [A1 [A2 [A3 A4]]], S as [B1 [B2 [B3 B4]]].
      repeat split; congruence.
  Qed.
End Pure.
