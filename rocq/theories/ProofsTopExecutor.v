(** User-level forms of the executor results. *)
From Coq Require Import ZArith List Bool QArith Lia Permutation.
From Verif Require Import Base BaseProofs Spec ModelInference ModelDense ModelFeedback ModelExecutor ModelDenseExec
  ProofsExecutor ProofsDenseExec ExampleData.
Import ListNotations.
Open Scope Z_scope.

Theorem accuracy_unit : forall B E train_ex update (data : list (E * nat)) (x : exec B),
  (0 <= fst (train_epoch B E train_ex update nat fb_process data x) <= 1)%Q.
Proof.
  intros B E train_ex update data x. destruct data as [|d data].
  - pose proof (epoch_empty B E train_ex update x) as K. rewrite K. split; discriminate.
  - destruct (epoch_accuracy B E train_ex update (d :: data) x ltac:(discriminate)) as [K1 K2].
    rewrite K1. set (h := hits _ _ _ _ _ _ _) in *. set (n := Z.of_nat (length (d :: data))) in *.
    assert (Hn : 0 < n) by (unfold n; simpl length; lia).
    assert (Qn : (0 < inject_Z n)%Q) by (unfold Qlt; simpl; lia).
    split.
    + apply Qle_shift_div_l; auto. rewrite Qmult_0_l. unfold Qle. cbn [Qnum Qden inject_Z]. lia.
    + apply Qle_shift_div_r; auto. rewrite Qmult_1_l. unfold Qle. cbn [Qnum Qden inject_Z]. lia.
Qed.

Lemma dense_mt_epoch : forall ncls bo boost (L : Type) (process : L -> fblock -> fblock)
  (data : list (list Z * L)) (x : exec block) r,
  (forall l f, fb_ok ncls f -> fb_ok ncls (process l f)) ->
  exec_inv ncls x ->
  mt_train_epoch block (list Z) (dense_train_ex bo) (dense_upd bo boost) L process data x r ->
  r = train_epoch block (list Z) (dense_train_ex bo) (dense_upd bo boost) L process data x.
Proof.
  intros ncls bo boost L process data x r Hp [I Hok] H. symmetry.
  apply (mt_train_epoch_det block (list Z) ncls (dense_inv ncls) (dense_train_ex bo) (dense_upd bo boost) L process); auto.
  - apply dense_train_good.
  - intros. apply dense_upd_good. auto.
Qed.

Lemma dense_mt_epoch_exists : forall ncls bo boost (L : Type) (process : L -> fblock -> fblock)
  (data : list (list Z * L)) (x : exec block),
  (forall l f, fb_ok ncls f -> fb_ok ncls (process l f)) -> exec_inv ncls x ->
  mt_train_epoch block (list Z) (dense_train_ex bo) (dense_upd bo boost) L process data x
    (train_epoch block (list Z) (dense_train_ex bo) (dense_upd bo boost) L process data x).
Proof.
  intros ncls bo boost L process data x Hp [I Hok].
  apply (mt_train_epoch_exists block (list Z) ncls (dense_inv ncls) (dense_train_ex bo) (dense_upd bo boost) L process); auto.
  - apply dense_train_good.
  - intros. apply dense_upd_good. auto.
Qed.

Lemma dense_mt_eval : forall ncls (es : list (list Z)) bs fb r,
  blocks_inv ncls bs -> fb_ok ncls fb ->
  mt_eval_list block (list Z) dense_eval_ex es (bs, fb) r ->
  r = eval_list block (list Z) dense_eval_ex es bs fb.
Proof.
  intros ncls es bs fb r I Hok H. symmetry.
  apply (mt_eval_list_det block (list Z) ncls (dense_inv ncls) dense_eval_ex (dense_eval_good ncls) es (bs, fb) r); auto.
Qed.

Lemma any_mt_epoch : forall B E ncls (inv : B -> Prop) train_ex update (L : Type) (process : L -> fblock -> fblock)
  (data : list (E * L)) (x : exec B) r,
  good_ex B E ncls inv train_ex ->
  (forall e p pp n np b, inv b -> inv (update e p pp n np b)) ->
  (forall l f, fb_ok ncls f -> fb_ok ncls (process l f)) ->
  all_inv B inv (x_blocks x) -> fb_ok ncls (x_fb x) ->
  mt_train_epoch B E train_ex update L process data x r ->
  train_epoch B E train_ex update L process data x = r.
Proof.
  intros B E ncls inv train_ex update L process data x r G U P I Hok H.
  eapply mt_train_epoch_det; eauto.
Qed.

Lemma evals_irrelevant : forall ncls bo boost (L : Type) (process : L -> fblock -> fblock)
  (cs : list (xcall L)) (x : exec block),
  (forall l f, fb_ok ncls f -> fb_ok ncls (process l f)) -> exec_inv ncls x ->
  fst (xrun bo boost L process cs x) = fst (xrun bo boost L process (filter (is_train L) cs) x) /\
  same_exec (snd (xrun bo boost L process cs x)) (snd (xrun bo boost L process (filter (is_train L) cs) x)).
Proof.
  intros ncls bo boost L process cs x Hp I. apply (evals_do_not_matter ncls); auto.
  unfold same_exec, same_blocks, same_fb. auto.
Qed.

Lemma eval_pointwise : forall ncls (L : Type) (data : list (list Z * L)) out (x : exec block), exec_inv ncls x ->
  length out = length data ->
  fst (eval_predict block (list Z) dense_eval_ex L data out x) =
  (true, map (fun d => dense_eval_one (x_blocks x) (x_fb x) (fst d)) data).
Proof.
  intros ncls L data out x [I Hok] Hl. unfold eval_predict. rewrite Hl, Nat.eqb_refl. cbn [negb].
  pose proof (eval_list_map ncls (map fst data) (x_blocks x) (x_blocks x) (x_fb x) (x_fb x)
                I Hok (same_blocks_refl _) eq_refl) as M.
  destruct (eval_list block (list Z) dense_eval_ex (map fst data) (x_blocks x) (x_fb x)) as [[ys bs] fb].
  cbn [fst] in *. rewrite M, map_map. reflexivity.
Qed.

Lemma eval_mismatch : forall B E eval_ex (L : Type) (data : list (E * L)) out (x : exec B),
  length out <> length data ->
  eval_predict B E eval_ex L data out x = (false, out, x).
Proof.
  intros B E eval_ex L data out x H. unfold eval_predict.
  apply Nat.eqb_neq in H. rewrite H. reflexivity.
Qed.

Lemma ex_exec_inv : exec_inv 2 (ex_exec ex_flats).
Proof. vm_compute. split; [repeat constructor|split; [reflexivity|repeat constructor]]. Qed.

Lemma ex_mt_case : exec_inv 2 (ex_exec ex_flats) /\
  mt_train_epoch block (list Z) (dense_train_ex true) (dense_upd true false) nat fb_process ex_data (ex_exec ex_flats)
    (train_epoch block (list Z) (dense_train_ex true) (dense_upd true false) nat fb_process ex_data (ex_exec ex_flats)).
Proof. split; [apply ex_exec_inv|]. apply (dense_mt_epoch_exists 2); [apply fb_process_good|apply ex_exec_inv]. Qed.

Lemma ex_pure_case : exec_inv 2 (ex_exec ex_flats) /\
  fst (xrun true false nat fb_process [XEval nat ex_data [0;0;0;0]%nat; XTrain nat ex_data; XEval nat ex_data [0]%nat; XTrain nat ex_data] (ex_exec ex_flats))
  = fst (xrun true false nat fb_process [XTrain nat ex_data; XTrain nat ex_data] (ex_exec ex_flats)).
Proof. split; [apply ex_exec_inv|vm_compute; reflexivity]. Qed.
