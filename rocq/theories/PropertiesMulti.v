(** C104-C106: multi-label training. *)
From Coq Require Import ZArith List Bool QArith Lia.
From Verif Require Import Base Spec ModelInference ModelDense ModelFeedback ModelExecutor ModelDenseExec ModelMulti
  SpecMulti ProofsExecutor ProofsMulti ExampleData.
Import ListNotations.
Open Scope Z_scope.

(** One clause that includes literal 0; weights ON 1 2, OFF 5 3. *)
Definition ml_block : block :=
  mkBlock 2 4 [mkClause [3;-1] [-1;-1]] [[1;2;5;3]] [] [0] [] 65535 (1#4) (3#4) ex_rng ex_rng.
(** The same clause with other OFF weights. *)
Definition ml_block' : block :=
  mkBlock 2 4 [mkClause [3;-1] [-1;-1]] [[1;2;-70;99]] [] [0] [] 65535 (1#4) (3#4) ex_rng ex_rng.
Definition ml_exs : list (list Z) := [[1;0]; [1;1]].
Definition ml_mem : list Z := [0;1;1;1].

(** ** C104 *)

(** Every history of examples from a fresh feedback block keeps its shape and
    threshold. *)
Theorem C104_reachable : forall bo boost fuel exs mem nlab idx bs n thr r bs' fb',
  blocks_multi n bs ->
  ml_list block (list Z) (dense_train_ex bo) (dense_upd bo boost) fuel exs mem nlab idx bs (new_fblock_multi n thr r)
    = Val (bs', fb') ->
  fb_multi n fb' /\ blocks_multi n bs' /\ fb_thr fb' = thr.
Proof.
  intros bo boost fuel exs mem nlab idx bs n thr r bs' fb' Hb H.
  apply (ml_steps_inv bo boost fuel exs mem nlab idx bs (new_fblock_multi n thr r) n bs' fb'); auto.
  split; [reflexivity|]. cbn. rewrite repeat_length. lia.
Qed.

(** The ON votes are the sums of the blocks' votes; the OFF votes are 0 whatever
    the blocks voted. *)
Theorem C104_votes_partial : forall bo boost fuel exs mem nlab i bs fb n bs' fb' e,
  fb_multi n fb -> blocks_multi n bs ->
  ml_one block (list Z) (dense_train_ex bo) (dense_upd bo boost) fuel exs mem nlab i bs fb = Val (bs', fb') ->
  nth_error exs i = Some e ->
  (forall c, (c < n)%nat ->
     nth c (fb_votes fb') 0 = wrap16 (zsum (map (fun tb => nth c (snd (dense_train_ex bo e (snd tb))) 0) bs))) /\
  (forall c, (n <= c)%nat -> nth c (fb_votes fb') 0 = 0).
Proof. exact ml_step_votes. Qed.

(** An ON class is updated with the probability of its votes, an OFF class
    always with probability one half. *)
Theorem C104_probability_partial : forall bo boost fuel exs mem nlab i bs fb n bs' fb',
  fb_multi n fb -> blocks_multi n bs -> (0 < fb_thr fb)%Q ->
  ml_one block (list Z) (dense_train_ex bo) (dense_upd bo boost) fuel exs mem nlab i bs fb = Val (bs', fb') ->
  ((fb_pos fb' < n)%nat -> fb_pp fb' = pos_prob (fb_thr fb) (nth (fb_pos fb') (fb_votes fb') 0)) /\
  ((n <= fb_pos fb')%nat -> (fb_pp fb' == 1 # 2)%Q) /\ ((n <= fb_neg fb')%nat -> (fb_np fb' == 1 # 2)%Q).
Proof. exact ml_step_probs. Qed.

(** The training accuracy compares the ON votes with zero. *)
Theorem C104_accuracy_partial : forall bo boost fuel exs mem i bs fb n bs' fb',
  (0 < n)%nat -> fb_multi n fb -> blocks_multi n bs -> (i * n + n <= length mem)%nat ->
  ml_one block (list Z) (dense_train_ex bo) (dense_upd bo boost) fuel exs mem n i bs fb = Val (bs', fb') ->
  fb_total fb' = fb_total fb + Z.of_nat n /\
  fb_correct fb' = fb_correct fb +
    Z.of_nat (length (filter (fun k => rightb (nth k (label_row n mem i) 0) (nth k (fb_votes fb') 0) 0) (seq 0 n))).
Proof. exact ml_step_accuracy. Qed.

(** Machines that differ only in their OFF weights get the same feedback. *)
Theorem C104_blind_refuted : forall bo boost fuel exs mem nlab i bs1 bs2 fb n,
  fb_multi n fb -> blocks_multi n bs1 -> blocks_multi n bs2 ->
  Forall2 (fun tb1 tb2 : bool * block => same_on n (snd tb1) (snd tb2)) bs1 bs2 ->
  match ml_one block (list Z) (dense_train_ex bo) (dense_upd bo boost) fuel exs mem nlab i bs1 fb,
        ml_one block (list Z) (dense_train_ex bo) (dense_upd bo boost) fuel exs mem nlab i bs2 fb with
  | Val (_, f1), Val (_, f2) => f1 = f2
  | Spin, Spin | Wild, Wild => True
  | _, _ => False
  end.
Proof. exact ml_step_blind. Qed.

(** The claim is false: the votes of the block are ON 1 2, OFF 5 3, so it is
    right about label 0 and wrong about label 1; the opposite is counted, and
    the update probability of the OFF class ignores its 5 votes. *)
Theorem C104_refuted : exists bs fb bs' fb' votes,
  fb_multi 2 fb /\ blocks_multi 2 bs /\
  ml_one block (list Z) (dense_train_ex false) (dense_upd false false) 3 ml_exs ml_mem 2 0 bs fb = Val (bs', fb') /\
  map (fun tb => snd (dense_train_ex false [1;0] (snd tb))) bs = [votes] /\
  rightb 0 (nth 0 votes 0) (nth 2 votes 0) = true /\ rightb 1 (nth 1 votes 0) (nth 3 votes 0) = false /\
  rightb 0 (nth 0 (fb_votes fb') 0) (nth 2 (fb_votes fb') 0) = false /\
  rightb 1 (nth 1 (fb_votes fb') 0) (nth 3 (fb_votes fb') 0) = true /\
  fb_pos fb' = 2%nat /\ ~ (fb_pp fb' == pos_prob (fb_thr fb) (nth 2 votes 0%Z))%Q.
Proof.
  exists [(true, ml_block)], (new_fblock_multi 2 10 ex_rng). eexists. eexists. eexists.
  split; [split; reflexivity|]. split; [repeat constructor|].
  split; [vm_compute; reflexivity|]. split; [vm_compute; reflexivity|].
  vm_compute. repeat split; auto. discriminate.
Qed.

Example C104_case :
  fb_multi 2 (new_fblock_multi 2 10 ex_rng) /\ blocks_multi 2 [(true, ml_block)] /\ blocks_multi 2 [(true, ml_block')] /\
  Forall2 (fun tb1 tb2 : bool * block => same_on 2 (snd tb1) (snd tb2)) [(true, ml_block)] [(true, ml_block')] /\
  (exists bs' fb',
    ml_list block (list Z) (dense_train_ex false) (dense_upd false false) 3 ml_exs ml_mem 2 [1;0]%nat
      [(true, ml_block)] (new_fblock_multi 2 10 ex_rng) = Val (bs', fb') /\ fb_total fb' = 4).
Proof.
  repeat (split; [repeat constructor|]).
  eexists. eexists. vm_compute. split; reflexivity.
Qed.

(** ** C105 *)

(** With at least one epoch no multi-label train() returns. *)
Theorem C105_returns_refuted : forall B E (tr : E -> B -> B * list Z) up fuel n_epochs classes thr exs mem nlab bs r ir,
  (1 <= n_epochs)%nat -> ml_fit B E tr up fuel n_epochs classes thr exs mem nlab bs r ir <> FitReturned.
Proof.
  intros B E tr up fuel n_epochs classes thr exs mem nlab bs r ir H. unfold ml_fit.
  destruct (n_epochs <? 1)%nat eqn:E1; [apply Nat.ltb_lt in E1; lia|].
  destruct (negb (exec_labels_ok nlab _ _)); [discriminate|]. unfold ml_loop.
  destruct n_epochs as [|k]; [lia|]. destruct (ml_epoch B E tr up fuel exs mem nlab _); discriminate.
Qed.

(** A label matrix of the right width is read inside its bounds and the process
    exits with code 1 after the first epoch (unless a redraw is still running). *)
Theorem C105_matrix : forall bo boost fuel n_epochs n thr exs mem bs r ir,
  (1 <= n_epochs)%nat -> (2 <= n)%nat -> blocks_multi n bs -> length mem = (length exs * n)%nat ->
  let out := ml_fit block (list Z) (dense_train_ex bo) (dense_upd bo boost) fuel n_epochs (2 * n) thr exs mem n bs r ir in
  out = FitExits 1 \/ out = FitSpins.
Proof.
  intros bo boost fuel n_epochs n thr exs mem bs r ir He Hn Hb HM. cbv zeta. unfold ml_fit.
  destruct (n_epochs <? 1)%nat eqn:E1; [apply Nat.ltb_lt in E1; lia|].
  assert (D : Nat.div (2 * n) 2 = n) by (rewrite Nat.mul_comm; apply Nat.div_mul; lia). rewrite D.
  assert (A : exec_labels_ok n (fb_ncls (new_fblock_multi n thr r)) (map (fun _ => (2 * n)%nat) bs) = true).
  { unfold exec_labels_ok. destruct (1 <? n)%nat; auto. cbn [new_fblock_multi fb_ncls]. rewrite Nat.eqb_refl. cbn [andb].
    apply forallb_forall. intros c Hc. apply in_map_iff in Hc. destruct Hc as (b & <- & _). apply Nat.eqb_eq. lia. }
  rewrite A. cbn [negb]. unfold ml_loop. destruct n_epochs as [|k]; [lia|].
  assert (S1 : ml_epoch block (list Z) (dense_train_ex bo) (dense_upd bo boost) fuel exs mem n
                 (mkExec bs (new_fblock_multi n thr r) [] ir) <> Wild).
  { apply ml_epoch_safe; auto; [lia|]. split; [reflexivity|]. cbn. rewrite repeat_length. lia. }
  destruct (ml_epoch _ _ _ _ fuel exs mem n _); [left; reflexivity|right; reflexivity|congruence].
Qed.

(** A label array with fewer columns than labels that is not rejected (one
    column, or a plain vector) is read past its end in the first epoch. *)
Theorem C105_flat_refuted : forall B E (tr : E -> B -> B * list Z) up fuel n_epochs n thr exs mem nlab bs r ir,
  (1 <= n_epochs)%nat -> (nlab <= 1)%nat -> (2 <= n)%nat -> (0 < length exs)%nat ->
  length mem = (length exs * nlab)%nat ->
  let out := ml_fit B E tr up fuel n_epochs (2 * n) thr exs mem nlab bs r ir in
  out = FitWild \/ out = FitSpins.
Proof.
  intros B E tr up fuel n_epochs n thr exs mem nlab bs r ir He HL Hn H0 HM. cbv zeta. unfold ml_fit.
  destruct (n_epochs <? 1)%nat eqn:E1; [apply Nat.ltb_lt in E1; lia|].
  assert (D : Nat.div (2 * n) 2 = n) by (rewrite Nat.mul_comm; apply Nat.div_mul; lia). rewrite D.
  unfold exec_labels_ok. destruct (1 <? nlab)%nat eqn:E2; [apply Nat.ltb_lt in E2; lia|]. cbn [negb].
  unfold ml_loop. destruct n_epochs as [|k]; [lia|].
  pose proof (ml_epoch_short B E tr up fuel exs mem nlab (mkExec bs (new_fblock_multi n thr r) [] ir)) as M.
  destruct (ml_epoch B E tr up fuel exs mem nlab _) as [v| |]; auto.
  exfalso. apply (M v); auto. cbn. lia.
Qed.

(** One label: the redraw loop never ends. *)
Theorem C105_one_label_refuted : forall B E (tr : E -> B -> B * list Z) up fuel n_epochs thr exs mem bs r ir,
  (1 <= n_epochs)%nat -> (0 < length exs)%nat ->
  ml_fit B E tr up fuel n_epochs 2 thr exs mem 1 bs r ir = FitSpins.
Proof.
  intros B E tr up fuel n_epochs thr exs mem bs r ir He H0. unfold ml_fit.
  destruct (n_epochs <? 1)%nat eqn:E1; [apply Nat.ltb_lt in E1; lia|]. cbn [exec_labels_ok Nat.ltb Nat.leb negb].
  unfold ml_loop. destruct n_epochs as [|k]; [lia|].
  rewrite (ml_epoch_one B E tr up fuel exs mem 1); auto.
Qed.

Example C105_case :
  blocks_multi 2 [(true, ml_block)] /\
  ml_fit block (list Z) (dense_train_ex false) (dense_upd false false) 3 5 4 10 ml_exs ml_mem 2
    [(true, ml_block)] ex_rng ex_irng = FitExits 1 /\
  ml_fit block (list Z) (dense_train_ex false) (dense_upd false false) 3 5 4 10 ml_exs [0;1] 1
    [(true, ml_block)] ex_rng ex_irng = FitWild.
Proof. split; [repeat constructor|]. vm_compute. split; reflexivity. Qed.

(** ** C106 *)

(** What the executor accepts. *)
Theorem C106_accepts : forall nlab fbc cbs,
  exec_labels_ok nlab fbc cbs = true <->
  (nlab <= 1)%nat \/ ((2 <= nlab)%nat /\ fbc = nlab /\ Forall (fun c => c = (2 * nlab)%nat) cbs).
Proof.
  intros nlab fbc cbs. unfold exec_labels_ok. destruct (1 <? nlab)%nat eqn:E1.
  - apply Nat.ltb_lt in E1. rewrite andb_true_iff, forallb_forall, Forall_forall, Nat.eqb_eq. split.
    + intros [A1 A2]. right. split; [lia|]. split; auto. intros c Hc. specialize (A2 c Hc). apply Nat.eqb_eq in A2. lia.
    + intros [A|(A1 & A2 & A3)]; [lia|]. split; auto. intros c Hc. apply Nat.eqb_eq. rewrite (A3 c Hc). lia.
  - apply Nat.ltb_ge in E1. split; auto.
Qed.

(** A label matrix with several columns never reaches a single-label machine. *)
Theorem C106_single_label : forall nlab classes cbs, (2 <= nlab)%nat -> cbs <> [] ->
  Forall (fun c => c = classes) cbs -> exec_labels_ok nlab classes cbs = false.
Proof.
  intros nlab classes cbs Hn Hc HF. apply not_true_is_false. intros H. apply C106_accepts in H.
  destruct H as [H|(H1 & H2 & H3)]; [lia|]. destruct cbs as [|c cbs]; [congruence|].
  pose proof (Forall_inv HF) as P1. pose proof (Forall_inv H3) as P2. cbv beta in P1, P2. lia.
Qed.

(** A multi-label machine takes a matrix with several columns only if it has one
    column per label. *)
Theorem C106_multi_label : forall B E (tr : E -> B -> B * list Z) up fuel n_epochs n thr exs mem nlab bs r ir,
  (1 <= n_epochs)%nat -> (2 <= nlab)%nat -> nlab <> n ->
  ml_fit B E tr up fuel n_epochs (2 * n) thr exs mem nlab bs r ir = FitRaised RuntimeError.
Proof.
  intros B E tr up fuel n_epochs n thr exs mem nlab bs r ir He HL Hn. unfold ml_fit.
  destruct (n_epochs <? 1)%nat eqn:E1; [apply Nat.ltb_lt in E1; lia|].
  assert (D : Nat.div (2 * n) 2 = n) by (rewrite Nat.mul_comm; apply Nat.div_mul; lia). rewrite D.
  unfold exec_labels_ok. destruct (1 <? nlab)%nat eqn:E2; [|apply Nat.ltb_ge in E2; lia].
  cbn [new_fblock_multi fb_ncls]. apply Nat.eqb_neq in Hn. rewrite Hn. reflexivity.
Qed.

(** A vector of labels is accepted for any number of labels, however many the
    feedback block reads. *)
Theorem C106_vector_refuted : forall fbc cbs, exec_labels_ok 1 fbc cbs = true.
Proof. reflexivity. Qed.

Example C106_case : exec_labels_ok 3 3 [6;6]%nat = true /\ exec_labels_ok 3 3 [3;3]%nat = false /\
  exec_labels_ok 3 6 [6]%nat = false /\ exec_labels_ok 1 3 [6]%nat = true.
Proof. vm_compute. auto. Qed.

Print Assumptions C104_reachable.
Print Assumptions C104_votes_partial.
Print Assumptions C104_probability_partial.
Print Assumptions C104_accuracy_partial.
Print Assumptions C104_blind_refuted.
Print Assumptions C104_refuted.
Print Assumptions C105_returns_refuted.
Print Assumptions C105_matrix.
Print Assumptions C105_flat_refuted.
Print Assumptions C105_one_label_refuted.
Print Assumptions C106_accepts.
Print Assumptions C106_single_label.
Print Assumptions C106_multi_label.
Print Assumptions C106_vector_refuted.
