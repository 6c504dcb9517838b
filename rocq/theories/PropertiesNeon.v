(** C73-C78: the NEON clause block. *)
From Coq Require Import ZArith Arith List Bool QArith Lia ZifyBool.
From Verif Require Import Base Spec SpecLearning ModelDense ModelFeedback ModelExecutor ModelDenseExec ModelLayout ModelAvx2 ModelNeon ModelRandom
  SpecAvx2 SpecNeon ProofsLayout ProofsEval ProofsStep ProofsAvx2 ProofsAvx2Scalar ProofsAvx2Step ProofsAvx2Hist
  ProofsNeon ProofsNeonScalar ProofsNeonStep ProofsNeonHist ProofsNeonTwin ProofsRandomVec ExampleData.
Import ListNotations.
Open Scope Z_scope.

(** 17 literals: one whole vector and one literal in the remainder vector.  The
    padding of the automata is full of included states, the padding of the input
    buffer full of garbage. *)
Definition nx_row (p0 p16 q0 q16 : Z) : list Z :=
  (p0 :: repeat (-5) 15 ++ p16 :: repeat 99 15) ++ (q0 :: repeat (-5) 15 ++ q16 :: repeat 88 15).
Definition nx_vrng : vrng := mkVrng (fun k => map (fun i => Z.of_nat ((37 * k + 11 * i) mod 256) - 128) (seq 0 16)) 0.
Definition nx_block : ablock :=
  mkABlock 17 32 (nmask_of 17) 2 [nx_row 3 0 (-1) (-2); nx_row (-1) (-1) 5 (-128); nx_row (-1) (-1) (-1) (-1); nx_row 127 127 (-4) (-9)]
    [[4;-2];[1;1];[7;0];[-3;32767]] [9;9;9;9] [50;51;52;53] [0;0] 1 (gtcmp_for_s (4#1)) nx_vrng ex_rng.
Definition nx_x (a b : Z) : list Z := a :: repeat 1 15 ++ [b].
Definition nx_lits (a b : Z) : list Z := nx_x a b ++ repeat 77 15.

Lemma nbytes8 : forall l, forallb (fun v => (-128 <=? v) && (v <=? 127)) l = true -> row8 l.
Proof. intros l H. rewrite forallb_forall in H. apply Forall_forall. intros v Hv. specialize (H v Hv). unfold is_int8. lia. Qed.
Lemma nx_good : neon_good 17 nx_block.
Proof.
  split; [|split].
  - constructor; try reflexivity; try lia. repeat (apply Forall_cons || apply Forall_nil); reflexivity.
  - unfold nx_block. cbn [a_rows]. do 4 (apply Forall_cons; [apply nbytes8; vm_compute; reflexivity|]). apply Forall_nil.
  - intros k. unfold nx_block, nx_vrng. cbn [a_vrng vr_src]. now rewrite map_length, seq_length.
Qed.
Lemma nx_buffer : forall a b, (a = 0 \/ a = 1) -> (b = 0 \/ b = 1) -> nbuffer_of 17 (nx_x a b) (nx_lits a b) /\ binary (nx_x a b).
Proof.
  intros a b Ha Hb. split; [repeat split; vm_compute; lia|]. unfold nx_x.
  constructor; auto. apply Forall_app. split; [apply Forall_forall; intros v Hv; apply repeat_spec in Hv; auto|]. constructor; auto.
Qed.

(** ** C73 *)

(** Training on NEON blocks with the literal budget on: outputs, votes and the
    counts of the firing clauses are those of the scalar block. *)
Theorem C73_train : forall n x lits b si sm r, neon_ok n b -> nbuffer_of n x lits -> binary x ->
  a_outputs (fst (neon_train_ex lits b)) = b_outputs (fst (dense_train_ex true x (scalar_view si sm r b))) /\
  snd (neon_train_ex lits b) = snd (dense_train_ex true x (scalar_view si sm r b)) /\
  (forall k, nth k (a_outputs (fst (neon_train_ex lits b))) 0 = 1 ->
     nth k (a_counts (fst (neon_train_ex lits b))) 0 = nth k (b_counts (fst (dense_train_ex true x (scalar_view si sm r b)))) 0).
Proof.
  intros n x lits b si sm r H Hb Hx. split; [|split].
  - apply (neon_train_outputs n); auto.
  - apply (neon_train_votes n); auto.
  - intros k Hk. apply (neon_train_counts n); auto.
Qed.

(** A training step changes the weights and the shared generator as the scalar
    backend does, with the same draws. *)
Theorem C73_step_weights : forall n x lits b boost pc pp nc np si sm r, neon_ok n b -> nbuffer_of n x lits -> binary x ->
  let b' := neon_step boost lits pc pp nc np b in
  let s' := dense_step true boost x pc pp nc np (scalar_view si sm r b) in
  a_weights b' = b_weights s' /\ a_outputs b' = b_outputs s' /\ a_votes b' = b_votes s' /\ a_fast b' = b_fast s'.
Proof.
  intros n x lits b boost pc pp nc np si sm r H Hb Hx.
  destruct (neon_step_weights n x lits b boost pc pp nc np si sm r H Hb Hx) as [A1 [A2 [A3 [A4 _]]]]. auto.
Qed.

(** Type II feedback is the scalar one. *)
Theorem C73_type2 : forall n x lits row, (0 < n)%nat -> nbuffer_of n x lits -> binary x ->
  length row = (2 * nlmem_of n)%nat -> row8 row ->
  let c := row_clause n (nlmem_of n) row in
  row_clause n (nlmem_of n) (neon_t2 lits (nlmem_of n) row) =
  mkClause (fst (type2 (cl_pos c) (cl_neg c) x)) (snd (type2 (cl_pos c) (cl_neg c) x)).
Proof.
  intros n x lits row Hn Hb Hx HL H8 c. pose proof (neon_t2_scalar n x lits row Hn Hb Hx HL H8) as A. fold c in A.
  destruct (type2 (cl_pos c) (cl_neg c) x) as [ps qs]. exact A.
Qed.

(** With the literal budget off the first training example writes through a null
    pointer, whatever the block (unless it has no clauses). *)
Theorem C78_no_budget_refuted : forall lits b, a_rows b <> [] -> neon_train_output false lits b = None.
Proof. intros lits b H. unfold neon_train_output. destruct (a_rows b); [congruence|reflexivity]. Qed.

Theorem C78_budget_partial : forall lits b, exists b', neon_train_output true lits b = Some b' /\
  fst (neon_train_ex lits b) = avx_count_votes b'.
Proof. intros lits b. eexists. split; reflexivity. Qed.

Example C73_case : neon_ok 17 nx_block /\ nbuffer_of 17 (nx_x 1 1) (nx_lits 1 1) /\ binary (nx_x 1 1) /\
  a_outputs (fst (neon_train_ex (nx_lits 1 1) nx_block)) = [1;0;1;1] /\
  a_counts (fst (neon_train_ex (nx_lits 1 1) nx_block)) = [2;1;0;2] /\
  a_outputs (fst (neon_train_ex (nx_lits 1 0) nx_block)) = [0;0;1;0] /\
  a_outputs (fst (neon_train_ex (nx_lits 0 1) nx_block)) = [0;1;1;0] /\
  a_weights (neon_step false (nx_lits 1 1) 0 1 1 1 nx_block) = [[4;-2];[1;1];[8;-1];[-3;32767]] /\
  a_rows nx_block <> [].
Proof.
  split; [apply nx_good|]. destruct (nx_buffer 1 1) as [A B]; auto. split; [exact A|]. split; [exact B|].
  repeat split; vm_compute; (reflexivity || discriminate).
Qed.

(** ** C74 *)

(** Evaluation: the flag that detects empty clauses is never reset, so clause [k]
    answers 1 when no included literal of it is false and it, or some clause
    before it in the block, includes a literal. *)
Theorem C74_eval_exact : forall n x lits b, neon_ok n b -> nbuffer_of n x lits -> binary x ->
  length (a_outputs (fst (neon_eval_ex lits b))) = length (a_rows b) /\
  forall k, (k < length (a_rows b))%nat ->
    let clause j := row_of (row_clause n (nlmem_of n) (nth j (a_rows b) [])) in
    (nth k (a_outputs (fst (neon_eval_ex lits b))) 0 = 0 \/ nth k (a_outputs (fst (neon_eval_ex lits b))) 0 = 1) /\
    (nth k (a_outputs (fst (neon_eval_ex lits b))) 0 = 1 <->
     clause_matches n x (clause k) = true /\ exists j, (j <= k)%nat /\ included (clause j) <> []).
Proof.
  intros n x lits b OK Hb Hx. destruct (neon_eval_exact n x lits b OK Hb Hx) as [A1 A2]. split; [exact A1|].
  intros k Hk clause. rewrite A2 by auto. fold (clause k). split; [destruct (_ && _); auto|].
  assert (EX : existsb has_lit (map (row_clause n (nlmem_of n)) (firstn (S k) (a_rows b))) = true <->
     exists j, (j <= k)%nat /\ included (clause j) <> []).
  { rewrite existsb_exists. split.
    - intros [c [C1 C2]]. apply in_map_iff in C1. destruct C1 as [row [<- C1]].
      destruct (In_nth _ _ [] C1) as [j [J1 J2]]. rewrite firstn_length in J1. exists j. split; [lia|].
      rewrite nth_firstn_rows in J2 by lia. unfold clause. rewrite J2. apply has_lit_iff. exact C2.
    - intros [j [J1 J2]]. exists (row_clause n (nlmem_of n) (nth j (a_rows b) [])). split; [|apply has_lit_iff; exact J2].
      apply in_map. rewrite <- (nth_firstn_rows (a_rows b) (S k) j []) by lia. apply nth_In. rewrite firstn_length. lia. }
  rewrite <- EX. destruct (clause_matches n x (clause k)), (existsb _ _); cbn [andb b2z]; intuition discriminate.
Qed.

(** The scalar evaluation is reproduced exactly when no empty clause follows a
    clause with a literal. *)
Theorem C74_scalar_iff : forall n x lits b si sm r, neon_ok n b -> nbuffer_of n x lits -> binary x ->
  (a_outputs (fst (neon_eval_ex lits b)) = b_outputs (fst (dense_eval_ex x (scalar_view si sm r b))) <->
   forall j k, (j < k)%nat -> (k < length (a_rows b))%nat ->
     included (row_of (row_clause n (nlmem_of n) (nth j (a_rows b) []))) <> [] ->
     included (row_of (row_clause n (nlmem_of n) (nth k (a_rows b) []))) <> []).
Proof. exact neon_eval_scalar_iff. Qed.

Example C74_case : neon_ok 17 nx_block /\
  a_outputs (fst (neon_eval_ex (nx_lits 0 1) nx_block)) = [0;1;1;0] /\
  a_outputs (fst (neon_eval_ex (nx_lits 1 1) nx_block)) = [1;0;1;1] /\
  map (fun k => included (row_of (row_clause 17 32 (nth k (a_rows nx_block) [])))) [0;1;2;3]%nat = [[0;16];[17];[];[0;16]]%nat.
Proof. split; [apply nx_good|]. repeat split; vm_compute; reflexivity. Qed.

(** ** C75 *)

(** Evaluating on NEON gives the predictions of the scalar backend: false, the
    empty clause 2 (weights 7 and 0) decides the class. *)
Definition nx_exec : exec ablock := mkExec [(true, nx_block)] (new_fblock 2 (20#1) ex_rng) [] ex_irng.
Theorem C75_same_predictions_refuted :
  neon_ok 17 nx_block /\ nbuffer_of 17 (nx_x 0 1) (nx_lits 0 1) /\ binary (nx_x 0 1) /\
  snd (neon_eval_ex (nx_lits 0 1) nx_block) = [8; 1] /\
  snd (dense_eval_ex (nx_x 0 1) (scalar_view 0 0 ex_rng nx_block)) = [1; 1] /\
  exists b, neon_ok 17 b /\
    fst (eval_predict ablock (list Z) neon_eval_ex nat [(nx_lits 0 1, O)] [9%nat] (mkExec [(true, b)] (x_fb nx_exec) [] ex_irng)) = (true, [0%nat]) /\
    fst (eval_predict block (list Z) dense_eval_ex nat [(nx_x 0 1, O)] [9%nat]
           (view_exec 0 0 ex_rng (mkExec [(true, b)] (x_fb nx_exec) [] ex_irng))) = (true, [1%nat]).
Proof.
  split; [apply nx_good|]. destruct (nx_buffer 0 1) as [A B]; auto. split; [exact A|]. split; [exact B|].
  split; [vm_compute; reflexivity|]. split; [vm_compute; reflexivity|].
  exists (mkABlock 17 32 (nmask_of 17) 2 [nx_row 3 0 (-1) (-2); nx_row (-1) (-1) 5 (-128); nx_row (-1) (-1) (-1) (-1); nx_row 127 127 (-4) (-9)]
    [[4;-2];[1;2];[7;0];[-3;32767]] [9;9;9;9] [50;51;52;53] [0;0] 1 (gtcmp_for_s (4#1)) nx_vrng ex_rng).
  split; [|split; vm_compute; reflexivity].
  constructor; try reflexivity; try lia. repeat (apply Forall_cons || apply Forall_nil); reflexivity.
Qed.

(** True when every empty clause stands before every clause with a literal: the
    block answers an example as the scalar one, and so do all blocks of an
    executor over a data set. *)
Definition empty_first (n : nat) (b : ablock) : Prop :=
  forall j k, (j < k)%nat -> (k < length (a_rows b))%nat ->
    included (row_of (row_clause n (nlmem_of n) (nth j (a_rows b) []))) <> [] ->
    included (row_of (row_clause n (nlmem_of n) (nth k (a_rows b) []))) <> [].

Lemma neon_eval_view : forall n x lits b si sm r, neon_ok n b -> empty_first n b -> nbuffer_of n x lits -> binary x ->
  let '(b', v) := neon_eval_ex lits b in
  (scalar_view si sm r b', v) = dense_eval_ex x (scalar_view si sm r b) /\ neon_ok n b' /\ empty_first n b'.
Proof.
  intros n x lits b si sm r H HE Hb Hx. pose proof (proj2 (neon_eval_scalar_iff n x lits b si sm r H Hb Hx) HE) as A.
  unfold neon_eval_ex, dense_eval_ex in *. cbv zeta.
  unfold avx_count_votes, count_votes, scalar_view, neon_eval_set, eval_set_clause_output in *.
  cbn [fst a_nlit a_lmem a_mask a_ncls a_rows a_weights a_outputs a_counts a_votes a_budget a_cmp a_vrng a_fast
       b_nlit b_ncls b_clauses b_weights b_outputs b_counts b_votes b_budget b_s_inv b_s_min1_inv b_rng b_fast] in *.
  rewrite A. split; [reflexivity|]. destruct H as [O1 O2 O3 O4 O5]. split; [constructor; auto|exact HE].
Qed.

Theorem C75_same_predictions_partial : forall si sm r n (L : Type) (adata xdata : list (list Z * L)) out (e : exec ablock),
  Forall2 (fun lits x => nbuffer_of n x lits /\ binary x) (map fst adata) (map fst xdata) ->
  Forall (fun tb => neon_ok n (snd tb) /\ empty_first n (snd tb)) (x_blocks e) ->
  fst (eval_predict ablock (list Z) neon_eval_ex L adata out e) =
  fst (eval_predict block (list Z) dense_eval_ex L xdata out (view_exec si sm r e)).
Proof.
  intros si sm r n L adata xdata out e P H. unfold eval_predict.
  assert (EL : length adata = length xdata) by (rewrite <- (map_length fst adata), <- (map_length fst xdata); clear - P; induction P; cbn [length]; congruence).
  rewrite EL. destruct (negb (length out =? length xdata)%nat); [auto|]. cbn [view_exec x_blocks x_fb x_index x_rng].
  assert (R : forall lits x bs fb, nbuffer_of n x lits /\ binary x ->
     Forall (fun tb : bool * ablock => neon_ok n (snd tb) /\ empty_first n (snd tb)) bs ->
     let '(bs', fb') := run_examples ablock (list Z) neon_eval_ex lits bs fb in
     run_examples block (list Z) dense_eval_ex x (view_blocks si sm r bs) fb = (view_blocks si sm r bs', fb') /\
     Forall (fun tb : bool * ablock => neon_ok n (snd tb) /\ empty_first n (snd tb)) bs').
  { intros lits x bs. induction bs as [|[t b] bs IH]; intros fb [P1 P2] HB; cbn [run_examples view_blocks map].
    - split; [reflexivity|constructor].
    - inversion HB as [|? ? [H1 H1'] H2]; subst. cbn [snd] in H1, H1'.
      pose proof (neon_eval_view n x lits b si sm r H1 H1' P1 P2) as A.
      destruct (neon_eval_ex lits b) as [b1 v]. destruct A as [A1 [A2 A3]]. cbn [fst snd]. rewrite <- A1.
      specialize (IH (fb_register v fb) (conj P1 P2) H2).
      destruct (run_examples ablock (list Z) neon_eval_ex lits bs (fb_register v fb)) as [bs2 fb2].
      destruct IH as [I1 I2]. unfold view_blocks in I1. rewrite I1. split; [reflexivity|]. constructor; auto. }
  assert (EV : forall es xs, Forall2 (fun lits x => nbuffer_of n x lits /\ binary x) es xs -> forall bs fb,
     Forall (fun tb : bool * ablock => neon_ok n (snd tb) /\ empty_first n (snd tb)) bs ->
     fst (fst (eval_list ablock (list Z) neon_eval_ex es bs fb)) =
     fst (fst (eval_list block (list Z) dense_eval_ex xs (view_blocks si sm r bs) fb))).
  { induction 1 as [|lits x es xs P1 P' IH]; intros bs fb HB; cbn [eval_list]; auto.
    pose proof (R lits x bs (fb_reset fb) P1 HB) as A.
    destruct (run_examples ablock (list Z) neon_eval_ex lits bs (fb_reset fb)) as [bs1 fb1].
    destruct A as [A1 A2]. rewrite A1. specialize (IH bs1 fb1 A2).
    destruct (eval_list ablock (list Z) neon_eval_ex es bs1 fb1) as [[ys bs2] fb2].
    destruct (eval_list block (list Z) dense_eval_ex xs (view_blocks si sm r bs1) fb1) as [[ys' bs2'] fb2'].
    cbn [fst] in *. now rewrite IH. }
  specialize (EV _ _ P (x_blocks e) (x_fb e) H).
  destruct (eval_list ablock (list Z) neon_eval_ex (map fst adata) (x_blocks e) (x_fb e)) as [[ys bs] fb].
  destruct (eval_list block (list Z) dense_eval_ex (map fst xdata) (view_blocks si sm r (x_blocks e)) (x_fb e)) as [[ys' bs'] fb'].
  cbn [fst] in *. now rewrite EV.
Qed.

Example C75_partial_case :
  let b := mkABlock 17 32 (nmask_of 17) 2 [nx_row (-1) (-1) (-1) (-1); nx_row 3 0 (-1) (-2); nx_row (-1) (-1) 5 (-128)]
             [[7;0];[4;-2];[1;2]] [9;9;9] [50;51;52] [0;0] 1 (gtcmp_for_s (4#1)) nx_vrng ex_rng in
  neon_ok 17 b /\ empty_first 17 b /\ snd (neon_eval_ex (nx_lits 0 1) b) = [1; 2].
Proof.
  cbv zeta. split; [constructor; try reflexivity; try lia; repeat (apply Forall_cons || apply Forall_nil); reflexivity|].
  split; [|vm_compute; reflexivity]. intros j k Hjk Hk. cbn [a_rows length] in Hk.
  destruct k as [|[|[|k]]]; try lia; intros _; vm_compute; discriminate.
Qed.

(** ** C76 *)

(** The automata, literal by literal: vectors 2*(j/16) and 2*(j/16)+1 of the
    generator, lane j mod 16, decide; boosting only concerns the literals
    themselves, as in the scalar backend. *)
Theorem C76_type1a : forall n x lits cmp boost row r, (0 < n)%nat -> nbuffer_of n x lits -> binary x ->
  nvrng_ok r -> length row = (2 * nlmem_of n)%nat -> row8 row ->
  let row' := fst (neon_t1a boost cmp lits (nlmem_of n) row r) in
  forall j, (j < n)%nat ->
    let hit_pos := vdraw r (2 * (j / 16)) (j mod 16) <? cmp in
    let hit_neg := vdraw r (2 * (j / 16) + 1) (j mod 16) <? cmp in
    nth j row' 0 =
      (if nth j x 0 =? 1 then (if boost || negb hit_pos then up8 (nth j row 0) else nth j row 0)
       else (if hit_pos then down8 (nth j row 0) else nth j row 0)) /\
    nth (nlmem_of n + j) row' 0 =
      (if nth j x 0 =? 0 then (if negb hit_neg then up8 (nth (nlmem_of n + j) row 0) else nth (nlmem_of n + j) row 0)
       else (if hit_neg then down8 (nth (nlmem_of n + j) row 0) else nth (nlmem_of n + j) row 0)).
Proof.
  intros n x lits cmp boost row r Hn Hb Hx VR HL H8 row' j Hj hp hn.
  destruct (nlmem_of_facts n Hn) as [F1 [F2 F3]].
  pose proof (neon_t1a_exact cmp lits (nlmem_of n) ltac:(apply Hb) F3 boost row r VR HL H8) as A.
  unfold row'. destruct (neon_t1a boost cmp lits (nlmem_of n) row r) as [rw r2]. destruct A as [_ [_ [_ A]]]. cbn [fst].
  destruct (A j ltac:(lia)) as [E1 E2]. rewrite E1, E2. unfold t1a_lane, non, nhit.
  destruct (nlit_val n x lits row Hn Hb Hx HL j Hj) as [V [V0|V0]]; rewrite V, V0; rewrite Nat.add_0_r; split; reflexivity.
Qed.

Theorem C76_type1b : forall n x lits cmp row r, (0 < n)%nat -> nbuffer_of n x lits ->
  nvrng_ok r -> length row = (2 * nlmem_of n)%nat -> row8 row ->
  let row' := fst (neon_t1b cmp (nlmem_of n) row r) in
  forall j, (j < n)%nat ->
    nth j row' 0 = (if vdraw r (2 * (j / 16)) (j mod 16) <? cmp then down8 (nth j row 0) else nth j row 0) /\
    nth (nlmem_of n + j) row' 0 =
      (if vdraw r (2 * (j / 16) + 1) (j mod 16) <? cmp then down8 (nth (nlmem_of n + j) row 0) else nth (nlmem_of n + j) row 0).
Proof.
  intros n x lits cmp row r Hn Hb VR HL H8 row' j Hj.
  destruct (nlmem_of_facts n Hn) as [F1 [F2 F3]].
  pose proof (neon_t1b_exact cmp lits (nlmem_of n) ltac:(apply Hb) F3 row r VR HL H8) as A.
  unfold row'. destruct (neon_t1b cmp (nlmem_of n) row r) as [rw r2]. destruct A as [_ [_ [_ A]]]. cbn [fst].
  destruct (A j ltac:(lia)) as [E1 E2]. rewrite E1, E2. unfold t1b_lane, nhit. rewrite Nat.add_0_r. auto.
Qed.

Theorem C76_type2 : forall n x lits row, (0 < n)%nat -> nbuffer_of n x lits -> binary x ->
  length row = (2 * nlmem_of n)%nat -> row8 row ->
  let row' := neon_t2 lits (nlmem_of n) row in
  forall j, (j < n)%nat ->
    nth j row' 0 = (if (nth j x 0 =? 0) && (nth j row 0 <? 0) then nth j row 0 + 1 else nth j row 0) /\
    nth (nlmem_of n + j) row' 0 =
      (if (nth j x 0 =? 1) && (nth (nlmem_of n + j) row 0 <? 0) then nth (nlmem_of n + j) row 0 + 1 else nth (nlmem_of n + j) row 0).
Proof.
  intros n x lits row Hn Hb Hx HL H8 row' j Hj.
  destruct (nlmem_of_facts n Hn) as [F1 [F2 F3]].
  destruct (neon_t2_exact lits (nlmem_of n) ltac:(apply Hb) F3 row HL H8) as [_ [_ A]].
  destruct (A j ltac:(lia)) as [E1 E2]. unfold row'. rewrite E1, E2. unfold t2_lane, noff0.
  destruct (nlit_val n x lits row Hn Hb Hx HL j Hj) as [V [V0|V0]]; rewrite V, V0; split; reflexivity.
Qed.

(** Any program of training epochs and evaluations: every automaton, padding
    included, stays an int8. *)
Theorem C76_states_in_range : forall n boost (L : Type) (process : L -> fblock -> fblock) cs (x : exec ablock),
  Forall (fun c => Forall (fun d => (nlmem_of n <= length (fst d))%nat) (gdata (list Z) L c)) cs ->
  Forall (fun tb => neon_good n (snd tb)) (x_blocks x) ->
  Forall (fun tb => neon_good n (snd tb))
    (x_blocks (grun ablock (list Z) neon_train_ex neon_eval_ex (neon_upd boost) L process cs x)).
Proof.
  intros n boost L process cs x HC HB.
  apply (grun_P ablock (list Z) neon_train_ex neon_eval_ex (neon_upd boost) L process (neon_good n) (fun e => (nlmem_of n <= length e)%nat)); auto.
  - intros e b _. apply neon_train_good.
  - intros e b _. apply neon_eval_good.
  - intros e pc pp nc np b. apply neon_upd_good.
Qed.

Theorem C76_initial : forall vec_of std_of fast_of junk n ncl ncls budget s seed b, (0 < n)%nat -> (forall z, nvrng_ok (vec_of z)) ->
  neon_initialize vec_of std_of fast_of junk n ncl ncls budget s seed = Some b -> neon_good n b /\ length (a_rows b) = ncl.
Proof. exact neon_initialize_good. Qed.

(** A clause over the literal budget: weights unchanged, no automaton goes up. *)
Theorem C76_over_budget : forall n x lits b boost pc pp nc np, neon_good n b -> nbuffer_of n x lits -> binary x ->
  length (a_weights b) = length (a_rows b) ->
  let b' := neon_step boost lits pc pp nc np b in
  forall k, (k < length (a_rows b))%nat ->
    a_budget b < n_included (row_of (row_clause n (nlmem_of n) (nth k (a_rows b) []))) ->
    nth k (a_weights b') [] = nth k (a_weights b) [] /\
    forall j, (j < 2 * nlmem_of n)%nat -> nth j (nth k (a_rows b') []) 0 <= nth j (nth k (a_rows b) []) 0.
Proof. exact neon_over_budget. Qed.

(** No automaton jumps in one training step. *)
Theorem C76_no_jump : forall n lits b boost pc pp nc np, neon_good n b -> (nlmem_of n <= length lits)%nat ->
  length (a_weights b) = length (a_rows b) ->
  forall k j, (k < length (a_rows b))%nat ->
  let v := nth j (nth k (a_rows b) []) 0 in
  v - 2 <= nth j (nth k (a_rows (neon_step boost lits pc pp nc np b)) []) 0 <= v + 2.
Proof. intros n lits b boost pc pp nc np G HL HW k j Hk. apply (neon_step_delta n lits b boost pc pp nc np G HL HW k Hk j). Qed.

Example C76_case : let row := nx_row 3 127 (-128) (-2) in
  length row = (2 * nlmem_of 17)%nat /\ neon_good 17 nx_block /\ (nlmem_of 17 <= length (nx_lits 1 1))%nat /\
  map (fun j => nth j (fst (neon_t1a false (-63) (nx_lits 1 0) 32 row nx_vrng)) 0) [0;1;2;15;16;32;33;48]%nat = [3;-5;-5;-4;127;-128;-6;-1] /\
  map (fun j => nth j (fst (neon_t1a true (-63) (nx_lits 1 0) 32 row nx_vrng)) 0) [0;1;2;15;16;32;33;48]%nat = [4;-4;-4;-4;127;-128;-6;-1] /\
  map (fun j => nth j (neon_t2 (nx_lits 0 1) 32 row) 0) [0;1;16;32;33;48]%nat = [3;-5;127;-128;-4;-1].
Proof. cbv zeta. split; [reflexivity|]. split; [exact nx_good|]. split; [vm_compute; lia|]. repeat split; vm_compute; reflexivity. Qed.

Example C76_budget_case : n_included (row_of (row_clause 17 32 (nth 3 (a_rows nx_block) []))) = 2 /\ a_budget nx_block = 1 /\
  length (a_weights nx_block) = length (a_rows nx_block).
Proof. repeat split; vm_compute; reflexivity. Qed.

Example C76_init_case : exists b, neon_initialize (fun _ => nx_vrng) (fun _ => ex_rng) (fun _ => ex_rng) [] 17 3 2 65535 (4#1) 42 = Some b /\
  (forall z : Z, nvrng_ok ((fun _ => nx_vrng) z)) /\ nth 17 (nth 2 (a_rows b) []) 0 = -109 /\
  neon_initialize (fun _ => nx_vrng) (fun _ => ex_rng) (fun _ => ex_rng) [] 17 3 2 65535 (4#1) 0 = None.
Proof.
  eexists. split; [vm_compute; reflexivity|]. split; [|split; vm_compute; reflexivity].
  intros z k. cbn [nx_vrng vr_src]. now rewrite map_length, seq_length.
Qed.

(** ** C77 *)

(** Literals eight places apart in a vector get the same random bytes, so with
    equal inputs and equal automata they stay equal whatever the training
    program, the feedback rule, the seed and the draws of the other generators. *)
Theorem C77_twins : forall n seed64 pos0 boost (L : Type) (process : L -> fblock -> fblock) cs (x : exec ablock),
  Forall (fun c => Forall (fun d => (nlmem_of n <= length (fst d))%nat /\ twin_example n (fst d)) (gdata (list Z) L c)) cs ->
  Forall (fun tb => neon_good n (snd tb) /\ a_vrng (snd tb) = mkVrng (vr_src (xo_vrng (xo_seeded seed64))) pos0 /\
    Forall (fun row => twin_clause n (row_clause n (nlmem_of n) row)) (a_rows (snd tb))) (x_blocks x) ->
  Forall (fun tb => Forall (fun row => twin_clause n (row_clause n (nlmem_of n) row)) (a_rows (snd tb)))
    (x_blocks (grun ablock (list Z) neon_train_ex neon_eval_ex (neon_upd boost) L process cs x)).
Proof.
  intros n seed64 pos0 boost L process cs x HC HB.
  assert (K : Forall (fun tb => twin_block n (snd tb)) (x_blocks (grun ablock (list Z) neon_train_ex neon_eval_ex (neon_upd boost) L process cs x))).
  { apply (grun_P ablock (list Z) neon_train_ex neon_eval_ex (neon_upd boost) L process (twin_block n)
      (fun e => (nlmem_of n <= length e)%nat /\ twin_example n e)); auto.
    - intros e b _. apply neon_train_twin.
    - intros e b _. apply neon_eval_twin.
    - intros e pc pp nc np b [E1 E2]. apply neon_upd_twin; auto.
    - unfold all_P. revert HB. apply Forall_impl. intros [t b] [G [V W]]. cbn [snd] in *. split; [exact G|]. split.
      + intros k i Hi. rewrite V. cbn [vr_src]. destruct (xo_halves seed64 k) as [h [LH E]]. rewrite E.
        rewrite app_nth2 by lia. rewrite app_nth1 by lia. f_equal. lia.
      + destruct G as [[O1 O2 O3 O4 O5] _]. rewrite Forall_forall in *. intros row Hr. apply twin_row_clause; auto. }
  revert K. apply Forall_impl. intros [t b] [G [V W]]. cbn [snd] in *. destruct G as [[O1 O2 O3 O4 O5] _].
  rewrite Forall_forall in *. intros row Hr. apply twin_row_clause; auto.
Qed.

(** One draw of Type Ib feedback: the automata of literals 0 and 8 move together,
    those of literals 0 and 1 need not. *)
Definition nx_pair_block : ablock :=
  mkABlock 16 16 (nmask_of 16) 2 [repeat 20 32] [[1;-1]] [0] [0] [0;0] 5 (gtcmp_for_s (2#1)) (xo_vrng (xo_seeded 12345)) ex_rng.
Example C77_case : neon_good 16 nx_pair_block /\ Forall (fun row => twin_clause 16 (row_clause 16 (nlmem_of 16) row)) (a_rows nx_pair_block) /\
  twin_example 16 [1;0;1;1;0;0;1;0; 1;0;1;1;0;0;1;0] /\
  exists row, fst (neon_t1b (a_cmp nx_pair_block) 16 (repeat 20 32) (a_vrng nx_pair_block)) = row /\
    nth 0 row 0 = nth 8 row 0 /\ nth 1 row 0 = nth 9 row 0 /\ nth 0 row 0 <> nth 1 row 0.
Proof.
  split; [|split; [|split]].
  - split; [constructor; try reflexivity; try lia; repeat (apply Forall_cons || apply Forall_nil); reflexivity|]. split.
    + apply Forall_cons; [|apply Forall_nil]. apply nbytes8. reflexivity.
    + intros k. cbn [nx_pair_block a_vrng]. destruct (xo_halves 12345 k) as [h [LH E]]. rewrite E, app_length. lia.
  - apply Forall_cons; [|apply Forall_nil]. intros j [J1 J2]. do 8 (destruct j as [|j]; [vm_compute; auto|]). exfalso; lia.
  - intros j [J1 J2]. do 8 (destruct j as [|j]; [vm_compute; auto|]). exfalso; lia.
  - eexists. split; [reflexivity|]. repeat split; vm_compute; try reflexivity. discriminate.
Qed.

Print Assumptions C73_train.
Print Assumptions C73_step_weights.
Print Assumptions C73_type2.
Print Assumptions C78_no_budget_refuted.
Print Assumptions C78_budget_partial.
Print Assumptions C74_eval_exact.
Print Assumptions C74_scalar_iff.
Print Assumptions C75_same_predictions_refuted.
Print Assumptions C75_same_predictions_partial.
Print Assumptions C76_type1a.
Print Assumptions C76_type1b.
Print Assumptions C76_type2.
Print Assumptions C76_states_in_range.
Print Assumptions C76_initial.
Print Assumptions C76_over_budget.
Print Assumptions C76_no_jump.
Print Assumptions C77_twins.
