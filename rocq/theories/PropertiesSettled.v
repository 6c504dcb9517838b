(** C137: a machine that knows its training data stays as it is. *)
From Coq Require Import ZArith List Bool QArith Lia Lqa.
From Verif Require Import ExampleData Base BaseProofs Spec SpecLearning SpecSettled ModelInference ModelDense ModelFeedback ModelExecutor ModelDenseExec
  ModelAvx2 ModelNeon ModelSparse SpecAvx2 SpecNeon ProofsFeedback ProofsEval ProofsExecutor ProofsDenseExec ProofsTopExecutor ProofsStep ProofsLearning ProofsTopLearning
  ProofsAvx2Scalar SpecConv ModelConv ProofsConv ProofsSettled ProofsSettledBlocks ProofsSettledConv.
Import ListNotations.
Open Scope Z_scope.

(** Full statement: for every generator.  Missing: draws below 1e-16, which the
    code adds to every update probability of another class.  Any number of epochs
    over data that the clauses decide leaves clauses, weights and the generators
    of the feedback alone, and every epoch reports accuracy 1. *)
Theorem C137_settled_partial : forall n ncls T bo boost k (data : list (list Z * nat)) (x : exec block), (0 < T)%Q ->
  Forall (fun tb => block_wf n ncls (snd tb) /\ never_below eps (b_fast (snd tb))) (x_blocks x) ->
  fb_ready ncls (x_fb x) -> fb_thr (x_fb x) = T ->
  knows T n ncls (all_rows (x_blocks x)) (all_weights (x_blocks x)) data ->
  let '(accs, x') := epochs block (list Z) (dense_train_ex bo) (dense_upd bo boost) fb_process k data x in
  map (fun tb => (fst tb, dense_kept (snd tb))) (x_blocks x') = map (fun tb => (fst tb, dense_kept (snd tb))) (x_blocks x) /\
  length accs = k /\ (data <> [] -> Forall (fun a => a == 1)%Q accs).
Proof.
  intros n ncls T bo boost k data x HT F R ET KN. pose proof (dense_settled n ncls T bo boost k data x HT F R ET KN) as H.
  pose proof (epochs_length block (list Z) (dense_train_ex bo) (dense_upd bo boost) fb_process k data x) as L.
  destruct (epochs _ _ _ _ _ k data x) as [accs x']. cbn [fst] in L. destruct H as [H1 H2]. auto.
Qed.

(** The same for the AVX2 block; its clauses are the rows without padding. *)
Theorem C137_avx2_partial : forall n ncls T bo boost k si sm r (data : list (list Z * nat)) (x : exec ablock), (0 < T)%Q ->
  Forall (fun tb => avx_ok n (snd tb) /\ vec_weights ncls (snd tb) /\ never_below eps (a_fast (snd tb))) (x_blocks x) ->
  fb_ready ncls (x_fb x) -> fb_thr (x_fb x) = T ->
  Forall (fun d => (lmem_of n <= length (fst d))%nat) data ->
  knows T n ncls (all_rows (view_blocks si sm r (x_blocks x))) (all_weights (view_blocks si sm r (x_blocks x)))
        (map (fun d => (firstn n (fst d), snd d)) data) ->
  let '(accs, x') := epochs ablock (list Z) (avx_train_ex bo) (avx_upd bo boost) fb_process k data x in
  map (fun tb => (fst tb, vec_kept (snd tb))) (x_blocks x') = map (fun tb => (fst tb, vec_kept (snd tb))) (x_blocks x) /\
  (data <> [] -> Forall (fun a => a == 1)%Q accs).
Proof. exact avx_settled. Qed.

(** NEON, with a literal budget (C78). *)
Theorem C137_neon_partial : forall n ncls T boost k si sm r (data : list (list Z * nat)) (x : exec ablock), (0 < T)%Q ->
  Forall (fun tb => neon_ok n (snd tb) /\ vec_weights ncls (snd tb) /\ never_below eps (a_fast (snd tb))) (x_blocks x) ->
  fb_ready ncls (x_fb x) -> fb_thr (x_fb x) = T ->
  Forall (fun d => (nlmem_of n <= length (fst d))%nat) data ->
  knows T n ncls (all_rows (view_blocks si sm r (x_blocks x))) (all_weights (view_blocks si sm r (x_blocks x)))
        (map (fun d => (firstn n (fst d), snd d)) data) ->
  let '(accs, x') := epochs ablock (list Z) neon_train_ex (neon_upd boost) fb_process k data x in
  map (fun tb => (fst tb, vec_kept (snd tb))) (x_blocks x') = map (fun tb => (fst tb, vec_kept (snd tb))) (x_blocks x) /\
  (data <> [] -> Forall (fun a => a == 1)%Q accs).
Proof. exact neon_settled. Qed.

(** The sparse block: rows, states, active literals and weights.  Which clauses
    vote is C33; here the votes registered decide. *)
Theorem C137_sparse_partial : forall ncls T bo boost dyn k (data : list (list nat * nat)) (x : exec sblock), (0 < T)%Q ->
  Forall (fun tb => sp_ncls (snd tb) = ncls /\ rows_of ncls (sp_weights (snd tb)) /\ never_below eps (sp_fast (snd tb))) (x_blocks x) ->
  fb_ready ncls (x_fb x) -> fb_thr (x_fb x) = T ->
  Forall (fun d => decided T ncls (snd d) (fun c => wrap16 (zsum (map (fun tb => nth c (snd (sp_train_ex bo (fst d) (snd tb))) 0) (x_blocks x))))) data ->
  let '(accs, x') := epochs sblock (list nat) (sp_train_ex bo) (sp_train_update bo boost dyn) fb_process k data x in
  map (fun tb => (fst tb, sp_kept (snd tb))) (x_blocks x') = map (fun tb => (fst tb, sp_kept (snd tb))) (x_blocks x) /\
  (data <> [] -> Forall (fun a => a == 1)%Q accs).
Proof. exact sp_settled. Qed.

(** The convolutional block: a clause votes when it matches a patch. *)
Theorem C137_conv_partial : forall n np ncls T bo boost k (data : list (list Z * nat)) (x : exec cvblock), (0 < T)%Q ->
  Forall (fun tb => conv_ok n ncls (snd tb) /\ cv_np (snd tb) = np /\ never_below eps (b_fast (cv_b (snd tb)))) (x_blocks x) ->
  fb_ready ncls (x_fb x) -> fb_thr (x_fb x) = T ->
  conv_knows T n np ncls (concat (map (fun tb => block_rows (cv_b (snd tb))) (x_blocks x))) (concat (map (fun tb => b_weights (cv_b (snd tb))) (x_blocks x))) data ->
  let '(accs, x') := epochs cvblock (list Z) (conv_train_ex bo) (conv_update bo boost) fb_process k data x in
  map (fun tb => (fst tb, conv_kept (snd tb))) (x_blocks x') = map (fun tb => (fst tb, conv_kept (snd tb))) (x_blocks x) /\
  (data <> [] -> Forall (fun a => a == 1)%Q accs).
Proof. exact conv_settled. Qed.

(** On the thread pool an epoch is the one above (C21). *)
Theorem C137_threads_partial : forall n ncls T bo boost (data : list (list Z * nat)) (x : exec block) r, (0 < T)%Q ->
  Forall (fun tb => block_wf n ncls (snd tb) /\ never_below eps (b_fast (snd tb))) (x_blocks x) ->
  fb_ready ncls (x_fb x) -> fb_thr (x_fb x) = T ->
  knows T n ncls (all_rows (x_blocks x)) (all_weights (x_blocks x)) data ->
  mt_train_epoch block (list Z) (dense_train_ex bo) (dense_upd bo boost) nat fb_process data x r ->
  map (fun tb => (fst tb, dense_kept (snd tb))) (x_blocks (snd r)) = map (fun tb => (fst tb, dense_kept (snd tb))) (x_blocks x).
Proof.
  intros n ncls T bo boost data x r HT F R ET KN M.
  pose proof (dense_settled n ncls T bo boost 1 data x HT F R ET KN) as H. cbn [epochs] in H.
  assert (E : r = train_epoch block (list Z) (dense_train_ex bo) (dense_upd bo boost) nat fb_process data x).
  { apply (dense_mt_epoch ncls); auto; [intros l f; apply fb_process_good|]. split.
    - eapply Forall_impl; [|exact F]. intros tb [[W1 W2 W3 W4] _]. split; auto.
    - destruct R as [R1 R2]. split; auto. lia. }
  rewrite <- E in H. destruct r as [a x']. cbn [snd] in *. apply H.
Qed.

(** One step of uniform feedback (308-357) on decided votes: nothing for the
    label, 1e-16 for the other class. *)
Theorem C137_uniform_step : forall T ncls fuel l f g, (0 < T)%Q -> fb_ready ncls f -> fb_thr f = T ->
  decided T ncls l (fun c => nth c (fb_votes f) 0) -> fbu_process fuel l f = Some g ->
  (fb_pp g == 0)%Q /\ (fb_np g == eps)%Q /\ fb_correct g = fb_correct f + 1.
Proof.
  intros T ncls fuel l f g HT [R1 R2] ET D H. unfold fbu_process in H. rewrite R1 in H. destruct (draw_other _ _ _ _) as [[neg r]|] eqn:EO; [|discriminate].
  assert (NZ : (0 < ncls)%nat) by (destruct D; lia).
  destruct (draw_other_spec _ _ _ _ _ _ NZ EO) as [N1 N2].
  pose proof (decided_argmax T ncls l _ HT R2 D) as A. destruct D as [D1 [D2 D3]]. injection H as <-.
  cbn [fb_pp fb_np fb_neg fb_correct] in *. rewrite ET, firstn_all2, A, Nat.eqb_refl by lia.
  split; [now apply pos_prob_settled|]. split; [|reflexivity]. apply neg_prob_settled; auto.
Qed.

(** Below the threshold a machine can still move: for every clause that takes part
    in the example there are draws that change its weight for the label. *)
Definition with_fast (b : block) (r : rng) : block :=
  mkBlock (b_nlit b) (b_ncls b) (b_clauses b) (b_weights b) (b_outputs b) (b_counts b) (b_votes b) (b_budget b) (b_s_inv b) (b_s_min1_inv b) (b_rng b) r.
Theorem C137_undecided_moves : forall n ncls T bo boost x l nc np v b k, (0 < T)%Q -> (inject_Z v < T)%Q ->
  block_ok n ncls b -> length x = n -> binary x -> (l < ncls)%nat -> (nc < ncls)%nat -> l <> nc ->
  (k < length (b_clauses b))%nat -> clause_matches n x (row_at b k) = true -> (bo = true -> n_included (row_at b k) <= b_budget b) ->
  exists r, (forall i, 0 <= rng_src r i < 1)%Q /\
    weight_at (dense_step bo boost x l (pos_prob T v) nc np (with_fast b r)) k l = wrap16 (weight_at b k l + 1) /\
    wrap16 (weight_at b k l + 1) <> weight_at b k l.
Proof.
  intros n ncls T bo boost x l nc np v b k HT HV OK Hx Hb Hl Hn NE Hk M Bd.
  exists (mkRng (fun _ => 0%Q) O). split; [intros i; cbn; split; [apply Qle_refl|reflexivity]|].
  assert (OK' : block_ok n ncls (with_fast b (mkRng (fun _ => 0%Q) O))) by (destruct OK as [[W1 W2 W3 W4] O2 O3]; constructor; [constructor; auto|exact O2|exact O3]).
  destruct (step_weights bo boost x l (pos_prob T v) nc np _ n ncls OK' Hx Hb Hl Hn NE k Hk) as [_ [_ [H _]]].
  split.
  - rewrite H by (split; [exact M|exact Bd]). unfold draw. cbn [with_fast b_fast rng_src].
    replace (Qlt_bool 0 (pos_prob T v)) with true; [reflexivity|]. symmetry. apply Qlt_bool_iff.
    unfold pos_prob. pose proof (clampQ_below _ _ HT HV) as Q. apply Qlt_shift_div_l; lra.
  - intros E. apply (f_equal (fun z => z mod 65536)) in E. rewrite wrap16_mod in E.
    pose proof (Z.mod_add (weight_at b k l) 0 65536). revert E. rewrite Z.add_mod by lia. change (1 mod 65536) with 1.
    pose proof (Z.mod_pos_bound (weight_at b k l) 65536 ltac:(lia)). intros E.
    destruct (Z.eq_dec (weight_at b k l mod 65536) 65535) as [C|C]; [rewrite C in E; discriminate|]. rewrite Z.mod_small in E by lia. lia.
Qed.

(** ** Examples *)

Definition kx_fast (r : rng) : block :=
  mkBlock 2 2 [mkClause [1; -1] [-1; -1]; mkClause [-1; -1] [1; -1]] [[2; -2]; [-2; 2]] [0; 0] [0; 0] [0; 0] 4 (1#3) (2#3) (mkRng (fun _ => 1#2) O) r.
Definition kx_exec (r : rng) : exec block := mkExec [(true, kx_fast r)] (new_fblock 2 1 (mkRng (fun _ => 1#2) O)) [] ex_irng.
Definition kx_data : list (list Z * nat) := [([1; 0], 0%nat); ([0; 1], 1%nat)].
Definition kx_half : rng := mkRng (fun _ => 1#2) O.
Definition kx_zero : rng := mkRng (fun k => if Nat.eqb k 1 then 0 else 1#2)%Q O.

Lemma kx_knows : knows 1 2 2 [[1; -1; -1; -1]; [-1; -1; 1; -1]] [[2; -2]; [-2; 2]] kx_data.
Proof.
  assert (D : forall d, In d kx_data -> length (fst d) = 2%nat /\ binary (fst d) /\
    (forall c, (c < 2)%nat -> -32768 <= match_vote_total 2 (fst d) [[1; -1; -1; -1]; [-1; -1; 1; -1]] [[2; -2]; [-2; 2]] c <= 32767) /\
    decided 1 2 (snd d) (match_vote_total 2 (fst d) [[1; -1; -1; -1]; [-1; -1; 1; -1]] [[2; -2]; [-2; 2]])).
  { intros d [<-|[<-|[]]]; cbn [fst snd].
    - split; [reflexivity|]. split; [repeat apply Forall_cons; auto|].
      split; [intros [|[|c]] H; try lia; vm_compute; split; discriminate|].
      split; [lia|]. split; [vm_compute; discriminate|]. intros [|[|c]] H N; try lia. vm_compute. discriminate.
    - split; [reflexivity|]. split; [repeat apply Forall_cons; auto|].
      split; [intros [|[|c]] H; try lia; vm_compute; split; discriminate|].
      split; [lia|]. split; [vm_compute; discriminate|]. intros [|[|c]] H N; try lia. vm_compute. discriminate. }
  unfold knows. apply Forall_forall. exact D.
Qed.

Example C137_settled_case : (0 < 1)%Q /\
  Forall (fun tb => block_wf 2 2 (snd tb) /\ never_below eps (b_fast (snd tb))) (x_blocks (kx_exec kx_half)) /\
  fb_ready 2 (x_fb (kx_exec kx_half)) /\ fb_thr (x_fb (kx_exec kx_half)) = 1%Q /\
  knows 1 2 2 (all_rows (x_blocks (kx_exec kx_half))) (all_weights (x_blocks (kx_exec kx_half))) kx_data /\ kx_data <> [].
Proof.
  split; [reflexivity|]. split; [constructor; [|constructor]; split; [constructor; [reflexivity|repeat constructor|repeat constructor|reflexivity]|intros i; vm_compute; discriminate]|].
  split; [split; reflexivity|]. split; [reflexivity|]. split; [exact kx_knows|discriminate].
Qed.

(** Refutation of the full statement: draws in [0,1), one of them 0 (Wyhash64 does
    return it, C70); a clause of a machine that knows its data is changed. *)
Theorem C137_settled_refuted : exists (x : exec block) (data : list (list Z * nat)),
  Forall (fun tb => block_ok 2 2 (snd tb) /\ (forall i, 0 <= rng_src (b_fast (snd tb)) i < 1)%Q) (x_blocks x) /\
  fb_ready 2 (x_fb x) /\ fb_thr (x_fb x) = 1%Q /\
  knows 1 2 2 (all_rows (x_blocks x)) (all_weights (x_blocks x)) data /\
  all_weights (x_blocks (snd (train_epoch block (list Z) (dense_train_ex true) (dense_upd true false) nat fb_process data x))) <> all_weights (x_blocks x).
Proof.
  exists (kx_exec kx_zero), kx_data. split.
  - constructor; [|constructor]. split.
    + constructor; [constructor; [reflexivity|repeat constructor|repeat constructor|reflexivity]| |].
      * cbn. repeat (apply Forall_cons || apply Forall_nil || split); vm_compute; discriminate.
      * cbn. repeat (apply Forall_cons || apply Forall_nil); vm_compute; split; discriminate.
    + intros i. cbn [kx_exec x_blocks snd kx_fast b_fast kx_zero rng_src]. destruct (Nat.eqb i 1); split; vm_compute; (discriminate || reflexivity).
  - split; [split; reflexivity|]. split; [reflexivity|]. split; [exact kx_knows|]. vm_compute. discriminate.
Qed.

Example C137_undecided_case : (0 < 20)%Q /\ (inject_Z 2 < 20)%Q /\ block_ok 2 2 (kx_fast kx_half) /\ binary [1; 0] /\
  clause_matches 2 [1; 0] (row_at (kx_fast kx_half) 0) = true /\ n_included (row_at (kx_fast kx_half) 0) <= b_budget (kx_fast kx_half).
Proof.
  split; [reflexivity|]. split; [reflexivity|]. split.
  - constructor; [constructor; [reflexivity|repeat constructor|repeat constructor|reflexivity]| |].
    + cbn. repeat (apply Forall_cons || apply Forall_nil || split); vm_compute; discriminate.
    + cbn. repeat (apply Forall_cons || apply Forall_nil); vm_compute; split; discriminate.
  - split; [repeat apply Forall_cons; auto|]. split; [reflexivity|]. vm_compute. discriminate.
Qed.

Example C137_threads_case :
  mt_train_epoch block (list Z) (dense_train_ex true) (dense_upd true false) nat fb_process kx_data (kx_exec kx_half)
    (train_epoch block (list Z) (dense_train_ex true) (dense_upd true false) nat fb_process kx_data (kx_exec kx_half)).
Proof. apply (dense_mt_epoch_exists 2); [apply fb_process_good|]. vm_compute. split; [repeat constructor|split; [reflexivity|repeat constructor]]. Qed.

Definition kx_votes : fblock := fb_register [2; -2] (new_fblock 2 1 kx_half).
Example C137_uniform_case : fb_ready 2 kx_votes /\ fb_thr kx_votes = 1%Q /\ (exists g, fbu_process 3 0 kx_votes = Some g /\ fb_neg g = 1%nat).
Proof. split; [split; reflexivity|]. split; [reflexivity|]. eexists. split; vm_compute; reflexivity. Qed.

Definition kx_ablock (l : nat) (m : vec) : ablock :=
  let row a b := (a :: repeat (-1) (l - 1) ++ b :: repeat (-1) (l - 1)) in
  mkABlock 2 l m 2 [row 1 (-1); row (-1) 1] [[2; -2]; [-2; 2]] [0; 0] [0; 0] [0; 0] 4 100 (mkVrng (fun _ => repeat 0 l) O) kx_half.
Definition kx_vec (l : nat) (m : vec) : exec ablock := mkExec [(true, kx_ablock l m)] (new_fblock 2 1 kx_half) [] ex_irng.
Definition kx_pad (l : nat) : list (list Z * nat) := map (fun d => (fst d ++ repeat 0 (l - 2), snd d)) kx_data.

Example C137_avx2_case :
  Forall (fun tb => avx_ok 2 (snd tb) /\ vec_weights 2 (snd tb) /\ never_below eps (a_fast (snd tb))) (x_blocks (kx_vec 32 (mask_of 2))) /\
  Forall (fun d => (lmem_of 2 <= length (fst d))%nat) (kx_pad 32) /\
  knows 1 2 2 (all_rows (view_blocks (1#3) (2#3) kx_half (x_blocks (kx_vec 32 (mask_of 2))))) (all_weights (view_blocks (1#3) (2#3) kx_half (x_blocks (kx_vec 32 (mask_of 2)))))
    (map (fun d => (firstn 2 (fst d), snd d)) (kx_pad 32)).
Proof.
  split; [|split; [|exact kx_knows]].
  - constructor; [|constructor]. split; [constructor; [lia|reflexivity|reflexivity|reflexivity|repeat constructor]|].
    split; [split; [reflexivity|split; [repeat constructor|reflexivity]]|intros i; vm_compute; discriminate].
  - repeat (apply Forall_cons || apply Forall_nil); apply Nat.leb_le; reflexivity.
Qed.
Example C137_neon_case :
  Forall (fun tb => neon_ok 2 (snd tb) /\ vec_weights 2 (snd tb) /\ never_below eps (a_fast (snd tb))) (x_blocks (kx_vec 16 (nmask_of 2))) /\
  Forall (fun d => (nlmem_of 2 <= length (fst d))%nat) (kx_pad 16) /\
  knows 1 2 2 (all_rows (view_blocks (1#3) (2#3) kx_half (x_blocks (kx_vec 16 (nmask_of 2))))) (all_weights (view_blocks (1#3) (2#3) kx_half (x_blocks (kx_vec 16 (nmask_of 2)))))
    (map (fun d => (firstn 2 (fst d), snd d)) (kx_pad 16)).
Proof.
  split; [|split; [|exact kx_knows]].
  - constructor; [|constructor]. split; [constructor; [lia|reflexivity|reflexivity|reflexivity|repeat constructor]|].
    split; [split; [reflexivity|split; [repeat constructor|reflexivity]]|intros i; vm_compute; discriminate].
  - repeat (apply Forall_cons || apply Forall_nil); apply Nat.leb_le; reflexivity.
Qed.

(** Two patches of two inputs. *)
Definition kx_conv : exec cvblock := mkExec [(true, mkCv (kx_fast kx_half) 2 [0; 0]%nat [0; 0])] (new_fblock 2 1 kx_half) [] ex_irng.
Definition kx_cdata : list (list Z * nat) := [([1; 0; 1; 1], 0%nat); ([0; 1; 0; 0], 1%nat)].
Example C137_conv_case :
  Forall (fun tb => conv_ok 2 2 (snd tb) /\ cv_np (snd tb) = 2%nat /\ never_below eps (b_fast (cv_b (snd tb)))) (x_blocks kx_conv) /\
  conv_knows 1 2 2 2 (concat (map (fun tb => block_rows (cv_b (snd tb))) (x_blocks kx_conv))) (concat (map (fun tb => b_weights (cv_b (snd tb))) (x_blocks kx_conv))) kx_cdata.
Proof.
  split.
  - constructor; [|constructor]. split; [|split; [reflexivity|intros i; vm_compute; discriminate]].
    constructor; [apply C137_undecided_case|reflexivity|reflexivity|reflexivity|reflexivity|cbn; lia].
  - unfold conv_knows. repeat (apply Forall_cons || apply Forall_nil); cbn [fst snd].
    + split; [split; [reflexivity|repeat apply Forall_cons; auto]|].
      split; [intros [|[|c]] H; try lia; vm_compute; split; discriminate|].
      split; [lia|]. split; [vm_compute; discriminate|]. intros [|[|c]] H N; try lia. vm_compute. discriminate.
    + split; [split; [reflexivity|repeat apply Forall_cons; auto]|].
      split; [intros [|[|c]] H; try lia; vm_compute; split; discriminate|].
      split; [lia|]. split; [vm_compute; discriminate|]. intros [|[|c]] H N; try lia. vm_compute. discriminate.
Qed.

Definition kx_sblock : sblock :=
  mkSB 2 2 2 2 2 (-40) [[0]; []; []; [0]]%nat [[5]; []; []; [5]] [[0]; [1]]%nat [0; 0]%nat [[2; -2]; [-2; 2]] [0; 0] [0; 0] [0; 0] 100 (1#3) (2#3) kx_half.
Definition kx_sp : exec sblock := mkExec [(true, kx_sblock)] (new_fblock 2 1 kx_half) [] ex_irng.
Example C137_sparse_case :
  Forall (fun tb => sp_ncls (snd tb) = 2%nat /\ rows_of 2 (sp_weights (snd tb)) /\ never_below eps (sp_fast (snd tb))) (x_blocks kx_sp) /\
  Forall (fun d => decided 1 2 (snd d) (fun c => wrap16 (zsum (map (fun tb => nth c (snd (sp_train_ex true (fst d) (snd tb))) 0) (x_blocks kx_sp)))))
    [([0]%nat, 0%nat); ([1]%nat, 1%nat)].
Proof.
  split.
  - constructor; [|constructor]. split; [reflexivity|]. split; [repeat constructor|intros i; vm_compute; discriminate].
  - repeat (apply Forall_cons || apply Forall_nil); (split; [cbn; lia|]; split; [vm_compute; discriminate|]; intros [|[|c]] H N; cbn [fst snd] in N; try lia; vm_compute; discriminate).
Qed.

Print Assumptions C137_settled_partial.
Print Assumptions C137_avx2_partial.
Print Assumptions C137_neon_partial.
Print Assumptions C137_sparse_partial.
Print Assumptions C137_conv_partial.
Print Assumptions C137_threads_partial.
Print Assumptions C137_uniform_step.
Print Assumptions C137_undecided_moves.
Print Assumptions C137_settled_refuted.
