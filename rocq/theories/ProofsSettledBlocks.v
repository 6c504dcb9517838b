(** Decided examples on scalar, AVX2, NEON and sparse blocks. *)
From Coq Require Import ZArith List Bool QArith Lia Lqa.
From Verif Require Import Base BaseProofs Spec SpecSettled ModelInference ModelDense ModelFeedback ModelExecutor ModelDenseExec ModelLayout
  ModelAvx2 ModelNeon ModelSparse SpecAvx2 SpecNeon SpecSparse ProofsClause ProofsInference ProofsRuleSet ProofsExecutor ProofsEval ProofsFeedback ProofsStep
  ProofsAvx2Scalar ProofsNeonScalar ProofsSettled.
Import ListNotations.
Open Scope Z_scope.

Lemma draw_none : forall p r, never_below eps r -> (p <= eps)%Q ->
  exists r', draw_lt r p = (false, r') /\ never_below eps r'.
Proof.
  intros p r H L. unfold draw_lt. pose proof (never_below_head eps p r H L) as Q. pose proof (never_below_next eps r H) as N.
  destruct (next_u r) as [u r']. cbn [fst snd] in *. rewrite Q. eauto.
Qed.
Lemma le0_eps : forall p, (p <= 0)%Q -> (p <= eps)%Q.
Proof. intros p H. eapply Qle_trans; [exact H|exact eps_pos]. Qed.

(** ** Votes *)

Lemma train_outs_total : forall n bo x cs ws c,
  Forall (fun c => length (cl_pos c) = n /\ length (cl_neg c) = n) cs -> length x = n -> binary x ->
  outs_total (map fst (map (set_output bo x) cs)) ws c = match_vote_total n x (map clause_row cs) ws c.
Proof.
  unfold outs_total. intros n bo x cs. induction cs as [|cl cs IH]; intros [|w ws] c H Hx Hb; cbn [map map2 zsum match_vote_total]; auto.
  inversion H as [|? ? [H1 H2] H3]; subst. rewrite IH by auto. f_equal.
  rewrite (set_output_matches bo (length x)) by auto. unfold clause_row.
  destruct (clause_matches (length x) x (cl_pos cl ++ cl_neg cl)); reflexivity.
Qed.

Lemma train_votes_nth : forall n ncls bo b x c, block_wf n ncls b -> length x = n -> binary x -> (c < ncls)%nat ->
  nth c (snd (dense_train_ex bo x b)) 0 = wrap16 (match_vote_total n x (block_rows b) (b_weights b) c).
Proof.
  intros n ncls bo b x c [W1 W2 W3 W4] Hx Hb Hc. unfold dense_train_ex, count_votes, train_set_clause_output.
  cbn [snd b_votes b_outputs b_weights b_ncls b_clauses].
  rewrite (count_votes_loop_nth ncls); auto.
  - rewrite nth_repeat0. rewrite (train_outs_total n) by auto. reflexivity.
  - rewrite repeat_length. auto.
  - rewrite nth_repeat0. reflexivity.
Qed.
Lemma train_votes_length : forall n ncls bo b x, block_wf n ncls b -> length (snd (dense_train_ex bo x b)) = ncls.
Proof.
  intros n ncls bo b x [W1 W2 W3 W4]. unfold dense_train_ex, count_votes, train_set_clause_output.
  cbn [snd b_votes b_outputs b_weights b_ncls]. apply count_votes_loop_length; auto. rewrite repeat_length. auto.
Qed.

Lemma match_vote_total_app : forall n x r1 w1 r2 w2 c, length r1 = length w1 ->
  match_vote_total n x (r1 ++ r2) (w1 ++ w2) c = match_vote_total n x r1 w1 c + match_vote_total n x r2 w2 c.
Proof.
  induction r1 as [|r r1 IH]; intros [|w w1] r2 w2 c H; cbn [length app match_vote_total] in *; try lia. rewrite IH; lia.
Qed.

(** Block votes of any kind that are those of a scalar block. *)
Lemma sum_votes_total : forall n ncls bo x c (bs : list (bool * block)), Forall (fun tb => block_wf n ncls (snd tb)) bs -> length x = n -> binary x -> (c < ncls)%nat ->
  wrap16 (zsum (map (fun tb => nth c (snd (dense_train_ex bo x (snd tb))) 0) bs)) = wrap16 (match_vote_total n x (all_rows bs) (all_weights bs) c).
Proof.
  intros n ncls bo x c bs F Hx Hb Hc. unfold all_rows, all_weights. induction F as [|[t b] bs W F IH]; cbn [map concat zsum]; [reflexivity|].
  cbn [snd] in *. rewrite match_vote_total_app by (unfold block_rows; rewrite map_length; apply (bw_len _ _ _ W)).
  rewrite (train_votes_nth n ncls) by auto. rewrite wrap16_add_l, <- wrap16_add_r, IH, wrap16_add_r. reflexivity.
Qed.

Lemma decided_votes : forall T n ncls rows ws d v, (length (fst d) = n /\ binary (fst d) /\
    (forall c, (c < ncls)%nat -> -32768 <= match_vote_total n (fst d) rows ws c <= 32767) /\
    decided T ncls (snd d) (match_vote_total n (fst d) rows ws)) ->
  (forall c, (c < ncls)%nat -> v c = wrap16 (match_vote_total n (fst d) rows ws c)) -> decided T ncls (snd d) v.
Proof.
  intros T n ncls rows ws d v [L [Bi [R [D1 [D2 D3]]]]] H. split; [exact D1|]. split.
  - rewrite H by auto. rewrite wrap16_small by (apply R; auto). exact D2.
  - intros c Hc N. rewrite H by auto. rewrite wrap16_small by (apply R; auto). now apply D3.
Qed.

(** ** Scalar blocks *)

Definition dense_kept (b : block) := (b_nlit b, b_ncls b, b_clauses b, b_weights b, b_budget b, b_s_inv b, b_s_min1_inv b, b_rng b).
Definition dense_quiet (n ncls : nat) (b : block) : Prop := block_wf n ncls b /\ never_below eps (b_fast b).

Lemma dense_loop_quiet : forall bo boost bud si sm lits pc pp nc np, (pp <= 0)%Q -> (np <= eps)%Q ->
  forall cs wss outs counts r fast, never_below eps fast ->
  exists outs' fast', train_update_loop bo boost bud si sm lits pc pp nc np cs wss outs counts r fast = (cs, wss, outs', r, fast') /\ never_below eps fast'.
Proof.
  intros bo boost bud si sm lits pc pp nc np Hp Hn. induction cs as [|c cs IH]; intros wss outs counts r fast NB; cbn [train_update_loop]; [eauto|].
  destruct wss as [|ws wss]; [eauto|]. destruct outs as [|o outs]; [eauto|]. unfold train_update_clause.
  destruct (draw_none pp fast NB (le0_eps _ Hp)) as [f1 [E1 N1]]. rewrite E1. destruct (draw_none np f1 N1 Hn) as [f2 [E2 N2]]. rewrite E2.
  destruct (IH wss outs (tl counts) r f2 N2) as [outs' [f3 [E3 N3]]]. rewrite E3. eauto.
Qed.

Lemma dense_upd_quiet : forall n ncls bo boost e pc pp nc np b, dense_quiet n ncls b -> (pp <= 0)%Q -> (np <= eps)%Q ->
  dense_quiet n ncls (dense_upd bo boost e pc pp nc np b) /\ dense_kept (dense_upd bo boost e pc pp nc np b) = dense_kept b.
Proof.
  intros n ncls bo boost e pc pp nc np b [[W1 W2 W3 W4] NB] Hp Hn. unfold dense_upd, train_update.
  destruct (dense_loop_quiet bo boost (b_budget b) (b_s_inv b) (b_s_min1_inv b) e pc pp nc np Hp Hn (b_clauses b) (b_weights b) (b_outputs b) (b_counts b) (b_rng b) (b_fast b) NB)
    as [outs [f [E N]]]. rewrite E. split; [split; [constructor; auto|exact N]|reflexivity].
Qed.
Lemma dense_train_quiet : forall n ncls bo e b, dense_quiet n ncls b ->
  dense_quiet n ncls (fst (dense_train_ex bo e b)) /\ dense_kept (fst (dense_train_ex bo e b)) = dense_kept b /\ length (snd (dense_train_ex bo e b)) = ncls.
Proof.
  intros n ncls bo e b [W N]. split; [split; [destruct W; constructor; auto|exact N]|]. split; [reflexivity|]. now apply (train_votes_length n).
Qed.
Lemma dense_kept_votes : forall bo e b1 b2, dense_kept b1 = dense_kept b2 -> snd (dense_train_ex bo e b1) = snd (dense_train_ex bo e b2).
Proof.
  intros bo e b1 b2 H. unfold dense_kept in H. injection H as H1 H2 H3 H4 H5 H6 H7 H8.
  unfold dense_train_ex, count_votes, train_set_clause_output. cbn [snd b_votes b_outputs b_weights b_ncls b_clauses]. congruence.
Qed.

Lemma dense_settled : forall n ncls T bo boost k (data : list (list Z * nat)) (x : exec block), (0 < T)%Q ->
  Forall (fun tb => dense_quiet n ncls (snd tb)) (x_blocks x) -> fb_ready ncls (x_fb x) -> fb_thr (x_fb x) = T ->
  knows T n ncls (all_rows (x_blocks x)) (all_weights (x_blocks x)) data ->
  let '(accs, x') := epochs block (list Z) (dense_train_ex bo) (dense_upd bo boost) fb_process k data x in
  held block _ dense_kept (x_blocks x') = held block _ dense_kept (x_blocks x) /\ (data <> [] -> Forall (fun a => a == 1)%Q accs).
Proof.
  intros n ncls T bo boost k data x HT F R ET KN.
  apply (epochs_settled block (list Z) _ (dense_train_ex bo) (dense_upd bo boost) fb_process dense_kept (dense_quiet n ncls) (fun e => length e = n /\ binary e) ncls T); auto.
  - now apply fb_process_calm.
  - intros e b _ I. now apply dense_train_quiet.
  - intros e b1 b2 _ _ _ H. now apply dense_kept_votes.
  - intros e pc pp nc np b _ I Hp Hn. now apply dense_upd_quiet.
  - eapply Forall_impl; [|exact KN]. intros d H. split; [split; apply H|]. eapply decided_votes; [exact H|]. intros c Hc. unfold sum_votes.
    apply (sum_votes_total n ncls); try apply H; auto. eapply Forall_impl; [|exact F]. intros tb [W _]. exact W.
Qed.

(** ** Vector blocks *)

Definition vec_kept (b : ablock) := (a_nlit b, a_lmem b, a_mask b, a_ncls b, a_rows b, a_weights b, a_budget b, a_cmp b, a_vrng b).

Lemma avx_loop_quiet : forall bo boost bud cmp lmem lits pc pp nc np, (pp <= 0)%Q -> (np <= eps)%Q ->
  forall rows wss outs counts r fast, never_below eps fast ->
  exists outs' fast', avx_update_loop bo boost bud cmp lmem lits pc pp nc np rows wss outs counts r fast = (rows, wss, outs', r, fast') /\ never_below eps fast'.
Proof.
  intros bo boost bud cmp lmem lits pc pp nc np Hp Hn. induction rows as [|c cs IH]; intros wss outs counts r fast NB; cbn [avx_update_loop]; [eauto|].
  destruct wss as [|ws wss]; [eauto|]. destruct outs as [|o outs]; [eauto|]. unfold avx_update_clause.
  destruct (draw_none pp fast NB (le0_eps _ Hp)) as [f1 [E1 N1]]. rewrite E1. destruct (draw_none np f1 N1 Hn) as [f2 [E2 N2]]. rewrite E2.
  destruct (IH wss outs (tl counts) r f2 N2) as [outs' [f3 [E3 N3]]]. rewrite E3. eauto.
Qed.
Lemma neon_loop_quiet : forall bo boost bud cmp lmem lits pc pp nc np, (pp <= 0)%Q -> (np <= eps)%Q ->
  forall rows wss outs counts r fast, never_below eps fast ->
  exists outs' fast', neon_update_loop bo boost bud cmp lmem lits pc pp nc np rows wss outs counts r fast = (rows, wss, outs', r, fast') /\ never_below eps fast'.
Proof.
  intros bo boost bud cmp lmem lits pc pp nc np Hp Hn. induction rows as [|c cs IH]; intros wss outs counts r fast NB; cbn [neon_update_loop]; [eauto|].
  destruct wss as [|ws wss]; [eauto|]. destruct outs as [|o outs]; [eauto|]. unfold neon_update_clause.
  destruct (draw_none pp fast NB (le0_eps _ Hp)) as [f1 [E1 N1]]. rewrite E1. destruct (draw_none np f1 N1 Hn) as [f2 [E2 N2]]. rewrite E2.
  destruct (IH wss outs (tl counts) r f2 N2) as [outs' [f3 [E3 N3]]]. rewrite E3. eauto.
Qed.

(** Weights of one block as the executor needs them. *)
Definition vec_weights (ncls : nat) (b : ablock) : Prop := a_ncls b = ncls /\ rows_of ncls (a_weights b) /\ length (a_rows b) = length (a_weights b).

Definition avx_quiet (n ncls : nat) (b : ablock) : Prop := avx_ok n b /\ vec_weights ncls b /\ never_below eps (a_fast b).
Definition neon_quiet (n ncls : nat) (b : ablock) : Prop := neon_ok n b /\ vec_weights ncls b /\ never_below eps (a_fast b).

Lemma avx_view_wf : forall n ncls si sm r b, avx_ok n b -> vec_weights ncls b -> block_wf n ncls (scalar_view si sm r b).
Proof.
  intros n ncls si sm r b [O1 O2 O3 O4 O5] [V1 [V2 V3]]. destruct (lmem_of_facts n O1) as [_ [LF _]].
  constructor; cbn [scalar_view b_ncls b_clauses b_weights]; auto.
  - rewrite Forall_map, O2, O3. eapply Forall_impl; [|exact O5]. cbn beta. intros row L. unfold row_clause. cbn [cl_pos cl_neg]. unfold slice.
    rewrite !firstn_length, skipn_length. lia.
  - rewrite map_length. exact V3.
Qed.
Lemma neon_view_wf : forall n ncls si sm r b, neon_ok n b -> vec_weights ncls b -> block_wf n ncls (scalar_view si sm r b).
Proof.
  intros n ncls si sm r b [O1 O2 O3 O4 O5] [V1 [V2 V3]]. destruct (nlmem_of_facts n O1) as [_ [LF _]].
  constructor; cbn [scalar_view b_ncls b_clauses b_weights]; auto.
  - rewrite Forall_map, O2, O3. eapply Forall_impl; [|exact O5]. cbn beta. intros row L. unfold row_clause. cbn [cl_pos cl_neg]. unfold slice.
    rewrite !firstn_length, skipn_length. lia.
  - rewrite map_length. exact V3.
Qed.

Lemma avx_kept_votes : forall bo e b1 b2, vec_kept b1 = vec_kept b2 -> snd (avx_train_ex bo e b1) = snd (avx_train_ex bo e b2).
Proof.
  intros bo e b1 b2 H. unfold vec_kept in H. injection H as H1 H2 H3 H4 H5 H6 H7 H8 H9.
  unfold avx_train_ex, avx_count_votes, avx_train_output. cbn -[avx_set_output count_votes_loop]. congruence.
Qed.
Lemma neon_kept_votes : forall e b1 b2, vec_kept b1 = vec_kept b2 -> snd (neon_train_ex e b1) = snd (neon_train_ex e b2).
Proof.
  intros e b1 b2 H. unfold vec_kept in H. injection H as H1 H2 H3 H4 H5 H6 H7 H8 H9.
  unfold neon_train_ex, avx_count_votes, neon_train_on. cbn -[neon_set_output count_votes_loop]. congruence.
Qed.

(** The examples in padded buffers, as their first [n] entries. *)
Definition unpadded (n : nat) (data : list (list Z * nat)) : list (list Z * nat) := map (fun d => (firstn n (fst d), snd d)) data.

Lemma view_votes : forall n ncls x c (bs : list (bool * ablock)) (f : ablock -> list Z) bo si sm r,
  Forall (fun tb => block_wf n ncls (scalar_view si sm r (snd tb)) /\ f (snd tb) = snd (dense_train_ex bo x (scalar_view si sm r (snd tb)))) bs ->
  length x = n -> binary x -> (c < ncls)%nat ->
  wrap16 (zsum (map (fun tb => nth c (f (snd tb)) 0) bs)) =
  wrap16 (match_vote_total n x (all_rows (view_blocks si sm r bs)) (all_weights (view_blocks si sm r bs)) c).
Proof.
  intros n ncls x c bs f bo si sm r F Hx Hb Hc.
  rewrite <- (sum_votes_total n ncls bo x c (view_blocks si sm r bs)); auto.
  - f_equal. f_equal. unfold view_blocks. rewrite map_map. apply map_ext_in. intros tb Ht. rewrite Forall_forall in F. destruct (F tb Ht) as [_ ->]. reflexivity.
  - unfold view_blocks. rewrite Forall_map. eapply Forall_impl; [|exact F]. intros tb [W _]. exact W.
Qed.

Lemma avx_settled : forall n ncls T bo boost k si sm r (data : list (list Z * nat)) (x : exec ablock), (0 < T)%Q ->
  Forall (fun tb => avx_quiet n ncls (snd tb)) (x_blocks x) -> fb_ready ncls (x_fb x) -> fb_thr (x_fb x) = T ->
  Forall (fun d => (lmem_of n <= length (fst d))%nat) data ->
  knows T n ncls (all_rows (view_blocks si sm r (x_blocks x))) (all_weights (view_blocks si sm r (x_blocks x))) (unpadded n data) ->
  let '(accs, x') := epochs ablock (list Z) (avx_train_ex bo) (avx_upd bo boost) fb_process k data x in
  held ablock _ vec_kept (x_blocks x') = held ablock _ vec_kept (x_blocks x) /\ (data <> [] -> Forall (fun a => a == 1)%Q accs).
Proof.
  intros n ncls T bo boost k si sm r data x HT F R ET LB KN.
  apply (epochs_settled ablock (list Z) _ (avx_train_ex bo) (avx_upd bo boost) fb_process vec_kept (avx_quiet n ncls)
           (fun e => exists y, buffer_of n y e /\ binary y) ncls T); auto.
  - now apply fb_process_calm.
  - intros e b [y [By Yb]] [O1 [O2 O3]]. split; [|split; [reflexivity|]].
    + split; [destruct O1; constructor; auto|]. split; [exact O2|exact O3].
    + rewrite (avx_train_votes n y e b bo si sm r) by auto. apply (train_votes_length n). now apply avx_view_wf.
  - intros e b1 b2 _ _ _ H. now apply avx_kept_votes.
  - intros e pc pp nc np b _ [O1 [O2 O3]] Hp Hn. unfold avx_upd, avx_train_update.
    destruct (avx_loop_quiet bo boost (a_budget b) (a_cmp b) (a_lmem b) e pc pp nc np Hp Hn (a_rows b) (a_weights b) (a_outputs b) (a_counts b) (a_vrng b) (a_fast b) O3)
      as [outs [f [E N]]]. rewrite E. split; [|reflexivity]. split; [destruct O1; constructor; auto|]. split; [exact O2|exact N].
  - unfold knows, unpadded in KN. rewrite Forall_map in KN. rewrite Forall_forall in KN, LB. apply Forall_forall. intros d Hd.
    specialize (KN d Hd). specialize (LB d Hd). cbn [fst snd] in KN.
    assert (By : buffer_of n (firstn n (fst d)) (fst d)) by (split; [tauto|split; [exact LB|reflexivity]]).
    split; [exists (firstn n (fst d)); tauto|].
    apply (decided_votes T n ncls _ _ (firstn n (fst d), snd d) _ KN). intros c Hc. cbn [fst]. unfold sum_votes.
    apply (view_votes n ncls (firstn n (fst d)) c (x_blocks x) (fun b => snd (avx_train_ex bo (fst d) b)) bo si sm r); try tauto.
    eapply Forall_impl; [|exact F]. intros tb [O1 [O2 O3]]. split; [now apply avx_view_wf|]. apply (avx_train_votes n); tauto.
Qed.

Lemma neon_settled : forall n ncls T boost k si sm r (data : list (list Z * nat)) (x : exec ablock), (0 < T)%Q ->
  Forall (fun tb => neon_quiet n ncls (snd tb)) (x_blocks x) -> fb_ready ncls (x_fb x) -> fb_thr (x_fb x) = T ->
  Forall (fun d => (nlmem_of n <= length (fst d))%nat) data ->
  knows T n ncls (all_rows (view_blocks si sm r (x_blocks x))) (all_weights (view_blocks si sm r (x_blocks x))) (unpadded n data) ->
  let '(accs, x') := epochs ablock (list Z) neon_train_ex (neon_upd boost) fb_process k data x in
  held ablock _ vec_kept (x_blocks x') = held ablock _ vec_kept (x_blocks x) /\ (data <> [] -> Forall (fun a => a == 1)%Q accs).
Proof.
  intros n ncls T boost k si sm r data x HT F R ET LB KN.
  apply (epochs_settled ablock (list Z) _ neon_train_ex (neon_upd boost) fb_process vec_kept (neon_quiet n ncls)
           (fun e => exists y, nbuffer_of n y e /\ binary y) ncls T); auto.
  - now apply fb_process_calm.
  - intros e b [y [By Yb]] [O1 [O2 O3]]. split; [|split; [reflexivity|]].
    + split; [destruct O1; constructor; auto|]. split; [exact O2|exact O3].
    + rewrite (neon_train_votes n y e b true si sm r) by auto. apply (train_votes_length n). now apply neon_view_wf.
  - intros e b1 b2 _ _ _ H. now apply neon_kept_votes.
  - intros e pc pp nc np b _ [O1 [O2 O3]] Hp Hn. unfold neon_upd, neon_train_update.
    destruct (neon_loop_quiet true boost (a_budget b) (a_cmp b) (a_lmem b) e pc pp nc np Hp Hn (a_rows b) (a_weights b) (a_outputs b) (a_counts b) (a_vrng b) (a_fast b) O3)
      as [outs [f [E N]]]. rewrite E. split; [|reflexivity]. split; [destruct O1; constructor; auto|]. split; [exact O2|exact N].
  - unfold knows, unpadded in KN. rewrite Forall_map in KN. rewrite Forall_forall in KN, LB. apply Forall_forall. intros d Hd.
    specialize (KN d Hd). specialize (LB d Hd). cbn [fst snd] in KN.
    assert (By : nbuffer_of n (firstn n (fst d)) (fst d)) by (split; [tauto|split; [exact LB|reflexivity]]).
    split; [exists (firstn n (fst d)); tauto|].
    apply (decided_votes T n ncls _ _ (firstn n (fst d), snd d) _ KN). intros c Hc. cbn [fst]. unfold sum_votes.
    apply (view_votes n ncls (firstn n (fst d)) c (x_blocks x) (fun b => snd (neon_train_ex (fst d) b)) true si sm r); try tauto.
    eapply Forall_impl; [|exact F]. intros tb [O1 [O2 O3]]. split; [now apply neon_view_wf|]. apply (neon_train_votes n); tauto.
Qed.

(** ** Sparse blocks *)

Definition sp_kept (b : sblock) := (sp_nlit b, sp_ncl b, sp_ncls b, sp_csize b, sp_alsize b, sp_thr b, sp_rows b, sp_states b, sp_al b, sp_repl b,
  sp_weights b, sp_budget b, sp_si b, sp_sm b).
Definition sp_quiet (ncls : nat) (b : sblock) : Prop := sp_ncls b = ncls /\ rows_of ncls (sp_weights b) /\ never_below eps (sp_fast b).

Lemma sp_upd_quiet : forall ncls bo boost dyn e pc pp nc np b, sp_quiet ncls b -> (pp <= 0)%Q -> (np <= eps)%Q ->
  sp_quiet ncls (sp_train_update bo boost dyn e pc pp nc np b) /\ sp_kept (sp_train_update bo boost dyn e pc pp nc np b) = sp_kept b.
Proof.
  intros ncls bo boost dyn e pc pp nc np b I Hp Hn. unfold sp_train_update. generalize (seq 0 (sp_ncl b)) as ks. intros ks. revert b I.
  induction ks as [|k ks IH]; intros b I; cbn [fold_left]; [split; [exact I|reflexivity]|].
  assert (C : sp_quiet ncls (sp_update_clause bo boost dyn e pc pp nc np b k) /\ sp_kept (sp_update_clause bo boost dyn e pc pp nc np b k) = sp_kept b).
  { destruct I as [I1 [I2 NB]]. unfold sp_update_clause.
    destruct (draw_none pp (sp_fast b) NB (le0_eps _ Hp)) as [f1 [E1 N1]]. rewrite E1. cbn [sp_with_fast sp_fast].
    destruct (draw_none np f1 N1 Hn) as [f2 [E2 N2]]. rewrite E2. split; [split; [exact I1|split; [exact I2|exact N2]]|reflexivity]. }
  destruct C as [C1 C2]. destruct (IH _ C1) as [J1 J2]. split; [exact J1|congruence].
Qed.
Lemma sp_kept_votes : forall bo e b1 b2, sp_kept b1 = sp_kept b2 -> snd (sp_train_ex bo e b1) = snd (sp_train_ex bo e b2).
Proof.
  intros bo e b1 b2 H. unfold sp_kept in H. injection H as H1 H2 H3 H4 H5 H6 H7 H8 H9 H10 H11 H12 H13 H14.
  unfold sp_train_ex, sp_count_votes, sp_train_output, prow_of, nrow_of, psts_of, nsts_of. cbn -[sp_set_output count_votes_loop seq nth Nat.mul].
  rewrite H2, H3, H7, H8, H11. reflexivity.
Qed.

(** The votes the blocks register for the example decide it. *)
Definition sp_knows (T : Q) (ncls : nat) (bo : bool) (bs : list (bool * sblock)) (data : list (list nat * nat)) : Prop :=
  Forall (fun d => decided T ncls (snd d) (fun c => wrap16 (zsum (map (fun tb => nth c (snd (sp_train_ex bo (fst d) (snd tb))) 0) bs)))) data.

Lemma sp_settled : forall ncls T bo boost dyn k (data : list (list nat * nat)) (x : exec sblock), (0 < T)%Q ->
  Forall (fun tb => sp_quiet ncls (snd tb)) (x_blocks x) -> fb_ready ncls (x_fb x) -> fb_thr (x_fb x) = T ->
  sp_knows T ncls bo (x_blocks x) data ->
  let '(accs, x') := epochs sblock (list nat) (sp_train_ex bo) (sp_train_update bo boost dyn) fb_process k data x in
  held sblock _ sp_kept (x_blocks x') = held sblock _ sp_kept (x_blocks x) /\ (data <> [] -> Forall (fun a => a == 1)%Q accs).
Proof.
  intros ncls T bo boost dyn k data x HT F R ET KN.
  apply (epochs_settled sblock (list nat) _ (sp_train_ex bo) (sp_train_update bo boost dyn) fb_process sp_kept (sp_quiet ncls) (fun e => True) ncls T); auto.
  - now apply fb_process_calm.
  - intros e b _ [I1 [I2 I3]]. split; [split; [exact I1|split; [exact I2|exact I3]]|]. split; [reflexivity|].
    unfold sp_train_ex. cbn [snd sp_count_votes sp_with_outputs sp_votes]. apply count_votes_loop_length; [exact I2|]. rewrite repeat_length. exact I1.
  - intros e b1 b2 _ _ _ H. now apply sp_kept_votes.
  - intros e pc pp nc np b _ I Hp Hn. now apply sp_upd_quiet.
  - eapply Forall_impl; [|exact KN]. intros d H. split; [exact Logic.I|exact H].
Qed.
