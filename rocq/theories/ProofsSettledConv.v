(** Decided examples on convolutional blocks. *)
From Coq Require Import ZArith List Bool QArith Lia Lqa.
From Verif Require Import Base BaseProofs Spec SpecConv SpecSettled ModelInference ModelDense ModelFeedback ModelExecutor ModelDenseExec ModelConv
  ProofsClause ProofsInference ProofsRuleSet ProofsExecutor ProofsEval ProofsFeedback ProofsStep ProofsConv ProofsSettled ProofsSettledBlocks.
Import ListNotations.
Open Scope Z_scope.

Definition conv_kept (v : cvblock) := (b_clauses (cv_b v), b_weights (cv_b v), b_budget (cv_b v), b_s_inv (cv_b v), b_s_min1_inv (cv_b v), cv_np v).
Definition conv_quiet (n np ncls : nat) (v : cvblock) : Prop := conv_ok n ncls v /\ cv_np v = np /\ never_below eps (b_fast (cv_b v)).

Lemma conv_loop_quiet : forall bo boost bud si sm nlit lits pc pp nc np, (pp <= 0)%Q -> (np <= eps)%Q ->
  forall cs wss outs counts aps r fast, never_below eps fast ->
  exists outs' fast', conv_update_loop bo boost bud si sm nlit lits pc pp nc np cs wss outs counts aps r fast = (cs, wss, outs', r, fast') /\ never_below eps fast'.
Proof.
  intros bo boost bud si sm nlit lits pc pp nc np Hp Hn. induction cs as [|c cs IH]; intros wss outs counts aps r fast NB; cbn [conv_update_loop]; [eauto|].
  destruct wss as [|ws wss]; [eauto|]. destruct outs as [|o outs]; [eauto|]. unfold train_update_clause.
  destruct (draw_none pp fast NB (le0_eps _ Hp)) as [f1 [E1 N1]]. rewrite E1. destruct (draw_none np f1 N1 Hn) as [f2 [E2 N2]]. rewrite E2.
  destruct (IH wss outs (tl counts) (tl aps) r f2 N2) as [outs' [f3 [E3 N3]]]. rewrite E3. eauto.
Qed.

Lemma conv_upd_quiet : forall n m ncls bo boost e pc pp nc np v, conv_quiet n m ncls v -> (pp <= 0)%Q -> (np <= eps)%Q ->
  conv_quiet n m ncls (conv_update bo boost e pc pp nc np v) /\ conv_kept (conv_update bo boost e pc pp nc np v) = conv_kept v.
Proof.
  intros n m ncls bo boost e pc pp nc np v [[[[W1 W2 W3 W4] I8 I16] C1 C2 C3 C4 C5] [M NB]] Hp Hn. unfold conv_update.
  destruct (conv_loop_quiet bo boost (b_budget (cv_b v)) (b_s_inv (cv_b v)) (b_s_min1_inv (cv_b v)) (b_nlit (cv_b v)) e pc pp nc np Hp Hn (b_clauses (cv_b v))
    (b_weights (cv_b v)) (b_outputs (cv_b v)) (b_counts (cv_b v)) (cv_active v) (b_rng (cv_b v)) (b_fast (cv_b v)) NB) as [outs [f [E N]]]. rewrite E.
  split; [|reflexivity]. split; [constructor; auto; constructor; [constructor; auto|auto|auto]|]. split; [exact M|exact N].
Qed.

Lemma conv_outs_total : forall n np lits cs outs ws c, length outs = length cs ->
  (forall k, (k < length cs)%nat -> nth k outs 0 = b2z (existsb (fun p => clause_matches n (nth_patch n lits p) (row_of (nth k cs dclause))) (seq 0 np))) ->
  outs_total outs ws c = conv_match_total n np lits (map clause_row cs) ws c.
Proof.
  unfold outs_total. intros n np lits. induction cs as [|cl cs IH]; intros [|o outs] [|w ws] c L H; cbn [length] in L; try lia; try reflexivity.
  cbn [map map2 zsum conv_match_total]. rewrite (IH outs ws c) by (try lia; intros k Hk; apply (H (S k)); cbn [length]; lia). f_equal.
  specialize (H O ltac:(cbn [length]; lia)). cbn [nth] in H. rewrite H. unfold row_of, clause_row. destruct (existsb _ _); reflexivity.
Qed.

Lemma conv_train_votes : forall n ncls bo v e c, conv_ok n ncls v -> conv_example n (cv_np v) e -> (c < ncls)%nat ->
  nth c (snd (conv_train_ex bo e v)) 0 = wrap16 (conv_match_total n (cv_np v) e (block_rows (cv_b v)) (b_weights (cv_b v)) c).
Proof.
  intros n ncls bo v e c OK HX Hc. pose proof (conv_train_spec bo e v n ncls OK HX) as S. cbv zeta in S.
  destruct S as [_ [_ [S3 [S4 [_ [_ [_ [_ [S9 [_ S11]]]]]]]]]]. pose proof OK as [[[W1 W2 W3 W4] _ _] _ _ _ _ _].
  revert S3 S4 S9 S11. unfold conv_train_ex, conv_set_output. destruct (conv_output_loop _ _ _ _ _ _ _ _ _) as [[[[os aps] cnts] ppc] r].
  unfold cv_count_votes, count_votes. cbn [fst snd cv_b cv_np cv_active b_votes b_outputs b_weights b_ncls b_clauses b_counts]. intros _ _ S9 S11.
  rewrite (count_votes_loop_nth ncls); auto.
  - rewrite nth_repeat0. rewrite (conv_outs_total n (cv_np v) e (b_clauses (cv_b v))); [reflexivity|exact S9|].
    intros k Hk. destruct (S11 k Hk) as [m [ppck [_ [A B]]]].
    change (nth k (b_clauses (cv_b v)) dclause) with (clause_at (cv_b v) k).
    destruct (matching n (cv_np v) e (clause_at (cv_b v) k)) as [|p ms] eqn:EM.
    + destruct (A eq_refl) as [-> _]. destruct (existsb _ _) eqn:EX; [|reflexivity]. exfalso.
      apply existsb_exists in EX. destruct EX as [q [Q1 Q2]]. apply in_seq in Q1.
      assert (I : In q (matching n (cv_np v) e (clause_at (cv_b v) k))) by (apply matching_In; split; [lia|exact Q2]). rewrite EM in I. destruct I.
    + destruct (B ltac:(discriminate)) as [-> _].
      assert (I : In p (matching n (cv_np v) e (clause_at (cv_b v) k))) by (rewrite EM; left; reflexivity). apply matching_In in I.
      replace (existsb _ _) with true; [reflexivity|]. symmetry. apply existsb_exists. exists p. split; [apply in_seq; lia|apply I].
  - rewrite repeat_length. auto.
  - rewrite nth_repeat0. reflexivity.
Qed.
Lemma conv_train_votes_length : forall n ncls bo v e, conv_ok n ncls v -> length (snd (conv_train_ex bo e v)) = ncls.
Proof.
  intros n ncls bo v e [[[W1 W2 W3 W4] _ _] _ _ _ _ _]. unfold conv_train_ex, conv_set_output. destruct (conv_output_loop _ _ _ _ _ _ _ _ _) as [[[[os aps] cnts] ppc] r].
  unfold cv_count_votes, count_votes. cbn [snd cv_b b_votes b_outputs b_weights b_ncls]. apply count_votes_loop_length; [exact W3|]. rewrite repeat_length. exact W1.
Qed.

Definition conv_rows (bs : list (bool * cvblock)) : list (list Z) := concat (map (fun tb => block_rows (cv_b (snd tb))) bs).
Definition conv_weights (bs : list (bool * cvblock)) : list (list Z) := concat (map (fun tb => b_weights (cv_b (snd tb))) bs).

Lemma conv_match_total_app : forall n np x r1 w1 r2 w2 c, length r1 = length w1 ->
  conv_match_total n np x (r1 ++ r2) (w1 ++ w2) c = conv_match_total n np x r1 w1 c + conv_match_total n np x r2 w2 c.
Proof.
  induction r1 as [|r r1 IH]; intros [|w w1] r2 w2 c H; cbn [length app conv_match_total] in *; try lia. rewrite IH; lia.
Qed.
Lemma conv_sum_votes : forall n np ncls bo e c (bs : list (bool * cvblock)), Forall (fun tb => conv_quiet n np ncls (snd tb)) bs -> conv_example n np e -> (c < ncls)%nat ->
  wrap16 (zsum (map (fun tb => nth c (snd (conv_train_ex bo e (snd tb))) 0) bs)) = wrap16 (conv_match_total n np e (conv_rows bs) (conv_weights bs) c).
Proof.
  intros n np ncls bo e c bs F HX Hc. unfold conv_rows, conv_weights. induction F as [|[t v] bs [OK [M _]] F IH]; cbn [map concat zsum]; [reflexivity|].
  cbn [snd] in *. rewrite conv_match_total_app by (unfold block_rows; rewrite map_length; apply (bw_len _ _ _ (bo_wf _ _ _ (co_block _ _ _ OK)))).
  rewrite (conv_train_votes n ncls) by (auto; rewrite M; auto). rewrite M, wrap16_add_l, <- wrap16_add_r, IH, wrap16_add_r. reflexivity.
Qed.

Lemma nth_ext_votes : forall ncls (a b : list Z), length a = ncls -> length b = ncls -> (forall c, (c < ncls)%nat -> nth c a 0 = nth c b 0) -> a = b.
Proof. intros ncls a b A B H. apply (nth_ext _ _ 0 0); [congruence|]. intros c Hc. apply H. lia. Qed.

Lemma conv_settled : forall n np ncls T bo boost k (data : list (list Z * nat)) (x : exec cvblock), (0 < T)%Q ->
  Forall (fun tb => conv_quiet n np ncls (snd tb)) (x_blocks x) -> fb_ready ncls (x_fb x) -> fb_thr (x_fb x) = T ->
  conv_knows T n np ncls (conv_rows (x_blocks x)) (conv_weights (x_blocks x)) data ->
  let '(accs, x') := epochs cvblock (list Z) (conv_train_ex bo) (conv_update bo boost) fb_process k data x in
  held cvblock _ conv_kept (x_blocks x') = held cvblock _ conv_kept (x_blocks x) /\ (data <> [] -> Forall (fun a => a == 1)%Q accs).
Proof.
  intros n np ncls T bo boost k data x HT F R ET KN.
  apply (epochs_settled cvblock (list Z) _ (conv_train_ex bo) (conv_update bo boost) fb_process conv_kept (conv_quiet n np ncls) (conv_example n np) ncls T); auto.
  - now apply fb_process_calm.
  - intros e b HX [OK [M NB]]. split; [|split; [|now apply (conv_train_votes_length n)]].
    + assert (HX' : conv_example n (cv_np b) e) by (rewrite M; exact HX). pose proof (conv_train_spec bo e b n ncls OK HX') as S. cbv zeta in S.
      destruct S as [S1 [S2 [_ [_ [_ [_ [_ [S8 _]]]]]]]]. split; [exact S1|]. split; [congruence|]. rewrite S8. exact NB.
    + assert (HX' : conv_example n (cv_np b) e) by (rewrite M; exact HX). pose proof (conv_train_spec bo e b n ncls OK HX') as S. cbv zeta in S.
      destruct S as [S1 [S2 [S3 [S4 [S5 [S6 [S7 _]]]]]]]. unfold conv_kept. congruence.
  - intros e b1 b2 HX [O1 [M1 _]] [O2 [M2 _]] H. apply (nth_ext_votes ncls); try now apply (conv_train_votes_length n).
    intros c Hc. rewrite !(conv_train_votes n ncls) by (auto; congruence). unfold conv_kept in H. injection H as H1 H2 _ _ _ H6.
    unfold block_rows. now rewrite H1, H2, H6.
  - intros e pc pp nc q b _ I Hp Hn. now apply conv_upd_quiet.
  - eapply Forall_impl; [|exact KN]. intros d [HX [B [D1 [D2 D3]]]]. split; [exact HX|]. unfold sum_votes. split; [exact D1|].
    split; [rewrite (conv_sum_votes n np ncls), wrap16_small by (try apply B; auto); exact D2|].
    intros c Hc N. rewrite (conv_sum_votes n np ncls), wrap16_small by (try apply B; auto). now apply D3.
Qed.
