(** Rule sets compiled from sparse states. *)
From Coq Require Import ZArith Arith List Bool QArith Lia ZifyBool Sorted.
From Verif Require Import Base BaseProofs Spec ModelRuleSet ModelInference ModelDense ModelFeedback ModelExecutor ModelLayout ModelPredictor
  ProofsClause ProofsInference ProofsRuleSet ProofsLayout ProofsEval ProofsHistory ProofsAvx2Hist ModelSparse SpecSparse ProofsSparse ProofsSparseState ProofsSparseSort ProofsSparseInv.
Import ListNotations.
Open Scope Z_scope.

(** ** Evaluation through the executor, for any kind of block *)

Section Generic.
  Variables B E : Type.
  Variable f : E -> B -> B * list Z.
  Variable e : E.
  Variable ncls : nat.

  Definition votes_sum (bs : list (bool * B)) (c : nat) : Z := zsum (map (fun tb => nth c (snd (f e (snd tb))) 0) bs).

  Lemma run_votes_gen : forall bs fb c, Forall (fun tb => length (snd (f e (snd tb))) = ncls) bs -> fb_ready ncls fb -> (c < ncls)%nat ->
    wrap16 (nth c (fb_votes fb) 0) = nth c (fb_votes fb) 0 ->
    fb_ready ncls (snd (run_examples B E f e bs fb)) /\
    nth c (fb_votes (snd (run_examples B E f e bs fb))) 0 = wrap16 (nth c (fb_votes fb) 0 + votes_sum bs c).
  Proof.
    intros bs. induction bs as [|[t b] bs IH]; intros fb c HF [R1 R2] Hc Hw.
    - cbn [run_examples snd]. unfold votes_sum. cbn [map zsum]. rewrite Z.add_0_r. split; [split|]; auto.
    - inversion HF as [|? ? W HF']; subst. cbn [snd] in W. cbn [run_examples]. unfold votes_sum. cbn [map zsum snd].
      destruct (f e b) as [b1 v]. cbn [snd] in W |- *.
      assert (N : nth c (fb_votes (fb_register v fb)) 0 = wrap16 (nth c (fb_votes fb) 0 + nth c v 0)).
      { unfold fb_register. cbn [fb_votes]. apply add_votes_nth; lia. }
      specialize (IH (fb_register v fb) c HF').
      destruct (run_examples B E f e bs (fb_register v fb)) as [bs2 fb2]. cbn [snd] in *.
      destruct IH as [I1 I2]; auto.
      + split; auto. unfold fb_register. cbn [fb_votes]. rewrite add_votes_length; lia.
      + rewrite N. apply wrap16_wrap16.
      + split; auto. rewrite I2, N. rewrite wrap16_add_l. unfold votes_sum. f_equal. lia.
  Qed.

  Definition eval_one (bs : list (bool * B)) (fb : fblock) : nat := fb_predict (snd (run_examples B E f e bs (fb_reset fb))).

  Lemma eval_one_argmax : forall bs fb, Forall (fun tb => length (snd (f e (snd tb))) = ncls) bs -> fb_ready ncls fb ->
    eval_one bs fb = argmax (map (fun c => wrap16 (votes_sum bs c)) (seq 0 ncls)).
  Proof.
    intros bs fb HF R. unfold eval_one, fb_predict. destruct ncls as [|m] eqn:EN.
    { assert (G : forall l g, fb_ncls g = O -> fb_ncls (snd (run_examples B E f e l g)) = O).
      { induction l as [|[t b] l IH]; intros g Hg; auto. cbn [run_examples].
        destruct (f e b) as [b1 v]. specialize (IH (fb_register v g) Hg).
        destruct (run_examples B E f e l (fb_register v g)). auto. }
      rewrite G; [reflexivity|]. destruct R; auto. }
    rewrite <- EN in *.
    pose proof (fb_reset_ready _ _ R) as R'.
    assert (Z0 : forall c, nth c (fb_votes (fb_reset fb)) 0 = 0) by (intros; cbn [fb_reset fb_votes]; apply nth_repeat0).
    set (g := snd (run_examples B E f e bs (fb_reset fb))).
    assert (K : forall c, (c < ncls)%nat -> fb_ready ncls g /\ nth c (fb_votes g) 0 = wrap16 (votes_sum bs c)).
    { intros c Hc. destruct (run_votes_gen bs (fb_reset fb) c HF R' Hc) as [K1 K2].
      - rewrite Z0. reflexivity.
      - split; auto. unfold g. rewrite K2, Z0, Z.add_0_l. reflexivity. }
    destruct (K O) as [[K1 K2] _]; [lia|]. rewrite K1.
    rewrite firstn_all2 by lia. f_equal. apply list_ext0.
    - rewrite map_length, seq_length. auto.
    - intros c Hc. rewrite K2 in Hc. rewrite nth_map_seq by auto. apply K. auto.
  Qed.
End Generic.

Section GenericList.
  Variables B E : Type.
  Variable f : E -> B -> B * list Z.
  Variable ncls : nat.
  Variable P : B -> Prop.
  Hypothesis keep : forall e b, P b -> P (fst (f e b)).
  Hypothesis len : forall e b, P b -> length (snd (f e b)) = ncls.
  Hypothesis stable : forall e e' b, P b -> snd (f e (fst (f e' b))) = snd (f e b).

  Lemma run_examples_blocks : forall e bs fb, fst (run_examples B E f e bs fb) = map (fun tb => (fst tb, fst (f e (snd tb)))) bs.
  Proof.
    intros e bs. induction bs as [|[t b] bs IH]; intros fb; cbn [run_examples map]; auto. cbn [fst snd].
    destruct (f e b) as [b1 v]. specialize (IH (fb_register v fb)). destruct (run_examples B E f e bs (fb_register v fb)) as [bs2 fb2].
    cbn [fst] in *. now rewrite IH.
  Qed.

  Lemma run_examples_ready : forall e bs fb, Forall (fun tb => P (snd tb)) bs -> fb_ready ncls fb -> fb_ready ncls (snd (run_examples B E f e bs fb)).
  Proof.
    intros e bs. induction bs as [|[t b] bs IH]; intros fb H [R1 R2]; cbn [run_examples snd]; [split; auto|].
    inversion H as [|? ? P1 H']; subst. cbn [snd] in P1. pose proof (len e b P1) as L. destruct (f e b) as [b1 v]. cbn [snd] in L.
    specialize (IH (fb_register v fb) H'). destruct (run_examples B E f e bs (fb_register v fb)) as [bs2 fb2]. cbn [snd] in *. apply IH.
    split; auto. unfold fb_register. cbn [fb_votes]. rewrite add_votes_length; lia.
  Qed.

  Lemma eval_list_gen : forall es bs fb, Forall (fun tb => P (snd tb)) bs -> fb_ready ncls fb ->
    fst (fst (eval_list B E f es bs fb)) = map (fun e => argmax (map (fun c => wrap16 (votes_sum B E f e bs c)) (seq 0 ncls))) es.
  Proof.
    induction es as [|e es IH]; intros bs fb H R; cbn [eval_list map]; auto.
    assert (LE : forall e, Forall (fun tb => length (snd (f e (snd tb))) = ncls) bs) by (intros e0; eapply Forall_impl; [|exact H]; intros a Ha; auto).
    pose proof (eval_one_argmax B E f e ncls bs fb (LE e) R) as A. unfold eval_one in A.
    pose proof (run_examples_blocks e bs (fb_reset fb)) as RB. pose proof (run_examples_ready e bs (fb_reset fb) H (fb_reset_ready _ _ R)) as RR.
    destruct (run_examples B E f e bs (fb_reset fb)) as [bs1 fb1]. cbn [fst snd] in *.
    specialize (IH bs1 fb1). destruct (eval_list B E f es bs1 fb1) as [[ys bs2] fb2]. cbn [fst] in *. rewrite A, IH; auto.
    - f_equal. apply map_ext. intros e0. f_equal. apply map_ext. intros c. f_equal. unfold votes_sum. rewrite RB, map_map. cbn [snd].
      f_equal. apply map_ext_in. intros tb Htb. rewrite stable; auto. rewrite Forall_forall in H. auto.
    - rewrite RB. apply Forall_map. eapply Forall_impl; [|exact H]. intros a Ha. cbn [snd]. auto.
  Qed.

  Theorem eval_predict_gen : forall L (data : list (E * L)) out (x : exec B), Forall (fun tb => P (snd tb)) (x_blocks x) -> fb_ready ncls (x_fb x) ->
    length out = length data ->
    exists x', eval_predict B E f L data out x =
      (true, map (fun d => argmax (map (fun c => wrap16 (votes_sum B E f (fst d) (x_blocks x) c)) (seq 0 ncls))) data, x').
  Proof.
    intros L data out x H R HL. unfold eval_predict. rewrite HL, Nat.eqb_refl. cbn [negb].
    pose proof (eval_list_gen (map fst data) (x_blocks x) (x_fb x) H R) as E0.
    destruct (eval_list B E f (map fst data) (x_blocks x) (x_fb x)) as [[ys bs] fb]. cbn [fst] in E0. subst.
    eexists. rewrite map_map. reflexivity.
  Qed.
End GenericList.

(** ** Dense rows standing for keys *)

Definition drow (n : nat) (key : list nat) : list Z := map (fun i => if memb i key then 0 else -1) (seq 0 (2 * n)).

Lemma filter_memb_seq : forall key a len, increasing key -> Forall (fun l => (a <= l < a + len)%nat) key ->
  filter (fun i => memb i key) (seq a len) = key.
Proof.
  intros key a len. revert key a. induction len as [|len IH]; intros key a HS HF.
  - destruct key as [|k key]; [reflexivity|]. inversion HF; subst. lia.
  - cbn [seq filter]. destruct key as [|k key].
    + apply (IH [] (S a)); auto.
    + inversion HS as [|? ? S1 S2]; subst. inversion HF as [|? ? F1 F2]; subst. rewrite Forall_forall in S2.
      destruct (Nat.eq_dec k a) as [E|E].
      * subst. cbn [memb existsb]. rewrite Nat.eqb_refl. cbn [orb]. f_equal.
        transitivity (filter (fun i => memb i key) (seq (S a) len)).
        { apply filter_ext_in. intros i Hi. apply in_seq in Hi. destruct (Nat.eqb_spec i a); [lia|reflexivity]. }
        apply IH; auto. rewrite Forall_forall in *. intros x Hx. specialize (F2 x Hx). specialize (S2 x Hx). lia.
      * replace (memb a (k :: key)) with false.
        2:{ symmetry. apply memb_not_In. intros [C|C]; [lia|]. specialize (S2 a C). lia. }
        apply IH; auto. rewrite Forall_forall in *. intros x [Hx|Hx]; [lia|]. specialize (F2 x Hx). specialize (S2 x Hx). lia.
Qed.

Lemma included_drow : forall n key, increasing key -> Forall (fun l => (l < 2 * n)%nat) key -> included (drow n key) = key.
Proof.
  intros n key HS HF. unfold included, drow. rewrite map_length, seq_length.
  transitivity (filter (fun i => memb i key) (seq 0 (2 * n))); [|apply filter_memb_seq; auto].
  - apply filter_ext_in. intros i Hi. apply in_seq in Hi.
    rewrite (nth_indep _ (-1) (if memb 0 key then 0 else -1)) by (rewrite map_length, seq_length; lia).
    rewrite (map_nth (fun i => if memb i key then 0 else -1)), seq_nth by lia. cbn [Nat.add]. destruct (memb i key); reflexivity.
  - eapply Forall_impl; [|exact HF]. cbv beta. intros; lia.
Qed.

Lemma increasing_app_shift : forall n a b, increasing a -> increasing b -> Forall (fun l => (l < n)%nat) a ->
  increasing (a ++ map (fun l => (l + n)%nat) b).
Proof.
  intros n a b HA HB HF. induction HA as [|x a HA IH Hx]; cbn [app].
  - induction HB as [|y b HB IH Hy]; cbn [map]; constructor; auto. apply Forall_map. eapply Forall_impl; [|exact Hy]. cbv beta. intros; lia.
  - inversion HF; subst. constructor; [apply IH; auto|]. apply Forall_app. split; auto. apply Forall_map, Forall_forall. intros; lia.
Qed.

Lemma positives_strict : forall row sts, positives row sts = sp_strict row sts.
Proof. intros. unfold positives, sp_strict. f_equal. apply filter_ext. intros [a v]. cbn [snd]. lia. Qed.

Lemma filter_subseq : forall A (g : A -> bool) l, subseq (filter g l) l.
Proof. intros A g l. induction l as [|a l IH]; cbn [filter]; [constructor|]. destruct (g a); constructor; auto. Qed.

Lemma strict_subseq : forall row sts, length sts = length row -> subseq (sp_strict row sts) row.
Proof.
  intros row sts H. unfold sp_strict. rewrite <- (combine_fst _ _ row sts) at 2 by lia. apply subseq_map, filter_subseq.
Qed.

Lemma key_ok : forall n cap1 cap2 prow psts nrow nsts, row_inv n cap1 prow psts -> row_inv n cap2 nrow nsts ->
  increasing (sp_key n prow psts nrow nsts) /\ Forall (fun l => (l < 2 * n)%nat) (sp_key n prow psts nrow nsts).
Proof.
  intros n cap1 cap2 prow psts nrow nsts [A1 A2 A3 A4 A5] [B1 B2 B3 B4 B5]. unfold sp_key.
  pose proof (strict_subseq prow psts A3) as S1. pose proof (strict_subseq nrow nsts B3) as S2.
  split.
  - apply increasing_app_shift; [eapply subseq_sorted; eauto|eapply subseq_sorted; eauto|eapply subseq_Forall; eauto].
  - apply Forall_app. split.
    + eapply Forall_impl; [|eapply subseq_Forall; eauto]. cbv beta. intros; lia.
    + apply Forall_map. eapply Forall_impl; [|eapply subseq_Forall; eauto]. cbv beta. intros; lia.
Qed.

(** ** The compile loop *)

Lemma rm_set_same : forall key v m, rm_get key m = Some v -> rm_set key v m = m.
Proof.
  intros key v m. induction m as [|[k u] m IH]; cbn [rm_get rm_set]; [discriminate|].
  destruct (list_nat_eqb k key); [congruence|]. intros H. now rewrite IH.
Qed.

Lemma add16_zero : forall w wk, length w = length wk -> (forall c, wrap16 (nth c w 0) = nth c w 0) -> all_zero wk = true -> add16 w wk = w.
Proof.
  intros w wk HL HW HZ. apply list_ext0.
  - unfold add16. rewrite map2_length. lia.
  - intros c Hc. rewrite add16_nth by auto. rewrite (all_zero_nth wk) by auto. rewrite Z.add_0_r. auto.
Qed.

Lemma sparse_step_inv : forall n ncls rows ws m pos neg wk, length rows = length ws -> length wk = ncls -> cinv ncls rows ws m ->
  let key := pos ++ map (fun c => (c + n)%nat) neg in
  increasing key -> Forall (fun l => (l < 2 * n)%nat) key ->
  cinv ncls (rows ++ [drow n key]) (ws ++ [wk]) (compile_sparse_step n ncls pos neg wk m).
Proof.
  intros n ncls rows ws m pos neg wk HL HW I key HS HF.
  pose proof (compile_step_inv ncls rows ws m (drow n key) wk HL HW I) as D.
  replace (compile_sparse_step n ncls pos neg wk m) with (compile_dense_step ncls m (drow n key) wk); [exact D|].
  clear D. unfold compile_dense_step, compile_sparse_step. rewrite nonzero_ge0_included, included_drow by auto. fold key.
  destruct (length key <? 1)%nat eqn:EL; [destruct (all_zero wk); reflexivity|].
  destruct (rm_get key m) as [w|] eqn:G.
  - destruct (all_zero wk) eqn:EZ.
    + assert (W : length w = ncls) by (eapply rm_get_width; [exact (ci_width _ _ _ _ I)|exact G]).
      rewrite add16_zero; auto; [apply rm_set_same; auto|lia|].
      intros c. pose proof (wrap16_rm_val ncls rows ws m key c I) as R. unfold rm_val in R. rewrite G in R. exact R.
    + apply rm_set_set.
  - destruct (all_zero wk); reflexivity.
Qed.

Lemma csr_slice_nth : forall A (d : A) l a b, (a <= b)%nat -> (b <= length l)%nat -> csr_slice l a b = map (fun j => nth j l d) (seq a (b - a)).
Proof.
  intros A d l a b H1 H2. unfold csr_slice. rewrite (firstn_map_nth _ d) by (rewrite skipn_length; lia).
  replace (seq a (b - a)) with (map (fun j => (a + j)%nat) (seq 0 (b - a))).
  - rewrite map_map. apply map_ext. intros j. clear. revert l. induction a as [|a IH]; intros [|x l]; cbn [skipn Nat.add nth]; auto; destruct j; auto.
  - generalize (b - a)%nat as len. clear. intros len. revert a. induction len as [|len IH]; intros a; [reflexivity|].
    cbn [seq map]. f_equal; [lia|]. rewrite <- (IH (S a)). rewrite <- seq_shift, map_map. apply map_ext. intros. lia.
Qed.

Lemma nth_map_seq_any : forall A (f : nat -> A) d m i, (i < m)%nat -> nth i (map f (seq 0 m)) d = f i.
Proof.
  intros A f d m i H. rewrite (nth_indep _ d (f O)) by (rewrite map_length, seq_length; lia). rewrite map_nth, seq_nth by lia. reflexivity.
Qed.

(** Slicing the arrays read from a block gives its clause vectors back. *)
Lemma csr_get_slices : forall b, length (sp_rows b) = (2 * sp_ncl b)%nat -> length (sp_states b) = (2 * sp_ncl b)%nat ->
  (forall i, (i < 2 * sp_ncl b)%nat -> length (nth i (sp_states b) []) = length (nth i (sp_rows b) [])) ->
  forall i, (i < 2 * sp_ncl b)%nat ->
  csr_slice (snd (fst (csr_get b))) (nth i (snd (csr_get b)) O) (nth (S i) (snd (csr_get b)) O) = nth i (sp_rows b) [] /\
  csr_slice (fst (fst (csr_get b))) (nth i (snd (csr_get b)) O) (nth (S i) (snd (csr_get b)) O) = nth i (sp_states b) [].
Proof.
  intros b H1 H2 H3 i Hi. destruct (csr_set_get b b H1 H2 H3) as [G1 G2].
  rewrite csr_get_eq in * by (intros; apply H3; lia).
  set (data := concat (map (fun k => nth k (sp_states b) []) (seq 0 (sp_ncl b * 2)))) in *.
  set (indices := concat (map (fun k => nth k (sp_rows b) []) (seq 0 (sp_ncl b * 2)))) in *.
  set (indptr := map (offset (sp_rows b)) (seq 0 (S (sp_ncl b * 2)))) in *. cbn [fst snd].
  assert (LP : length indptr = S (sp_ncl b * 2)) by (unfold indptr; now rewrite map_length, seq_length).
  assert (NP : forall j, (j <= sp_ncl b * 2)%nat -> nth j indptr O = offset (sp_rows b) j).
  { intros j Hj. unfold indptr. rewrite (nth_indep _ O (offset (sp_rows b) O)) by (rewrite map_length, seq_length; lia).
    rewrite map_nth, seq_nth by lia. reflexivity. }
  assert (LS : forall A (rows : list (list A)), (forall j, (j < sp_ncl b * 2)%nat -> length (nth j rows []) = length (nth j (sp_rows b) [])) ->
     forall m, (m <= sp_ncl b * 2)%nat -> length (concat (map (fun k => nth k rows []) (seq 0 m))) = offset (sp_rows b) m).
  { intros A rows HR. induction m as [|m IH]; intros Hm; [reflexivity|]. rewrite seq_S, map_app, concat_app, app_length. cbn [map concat offset Nat.add].
    rewrite app_nil_r, IH, HR by lia. reflexivity. }
  assert (M1 : (offset (sp_rows b) i <= offset (sp_rows b) (S i))%nat) by (apply offset_mono; lia).
  assert (M2 : (offset (sp_rows b) (S i) <= offset (sp_rows b) (sp_ncl b * 2))%nat) by (apply offset_mono; lia).
  rewrite !NP by lia.
  cbn [sp_rows sp_states csr_set sp_with_rows] in G1, G2. rewrite LP in G1, G2. replace (S (sp_ncl b * 2) - 1)%nat with (sp_ncl b * 2)%nat in G1, G2 by lia.
  split.
  - rewrite (csr_slice_nth _ O) by (try (unfold indices; rewrite LS by (auto; lia)); lia).
    pose proof (f_equal (fun r => nth i r []) G1) as E1. cbv beta in E1. rewrite nth_map_seq_any in E1 by lia.
    rewrite !NP in E1 by lia. exact E1.
  - rewrite (csr_slice_nth _ 0) by (try (unfold data; rewrite LS by (try lia; intros; apply H3; lia)); lia).
    pose proof (f_equal (fun r => nth i r []) G2) as E1. cbv beta in E1. rewrite nth_map_seq_any in E1 by lia.
    rewrite !NP in E1 by lia. exact E1.
Qed.

Lemma bkey_ok : forall n b k, sp_inv n b -> (k < sp_ncl b)%nat -> increasing (bkey n b k) /\ Forall (fun l => (l < 2 * n)%nat) (bkey n b k).
Proof.
  intros n b k I Hk. unfold bkey. eapply key_ok.
  - unfold prow_of, psts_of. apply (si_row n b I). lia.
  - unfold nrow_of, nsts_of. apply (si_row n b I). lia.
Qed.

Lemma compile_block_inv : forall n ncls b, sp_good n ncls b -> forall k i pre ws1 post rows ws m, (i + k = sp_ncl b)%nat ->
  length ws1 = k -> rows_of ncls ws1 -> length rows = length ws -> cinv ncls rows ws m ->
  exists m', compile_sparse_block n ncls (csr_get b) (sp_ncl b) i k (pre ++ ws1 ++ post) (length pre) m = Ok (m', (length pre + k)%nat) /\
    cinv ncls (rows ++ map (fun k => drow n (bkey n b k)) (seq i k)) (ws ++ ws1) m'.
Proof.
  intros n ncls b [I [N [W1 W2]]] k. induction k as [|k IH]; intros i pre ws1 post rows ws m Hik HL HR HE HC.
  - destruct ws1; cbn [length] in HL; [|lia]. exists m. cbn [compile_sparse_block seq map]. rewrite !app_nil_r, Nat.add_0_r. auto.
  - destruct ws1 as [|wk ws1]; cbn [length] in HL; [lia|]. inversion HR as [|? ? R1 R2]; subst.
    assert (SL := csr_get_slices b (si_rows _ _ I) (si_states _ _ I) (fun i Hi => ri_len _ _ _ _ (si_row _ _ I i Hi))).
    destruct (SL i ltac:(lia)) as [P1 P2]. destruct (SL (i + sp_ncl b)%nat ltac:(lia)) as [P3 P4].
    cbn [compile_sparse_block]. destruct (csr_get b) as [[data indices] indptr] eqn:EC. cbn [fst snd] in P1, P2, P3, P4.
    rewrite P1, P2, P3, P4. rewrite nth_error_app2, Nat.sub_diag by lia. cbn [app nth_error].
    rewrite !positives_strict.
    destruct (bkey_ok n b i I ltac:(lia)) as [K1 K2].
    pose proof (sparse_step_inv n (sp_ncls b) rows ws m (sp_strict (prow_of b i) (psts_of b i)) (sp_strict (nrow_of b i) (nsts_of b i)) wk HE R1 HC K1 K2) as ST.
    cbv zeta in ST. eapply (IH (S i) (pre ++ [wk]) ws1 post) in ST; [|lia|lia|exact R2|rewrite !app_length; cbn [length]; lia].
    destruct ST as [m' [M1 M2]].
    exists m'. rewrite <- !app_assoc in M1. do 2 rewrite <- app_assoc in M2. cbn [app] in M1, M2. rewrite app_length in M1. cbn [length] in M1. rewrite Nat.add_1_r in M1.
    split; [|cbn [seq map]; exact M2].
    etransitivity; [exact M1|]. f_equal. f_equal. lia.
Qed.

Lemma all_keys_length : forall n ncls cbs, Forall (sp_good n ncls) cbs -> length (all_keys n cbs) = length (all_wts cbs).
Proof.
  intros n ncls cbs H. unfold all_keys, all_wts. induction H as [|b t [I [N [W1 W2]]] H IH]; [reflexivity|]. cbn [map concat].
  rewrite !app_length, map_length, seq_length, IH, W1. reflexivity.
Qed.

Lemma compile_loop_sparse : forall n ncls cbs, Forall (sp_good n ncls) cbs -> forall pre rows ws m, length rows = length ws -> cinv ncls rows ws m ->
  exists m', compile_sparse_loop n ncls (map csr_get cbs) (pre ++ all_wts cbs) (length pre) m = Ok m' /\
    cinv ncls (rows ++ map (drow n) (all_keys n cbs)) (ws ++ all_wts cbs) m'.
Proof.
  intros n ncls cbs H. induction H as [|b t G H IH]; intros pre rows ws m HE HC.
  - exists m. unfold all_keys, all_wts. cbn [map concat compile_sparse_loop]. rewrite !app_nil_r. auto.
  - pose proof G as [I [N [W1 W2]]]. cbn [map compile_sparse_loop].
    replace (Nat.div (length (snd (csr_get b)) - 1) 2) with (sp_ncl b).
    2:{ rewrite csr_get_eq by (intros i Hi; apply (ri_len _ _ _ _ (si_row _ _ I i ltac:(lia)))). cbn [snd].
        rewrite map_length, seq_length. replace (S (sp_ncl b * 2) - 1)%nat with (sp_ncl b * 2)%nat by lia. now rewrite Nat.div_mul. }
    unfold all_wts, all_keys. cbn [map concat]. fold (all_wts t). fold (all_keys n t).
    destruct (compile_block_inv n ncls b G (sp_ncl b) 0 pre (sp_weights b) (all_wts t) rows ws m) as [m1 [M1 M2]]; auto.
    rewrite M1. destruct (IH (pre ++ sp_weights b) (rows ++ map (fun k => drow n (bkey n b k)) (seq 0 (sp_ncl b))) (ws ++ sp_weights b) m1) as [m2 [M3 M4]]; auto.
    { rewrite !app_length, map_length, seq_length. lia. }
    exists m2. rewrite app_length, W1 in M3. rewrite <- app_assoc in M3. split; [exact M3|].
    rewrite <- !app_assoc in M4. rewrite map_app, map_map. exact M4.
Qed.

Lemma load_weights : forall n ncls cbs, Forall (sp_good n ncls) cbs -> concat (map wts cbs) = all_wts cbs.
Proof.
  intros n ncls cbs H. unfold all_wts. induction H as [|b t [I [N [W1 W2]]] H IH]; [reflexivity|]. cbn [map concat]. rewrite IH. f_equal. apply wts_full; auto.
Qed.

(** The state of a machine compiles, and the rules are its clauses' keys. *)
Theorem compile_sparse_ok : forall n ncls cbs, Forall (sp_good n ncls) cbs ->
  exists m, compile_from_sparse_state (sp_load_state n (nsum (map sp_ncl cbs)) ncls cbs) = Ok (mkRuleSet (map fst m) (map snd m) n ncls) /\
    cinv ncls (map (drow n) (all_keys n cbs)) (all_wts cbs) m.
Proof.
  intros n ncls cbs H. rewrite sp_load_state_eq, (load_weights n ncls) by auto. unfold compile_from_sparse_state. cbn [ss_nlit ss_ncls ss_c ss_w].
  destruct (compile_loop_sparse n ncls cbs H [] [] [] [] eq_refl (cinv_nil ncls)) as [m [M1 M2]]. cbn [app length] in *.
  rewrite M1. exists m. auto.
Qed.

(** ** Votes *)

Lemma cinv_votes_mod : forall n x c ncls rows ws m, length rows = length ws -> cinv ncls rows ws m ->
  rule_vote_total n x (map fst m) (map snd m) c mod 65536 = clause_vote_total n x rows ws c mod 65536.
Proof.
  intros n x c ncls rows ws m HL [I1 I2 I3 I4 I5]. rewrite rule_vote_total_map by auto.
  rewrite <- (group_total n x (map fst m) rows ws c); auto.
  - apply zsum_mod. intros k Hk. destruct (conj_true n x k); auto. rewrite I5 by auto. apply wrap16_mod.
  - intros i row w H1 H2 H3 H4. apply I4. split; auto. exists i, row, w. auto.
Qed.

Lemma cinv_votes_exact : forall n x c ncls rows ws m, length rows = length ws -> cinv ncls rows ws m ->
  (forall r, is_int16 (merged_weight rows ws r c)) ->
  rule_vote_total n x (map fst m) (map snd m) c = clause_vote_total n x rows ws c.
Proof.
  intros n x c ncls rows ws m HL [I1 I2 I3 I4 I5] Hfit. rewrite rule_vote_total_map by auto.
  rewrite <- (group_total n x (map fst m) rows ws c); auto.
  - f_equal. apply map_ext_in. intros k Hk. destruct (conj_true n x k); auto. rewrite I5 by auto. apply wrap16_small. auto.
  - intros i row w H1 H2 H3 H4. apply I4. split; auto. exists i, row, w. auto.
Qed.

Lemma drow_total : forall n x keys ws c, Forall (fun key => increasing key /\ Forall (fun l => (l < 2 * n)%nat) key) keys ->
  clause_vote_total n x (map (drow n) keys) ws c = pick_total (key_fires n x) keys ws c.
Proof.
  intros n x keys. induction keys as [|key keys IH]; intros [|w ws] c H; cbn [map clause_vote_total pick_total]; auto.
  inversion H as [|? ? [H1 H2] H3]; subst. rewrite IH by auto. f_equal. unfold clause_fires. rewrite included_drow by auto. reflexivity.
Qed.

Lemma drow_merged : forall n keys ws r c, Forall (fun key => increasing key /\ Forall (fun l => (l < 2 * n)%nat) key) keys ->
  merged_weight (map (drow n) keys) ws r c = pick_total (fun key => list_nat_eqb key r) keys ws c.
Proof.
  intros n keys. induction keys as [|key keys IH]; intros [|w ws] r c H; cbn [map merged_weight pick_total]; auto.
  inversion H as [|? ? [H1 H2] H3]; subst. rewrite IH by auto. f_equal. rewrite included_drow by auto.
  destruct (list_eq_dec Nat.eq_dec key r) as [E|E].
  - subst. now rewrite list_nat_eqb_refl.
  - destruct (list_nat_eqb key r) eqn:F; auto. apply list_nat_eqb_eq in F. congruence.
Qed.

Lemma all_keys_ok : forall n ncls cbs, Forall (sp_good n ncls) cbs -> Forall (fun key => increasing key /\ Forall (fun l => (l < 2 * n)%nat) key) (all_keys n cbs).
Proof.
  intros n ncls cbs H. unfold all_keys. induction H as [|b t [I _] H IH]; cbn [map concat]; [constructor|]. apply Forall_app. split; auto.
  apply Forall_map, Forall_forall. intros k Hk. apply in_seq in Hk. apply bkey_ok; auto. lia.
Qed.

(** Votes of the compiled rule set: the sum of the weights of the clauses whose
    rule (literals with a state above 0) fires, up to 16-bit wrapping. *)
Theorem sparse_rule_votes_mod : forall n ncls cbs rs x c, Forall (sp_good n ncls) cbs ->
  compile_from_sparse_state (sp_load_state n (nsum (map sp_ncl cbs)) ncls cbs) = Ok rs ->
  rule_vote_total n x (rs_rules rs) (rs_weights rs) c mod 65536 = pick_total (key_fires n x) (all_keys n cbs) (all_wts cbs) c mod 65536.
Proof.
  intros n ncls cbs rs x c H HC. destruct (compile_sparse_ok n ncls cbs H) as [m [M1 M2]]. rewrite M1 in HC. injection HC as <-. cbn [rs_rules rs_weights].
  rewrite <- (drow_total n x (all_keys n cbs)) by (eapply all_keys_ok; eauto).
  apply (cinv_votes_mod n x c ncls); auto. rewrite map_length. eapply all_keys_length; eauto.
Qed.

Theorem sparse_rule_votes_exact : forall n ncls cbs rs x c, Forall (sp_good n ncls) cbs ->
  compile_from_sparse_state (sp_load_state n (nsum (map sp_ncl cbs)) ncls cbs) = Ok rs ->
  (forall r, is_int16 (pick_total (fun key => list_nat_eqb key r) (all_keys n cbs) (all_wts cbs) c)) ->
  rule_vote_total n x (rs_rules rs) (rs_weights rs) c = pick_total (key_fires n x) (all_keys n cbs) (all_wts cbs) c.
Proof.
  intros n ncls cbs rs x c H HC HF. destruct (compile_sparse_ok n ncls cbs H) as [m [M1 M2]]. rewrite M1 in HC. injection HC as <-. cbn [rs_rules rs_weights].
  rewrite <- (drow_total n x (all_keys n cbs)) by (eapply all_keys_ok; eauto).
  apply (cinv_votes_exact n x c ncls); auto; [rewrite map_length; eapply all_keys_length; eauto|].
  intros r. rewrite drow_merged by (eapply all_keys_ok; eauto). apply HF.
Qed.

(** ** Evaluation *)

Definition eval_bit (lits : list nat) (b : sblock) (k : nat) : bool :=
  sp_eval_output lits (prow_of b k) (nrow_of b k) (psts_of b k) (nsts_of b k) =? 1.

Lemma outs_pick : forall A (g : A -> Z) l ws c, outs_total (map g l) ws c = pick_total (fun a => g a =? 1) l ws c.
Proof.
  intros A g l. unfold outs_total. induction l as [|a l IH]; intros [|w ws] c; cbn [map map2 zsum pick_total]; auto. now rewrite IH.
Qed.

Theorem sparse_eval_votes : forall n ncls lits b c, sp_good n ncls b -> (c < ncls)%nat ->
  nth c (snd (sp_eval_ex lits b)) 0 = wrap16 (pick_total (eval_bit lits b) (seq 0 (sp_ncl b)) (sp_weights b) c).
Proof.
  intros n ncls lits b c [I [N [W1 W2]]] Hc. unfold sp_eval_ex, sp_count_votes, sp_eval_set.
  cbn [snd sp_with_outputs sp_votes sp_outputs sp_weights sp_ncls].
  rewrite (count_votes_loop_nth ncls); auto.
  - rewrite nth_repeat0, Z.add_0_l, outs_pick. reflexivity.
  - rewrite repeat_length. auto.
  - rewrite nth_repeat0. reflexivity.
Qed.

Lemma sparse_eval_length : forall n ncls lits b, sp_good n ncls b -> length (snd (sp_eval_ex lits b)) = ncls.
Proof.
  intros n ncls lits b [I [N [W1 W2]]]. unfold sp_eval_ex, sp_count_votes, sp_eval_set.
  cbn [snd sp_with_outputs sp_votes sp_outputs sp_weights sp_ncls]. apply count_votes_loop_length; auto. now rewrite repeat_length.
Qed.

Lemma vec_length : forall n lits, length (vec n lits) = n.
Proof. intros. unfold vec. now rewrite map_length, seq_length. Qed.

Lemma vec_lit : forall n lits l, (l < n)%nat -> lit_true n (vec n lits) l = memb l lits /\ lit_true n (vec n lits) (l + n) = negb (memb l lits).
Proof.
  intros n lits l H. unfold lit_true, vec. replace (Nat.ltb l n) with true by lia. replace (Nat.ltb (l + n) n) with false by lia.
  replace (l + n - n)%nat with l by lia. rewrite !nth_map_seq by auto. unfold memb. destruct (existsb (Nat.eqb l) lits); auto.
Qed.

Lemma conj_key : forall n lits pos neg, Forall (fun l => (l < n)%nat) pos -> Forall (fun l => (l < n)%nat) neg ->
  conj_true n (vec n lits) (pos ++ map (fun l => (l + n)%nat) neg) = true <->
  (forall l, In l pos -> In l lits) /\ (forall l, In l neg -> ~ In l lits).
Proof.
  intros n lits pos neg HP HN. unfold conj_true. rewrite forallb_forall. rewrite Forall_forall in HP, HN. split.
  - intros H. split; intros l Hl.
    + specialize (H l ltac:(apply in_or_app; auto)). destruct (vec_lit n lits l (HP l Hl)) as [E _]. rewrite E in H. now apply memb_In.
    + specialize (H (l + n)%nat). destruct (vec_lit n lits l (HN l Hl)) as [_ E]. rewrite E in H. apply memb_not_In.
      assert (In (l + n)%nat (pos ++ map (fun l => (l + n)%nat) neg)) as K by (apply in_or_app; right; apply in_map_iff; exists l; auto).
      specialize (H K). now destruct (memb l lits).
  - intros [H1 H2] x Hx. apply in_app_or in Hx. destruct Hx as [Hx|Hx].
    + destruct (vec_lit n lits x (HP x Hx)) as [E _]. rewrite E. apply memb_In. auto.
    + apply in_map_iff in Hx. destruct Hx as [l [<- Hl]]. destruct (vec_lit n lits l (HN l Hl)) as [_ E]. rewrite E.
      rewrite (proj2 (memb_not_In l lits)); auto.
Qed.

Lemma strict_included : forall row sts, Forall (fun v => v <> 0) sts -> sp_strict row sts = sp_included row sts.
Proof.
  intros row sts H. unfold sp_strict, sp_included. f_equal. apply filter_ext_in. intros [a v] Hin. cbn [snd].
  apply in_combine_r in Hin. rewrite Forall_forall in H. specialize (H v Hin). lia.
Qed.

Lemma included_subseq : forall row sts, length sts = length row -> subseq (sp_included row sts) row.
Proof.
  intros row sts H. unfold sp_included. rewrite <- (combine_fst _ _ row sts) at 2 by lia. apply subseq_map, filter_subseq.
Qed.

(** On a plain clause the evaluation and the rule agree. *)
Lemma plain_agrees : forall n cap1 cap2 lits prow psts nrow nsts, increasing lits ->
  row_inv n cap1 prow psts -> row_inv n cap2 nrow nsts -> sp_plain lits prow psts nrow nsts ->
  (sp_eval_output lits prow nrow psts nsts =? 1) = key_fires n (vec n lits) (sp_key n prow psts nrow nsts).
Proof.
  intros n cap1 cap2 lits prow psts nrow nsts HL [A1 A2 A3 A4 A5] [B1 B2 B3 B4 B5] [P1 [P2 P3]].
  unfold sp_key. rewrite !strict_included by auto.
  pose proof (included_subseq prow psts A3) as S1. pose proof (included_subseq nrow nsts B3) as S2.
  pose proof (subseq_Forall _ _ _ _ S1 A2) as F1. pose proof (subseq_Forall _ _ _ _ S2 B2) as F2.
  destruct P3 as [[N1 [N2 [[l0 E0] T]]]|[N [E1 E2]]].
  - assert (K : key_fires n (vec n lits) (sp_included prow psts ++ map (fun l => (l + n)%nat) (sp_included nrow nsts)) =
                conj_true n (vec n lits) (sp_included prow psts ++ map (fun l => (l + n)%nat) (sp_included nrow nsts))).
    { unfold key_fires. destruct (sp_included prow psts ++ map (fun l => (l + n)%nat) (sp_included nrow nsts)) eqn:E; [|reflexivity].
      apply app_eq_nil in E. destruct E as [E E']. apply map_eq_nil in E'. rewrite E, E' in E0. destruct E0 as [[]|[]]. }
    rewrite K. apply Bool.eq_true_iff_eq. rewrite Z.eqb_eq, sp_eval_output_exact by auto. rewrite conj_key by auto.
    pose proof (tolerated_holds lits prow psts A1 A3 (or_intror T)) as TH. tauto.
  - rewrite E1, E2. cbn [app map key_fires]. apply Z.eqb_neq. intros C. apply sp_eval_output_exact in C; auto. destruct C as [C1 [C2 _]]. destruct N; auto.
Qed.

Lemma pick_total_ext : forall A (f g : A -> bool) l ws c, (forall a, In a l -> f a = g a) -> pick_total f l ws c = pick_total g l ws c.
Proof.
  intros A f g l. induction l as [|a l IH]; intros [|w ws] c H; cbn [pick_total]; auto. rewrite H by now left. rewrite IH; auto. intros x Hx. apply H. now right.
Qed.
Lemma pick_total_map : forall A B (f : B -> bool) (g : A -> B) l ws c, pick_total f (map g l) ws c = pick_total (fun a => f (g a)) l ws c.
Proof. intros A B f g l. induction l as [|a l IH]; intros [|w ws] c; cbn [map pick_total]; auto. now rewrite IH. Qed.
Lemma pick_total_app : forall A (f : A -> bool) l1 w1 l2 w2 c, length l1 = length w1 ->
  pick_total f (l1 ++ l2) (w1 ++ w2) c = pick_total f l1 w1 c + pick_total f l2 w2 c.
Proof. intros A f l1. induction l1 as [|a l1 IH]; intros [|w w1] l2 w2 c H; cbn [length app pick_total] in *; try lia. rewrite IH; lia. Qed.

Lemma blocks_pick_mod : forall n ncls lits c cbs, increasing lits -> Forall (sp_good n ncls) cbs -> Forall (all_plain lits) cbs -> (c < ncls)%nat ->
  zsum (map (fun b => nth c (snd (sp_eval_ex lits b)) 0) cbs) mod 65536
  = pick_total (key_fires n (vec n lits)) (all_keys n cbs) (all_wts cbs) c mod 65536.
Proof.
  intros n ncls lits c cbs HL H HP Hc. unfold all_keys, all_wts. induction H as [|b t G H IH]; [reflexivity|].
  inversion HP as [|? ? P1 P2]; subst. cbn [map concat zsum]. pose proof G as [I [N [W1 W2]]].
  rewrite pick_total_app by (rewrite map_length, seq_length; auto).
  rewrite Z.add_mod, IH, <- Z.add_mod by (auto; lia).
  rewrite (sparse_eval_votes n ncls) by auto. rewrite Z.add_mod, wrap16_mod, <- Z.add_mod by lia. f_equal. f_equal.
  rewrite pick_total_map. apply pick_total_ext. intros k Hk. apply in_seq in Hk. unfold eval_bit, bkey.
  eapply plain_agrees; eauto.
  - unfold prow_of, psts_of. apply (si_row n b I). lia.
  - unfold nrow_of, nsts_of. apply (si_row n b I). lia.
  - apply P1. lia.
Qed.

(** Votes of the rule set and of the machine on an example on which every
    clause is plain. *)
Theorem sparse_votes_agree : forall n ncls cbs rs lits c, Forall (sp_good n ncls) cbs -> increasing lits -> Forall (all_plain lits) cbs ->
  compile_from_sparse_state (sp_load_state n (nsum (map sp_ncl cbs)) ncls cbs) = Ok rs -> (c < ncls)%nat ->
  rule_vote_total n (vec n lits) (rs_rules rs) (rs_weights rs) c mod 65536 =
  zsum (map (fun b => nth c (snd (sp_eval_ex lits b)) 0) cbs) mod 65536.
Proof.
  intros n ncls cbs rs lits c HG HL HP HC Hc. rewrite (sparse_rule_votes_mod n ncls cbs rs) by auto. symmetry. apply blocks_pick_mod with ncls; auto.
Qed.

Lemma compiled_sparse_wf : forall n ncls cbs rs junk, Forall (sp_good n ncls) cbs ->
  compile_from_sparse_state (sp_load_state n (nsum (map sp_ncl cbs)) ncls cbs) = Ok rs ->
  rs_nliterals rs = n /\ rs_nclasses rs = ncls /\ inf_wf (new_inference n ncls (rs_rules rs) (rs_weights rs) junk).
Proof.
  intros n ncls cbs rs junk H HC. destruct (compile_sparse_ok n ncls cbs H) as [m [M1 M2]]. rewrite M1 in HC. injection HC as <-.
  cbn [rs_rules rs_weights rs_nliterals rs_nclasses]. split; auto. split; auto. destruct M2 as [I1 I2 I3 I4 I5].
  unfold inf_wf. cbn [new_inference inf_rules inf_weights inf_nlit inf_ncls inf_votes inf_imp]. split; [|split; [|split]].
  - apply Forall_forall. intros k Hk. apply I4 in Hk. destruct Hk as [_ [i [row [w [K1 [K2 [K3 _]]]]]]].
    apply Forall_forall. intros l Hl. subst k. apply nth_error_In in K1. apply in_map_iff in K1. destruct K1 as [key [<- K1]].
    eapply included_in_range; [|exact Hl]. unfold drow. rewrite map_length, seq_length. reflexivity.
  - now rewrite !map_length.
  - apply Forall_forall. intros v Hv. apply in_map_iff in Hv. destruct Hv as [[k u] [E' Hv]]. cbn [snd] in E'. subst.
    apply (proj1 (Forall_forall _ _) I3 (k, v) Hv).
  - rewrite repeat_length. lia.
Qed.

Lemma sp_good_eval : forall n ncls lits b, sp_good n ncls b -> sp_good n ncls (fst (sp_eval_ex lits b)).
Proof.
  intros n ncls lits b [I [N [W1 W2]]]. split; [apply sp_eval_ex_inv; auto|]. auto.
Qed.

(** ... and the predicted classes. *)
Theorem sparse_predictor_agrees : forall (L : Type) n ncls (e : exec sblock) rs mode excl junk p (data : list (list nat * L)) out,
  Forall (fun tb => sp_good n ncls (snd tb)) (x_blocks e) -> fb_ready ncls (x_fb e) ->
  compile_from_sparse_state (sp_load_state n (nsum (map sp_ncl (map snd (x_blocks e)))) ncls (map snd (x_blocks e))) = Ok rs ->
  from_ruleset mode excl rs junk = Ok p -> length out = length data ->
  Forall (fun d => increasing (fst d) /\ Forall (fun tb => all_plain (fst d) (snd tb)) (x_blocks e) /\
    forall c, (c < ncls)%nat -> is_int16 (rule_vote_total n (vec n (fst d)) (rs_rules rs) (rs_weights rs) c)) data ->
  exists ys e', eval_predict sblock (list nat) sp_eval_ex L data out e = (true, ys, e') /\
    map (fun d => fst (pred_predict p (vec n (fst d)))) data = map (fun y => Ok (AClass y)) ys.
Proof.
  intros L n ncls e rs mode excl junk p data out HG R HC HP HL HD.
  assert (HG' : Forall (sp_good n ncls) (map snd (x_blocks e))) by (apply Forall_map; auto).
  destruct (compiled_sparse_wf n ncls _ rs junk HG' HC) as [C1 [C2 C3]].
  destruct (eval_predict_gen sblock (list nat) sp_eval_ex ncls (sp_good n ncls)) with (L := L) (data := data) (out := out) (x := e) as [e' Ev]; auto.
  { intros. now apply sp_good_eval. } { intros. now apply (sparse_eval_length n). }
  eexists. exists e'. split; [exact Ev|]. rewrite map_map. apply map_ext_in. intros d Hd. rewrite Forall_forall in HD. destruct (HD d Hd) as [D1 [D2 D3]].
  assert (EP : fst (pred_predict p (vec n (fst d))) = Ok (AClass (fst (inf_predict (new_inference n ncls (rs_rules rs) (rs_weights rs) junk) (vec n (fst d)))))).
  { destruct mode; cbn [from_ruleset] in HP; try discriminate; injection HP as <-; unfold pred_predict; cbn [p_inf p_names];
    rewrite C1, C2; destruct (inf_predict _ _) as [k inf]; reflexivity. }
  rewrite EP. f_equal. f_equal.
  rewrite predictor_class; auto; [|cbn [new_inference inf_nlit]; apply vec_length|].
  2:{ cbn [new_inference inf_ncls inf_nlit inf_rules inf_weights]. intros c Hcc. specialize (D3 c Hcc). unfold is_int16, is_int32 in *. lia. }
  cbn [new_inference inf_ncls inf_nlit inf_rules inf_weights]. f_equal. apply map_ext_in. intros c Hcc. apply in_seq in Hcc.
  rewrite <- (wrap16_small (rule_vote_total _ _ _ _ c)) by (apply D3; lia). apply wrap16_eq_iff.
  rewrite (sparse_votes_agree n ncls (map snd (x_blocks e)) rs (fst d) c); auto; [|apply Forall_map; auto|lia]. unfold votes_sum. rewrite map_map. reflexivity.
Qed.

(** ** Legal states with weights, over histories *)

Definition wshape (b : sblock) : Prop := length (sp_weights b) = sp_ncl b /\ rows_of (sp_ncls b) (sp_weights b).

Lemma wshape_store : forall b k s c al repl w r, wshape b -> wshape (sp_store b k s c al repl w r).
Proof.
  intros b k s c al repl w r [W1 W2]. unfold wshape, sp_store. cbn [sp_weights sp_ncl sp_ncls]. split; [now rewrite set_nth_length|].
  destruct (lt_dec k (length (sp_weights b))) as [H|H].
  - apply Forall_set_nth; auto. rewrite set_nth_length. unfold rows_of in W2. rewrite Forall_forall in W2. apply W2. now apply nth_In.
  - rewrite set_nth_out by lia. auto.
Qed.

Lemma wshape_clause_update : forall boost dynamic lits k c t b, wshape b -> wshape (sp_clause_update boost dynamic lits k c t b).
Proof.
  intros boost dynamic lits k c t b W. unfold sp_clause_update. cbv zeta.
  destruct (_ >? 0).
  - destruct (_ =? 1); [now apply wshape_store|]. destruct (_ =? 0); auto.
    destruct (sp_t1b_row _ _ _) as [ps r]. destruct (sp_t1b_row _ _ _) as [ns r2]. now apply wshape_store.
  - destruct (_ && _); auto. now apply wshape_store.
Qed.

Lemma wshape_update_clause : forall bo boost dynamic lits pc pp nc np b k, wshape b -> wshape (sp_update_clause bo boost dynamic lits pc pp nc np b k).
Proof.
  intros bo boost dynamic lits pc pp nc np b k W. unfold sp_update_clause. destruct (draw_lt (sp_fast b) pp) as [d r]. cbv zeta.
  set (outs := if bo && _ then _ else _). clearbody outs.
  set (b1 := if d then _ else _). assert (W1 : wshape b1) by (unfold b1; destruct d; [apply wshape_clause_update|]; exact W).
  clearbody b1. destruct (draw_lt (sp_fast b1) np) as [d2 r2]. destruct d2; [apply wshape_clause_update|]; exact W1.
Qed.

Lemma wshape_train_update : forall bo boost dynamic lits pc pp nc np b, wshape b -> wshape (sp_train_update bo boost dynamic lits pc pp nc np b).
Proof.
  intros bo boost dynamic lits pc pp nc np b. unfold sp_train_update. generalize (seq 0 (sp_ncl b)). intros ks. revert b.
  induction ks as [|k ks IH]; intros b W; cbn [fold_left]; auto. apply IH. now apply wshape_update_clause.
Qed.

Lemma sp_good_update : forall bo boost dynamic lits pc pp nc np n ncls b, Forall (fun l => (l < n)%nat) lits -> sp_good n ncls b ->
  sp_good n ncls (sp_train_update bo boost dynamic lits pc pp nc np b).
Proof.
  intros bo boost dynamic lits pc pp nc np n ncls b HL [I [N [W1 W2]]].
  destruct (sp_train_update_inv bo boost dynamic lits pc pp nc np n b I HL) as [I' S'].
  destruct (wshape_train_update bo boost dynamic lits pc pp nc np b) as [V1 V2]; [split; congruence|].
  assert (N' : sp_ncls (sp_train_update bo boost dynamic lits pc pp nc np b) = ncls) by (destruct S' as [_ [S2 _]]; congruence).
  split; auto. split; auto. split; auto. rewrite N' in V2. exact V2.
Qed.

Theorem sparse_history_good : forall (bo boost dynamic : bool) L (process : L -> fblock -> fblock) n ncls calls x,
  Forall (fun c => Forall (fun d => Forall (fun l => (l < n)%nat) (fst d)) (gdata (list nat) L c)) calls ->
  Forall (fun tb => sp_good n ncls (snd tb)) (x_blocks x) ->
  Forall (fun tb => sp_good n ncls (snd tb))
    (x_blocks (grun sblock (list nat) (sp_train_ex bo) sp_eval_ex (sp_upd bo boost dynamic) L process calls x)).
Proof.
  intros bo boost dynamic L process n ncls calls x HC HX.
  apply (grun_P sblock (list nat) (sp_train_ex bo) sp_eval_ex (sp_upd bo boost dynamic) L process (sp_good n ncls) (Forall (fun l => (l < n)%nat))); auto.
  - intros e b He [I [N [W1 W2]]]. split; [apply sp_train_ex_inv; auto|]. auto.
  - intros e b He Hb. apply sp_good_eval; auto.
  - intros e pc pp nc np b He Hb. apply sp_good_update; auto.
Qed.

Theorem sp_initialize_good : forall bo fast_of junk nlit ncl ncls csize alsize thr budget si sm seed b, (1 <= alsize)%nat ->
  sp_initialize bo fast_of junk nlit ncl ncls csize alsize thr budget si sm seed = Some b -> sp_good nlit ncls b.
Proof.
  intros bo fast_of junk nlit ncl ncls csize alsize thr budget si sm seed b Ha H.
  destruct (sp_initialize_inv bo fast_of junk nlit ncl ncls csize alsize thr budget si sm seed b Ha H) as [I [E1 [E2 _]]].
  split; auto. split; auto. unfold sp_initialize in H.
  destruct (seed =? 0); [discriminate|]. destruct (bo && (budget <? 1)); [discriminate|].
  pose proof (init_weights_spec ncls ncl (fast_of seed)) as W. destruct (init_weights ncls ncl (fast_of seed)) as [ws f]. injection H as <-.
  destruct W as [W1 [_ W2]]. cbn [sp_weights sp_ncl]. split; auto. unfold rows_of. apply Forall_forall. intros w Hw.
  destruct (In_nth _ _ [] Hw) as [k [K1 K2]]. subst w. apply W2. lia.
Qed.
