(** Invariant of the python sparse state. *)
From Coq Require Import ZArith List Bool QArith Lia Permutation ZifyBool.
From Verif Require Import Base BaseProofs Spec SpecLearning ModelInference ModelDense ModelFeedback ModelExecutor ModelSparse ModelPy ModelPySparse SpecPySparse
  ProofsLearning ProofsSparse ProofsFeedback ProofsPyHist ProofsPySparse ProofsPySparseFb.
Import ListNotations.
Open Scope Z_scope.

Lemma nth_set : forall A i j (v d : A) l, nth j (set_nth i v l) d = if (j =? i)%nat && (i <? length l)%nat then v else nth j l d.
Proof.
  intros A i j v d l. destruct (Nat.eq_dec j i) as [->|N].
  - rewrite Nat.eqb_refl. cbn [andb]. destruct (i <? length l)%nat eqn:E; [apply nth_set_nth_eq; lia|]. rewrite set_nth_out by lia. reflexivity.
  - rewrite nth_set_nth_neq by auto. replace (j =? i)%nat with false by lia. reflexivity.
Qed.

(** ** Feedback keeps the sides well formed *)

Definition rows_ok (n : nat) (q : rows2) : Prop := side_ok n (r_prow q) (r_psts q) /\ side_ok n (r_nrow q) (r_nsts q).

Lemma touch_ok : forall n p d ix st al lit r, side_ok n ix st -> active_ok n al -> (lit < n)%nat ->
  exists st' al' r', ps_touch p d ix st al lit r = Ok (st', al', r') /\ side_ok n ix st' /\ active_ok n al'.
Proof.
  intros n p d ix st al lit r [HL [ND HF]] HA Hl. destruct (touch_spec p d ix st al lit r ND HL) as [st' [E [L _]]]; [apply HA|].
  eexists st', _, _. split; [exact E|]. split; [split; [lia|auto]|]. destruct (memb lit ix); auto. apply see_ok; auto.
Qed.
Lemma t1a_ok : forall n s lits q ap an r, rows_ok n q -> active_ok n ap -> active_ok n an -> Forall (fun l => (l < n)%nat) lits ->
  exists q' ap' an' r', ps_t1a s lits q ap an r = Ok (q', ap', an', r') /\ rows_ok n q' /\ active_ok n ap' /\ active_ok n an'.
Proof.
  intros n s lits q ap an r [HP HN] HAP HAN HF. unfold ps_t1a.
  destruct (rfold_P _ _ (fun st : list Z * list Z * list nat * list nat * rng => let '(ps, ns, ap, an, r) := st in
      side_ok n (r_prow q) ps /\ side_ok n (r_nrow q) ns /\ active_ok n ap /\ active_ok n an)
      (ps_t1a_lit (1 / s) ((s - 1) / s) (r_prow q) (r_nrow q)) lits (r_psts q, r_nsts q, ap, an, r)) as [[[[[ps ns] ap'] an'] r1] [E [P1 [P2 [P3 P4]]]]].
  - auto.
  - intros l [[[[ps ns] a1] a2] r1] I [P1 [P2 [P3 P4]]]. eapply Forall_forall in HF; eauto. unfold ps_t1a_lit.
    destruct (touch_ok n ((s - 1) / s) 1 _ _ _ l r1 P1 P3 HF) as [x1 [x2 [x3 [E1 [Q1 Q2]]]]]. rewrite E1. cbn [rbind].
    destruct (touch_ok n (1 / s) (-1) _ _ _ l x3 P2 P4 HF) as [y1 [y2 [y3 [E2 [Q3 Q4]]]]]. rewrite E2. cbn [rbind].
    eexists. split; [reflexivity|]. exact (conj Q1 (conj Q3 (conj Q2 Q4))).
  - rewrite E. cbn [rbind]. destruct P1 as [L1 D1]. destruct P2 as [L2 D2].
    pose proof (drift_spec (1 / s) (-1) lits (r_prow q) ps r1 L1) as A. destruct (ps_drift _ (-1) lits (r_prow q) ps r1) as [ps' r2]. destruct A as [A _].
    pose proof (drift_spec ((s - 1) / s) 1 lits (r_nrow q) ns r2 L2) as B. destruct (ps_drift _ 1 lits (r_nrow q) ns r2) as [ns' r3]. destruct B as [B _].
    eexists _, _, _, _. split; [reflexivity|]. split; [split; split; cbn [r_prow r_psts r_nrow r_nsts]; auto; lia|]. auto.
Qed.
Lemma t1b_ok : forall n s q r, rows_ok n q -> rows_ok n (fst (ps_t1b s q r)).
Proof.
  intros n s q r [[L1 D1] [L2 D2]]. unfold ps_t1b.
  pose proof (fall_spec (1 / s) (r_psts q) r) as A. destruct (ps_fall _ (r_psts q) r) as [ps r1]. destruct A as [A _].
  pose proof (fall_spec (1 / s) (r_nsts q) r1) as B. destruct (ps_fall _ (r_nsts q) r1) as [ns r2]. destruct B as [B _].
  cbn [fst]. split; split; cbn [r_prow r_psts r_nrow r_nsts]; auto; lia.
Qed.
Lemma NoDup_app_filter : forall (f : nat -> bool) a b, NoDup a -> NoDup b -> NoDup (a ++ filter (fun l => negb (memb l a) && f l) b).
Proof.
  intros f a b Ha Hb. assert (K : forall l, In l (filter (fun l => negb (memb l a) && f l) b) -> ~ In l a).
  { intros l I. apply filter_In in I. destruct I as [_ I]. apply memb_not_In. destruct (memb l a); [discriminate|auto]. }
  assert (D : NoDup (filter (fun l => negb (memb l a) && f l) b)) by (apply NoDup_filter; auto).
  revert K D. generalize (filter (fun l => negb (memb l a) && f l) b). intros c K D. clear b Hb.
  induction Ha as [|x a NI Ha IH]; cbn [app]; auto. constructor.
  - intros I. apply in_app_or in I. destruct I as [I|I]; [contradiction|]. apply (K x I). left; auto.
  - apply IH. intros l I J. apply (K l I). right; auto.
Qed.
Lemma t2_side_ok : forall n want lits ix st al, side_ok n ix st -> active_ok n al ->
  let '(ix', st') := fold_left (ps_t2_add want lits) al (ix, ps_t2_up want lits ix st) in side_ok n ix' st'.
Proof.
  intros n want lits ix st al [HL [ND HF]] [AD [_ AF]]. rewrite t2_add_spec by auto. cbv zeta. split; [|split].
  - rewrite !app_length, repeat_length. destruct (t2_up_spec want lits ix st HL) as [L _]. lia.
  - apply NoDup_app_filter; auto.
  - apply Forall_app. split; auto. apply Forall_forall. intros l I. apply filter_In in I. eapply Forall_forall in AF; [|apply I]. auto.
Qed.
Lemma t2_ok : forall n lits q ap an, rows_ok n q -> active_ok n ap -> active_ok n an -> rows_ok n (ps_t2 lits q ap an).
Proof.
  intros n lits q ap an [HP HN] HAP HAN. unfold ps_t2.
  pose proof (t2_side_ok n false lits _ _ ap HP HAP) as A. destruct (fold_left _ ap _) as [p ps].
  pose proof (t2_side_ok n true lits _ _ an HN HAN) as B. destruct (fold_left _ an _) as [m ms].
  split; auto.
Qed.

(** ** Stores *)

Lemma store_shape : forall n ncls ncl b k q c ap an w r, ps_shape n ncls ncl b -> rows_ok n q -> active_ok n ap -> active_ok n an -> is_int8 w ->
  ps_shape n ncls ncl (ps_store b k q c ap an w r).
Proof.
  intros n ncls ncl b k q c ap an w r H [HP HN] HA1 HA2 HW. destruct H as [K1 K2 K3 K4 K5 K6 K7 K8 K9 K10]. constructor; unfold ps_store;
    cbn [q_ncl q_ncls q_index q_states q_al q_weights q_counts]; rewrite ?set_nth_length; auto.
  - apply Forall_forall. intros row I. destruct (In_nth _ _ [] I) as [j [Hj E]]. rewrite set_nth_length in Hj. rewrite nth_set in E.
    destruct ((j =? k)%nat && (k <? length (q_weights b))%nat) eqn:X.
    + subst row. assert (R : length (nth k (q_weights b) []) = ncls /\ Forall is_int8 (nth k (q_weights b) [])).
      { apply (proj1 (Forall_forall _ _) K7). apply nth_In. lia. }
      destruct R. split; [rewrite set_nth_length; auto|]. apply Forall_set; auto.
    + subst row. apply (proj1 (Forall_forall _ _) K7). apply nth_In. auto.
  - intros j. rewrite !nth_set, !set_nth_length, K3, K4.
    destruct ((j =? k + q_ncl b)%nat && _); auto. destruct ((j =? k)%nat && _); auto.
  - intros j. rewrite !nth_set, !set_nth_length. destruct ((j =? c + q_ncls b)%nat && _); auto. destruct ((j =? c)%nat && _); auto.
Qed.
Lemma rows_shape : forall n ncls ncl b k, ps_shape n ncls ncl b -> rows_ok n (ps_rows b k).
Proof. intros n ncls ncl b k H. split; apply H. Qed.
Lemma nth_int8 : forall ws c, Forall is_int8 ws -> is_int8 (nth c ws 0).
Proof.
  intros ws c H. destruct (lt_dec c (length ws)) as [L|L].
  - eapply Forall_forall in H; [exact H|]. apply nth_In; auto.
  - rewrite nth_overflow by lia. unfold is_int8. lia.
Qed.
Lemma weight_int8 : forall n ncls ncl b k c, ps_shape n ncls ncl b -> is_int8 (nth c (nth k (q_weights b) []) 0).
Proof.
  intros n ncls ncl b k c H. apply nth_int8. destruct (lt_dec k (length (q_weights b))) as [L|L].
  - pose proof (pk_width _ _ _ _ H) as W. eapply Forall_forall in W; [apply W|]. apply nth_In; auto.
  - rewrite (nth_overflow (q_weights b)) by lia. auto.
Qed.

Definition other_rows (b b' : psblock) (k : nat) : Prop :=
  q_ncl b' = q_ncl b /\ forall j, j <> k -> j <> (k + q_ncl b)%nat ->
    nth j (q_index b') [] = nth j (q_index b) [] /\ nth j (q_states b') [] = nth j (q_states b) [].
Lemma other_rows_trans : forall a b c k, other_rows a b k -> other_rows b c k -> other_rows a c k.
Proof.
  intros a b c k [A1 A2] [B1 B2]. split; [congruence|]. intros j N1 N2. destruct (A2 j N1 N2) as [X1 X2].
  destruct (B2 j N1) as [Y1 Y2]; [congruence|]. split; congruence.
Qed.
Lemma store_others : forall b k q c ap an w r, other_rows b (ps_store b k q c ap an w r) k.
Proof.
  intros. split; auto. intros j N1 N2. unfold ps_store. cbn [q_index q_states]. rewrite !nth_set_nth_neq by auto. auto.
Qed.

Lemma update_clause_ok : forall n ncls ncl lits k t c b, ps_shape n ncls ncl b -> Forall (fun l => (l < n)%nat) lits ->
  exists b', ps_update_clause lits k t c b = Ok b' /\ ps_shape n ncls ncl b' /\ other_rows b b' k.
Proof.
  intros n ncls ncl lits k t c b H HF. unfold ps_update_clause.
  pose proof (rows_shape _ _ _ _ k H) as R. pose proof (pk_active _ _ _ _ H) as A. pose proof (weight_int8 _ _ _ _ k c H) as W.
  set (w := nth c (nth k (q_weights b) []) 0) in *.
  destruct (_ >? 0).
  - destruct (_ =? 1).
    + destruct (t1a_ok n (q_s b) lits (ps_rows b k) (nth c (q_al b) []) (nth (c + q_ncls b) (q_al b) []) (q_rng b)) as [q [ap [an [r [E [Q1 [Q2 Q3]]]]]]]; auto.
      rewrite E. cbn [rbind]. eexists. split; [reflexivity|]. split; [apply store_shape; auto; apply wrap8_range|apply store_others].
    + pose proof (t1b_ok n (q_s b) (ps_rows b k) (q_rng b) R) as T. destruct (ps_t1b _ _ _) as [q r]. cbn [fst] in T.
      eexists. split; [reflexivity|]. split; [apply store_shape; auto|apply store_others].
  - destruct (_ && _).
    + eexists. split; [reflexivity|]. split; [apply store_shape; auto; [apply t2_ok; auto|apply wrap8_range]|apply store_others].
    + eexists. split; [reflexivity|]. split; auto. split; auto.
Qed.

Lemma with_rng_shape : forall n ncls ncl b o r, ps_shape n ncls ncl b -> ps_shape n ncls ncl (ps_with_rng b o r).
Proof. intros n ncls ncl b o r H. destruct H as [K1 K2 K3 K4 K5 K6 K7 K8 K9 K10]. constructor; auto. Qed.
Lemma with_outputs_ok : forall n ncls ncl b o, ps_ok n ncls ncl b -> ps_ok n ncls ncl (ps_with_outputs b o).
Proof. intros n ncls ncl b o [H F]. split; [|exact F]. destruct H as [K1 K2 K3 K4 K5 K6 K7 K8 K9 K10]. constructor; auto. Qed.

Lemma with_rows_shape : forall n ncls ncl b k q, ps_shape n ncls ncl b -> rows_ok n q -> ps_shape n ncls ncl (ps_with_rows b k q).
Proof.
  intros n ncls ncl b k q H [HP HN]. destruct H as [K1 K2 K3 K4 K5 K6 K7 K8 K9 K10]. constructor; unfold ps_with_rows;
    cbn [q_ncl q_ncls q_index q_states q_al q_weights q_counts]; rewrite ?set_nth_length; auto.
  intros j. rewrite !nth_set, !set_nth_length, K3, K4.
  destruct ((j =? k + q_ncl b)%nat && _); auto. destruct ((j =? k)%nat && _); auto.
Qed.

Lemma train_clause_ok : forall n ncls ncl lits pc pp nc np b k, ps_ok n ncls ncl b -> Forall (fun l => (l < n)%nat) lits -> (k < ncl)%nat ->
  exists b', ps_train_clause lits pc pp nc np b k = Ok b' /\ ps_ok n ncls ncl b' /\ other_rows b b' k.
Proof.
  intros n ncls ncl lits pc pp nc np b k [H F] HL HK. unfold ps_train_clause.
  set (outs := if q_do_budget b && _ then set_nth k 0 (q_outputs b) else q_outputs b). rewrite draw_lt_eq. set (b0 := ps_with_rng b outs _).
  assert (H0 : ps_shape n ncls ncl b0) by (apply with_rng_shape; auto).
  assert (O0 : other_rows b b0 k) by (split; auto).
  assert (S1 : exists b1, (if Qlt_bool (draw (q_rng b) 0) pp then ps_update_clause lits k 1 pc b0 else Ok b0) = Ok b1 /\ ps_shape n ncls ncl b1 /\ other_rows b0 b1 k).
  { destruct (Qlt_bool (draw (q_rng b) 0) pp); [apply (update_clause_ok n ncls ncl); auto|]. exists b0. split; [reflexivity|]. split; [exact H0|split; auto]. }
  destruct S1 as [b1 [E1 [H1 O1]]]. rewrite E1. cbn [rbind]. rewrite draw_lt_eq. set (b2 := ps_with_rng b1 _ _).
  assert (H2 : ps_shape n ncls ncl b2) by (apply with_rng_shape; auto).
  assert (O2 : other_rows b1 b2 k) by (split; auto).
  assert (S3 : exists b3, (if Qlt_bool (draw (q_rng b1) 0) np then ps_update_clause lits k (-1) nc b2 else Ok b2) = Ok b3 /\ ps_shape n ncls ncl b3 /\ other_rows b2 b3 k).
  { destruct (Qlt_bool (draw (q_rng b1) 0) np); [apply (update_clause_ok n ncls ncl); auto|]. exists b2. split; [reflexivity|]. split; [exact H2|split; auto]. }
  destruct S3 as [b3 [E3 [H3 O3]]]. rewrite E3. cbn [rbind].
  assert (OT : other_rows b b3 k) by (eapply other_rows_trans; [exact O0|]; eapply other_rows_trans; [exact O1|]; eapply other_rows_trans; [exact O2|exact O3]).
  destruct (rows_shape _ _ _ _ k H3) as [RP RN]. pose proof (prune_side_ok _ _ _ RP) as P. pose proof (prune_side_ok _ _ _ RN) as N.
  eexists. split; [reflexivity|]. unfold ps_prune_rows.
  destruct (ps_prune (r_psts (ps_rows b3 k)) 0 _ _) as [p ps]. destruct (ps_prune (r_nsts (ps_rows b3 k)) 0 _ _) as [m ms].
  destruct P as [P FP]. destruct N as [N FN]. split; [split|].
  - apply with_rows_shape; auto. split; auto.
  - intros j. unfold ps_with_rows. cbn [q_states r_nsts r_psts]. rewrite !nth_set, !set_nth_length.
    rewrite (pk_states _ _ _ _ H3), (pk_ncl _ _ _ _ H3).
    destruct (Nat.eq_dec j (k + ncl)) as [->|N1].
    { rewrite Nat.eqb_refl. replace (k + ncl <? ncl * 2)%nat with true by lia. auto. }
    replace (j =? k + ncl)%nat with false by lia. cbn [andb].
    destruct (Nat.eq_dec j k) as [->|N2].
    { rewrite Nat.eqb_refl. replace (k <? ncl * 2)%nat with true by lia. auto. }
    replace (j =? k)%nat with false by lia. cbn [andb]. destruct OT as [_ OT]. destruct (OT j N2) as [_ X]; [rewrite (pk_ncl _ _ _ _ H); auto|]. rewrite X. apply F.
  - eapply other_rows_trans; [exact OT|]. split; auto. intros j N1 N2. unfold ps_with_rows. cbn [q_index q_states]. rewrite !nth_set_nth_neq by auto. auto.
Qed.
Lemma train_update_ok : forall n ncls ncl lits pc pp nc np b, ps_ok n ncls ncl b -> Forall (fun l => (l < n)%nat) lits ->
  exists b', ps_train_update lits pc pp nc np b = Ok b' /\ ps_ok n ncls ncl b'.
Proof.
  intros n ncls ncl lits pc pp nc np b H HL. unfold ps_train_update. apply rfold_P; auto. intros k b0 I H0.
  apply in_seq in I. rewrite (pk_ncl _ _ _ _ (proj1 H)) in I.
  destruct (train_clause_ok n ncls ncl lits pc pp nc np b0 k H0 HL) as [b' [E [H' _]]]; [lia|]. eauto.
Qed.

(** ** The executor *)

Definition blocks_ok (n ncls : nat) (bs : list (bool * psblock)) (sizes : list nat) : Prop :=
  Forall2 (fun tb ncl => ps_ok n ncls ncl (snd tb)) bs sizes.
Definition fb_fit (ncls : nat) (fb : fblock) : Prop := fb_ncls fb = ncls /\ (0 < fb_thr fb)%Q /\ length (fb_votes fb) = ncls.
Definition fits (n : nat) (e : list nat) : Prop := Forall (fun l => (l < n)%nat) e.

Lemma votes_len : forall b, length (ps_votes b) = q_ncls b.
Proof. intros. unfold ps_votes. rewrite map_length, seq_length. reflexivity. Qed.

Lemma train_ex_ok : forall n ncls ncl e b, (ncls <= ncl)%nat -> ps_ok n ncls ncl b ->
  exists b' v, ps_train_ex e b = Ok (b', v) /\ ps_ok n ncls ncl b' /\ length v = ncls.
Proof.
  intros n ncls ncl e b HC H. unfold ps_train_ex. rewrite (set_output_ok n ncls ncl) by (auto; apply H). cbn [rbind].
  eexists _, _. split; [reflexivity|]. split; [apply with_outputs_ok; auto|]. rewrite votes_len. apply H.
Qed.
Lemma eval_ex_ok : forall n ncls ncl e b, (ncls <= ncl)%nat -> ps_ok n ncls ncl b ->
  exists b' v, ps_eval_ex e b = Ok (b', v) /\ ps_ok n ncls ncl b' /\ length v = ncls.
Proof.
  intros n ncls ncl e b HC H. unfold ps_eval_ex. destruct (eval_output_ok n ncls ncl b e (proj1 H) HC) as [o [E _]]. rewrite E. cbn [rbind].
  eexists _, _. split; [reflexivity|]. split; [apply with_outputs_ok; auto|]. rewrite votes_len. apply H.
Qed.

Lemma ps_run_ok : forall n ncls f, (forall ncl e b, (ncls <= ncl)%nat -> ps_ok n ncls ncl b ->
    exists b' v, f e b = Ok (b', v) /\ ps_ok n ncls ncl b' /\ length v = ncls) ->
  forall e bs fb sizes, Forall (fun ncl => (ncls <= ncl)%nat) sizes -> blocks_ok n ncls bs sizes -> fb_fit ncls fb ->
  exists bs' fb', ps_run f e bs fb = Ok (bs', fb') /\ blocks_ok n ncls bs' sizes /\ fb_fit ncls fb'.
Proof.
  intros n ncls f Hf e bs. induction bs as [|[t b] bs IH]; intros fb sizes HS H HFB; inversion H; subst; cbn [ps_run].
  - eexists _, _. split; [reflexivity|]. split; [constructor|auto].
  - inversion HS; subst. match goal with A : ps_ok _ _ _ _ |- _ => cbn [snd] in A; destruct (Hf _ e b ltac:(eassumption) A) as [b1 [v [E [K1 K2]]]] end.
    rewrite E. cbn [rbind].
    match goal with A : Forall2 _ bs ?l |- _ => destruct (IH (py_register v fb) l) as [bs2 [fb2 [E2 [K3 K4]]]]; auto end.
    { destruct HFB as [F1 [F2 F3]]. split; [exact F1|]. split; [exact F2|exact K2]. }
    rewrite E2. cbn [rbind]. eexists _, _. split; [reflexivity|]. split; auto. constructor; auto.
Qed.
Lemma process_ok : forall ncls label fb, fb_fit ncls fb -> (2 <= ncls)%nat -> (label < ncls)%nat ->
  exists fb', py_process label fb = Ok fb' /\ fb_fit ncls fb'.
Proof.
  intros ncls label fb [F1 [F2 F3]] H2 HL. unfold py_process.
  rewrite (firstn_all2 (fb_votes fb)) by lia. fold (neg_weights (fb_thr fb) (fb_votes fb) label).
  pose proof (neg_weights_sum (fb_thr fb) (fb_votes fb) label F2 ltac:(lia) ltac:(lia)) as S0.
  destruct (Qeq_bool _ 0) eqn:E.
  { apply Qeq_bool_iff in E. rewrite E in S0. exfalso. inversion S0. }
  unfold next_u. eexists. split; [reflexivity|]. split; [exact F1|]. split; [exact F2|exact F3].
Qed.
Lemma updates_ok : forall n ncls e fb bs sizes, fits n e -> blocks_ok n ncls bs sizes ->
  exists bs', ps_updates e fb bs = Ok bs' /\ blocks_ok n ncls bs' sizes.
Proof.
  intros n ncls e fb bs sizes HE H. unfold ps_updates. induction H as [|[t b] ncl bs sizes Hb H IH]; cbn [rmap].
  - eexists. split; [reflexivity|constructor].
  - destruct IH as [bs' [E K]]. cbn [snd] in Hb.
    assert (T : exists b', (if t then rbind (ps_train_update e (fb_pos fb) (fb_pp fb) (fb_neg fb) (fb_np fb) b) (fun b => Ok (t, b)) else Ok (t, b)) = Ok (t, b')
      /\ ps_ok n ncls ncl b').
    { destruct t; [|eauto]. destruct (train_update_ok n ncls ncl e (fb_pos fb) (fb_pp fb) (fb_neg fb) (fb_np fb) b Hb HE) as [b' [E' K']]. rewrite E'. cbn [rbind]. eauto. }
    destruct T as [b' [E1 K1]]. rewrite E1. cbn [rbind]. rewrite E. cbn [rbind]. eexists. split; [reflexivity|]. constructor; auto.
Qed.
Lemma reset_fit : forall ncls fb, fb_fit ncls fb -> fb_fit ncls (py_reset fb).
Proof. intros ncls fb [F1 [F2 F3]]. split; [exact F1|]. split; [exact F2|]. cbn [py_reset fb_reset fb_votes]. unfold py_reset, fb_reset. cbn [fb_votes]. rewrite repeat_length. exact F3. Qed.

Lemma train_one_ok : forall n ncls bs fb d sizes, (2 <= ncls)%nat -> Forall (fun ncl => (ncls <= ncl)%nat) sizes ->
  example_ok n ncls d -> blocks_ok n ncls bs sizes -> fb_fit ncls fb ->
  exists bs' fb', ps_train_one (bs, fb) d = Ok (bs', fb') /\ blocks_ok n ncls bs' sizes /\ fb_fit ncls fb'.
Proof.
  intros n ncls bs fb d sizes H2 HS [HE HL] H HF. unfold ps_train_one. cbn [fst snd].
  destruct (ps_run_ok n ncls ps_train_ex (fun ncl e b => train_ex_ok n ncls ncl e b) (fst d) bs (py_reset fb) sizes HS H (reset_fit _ _ HF)) as [b1 [f1 [E1 [K1 K2]]]].
  rewrite E1. cbn [rbind]. destruct (process_ok ncls (snd d) f1 K2 H2 HL) as [f2 [E2 K3]]. rewrite E2. cbn [rbind].
  destruct (updates_ok n ncls (fst d) f2 b1 sizes HE K1) as [b3 [E3 K4]]. rewrite E3. cbn [rbind]. eauto.
Qed.

Definition sx_ok (n ncls : nat) (sizes : list nat) (x : psexec) : Prop :=
  blocks_ok n ncls (sx_blocks x) sizes /\ fb_fit ncls (sx_fb x).

Lemma epoch_ok : forall n ncls sizes data x, (2 <= ncls)%nat -> Forall (fun ncl => (ncls <= ncl)%nat) sizes ->
  Forall (example_ok n ncls) data -> sx_ok n ncls sizes x -> exists acc x', ps_train_epoch data x = Ok (acc, x') /\ sx_ok n ncls sizes x'.
Proof.
  intros n ncls sizes data x H2 HS HD [HB HF]. unfold ps_train_epoch. destruct (shuffle _ _) as [idx r].
  destruct (rfold_P _ _ (fun s => blocks_ok n ncls (fst s) sizes /\ fb_fit ncls (snd s)) ps_train_one (select (list nat) nat data idx) (sx_blocks x, fb_reset_counter (sx_fb x)))
    as [[bs fb] [E [K1 K2]]].
  - split; [exact HB|]. destruct HF as [F1 [F2 F3]]. split; [exact F1|]. split; [exact F2|exact F3].
  - intros d [bs fb] I [K1 K2]. assert (D : example_ok n ncls d).
    { apply in_flat_map in I. destruct I as [i [_ I]]. destruct (nth_error data i) as [d0|] eqn:N; [|easy]. destruct I as [I|[]]. subst d0.
      eapply Forall_forall in HD; [exact HD|]. eapply nth_error_In; eauto. }
    destruct (train_one_ok n ncls bs fb d sizes H2 HS D K1 K2) as [b' [f' [E [Q1 Q2]]]]. exists (b', f'). auto.
  - rewrite E. cbn [rbind]. eexists _, _. split; [reflexivity|]. split; auto.
Qed.
Lemma eval_list_ok : forall n ncls sizes, Forall (fun ncl => (ncls <= ncl)%nat) sizes -> forall es bs fb,
  blocks_ok n ncls bs sizes -> fb_fit ncls fb ->
  exists ys bs' fb', ps_eval_list es bs fb = Ok (ys, bs', fb') /\ length ys = length es /\ blocks_ok n ncls bs' sizes /\ fb_fit ncls fb'.
Proof.
  intros n ncls sizes HS es. induction es as [|e es IH]; intros bs fb HB HF; cbn [ps_eval_list].
  - eexists _, _, _. split; [reflexivity|]. auto.
  - destruct (ps_run_ok n ncls ps_eval_ex (fun ncl e b => eval_ex_ok n ncls ncl e b) e bs (py_reset fb) sizes HS HB (reset_fit _ _ HF)) as [b1 [f1 [E1 [K1 K2]]]].
    rewrite E1. cbn [rbind]. destruct (IH b1 f1 K1 K2) as [ys [b2 [f2 [E2 [L [K3 K4]]]]]]. rewrite E2. cbn [rbind].
    eexists _, _, _. split; [reflexivity|]. cbn [length]. auto.
Qed.
Lemma eval_predict_ok : forall n ncls sizes data out x, Forall (fun ncl => (ncls <= ncl)%nat) sizes -> sx_ok n ncls sizes x ->
  exists p x', ps_eval_predict data out x = Ok (p, x') /\ sx_ok n ncls sizes x'.
Proof.
  intros n ncls sizes data out x HS [HB HF]. unfold ps_eval_predict. destruct (negb _).
  - eexists _, _. split; [reflexivity|]. split; auto.
  - destruct (eval_list_ok n ncls sizes HS (map fst data) (sx_blocks x) (sx_fb x) HB HF) as [ys [b2 [f2 [E2 [L [K3 K4]]]]]]. rewrite E2. cbn [rbind].
    eexists _, _. split; [reflexivity|]. split; auto.
Qed.
Theorem ps_history : forall n ncls sizes cs x, (2 <= ncls)%nat -> Forall (fun ncl => (ncls <= ncl)%nat) sizes ->
  Forall (fun c => Forall (example_ok n ncls) (ps_data c)) cs -> sx_ok n ncls sizes x ->
  exists x', ps_calls cs x = Ok x' /\ sx_ok n ncls sizes x'.
Proof.
  intros n ncls sizes cs. induction cs as [|c cs IH]; intros x H2 HS HD HX; cbn [ps_calls]; eauto.
  inversion HD; subst. destruct c as [d|d out]; cbn [ps_data] in *.
  - destruct (epoch_ok n ncls sizes d x) as [acc [x' [E K]]]; auto. rewrite E. apply IH; auto.
  - destruct (eval_predict_ok n ncls sizes d out x) as [p [x' [E K]]]; auto. rewrite E. destruct p. apply IH; auto.
Qed.

Lemma nth_repeat_nil : forall A m j, nth j (repeat (@nil A) m) [] = [].
Proof. intros A m. induction m as [|m IH]; intros [|j]; cbn; auto. Qed.
Lemma initialize_ok : forall g n ncl ncls bud db s seed, ps_ok n ncls ncl (ps_initialize g n ncl ncls bud db s seed).
Proof.
  intros. unfold ps_initialize. pose proof (init_weights_ok ncls ncl (g seed)) as W. destruct (init_weights ncls ncl (g seed)) as [ws r]. cbn [fst] in W. destruct W as [W1 W2].
  split; [constructor|]; cbn [q_ncl q_ncls q_index q_states q_al q_weights q_counts]; rewrite ?repeat_length; auto.
  - intros j. rewrite !nth_repeat_nil. split; auto. split; constructor.
  - intros c. rewrite nth_repeat_nil. split; [constructor|]. split; [cbn; lia|constructor].
  - intros j. cbn [q_states]. rewrite nth_repeat_nil. constructor.
Qed.
