(** Creation and release of a convolutional block; its whole life. *)
From Coq Require Import ZArith List Bool QArith Lia ZifyBool.
From Verif Require Import Base ModelHeap ModelDense ModelFeedback ModelExecutor ModelConv ModelTMHeap ModelConvHeap SpecHeap SpecConvHeap
  ModelHeapRun ProofsHeap ProofsTMHeap ProofsTMHeapB ProofsTMHeapC ProofsTMHeapD ProofsTMHeapE ProofsTMHeapF ProofsTMHeapG ProofsHeapRun
  ProofsConvHeap ProofsConvHeapB ProofsConvHeapC.
Import ListNotations.
Open Scope Z_scope.

Lemma fill_none : forall j n k, fill_from j k (repeat None n) = map j (seq k n).
Proof. induction n; intros k; cbn [repeat fill_from seen seq map]; [reflexivity|]. now rewrite IHn. Qed.
Lemma none_in : forall np n, Forall (in_patches np) (repeat None n).
Proof. induction n; constructor; auto. exact I. Qed.

Definition conv_kinds (bo : bool) : list (option kind) := fresh_kinds bo ++ [Some KNew; Some KNew].

Lemma conv_init_ok : forall bo std_of fast_of j nlit ncl ncls np seed c h,
  fits nlit ncl ncls -> seed <> 0 -> (0 < np)%nat -> Z.of_nat (np * nlit) <= int_max ->
  hs_ncl (hc_s c) = Z.of_nat ncl -> hs_nlit (hc_s c) = Z.of_nat nlit -> hs_ncls (hc_s c) = Z.of_nat ncls -> hc_np c = Z.of_nat np ->
  exists v c' h',
    conv_initialize std_of fast_of (map (j_counts j) (seq 0 ncl)) (map (j_active j) (seq 0 ncl)) (map (j_ppc j) (seq 0 np))
      (Z.of_nat np) nlit ncl ncls (hs_budget (hc_s c)) (hs_s_inv (hc_s c)) (hs_s_min1_inv (hc_s c)) seed = Some v /\
    h_conv_initialize bo std_of fast_of seed c h = Some ((true, c'), h') /\
    is_conv bo j (fresh_ids (length h)) (length h + per bo) (length h + per bo + 1) h' c' v /\
    cv_np v = np /\ b_nlit (cv_b v) = nlit /\ b_ncls (cv_b v) = ncls /\
    (forall id, (id < length h)%nat -> nth_error h' id = nth_error h id) /\
    kinds h' = kinds h ++ conv_kinds bo.
Proof.
  intros bo std_of fast_of j nlit ncl ncls np seed c h FT SD NP NF N1 N2 N3 N4.
  destruct (initialize_ok bo std_of fast_of nlit ncl ncls (hs_budget (hc_s c)) (hs_s_inv (hc_s c)) (hs_s_min1_inv (hc_s c)) seed
              (map (j_counts j) (seq 0 ncl)) (hc_s c) h)
    as (b & s1 & h1 & I1 & E1 & B1 & [_ CN] & M1 & M2 & M3 & K1 & Q1); auto.
  assert (BD : b_nlit b = nlit /\ b_ncls b = ncls /\ b_counts b = map (j_counts j) (seq 0 ncl) /\ length (b_clauses b) = ncl).
  { unfold initialize in I1. destruct (seed =? 0); [discriminate|].
    destruct (init_clauses nlit ncl (std_of seed)) as [cs r] eqn:EC. destruct (init_weights _ _ _). injection I1 as <-.
    cbn [b_nlit b_ncls b_counts b_clauses]. apply init_clauses_flat in EC. tauto. }
  destruct BD as (BD1 & BD2 & BD3 & BD4).
  assert (L1 : length h1 = (length h + per bo)%nat).
  { apply (f_equal (@length _)) in Q1. unfold kinds in Q1. rewrite app_length, !map_length in Q1. rewrite Q1. destruct bo; reflexivity. }
  unfold conv_initialize, h_conv_initialize. rewrite I1.
  destruct (Z.of_nat np >? 0) eqn:EN; [|lia]. rewrite Nat2Z.id.
  set (h2 := h1 ++ [Some (mkChunk KNew (repeat None ncl))]).
  set (h3 := h2 ++ [Some (mkChunk KNew (repeat None np))]).
  assert (L2 : length h2 = (length h + per bo + 1)%nat) by (unfold h2; rewrite app_length; cbn [length]; lia).
  exists (mkCv b np (map (j_active j) (seq 0 ncl)) (map (j_ppc j) (seq 0 np))),
         (mkHc s1 (Z.of_nat np) (start (length h1)) (start (length h2))), h3.
  split; [reflexivity|].
  assert (KE : forall id, (id < length h1)%nat -> nth_error h3 id = nth_error h1 id).
  { intros id L. unfold h3, h2. rewrite !nth_error_app1 by (rewrite ?app_length; lia). reflexivity. }
  split; [|split; [|split; [reflexivity|split; [exact BD1|split; [exact BD2|split]]]]].
  - erewrite bind_some by exact E1. cbn [fst snd negb]. rewrite M1.
    erewrite bind_some by apply new_arr_ok. fold h2. rewrite N4, EN. erewrite bind_some by apply new_arr_ok. reflexivity.
  - constructor; cb.
    + eapply is_block_ext; [exact B1|]. intros id I. apply fresh_owned in I. apply KE. lia.
    + reflexivity.
    + constructor; [|constructor].
      * cbn [In]. intros [X|X]; [lia|]. apply fresh_owned in X. lia.
      * intros X. apply fresh_owned in X. lia.
      * apply fresh_nodup1.
    + rewrite BD1. exact NF.
    + split; [now rewrite L1|]. exists (repeat None ncl). rewrite repeat_length, BD4.
      split; [unfold h3; apply cells_app; rewrite <- L1; apply halloc_cells|]. split; [reflexivity|].
      split; [apply none_in|]. unfold fill. rewrite fill_none. now rewrite map_map.
    + split; [now rewrite L2|]. exists (repeat None np). rewrite repeat_length.
      split; [rewrite <- L2; apply halloc_cells|]. split; [reflexivity|]. unfold fill. apply fill_none.
    + rewrite BD3, BD4, map_length, seq_length. reflexivity.
    + intros B. exists (repeat None ncl). rewrite repeat_length, BD4. split; [unfold h3, h2; apply cells_app, cells_app; now apply CN|].
      split; [reflexivity|]. unfold fill. rewrite fill_none. now rewrite BD3.
  - intros id L. rewrite KE by lia. now apply K1.
  - unfold h3, h2, kinds. rewrite !map_app. fold (kinds h1). rewrite Q1. cbn [map option_map ch_kind].
    unfold conv_kinds. rewrite <- !app_assoc. reflexivity.
Qed.

(** No number of patches: refused, two of the arrays allocated. *)
Lemma conv_init_refused : forall bo std_of fast_of nlit ncl ncls seed c h,
  fits nlit ncl ncls -> seed <> 0 -> hc_np c <= 0 ->
  hs_ncl (hc_s c) = Z.of_nat ncl -> hs_nlit (hc_s c) = Z.of_nat nlit -> hs_ncls (hc_s c) = Z.of_nat ncls ->
  exists c' h', h_conv_initialize bo std_of fast_of seed c h = Some ((false, c'), h') /\ hs_init (hc_s c') = false /\
    (forall id, (id < length h)%nat -> nth_error h' id = nth_error h id) /\
    kinds h' = kinds h ++ fresh_kinds bo ++ [Some KNew].
Proof.
  intros bo std_of fast_of nlit ncl ncls seed c h FT SD NP N1 N2 N3.
  destruct (initialize_ok bo std_of fast_of nlit ncl ncls (hs_budget (hc_s c)) (hs_s_inv (hc_s c)) (hs_s_min1_inv (hc_s c)) seed
              [] (hc_s c) h)
    as (b & s1 & h1 & I1 & E1 & B1 & _ & M1 & M2 & M3 & K1 & Q1); auto.
  unfold h_conv_initialize. do 2 eexists. split; [|split; [|split]].
  - erewrite bind_some by exact E1. cbn [fst snd negb]. rewrite M1.
    erewrite bind_some by apply new_arr_ok. destruct (hc_np c >? 0) eqn:EN; [lia|]. reflexivity.
  - reflexivity.
  - intros id L. rewrite nth_error_app1; [now apply K1|].
    apply (f_equal (@length _)) in Q1. unfold kinds in Q1. rewrite app_length, !map_length in Q1. lia.
  - unfold kinds. rewrite map_app. fold (kinds h1). rewrite Q1. cbn [map option_map ch_kind]. now rewrite <- app_assoc.
Qed.

(** ** Nothing is allocated or released in between *)
Lemma keeps_any : forall s j p k, keeps (load_any s j p k).
Proof.
  intros s j p k. unfold load_any. apply keeps_bind; [apply keeps_padd|]. intros q h a h' E.
  destruct q as [x|]; [|discriminate]. destruct (nth_error h (ad_id x)) as [[c|]|]; try discriminate.
  destruct (ad_off x <? 0); [discriminate|]. destruct (nth_error (ch_cells c) _) as [[v|]|]; [|destruct s; [discriminate|]|discriminate]; now inversion E.
Qed.
Lemma keeps_patch : forall s l a n, keeps (h_patch_ptr s l a n).
Proof. intros. unfold h_patch_ptr. cbv zeta. keep. Qed.
Lemma keeps_clause_update : forall boost s row wp t l o r, keeps (h_clause_update boost s row wp t l o r).
Proof. intros. unfold h_clause_update, h_type1a, h_type1b, h_type2, h_t1a_body, h_t1b_body, h_t2_body, h_inc, h_dec, h_inc0. keep. Qed.
Lemma keeps_conv_set : forall st bo j l c, keeps (h_conv_set st bo j l c).
Proof.
  intros. unfold h_conv_set. apply keeps_bind; [|intros; apply keeps_ret]. apply keeps_mloop. intros k r. unfold h_cset_clause.
  apply keeps_bind; [apply keeps_store_at|intros _].
  apply keeps_bind; [apply keeps_mloop; intros; unfold h_cset_patch, h_halves, h_cset_body; keep|].
  intros [|x t]; [apply keeps_ret|]. destruct (pick_index _ r). destruct (nth_error _ _); [|apply keeps_undef].
  apply keeps_bind; [apply keeps_store_at|intros _]. apply keeps_bind; [|intros; apply keeps_ret].
  destruct bo; [|apply keeps_ret]. apply keeps_bind; [apply keeps_any|intros; apply keeps_store_at].
Qed.
Lemma keeps_conv_eval : forall l c, keeps (h_conv_eval l c).
Proof. intros. unfold h_conv_eval, h_ceval_clause, h_ceval_patch, h_halves, h_ceval_body. keep. Qed.
Lemma keeps_conv_update : forall st bo boost j l pc pp nc np c, keeps (h_conv_update st bo boost j l pc pp nc np c).
Proof.
  intros. unfold h_conv_update. apply keeps_bind; [apply keeps_imul|intros nf].
  apply keeps_bind; [|intros; apply keeps_ret]. apply keeps_mloop. intros k [r f]. unfold h_cupdate_body.
  do 4 (apply keeps_bind; [first [apply keeps_imul|apply keeps_padd]|intros]).
  apply keeps_bind; [apply keeps_any|intros]. apply keeps_bind; [apply keeps_patch|intros].
  apply keeps_bind; [destruct bo; [apply keeps_bind; [apply keeps_any|intros]|]; keep|intros].
  destruct (draw_lt _ _) as [d1 f1].
  apply keeps_bind; [destruct d1; [|apply keeps_ret]; do 2 (apply keeps_bind; [first [apply keeps_padd|apply keeps_load_at]|intros]); apply keeps_clause_update|intros].
  destruct (draw_lt _ _) as [d2 f2].
  apply keeps_bind; [destruct d2; [|apply keeps_ret]; do 2 (apply keeps_bind; [first [apply keeps_padd|apply keeps_load_at]|intros]); apply keeps_clause_update|intros].
  apply keeps_ret.
Qed.
Lemma keeps_ccalls : forall st bo boost j xs inp c, keeps (h_ccalls st bo boost j xs inp c).
Proof.
  intros st bo boost j. induction xs as [|x xs IH]; intros inp c; cbn [h_ccalls]; [apply keeps_ret|].
  apply keeps_bind; [|intros; apply IH]. destruct x; unfold h_ccall.
  - apply keeps_bind; [apply keeps_prepare|intros]. apply keeps_bind; [apply keeps_conv_set|intros].
    apply keeps_bind; [apply keeps_count_votes|intros]. apply keeps_bind; [apply keeps_conv_update|intros; apply keeps_ret].
  - apply keeps_bind; [apply keeps_prepare|intros]. apply keeps_bind; [apply keeps_conv_eval|intros].
    apply keeps_bind; [apply keeps_count_votes|intros; apply keeps_ret].
Qed.

Lemma conv_cleanup_ok : forall bo j i ia ip h c v, is_conv bo j i ia ip h c v ->
  (forall id, In id (conv_ids bo i ia ip) -> kind_at h id = Some (Some KNew)) ->
  exists c' h', h_conv_cleanup bo c h = Some (c', h') /\
    (live h' + per bo + 1 = live h)%nat /\ released bo (hc_s c') /\ hc_active c' = null /\ hc_ppc c' = null /\
    (forall id, ~ In id (conv_ids bo i ia ip) -> nth_error h' id = nth_error h id).
Proof.
  intros bo j i ia ip h c v H KD. destruct H. destruct ic_active as [PA _]. destruct ic_ppc as [PP _].
  destruct (conv_distinct _ _ _ _ ic_distinct) as (X1 & X2 & X3 & _).
  assert (IA : In ia (conv_ids bo i ia ip)) by (unfold conv_ids; cbn [In]; auto).
  assert (IP : In ip (conv_ids bo i ia ip)) by (unfold conv_ids; cbn [In]; auto).
  unfold h_conv_cleanup. rewrite PA, PP.
  destruct (hfree_ok h ia (KD _ IA)) as (h1 & E1 & Q1 & G1). erewrite bind_some by exact E1.
  destruct (hfree_ok h1 ip) as (h2 & E2 & Q2 & G2); [erewrite kind_at_set; eauto|]. erewrite bind_some by exact E2.
  assert (KO : forall id, In id (owned bo i) -> kind_at h2 id = Some (Some KNew)).
  { intros id I. erewrite kind_at_set; [|exact Q2|intros <-; auto]. erewrite kind_at_set; [|exact Q1|intros <-; auto].
    apply KD. unfold conv_ids. cbn [In]. auto. }
  destruct ic_block.
  destruct (cleanup_blocks_ok bo [i] [(true, hc_s c)] h2) as (hb' & h3 & E3 & Q3 & R3 & L3 & F3).
  { cbn [map concat]. now rewrite app_nil_r. }
  { cbn [all_ptrs]. split; [|exact I]. red. destruct ib_clauses, ib_votes, ib_weights.
    split; [auto|]. split; [auto|]. split; [auto|]. intros B. now destruct (ib_counts B). }
  { cbn [map concat]. now rewrite app_nil_r. }
  cbn [h_cleanup_blocks] in E3. unfold bind at 1 in E3. destruct (h_cleanup bo (hc_s c) h2) as [[s2 h4]|] eqn:EC; [|discriminate].
  cbn in E3. inversion E3; subst hb' h4. pose proof (Forall_inv R3) as R. cbn [snd] in R.
  eexists. exists h3. split; [erewrite bind_some by exact EC; reflexivity|]. cb.
  split; [|split; [exact R|split; [reflexivity|split; [reflexivity|]]]].
  - rewrite !live_kinds. fold (nlive (kinds h3)). fold (nlive (kinds h)). cbn [length] in Q3.
    pose proof (nlive_set (kinds h) ia KNew (KD _ IA)) as S1.
    pose proof (nlive_set (kinds h1) ip KNew) as S2. rewrite Q1 in S2 at 1.
    rewrite hnth_set_other in S2 by auto. specialize (S2 (KD _ IP)). rewrite <- Q2 in S2. rewrite <- Q1 in S1.
    destruct bo; cbn [per] in *; lia.
  - intros id NI. rewrite F3 by (cbn [map concat]; rewrite app_nil_r; intros X; apply NI; unfold conv_ids; cbn [In]; auto).
    subst h2 h1. rewrite !hnth_set_other; [reflexivity| |]; intros <-; auto.
Qed.

(** Creation, any history, release. *)
Lemma conv_life_ok : forall boost bo std_of fast_of j nlit ncl ncls np seed c h xs data inp icur idata ilab,
  fits nlit ncl ncls -> seed <> 0 -> (0 < np)%nat -> Z.of_nat (np * nlit) <= int_max ->
  hs_ncl (hc_s c) = Z.of_nat ncl -> hs_nlit (hc_s c) = Z.of_nat nlit -> hs_ncls (hc_s c) = Z.of_nat ncls -> hc_np c = Z.of_nat np ->
  is_data h idata ilab icur inp (np * nlit) data -> icur <> idata -> icur <> ilab ->
  Forall (ccall_ok (length data) ncls) xs ->
  exists v c1 h1 inp2 c2 h2 c3 h3,
    conv_initialize std_of fast_of (map (j_counts j) (seq 0 ncl)) (map (j_active j) (seq 0 ncl)) (map (j_ppc j) (seq 0 np))
      (Z.of_nat np) nlit ncl ncls (hs_budget (hc_s c)) (hs_s_inv (hc_s c)) (hs_s_min1_inv (hc_s c)) seed = Some v /\
    h_conv_initialize bo std_of fast_of seed c h = Some ((true, c1), h1) /\
    h_ccalls false bo boost j xs inp c1 h1 = Some ((inp2, c2), h2) /\
    is_conv bo j (fresh_ids (length h)) (length h + per bo) (length h + per bo + 1) h2 c2 (fold_left (c_call bo boost data) xs v) /\
    h_conv_cleanup bo c2 h2 = Some (c3, h3) /\ live h3 = S (live h) /\
    (forall id, (id < length h)%nat -> id <> icur -> nth_error h3 id = nth_error h id).
Proof.
  intros boost bo std_of fast_of j nlit ncl ncls np seed c h xs data inp icur idata ilab FT SD NP NF N1 N2 N3 N4 ID A1 A2 OK.
  destruct (conv_init_ok bo std_of fast_of j nlit ncl ncls np seed c h FT SD NP NF N1 N2 N3 N4)
    as (v & c1 & h1 & IV & E1 & H1 & V1 & V2 & V3 & K1 & Q1).
  set (i := fresh_ids (length h)) in *. set (ia := (length h + per bo)%nat) in *. set (ip := (length h + per bo + 1)%nat) in *.
  assert (OLD : forall id, (id < length h)%nat -> ~ In id (conv_ids bo i ia ip)).
  { intros id L X. unfold conv_ids in X. destruct X as [X|[X|X]]; [unfold ia in X; lia|unfold ip in X; lia|].
    apply fresh_owned in X. lia. }
  assert (LT : (idata < length h)%nat /\ (ilab < length h)%nat /\ (icur < length h)%nat).
  { destruct ID. destruct id_data as [_ X]. destruct id_labels as [_ Y]. destruct id_cur as (_ & cs & Z0 & _).
    split; [eapply cells_lt; exact X|]. split; [eapply cells_lt; exact Y|eapply cells_lt; exact Z0]. }
  destruct LT as (LT1 & LT2 & LT3).
  assert (ID1 : is_data h1 idata ilab icur inp (cv_np v * b_nlit (cv_b v)) data).
  { rewrite V1, V2. destruct ID. constructor; auto.
    - destruct id_data as [X [k Y]]. split; auto. exists k. now rewrite K1.
    - destruct id_labels as [X [k Y]]. split; auto. exists k. now rewrite K1.
    - destruct id_cur as (X & cs & [k Y] & Z0). split; auto. exists cs. split; auto. exists k. now rewrite K1. }
  destruct (ccalls_ok false boost bo j i ia ip icur idata ilab A1 A2 (OLD _ LT3) (OLD _ LT1) (OLD _ LT2) data xs h1 inp c1 v H1 ID1)
    as (inp2 & c2 & h2 & E2 & H2 & ID2 & _ & U2).
  { now rewrite V3. }
  { discriminate. }
  pose proof (keeps_ccalls _ _ _ _ _ _ _ _ _ _ E2) as Q2.
  assert (LK : length (kinds h) = length h) by apply map_length.
  destruct (conv_cleanup_ok _ _ _ _ _ _ _ _ H2) as (c3 & h3 & E3 & LV & R3 & _ & _ & F3).
  { intros id I. unfold kind_at. rewrite Q2, Q1.
    assert (B : (length h <= id < length h + per bo + 2)%nat).
    { destruct I as [X|[X|X]]; [unfold ia in X; lia|unfold ip in X; lia|]. apply fresh_owned in X. lia. }
    rewrite nth_error_app2 by lia. rewrite LK. clear - B. unfold conv_kinds.
    destruct bo; cbn [per fresh_kinds app] in *;
      [destruct (id - length h)%nat as [|[|[|[|[|[|[|n]]]]]]] eqn:EN|destruct (id - length h)%nat as [|[|[|[|[|[|n]]]]]] eqn:EN];
      cbn [nth_error]; first [reflexivity|lia]. }
  exists v, c1, h1, inp2, c2, h2, c3, h3. split; [exact IV|]. split; [exact E1|]. split; [exact E2|]. split; [exact H2|]. split; [exact E3|].
  split.
  - assert (live h2 = (live h + per bo + 2)%nat).
    { rewrite !live_kinds. fold (nlive (kinds h2)). fold (nlive (kinds h)). rewrite Q2, Q1, nlive_app.
      unfold conv_kinds. rewrite nlive_app, nlive_fresh. cbn. lia. }
    lia.
  - intros id L N. rewrite F3 by (now apply OLD). destruct U2 as [_ U2]. rewrite U2; [now apply K1|].
    intros [X|X]; [congruence|]. now apply OLD in X.
Qed.
