(** One convolutional block on the heap: examples, update, whole histories. *)
From Coq Require Import ZArith List Bool QArith Lia ZifyBool.
From Verif Require Import Base ModelHeap ModelDense ModelFeedback ModelExecutor ModelConv ModelTMHeap ModelConvHeap SpecHeap SpecConvHeap
  ProofsHeap ProofsTMHeap ProofsTMHeapB ProofsTMHeapC ProofsTMHeapD ProofsTMHeapE ProofsTMHeapF ProofsTMHeapG ProofsConvHeap ProofsConvHeapB.
Import ListNotations.
Open Scope Z_scope.

Lemma is_conv_frame : forall bo j i ia ip h h' c v l, is_conv bo j i ia ip h c v -> only l h h' ->
  (forall id, In id l -> ~ In id (conv_ids bo i ia ip)) -> is_conv bo j i ia ip h' c v.
Proof.
  intros bo j i ia ip h h' c v l H U N.
  assert (K : forall id cs, In id (conv_ids bo i ia ip) -> cells h id cs -> cells h' id cs).
  { intros id cs I C. eapply only_cells; [exact U| |exact C]. intros X. exact (N _ X I). }
  destruct H. constructor; auto.
  - eapply is_block_frame; [exact ic_block|exact U|]. intros id X Y. apply (N id X). unfold conv_ids. cbn [In]. auto.
  - destruct ic_active as (A & cs & C & X). split; auto. exists cs. split; auto. apply K; auto. unfold conv_ids. cbn [In]. auto.
  - destruct ic_ppc as (A & cs & C & X). split; auto. exists cs. split; auto. apply K; auto. unfold conv_ids. cbn [In]. auto.
  - intros B. destruct (ic_counts B) as (cs & C & X). exists cs. split; auto. apply K; auto. unfold conv_ids, owned. rewrite B. cbn [In]. auto 8.
Qed.

Lemma cells_fun : forall h id a b, cells h id a -> cells h id b -> a = b.
Proof. intros h id a b [k K] [k' K']. congruence. Qed.

Lemma written_some : forall h id cs, cells h id cs -> written h id -> Forall (fun x => x <> None) cs.
Proof.
  intros h id cs C [vs HV]. rewrite (cells_fun _ _ _ _ C HV). clear. induction vs; constructor; auto. discriminate.
Qed.
Lemma some_written : forall h id cs, cells h id cs -> Forall (fun x => x <> None) cs -> written h id.
Proof.
  intros h id cs C F. assert (exists vs, cs = map Some vs) as [vs ->].
  { clear C. induction F as [|x l N F [vs ->]]; [now exists []|]. destruct x as [a|]; [|easy]. now exists (a :: vs). }
  now exists vs.
Qed.
Lemma kept_written : forall h h' id a b, cells h id a -> cells h' id b -> Forall2 kept a b -> written h id -> written h' id.
Proof.
  intros h h' id a b C C' K Wr. pose proof (written_some _ _ _ C Wr) as F. apply (some_written _ _ _ C').
  clear - K F. induction K; inversion F; subst; constructor; auto.
Qed.
Lemma written_only : forall l h h' id, only l h h' -> ~ In id l -> written h id -> written h' id.
Proof. intros l h h' id U N [vs HV]. exists vs. eapply only_cells; eauto. Qed.
Lemma all_written_only : forall l bo i ia ip h h', only l h h' -> ~ In ia l -> ~ In ip l -> (bo = true -> ~ In (i_counts i) l) ->
  all_written bo i ia ip h -> all_written bo i ia ip h'.
Proof.
  intros l bo i ia ip h h' U A B C [W1 W2]. split; [eapply written_only; eauto|].
  intros X. destruct (W2 X). split; eapply written_only; eauto.
Qed.
Lemma all_none : forall (l : list (option Z)) m, Forall (fun x => x <> None) l -> nth_error l m <> Some None.
Proof. intros l m F E. rewrite Forall_forall in F. exact (F None (nth_error_In _ _ E) eq_refl). Qed.
Lemma kept_nth : forall a b : list (option Z), length a = length b ->
  (forall m x, nth_error a m = Some (Some x) -> exists y, nth_error b m = Some (Some y)) -> Forall2 kept a b.
Proof.
  induction a as [|x a IH]; intros [|y b] L M; try discriminate; constructor.
  - intros N E. subst y. destruct x as [x|]; [|easy]. destruct (M O x eq_refl) as [z Z0]. discriminate.
  - apply IH; [cbn in L; congruence|]. intros m z N. exact (M (S m) z N).
Qed.

Lemma ready_of : forall ia h os ab, cells h ia ab -> Forall2 (fun o x => o = 1 -> x <> None) os ab ->
  exists cs, cells h ia cs /\ forall k, nth_error os k = Some 1 -> exists a, nth_error cs k = Some (Some a).
Proof.
  intros ia h os ab C F. exists ab. split; [exact C|]. clear C. induction F as [|o x os ab A F IH]; intros k N; [destruct k; discriminate|].
  destruct k as [|k]; cbn [nth_error] in *; [|now apply IH]. injection N as ->. destruct x as [a|]; [eauto|exfalso; now apply A].
Qed.
Lemma of_ready : forall (os : list Z) (ab : list (option Z)), length os = length ab ->
  (forall k, nth_error os k = Some 1 -> exists a, nth_error ab k = Some (Some a)) -> Forall2 (fun o x => o = 1 -> x <> None) os ab.
Proof.
  induction os as [|o os IH]; intros [|x ab] L R; try discriminate; constructor.
  - intros ->. destruct (R O eq_refl) as [a A]. cbn in A. congruence.
  - apply IH; [cbn in L; congruence|]. intros k N. exact (R (S k) N).
Qed.

Ltac cb := cbn [b_nlit b_ncls b_clauses b_weights b_outputs b_counts b_votes b_budget b_s_inv b_s_min1_inv b_rng b_fast
    hs_ncl hs_ncls hs_wmem hs_nlit hs_lmem hs_clauses hs_outputs hs_votes hs_weights hs_counts hs_budget hs_s_inv hs_s_min1_inv
    hs_rng hs_fast hs_init hs_with_rng cv_b cv_np cv_active cv_ppc hc_s hc_np hc_active hc_ppc].

Lemma counts_of : forall bo j i ia ip h c v, is_conv bo j i ia ip h c v ->
  exists cs, (bo = true -> cells h (i_counts i) cs) /\ length cs = length (b_clauses (cv_b v)) /\ fill (j_counts j) cs = b_counts (cv_b v).
Proof.
  intros bo j i ia ip h c v H. destruct bo.
  - destruct (ic_counts _ _ _ _ _ _ _ _ H eq_refl) as (cs & A & B & C). exists cs. auto.
  - exists (map Some (b_counts (cv_b v))). split; [discriminate|]. rewrite map_length. split; [exact (ic_len _ _ _ _ _ _ _ _ H)|].
    apply fill_some.
Qed.

Lemma cset_conv : forall bo i ia ip, incl (cset_ids bo i ia ip) (conv_ids bo i ia ip).
Proof. intros bo i ia ip x. unfold cset_ids, conv_ids, owned. destruct bo; cbn [In]; intuition. Qed.
Lemma owned_conv : forall bo i ia ip, incl (owned bo i) (conv_ids bo i ia ip).
Proof. intros bo i ia ip x X. unfold conv_ids. cbn [In]. auto. Qed.

Lemma conv_set_ok : forall strict bo j i ia ip h c v il lits, is_conv bo j i ia ip h c v ->
  ~ In il (conv_ids bo i ia ip) -> buffer_holds h il lits -> length lits = (cv_np v * b_nlit (cv_b v))%nat ->
  (strict = true -> bo = true -> written h ip) ->
  exists c' h', h_conv_set strict bo j (start il) c h = Some (c', h') /\
    is_conv bo j i ia ip h' c' (conv_set_output bo lits v) /\
    ready ia h' (conv_set_output bo lits v) /\
    (all_written bo i ia ip h -> all_written bo i ia ip h') /\
    only (cset_ids bo i ia ip) h h'.
Proof.
  intros strict bo j i ia ip h c v il lits H Hil [rest C] L ST.
  pose proof (is_block_obj _ _ _ _ _ _ (ic_block _ _ _ _ _ _ _ _ H)) as W.
  pose proof (nodup4 _ _ (wo_distinct _ _ _ _ _ _ W)) as (D1 & D2 & D3 & D4 & D5 & D6 & D7).
  destruct (conv_distinct _ _ _ _ (ic_distinct _ _ _ _ _ _ _ _ H)) as (X1 & X2 & X3 & _).
  destruct (il_ne bo i ip X2) as (Y1 & Y2 & Y3 & Y4 & Y5).
  destruct (il_ne bo i ia X1) as (Z1 & Z2 & Z3 & Z4 & Z5).
  destruct (counts_of _ _ _ _ _ _ _ _ H) as (nb & CN & LN & EN).
  pose proof H as H0. destruct H. destruct ic_active as (PA & ab & CA & LA & FA & EA). destruct ic_ppc as (PP & pcs & CP & LP & EP).
  pose proof ic_block as HB. destruct HB. destruct ib_shaped as (S1 & S2 & S3 & S4 & S5).
  destruct ib_clauses as [PC HC]. destruct ib_outputs as [PO HO]. destruct ib_votes as [PV HV]. destruct ib_weights as [PW HW].
  destruct (cset_all_ok bo i c _ _ _ _ ia ip j W ic_distinct ic_np ic_fits PA PP il Hil lits rest L strict
              (b_clauses (cv_b v)) [] [] (b_outputs (cv_b v)) [] ab [] nb pcs (b_rng (cv_b v)) h (cv_active v))
    as (os' & aps' & ab' & nb' & pcs' & r' & h' & T & E & HO' & LO' & CA' & LA' & FA' & EA' & R & K1 & CN' & LN' & K2 & CP' & LP' & M & U); auto.
  { intros S0 B0.
    intros m. apply all_none. eapply written_some; [exact CP|]. auto. }
  cbn [length app] in *. change (Z.of_nat 0) with 0 in *.
  fold (fill (j_counts j) nb) in T. fold (fill (j_counts j) nb') in T. rewrite EN, EP in T.
  unfold conv_set_output. rewrite T.
  eexists. exists h'. split; [|split; [|split; [|split; [|exact U]]]].
  - unfold h_conv_set. rewrite ib_ncl, Nat2Z.id, ib_rng. erewrite bind_some by exact E. reflexivity.
  - assert (K : forall id cs, id <> i_outputs i -> id <> ia -> id <> ip -> (bo = true -> id <> i_counts i) -> cells h id cs -> cells h' id cs).
    { intros id cs N1 N2 N3 N4 X. eapply only_cells; [exact U| |exact X]. unfold cset_ids. cbn [In].
      destruct bo; cbn [In]; [specialize (N4 eq_refl)|]; intuition congruence. }
    constructor; cb; auto.
    + constructor; cb; auto.
      * red. cb. split; [exact S1|]. split; [auto|]. split; [auto|]. split; [auto|auto].
      * split; auto. apply K; auto. intros B. now destruct (D7 B).
      * split; auto. apply K; auto. intros B. now destruct (D7 B) as (_ & _ & ? & _).
      * split; auto. apply K; auto. intros B. now destruct (D7 B) as (_ & _ & _ & ?).
      * intros B. split; [now destruct (ib_counts B)|]. exists nb'. split; [auto|]. split; [auto|discriminate].
    + split; [auto|]. exists ab'. auto.
    + split; [auto|]. exists pcs'. auto.
    + unfold fill. now rewrite fill_from_len.
    + intros B. exists nb'. auto.
  - red. cb. eapply ready_of; eauto.
  - intros [W1 W2]. split; [eapply kept_written; [exact CA|exact CA'|exact K1|exact W1]|].
    intros B. destruct (W2 B) as [W3 W4]. split; [eapply kept_written; [exact (CN B)|exact (CN' B)|exact K2|exact W3]|].
    eapply kept_written; [exact CP|exact CP'| |exact W4]. apply kept_nth; [congruence|exact M].
Qed.

Lemma conv_eval_ok : forall bo j i ia ip h c v il lits, is_conv bo j i ia ip h c v ->
  ~ In il (conv_ids bo i ia ip) -> buffer_holds h il lits -> length lits = (cv_np v * b_nlit (cv_b v))%nat ->
  exists h', h_conv_eval (start il) c h = Some (tt, h') /\
    is_conv bo j i ia ip h' c (conv_eval_set lits v) /\ only [i_outputs i] h h'.
Proof.
  intros bo j i ia ip h c v il lits H Hil [rest C] L.
  pose proof (is_block_obj _ _ _ _ _ _ (ic_block _ _ _ _ _ _ _ _ H)) as W.
  pose proof (nodup4 _ _ (wo_distinct _ _ _ _ _ _ W)) as (D1 & D2 & D3 & D4 & D5 & D6 & D7).
  destruct (conv_distinct _ _ _ _ (ic_distinct _ _ _ _ _ _ _ _ H)) as (X1 & X2 & X3 & _).
  destruct (il_ne bo i ip X2) as (Y1 & Y2 & Y3 & Y4 & Y5).
  destruct (il_ne bo i ia X1) as (Z1 & Z2 & Z3 & Z4 & Z5).
  destruct H. destruct ic_active as (PA & ab & CA & LA & FA & EA). destruct ic_ppc as (PP & pcs & CP & LP & EP).
  pose proof ic_block as HB. destruct HB. destruct ib_shaped as (S1 & S2 & S3 & S4 & S5).
  destruct ib_clauses as [PC HC]. destruct ib_outputs as [PO HO]. destruct ib_votes as [PV HV]. destruct ib_weights as [PW HW].
  destruct (ceval_all_ok bo i c _ _ _ _ ia ip W ic_np ic_fits il Hil lits rest L (b_clauses (cv_b v)) [] [] (b_outputs (cv_b v)) h)
    as (h' & E & HO' & U); auto.
  cbn [length app] in *. change (Z.of_nat 0) with 0 in *.
  exists h'. split; [|split; [|exact U]].
  - unfold h_conv_eval. rewrite ib_ncl, Nat2Z.id. exact E.
  - assert (K : forall id cs, i_outputs i <> id -> cells h id cs -> cells h' id cs).
    { intros. eapply cells_one; eauto. }
    unfold conv_eval_set. constructor; cb; auto.
    + constructor; cb; auto.
      * red. cb. rewrite map_length. auto.
      * split; auto. apply K; auto.
      * split; auto. apply K; auto.
      * split; auto. apply K; auto.
      * intros B. destruct (ib_counts B) as (A & cs & C1 & C2 & C3). split; auto. exists cs. split; auto.
        apply K; auto. now destruct (D7 B) as (_ & ? & _).
    + split; auto. exists ab. split; auto.
    + split; auto. exists pcs. split; auto.
    + intros B. destruct (ic_counts B) as (cs & A & X). exists cs. split; auto. apply K; auto. now destruct (D7 B) as (_ & ? & _).
Qed.

Lemma conv_votes_ok : forall bo j i ia ip h c v, is_conv bo j i ia ip h c v ->
  exists h', h_count_votes (hc_s c) h = Some (tt, h') /\
    is_conv bo j i ia ip h' c (cv_count_votes v) /\ only [i_votes i] h h'.
Proof.
  intros bo j i ia ip h c v H. pose proof (is_block_obj _ _ _ _ _ _ (ic_block _ _ _ _ _ _ _ _ H)) as W.
  pose proof (nodup4 _ _ (wo_distinct _ _ _ _ _ _ W)) as (D1 & D2 & D3 & D4 & D5 & D6 & D7).
  destruct (conv_distinct _ _ _ _ (ic_distinct _ _ _ _ _ _ _ _ H)) as (X1 & X2 & X3 & _).
  destruct (il_ne bo i ip X2) as (Y1 & Y2 & Y3 & Y4 & Y5).
  destruct (il_ne bo i ia X1) as (Z1 & Z2 & Z3 & Z4 & Z5).
  destruct H. destruct (votes_ok _ _ _ _ _ _ ic_block) as (h' & E & B & U).
  exists h'. split; [exact E|]. split; [|exact U].
  assert (K : forall id cs, i_votes i <> id -> cells h id cs -> cells h' id cs).
  { intros. eapply cells_one; eauto. }
  unfold cv_count_votes, count_votes in *. constructor; cb; auto.
  - destruct ic_active as (A & cs & C & X). split; auto. exists cs. split; auto.
  - destruct ic_ppc as (A & cs & C & X). split; auto. exists cs. split; auto.
  - intros B0. destruct (ic_counts B0) as (cs & A & X). exists cs. split; auto. apply K; auto. now destruct (D7 B0) as (_ & _ & ? & _).
Qed.

Lemma conv_update_ok : forall strict boost bo j i ia ip h c v il lits pc pp nc np, is_conv bo j i ia ip h c v ->
  ready ia h v -> (strict = true -> all_written bo i ia ip h) ->
  ~ In il (conv_ids bo i ia ip) -> buffer_holds h il lits -> length lits = (cv_np v * b_nlit (cv_b v))%nat ->
  (pc < b_ncls (cv_b v))%nat -> (nc < b_ncls (cv_b v))%nat ->
  exists c' h', h_conv_update strict bo boost j (start il) (Z.of_nat pc) pp (Z.of_nat nc) np c h = Some (c', h') /\
    is_conv bo j i ia ip h' c' (conv_update bo boost lits pc pp nc np v) /\ only (upd_ids i) h h'.
Proof.
  intros strict boost bo j i ia ip h c v il lits pc pp nc np H RD ST Hil [rest C] L Lp Ln.
  pose proof (is_block_obj _ _ _ _ _ _ (ic_block _ _ _ _ _ _ _ _ H)) as W.
  pose proof (nodup4 _ _ (wo_distinct _ _ _ _ _ _ W)) as (D1 & D2 & D3 & D4 & D5 & D6 & D7).
  destruct (conv_distinct _ _ _ _ (ic_distinct _ _ _ _ _ _ _ _ H)) as (X1 & X2 & X3 & _).
  destruct (il_ne bo i ip X2) as (Y1 & Y2 & Y3 & Y4 & Y5).
  destruct (il_ne bo i ia X1) as (Z1 & Z2 & Z3 & Z4 & Z5).
  destruct (counts_of _ _ _ _ _ _ _ _ H) as (nb & CN & LN & EN).
  pose proof H as H0. destruct H. destruct ic_active as (PA & ab & CA & LA & FA & EA). destruct ic_ppc as (PP & pcs & CP & LP & EP).
  pose proof ic_block as HB. destruct HB. destruct ib_shaped as (S1 & S2 & S3 & S4 & S5).
  pose proof ib_fits as (F1 & F2 & F3 & F4 & F5).
  destruct ib_clauses as [PC HC]. destruct ib_outputs as [PO HO]. destruct ib_votes as [PV HV]. destruct ib_weights as [PW HW].
  destruct RD as (ab0 & CA0 & RD). rewrite (cells_fun _ _ _ _ CA0 CA) in RD. clear ab0 CA0.
  destruct (cupdate_all_ok bo i c _ _ _ _ ia ip j W ic_distinct ic_fits PA il Hil lits rest L strict boost pc pp nc np
              (b_clauses (cv_b v)) [] [] (b_weights (cv_b v)) [] (b_outputs (cv_b v)) [] ab [] nb h (b_rng (cv_b v)) (b_fast (cv_b v)) (cv_active v))
    as (cs' & wss' & os' & r' & f' & h' & T & E & G1 & G2 & G3 & G4 & G5 & HC' & HW' & HO' & U); auto; try congruence.
  { intros S0. destruct (ST S0) as [W1 _]. eapply written_some; eauto. }
  { apply of_ready; [congruence|exact RD]. }
  { intros B. split; [now apply CN|]. intros S0. destruct (ST S0) as [_ W2]. destruct (W2 B) as [W3 _]. eapply written_some; [exact (CN B)|exact W3]. }
  cbn [length app] in *. change (Z.of_nat 0) with 0 in *. fold (fill (j_counts j) nb) in T. rewrite EN in T.
  unfold conv_update. rewrite <- ib_budget, <- ib_s_inv, <- ib_s_min1. rewrite T.
  unfold h_conv_update. rewrite ib_nlit.
  eexists. exists h'. split; [|split; [|exact U]].
  - erewrite bind_some by (apply imul_ok; nlia).
    rewrite ib_ncl, Nat2Z.id, ib_rng, ib_fast.
    replace (Z.of_nat (b_nlit (cv_b v)) * 2) with (Z.of_nat (b_nlit (cv_b v) * 2)) by nlia.
    erewrite bind_some by exact E. cbn [fst snd]. reflexivity.
  - assert (K : forall id cs, id <> i_clauses i -> id <> i_outputs i -> id <> i_weights i -> cells h id cs -> cells h' id cs).
    { intros. eapply only_cells; [exact U| |eassumption]. now apply upd_other. }
    constructor; cb; auto.
    + constructor; cb; auto; try congruence.
      * red. cb. split; [exact G1|]. split; [congruence|]. split; [auto|]. split; [congruence|auto].
      * split; auto. apply K; auto.
      * intros B. destruct (ib_counts B) as (A & cs & C1 & C2 & C3). split; auto. exists cs.
        destruct (D7 B) as (D71 & D72 & D73 & D74). split; [apply K; auto|]. rewrite G2. split; [auto|discriminate].
    + split; auto. exists ab. split; [apply K; auto|]. rewrite G2. auto.
    + split; auto. exists pcs. split; auto.
    + congruence.
    + intros B. destruct (ic_counts B) as (cs & A & X & Y). exists cs.
      destruct (D7 B) as (D71 & D72 & D73 & D74). split; [apply K; auto|]. rewrite G2. auto.
Qed.

(** ** Histories *)
Definition same_dims (v w : cvblock) : Prop :=
  cv_np v = cv_np w /\ b_nlit (cv_b v) = b_nlit (cv_b w) /\ b_ncls (cv_b v) = b_ncls (cv_b w).
Lemma set_dims : forall bo lits v, same_dims (conv_set_output bo lits v) v.
Proof.
  intros. unfold conv_set_output. destruct (conv_output_loop _ _ _ _ _ _ _ _ _) as [[[[? ?] ?] ?] ?]. red. cb. auto.
Qed.
Lemma votes_dims : forall v w, same_dims v w -> same_dims (cv_count_votes v) w.
Proof. intros v w (A & B & C). unfold cv_count_votes, count_votes. red. cb. auto. Qed.
Lemma update_dims : forall bo boost lits pc pp nc np v, same_dims (conv_update bo boost lits pc pp nc np v) v.
Proof.
  intros. unfold conv_update. destruct (conv_update_loop _ _ _ _ _ _ _ _ _ _ _ _ _ _ _ _ _) as [[[[? ?] ?] ?] ?]. red. cb. auto.
Qed.
Lemma same_trans : forall a b c, same_dims a b -> same_dims b c -> same_dims a c.
Proof. intros a b c (A & B & C) (D & E & F). red. repeat split; congruence. Qed.
Lemma c_call_dims : forall bo boost data v x, same_dims (c_call bo boost data v x) v.
Proof.
  intros bo boost data v x. destruct x; cbn [c_call].
  - eapply same_trans; [apply update_dims|]. apply votes_dims, set_dims.
  - apply votes_dims. red. unfold conv_eval_set. cb. auto.
Qed.

Lemma not_one : forall a b : nat, a <> b -> ~ In b [a].
Proof. intros a b N [E|[]]. congruence. Qed.

Section History.
  Variables (strict boost bo : bool) (j : junk) (i : ids) (ia ip : nat) (icur idata ilab : nat).
  Hypothesis Ncd : icur <> idata.
  Hypothesis Ncl : icur <> ilab.
  Hypothesis Nc : ~ In icur (conv_ids bo i ia ip).
  Hypothesis Nd : ~ In idata (conv_ids bo i ia ip).
  Hypothesis Nl : ~ In ilab (conv_ids bo i ia ip).
  Variable data : list (list Z * nat).

  Lemma ccall_ok1 : forall x h inp c v, is_conv bo j i ia ip h c v ->
    is_data h idata ilab icur inp (cv_np v * b_nlit (cv_b v)) data -> ccall_ok (length data) (b_ncls (cv_b v)) x ->
    (strict = true -> all_written bo i ia ip h) ->
    exists inp' c' h', h_ccall strict bo boost j inp c x h = Some ((inp', c'), h') /\
      is_conv bo j i ia ip h' c' (c_call bo boost data v x) /\
      is_data h' idata ilab icur inp' (cv_np v * b_nlit (cv_b v)) data /\
      (all_written bo i ia ip h -> all_written bo i ia ip h') /\
      only (icur :: conv_ids bo i ia ip) h h'.
  Proof.
    intros x h inp c v H ID OK ST.
    pose proof (is_block_obj _ _ _ _ _ _ (ic_block _ _ _ _ _ _ _ _ H)) as W.
    pose proof (nodup4 _ _ (wo_distinct _ _ _ _ _ _ W)) as (D1 & D2 & D3 & D4 & D5 & D6 & D7).
    destruct (conv_distinct _ _ _ _ (ic_distinct _ _ _ _ _ _ _ _ H)) as (X1 & X2 & X3 & _).
    destruct (il_ne bo i ip X2) as (Y1 & Y2 & Y3 & Y4 & Y5).
    destruct (il_ne bo i ia X1) as (Z1 & Z2 & Z3 & Z4 & Z5).
    assert (exists index, (index < length data)%nat /\ match x with CTrain k _ _ _ _ => k = index | CEval k => k = index end) as (k & LK & EX).
    { destruct x; cbn [ccall_ok] in OK; eexists; split; [|reflexivity| |reflexivity]; tauto. }
    destruct (nth_error data k) as [d|] eqn:EK; [|apply nth_error_None in EK; lia].
    assert (ED : nth k data ([], O) = d) by (erewrite nth_error_nth; eauto).
    destruct (prepare_ok _ icur idata ilab Ncd Ncl h inp data k d ID EK) as (h1 & E1 & B1 & L1 & U1).
    set (inp1 := mkIn (in_nlit inp) (in_nex inp) (in_nlab inp) (in_data inp) (in_labels inp) (in_cur inp)
                      (Some (mkAddr ilab (Z.of_nat k)))) in *.
    assert (ID1 : is_data h1 idata ilab icur inp1 (cv_np v * b_nlit (cv_b v)) data) by (eapply is_data_prepared; eauto).
    assert (IC : in_cur inp1 = start icur) by (destruct (id_cur _ _ _ _ _ _ _ ID1); auto).
    assert (H1 : is_conv bo j i ia ip h1 c v).
    { eapply is_conv_frame; [exact H|exact U1|]. intros id [<-|[]]. exact Nc. }
    assert (AW1 : all_written bo i ia ip h -> all_written bo i ia ip h1).
    { apply (all_written_only [icur]); [exact U1| | |]; try (intros [E|[]]; apply Nc; rewrite E; unfold conv_ids; cbn [In]; auto; fail).
      intros B [E|[]]. apply Nc. rewrite E. unfold conv_ids, owned. rewrite B. cbn [In]. auto 8. }
    assert (UU : forall a b, only (conv_ids bo i ia ip) a b -> only (icur :: conv_ids bo i ia ip) a b).
    { intros. eapply only_incl; [eassumption|]. intros ? ?. right. auto. }
    assert (OC : forall a b l, incl l (conv_ids bo i ia ip) -> only l a b -> only (conv_ids bo i ia ip) a b)
      by (intros; eapply only_incl; eauto).
    destruct x as [kx pc pp nc np|kx]; cbn in EX; subst kx.
    - destruct OK as (_ & O1 & O2).
      destruct (conv_set_ok strict bo j i ia ip h1 c v icur (fst d) H1 Nc B1 L1) as (c2 & h2 & E2 & H2 & R2 & A2 & U2).
      { intros S0 B0. destruct (AW1 (ST S0)) as [_ Q]. now destruct (Q B0). }
      destruct (conv_votes_ok _ _ _ _ _ _ _ _ H2) as (h3 & E3 & H3 & U3).
      assert (B3 : buffer_holds h3 icur (fst d)).
      { destruct B1 as [rest C]. exists rest. eapply only_cells; [|exact Nc|exact C].
        eapply only_trans; [eapply OC; [apply cset_conv|exact U2]|eapply OC; [|exact U3]].
        intros z [<-|[]]. apply owned_conv. unfold owned. cbn [In]. auto. }
      assert (A3 : all_written bo i ia ip h1 -> all_written bo i ia ip h3).
      { intros A. eapply all_written_only; [exact U3| | | |exact (A2 A)].
        - apply not_one; auto.
        - apply not_one; auto.
        - intros B. destruct (D7 B) as (D71 & D72 & D73 & D74). apply not_one; auto. }
      assert (DM : b_nlit (cv_b (cv_count_votes (conv_set_output bo (fst d) v))) = b_nlit (cv_b v) /\
                   b_ncls (cv_b (cv_count_votes (conv_set_output bo (fst d) v))) = b_ncls (cv_b v) /\
                   cv_np (cv_count_votes (conv_set_output bo (fst d) v)) = cv_np v).
      { destruct (votes_dims _ _ (set_dims bo (fst d) v)) as (Q1 & Q2 & Q3). auto. }
      destruct DM as (DM1 & DM2 & DM3).
      destruct (conv_update_ok strict boost bo j i ia ip h3 c2 (cv_count_votes (conv_set_output bo (fst d) v)) icur (fst d) pc pp nc np)
        as (c4 & h4 & E4 & H4 & U4); auto; try congruence.
      { destruct R2 as (cs & C2 & R2). exists cs. split; [eapply cells_one; [exact U3|auto|exact C2]|]. exact R2. }
      exists inp1, c4, h4. split; [|split; [|split; [|split]]].
      + unfold h_ccall. erewrite bind_some by exact E1. rewrite IC. erewrite bind_some by exact E2.
        erewrite bind_some by exact E3. erewrite bind_some by exact E4. reflexivity.
      + cbn [c_call]. rewrite ED. exact H4.
      + assert (U24 : only (conv_ids bo i ia ip) h1 h4).
        { eapply only_trans; [eapply OC; [apply cset_conv|exact U2]|]. eapply only_trans; [eapply OC; [|exact U3]|eapply OC; [|exact U4]].
          - intros z [<-|[]]. apply owned_conv. unfold owned. cbn [In]. auto.
          - intros z I0. apply owned_conv. now apply (upd_owned bo). }
        eapply is_data_frame; eauto.
      + intros A. eapply all_written_only; [exact U4| | | |exact (A3 (AW1 A))].
        * apply upd_other; auto.
        * apply upd_other; auto.
        * intros B. destruct (D7 B) as (D71 & D72 & D73 & D74). apply upd_other; auto.
      + eapply only_trans; [eapply only1; [exact U1|cbn [In]; auto]|]. apply UU.
        eapply only_trans; [eapply OC; [apply cset_conv|exact U2]|]. eapply only_trans; [eapply OC; [|exact U3]|eapply OC; [|exact U4]].
        * intros z [<-|[]]. apply owned_conv. unfold owned. cbn [In]. auto.
        * intros z I0. apply owned_conv. now apply (upd_owned bo).
    - destruct (conv_eval_ok bo j i ia ip h1 c v icur (fst d) H1 Nc B1 L1) as (h2 & E2 & H2 & U2).
      destruct (conv_votes_ok _ _ _ _ _ _ _ _ H2) as (h3 & E3 & H3 & U3).
      assert (U13 : only (conv_ids bo i ia ip) h1 h3).
      { eapply only_trans; [eapply OC; [|exact U2]|eapply OC; [|exact U3]];
          intros z [<-|[]]; apply owned_conv; unfold owned; cbn [In]; auto. }
      exists inp1, c, h3. split; [|split; [|split; [|split]]].
      + unfold h_ccall. erewrite bind_some by exact E1. rewrite IC. erewrite bind_some by exact E2.
        erewrite bind_some by exact E3. reflexivity.
      + cbn [c_call]. rewrite ED. exact H3.
      + eapply is_data_frame; eauto.
      + intros A. eapply all_written_only; [exact U3| | | |].
        * apply not_one; auto.
        * apply not_one; auto.
        * intros B. destruct (D7 B) as (D71 & D72 & D73 & D74). apply not_one; auto.
        * eapply all_written_only; [exact U2| | | |exact (AW1 A)].
          -- apply not_one; auto.
          -- apply not_one; auto.
          -- intros B. destruct (D7 B) as (D71 & D72 & D73 & D74). apply not_one; auto.
      + eapply only_trans; [eapply only1; [exact U1|cbn [In]; auto]|]. apply UU. exact U13.
  Qed.

  Lemma ccalls_ok : forall xs h inp c v, is_conv bo j i ia ip h c v ->
    is_data h idata ilab icur inp (cv_np v * b_nlit (cv_b v)) data -> Forall (ccall_ok (length data) (b_ncls (cv_b v))) xs ->
    (strict = true -> all_written bo i ia ip h) ->
    exists inp' c' h', h_ccalls strict bo boost j xs inp c h = Some ((inp', c'), h') /\
      is_conv bo j i ia ip h' c' (fold_left (c_call bo boost data) xs v) /\
      is_data h' idata ilab icur inp' (cv_np v * b_nlit (cv_b v)) data /\
      (all_written bo i ia ip h -> all_written bo i ia ip h') /\
      only (icur :: conv_ids bo i ia ip) h h'.
  Proof.
    induction xs as [|x xs IH]; intros h inp c v H ID OK ST.
    - exists inp, c, h. split; [reflexivity|]. split; [exact H|]. split; [exact ID|]. split; [auto|apply only_refl].
    - pose proof (Forall_inv OK) as O1. pose proof (Forall_inv_tail OK) as O2.
      destruct (ccall_ok1 x h inp c v H ID O1 ST) as (inp1 & c1 & h1 & E1 & H1 & ID1 & A1 & U1).
      destruct (c_call_dims bo boost data v x) as (M1 & M2 & M3).
      destruct (IH h1 inp1 c1 (c_call bo boost data v x) H1) as (inp2 & c2 & h2 & E2 & H2 & ID2 & A2 & U2).
      + rewrite M1, M2. exact ID1.
      + rewrite M3. exact O2.
      + auto.
      + exists inp2, c2, h2. cbn [h_ccalls fold_left]. rewrite M1, M2 in ID2.
        split; [erewrite bind_some by exact E1; exact E2|]. split; [exact H2|]. split; [exact ID2|]. split; [auto|eapply only_trans; eauto].
  Qed.
End History.
