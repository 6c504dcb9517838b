(** Further facts about the scalar machine on the heap: cycles of initialize and
    cleanup, and what happens outside the preconditions. *)
From Coq Require Import ZArith List Bool QArith Lia ZifyBool.
From Verif Require Import Base ModelHeap ModelDense ModelFeedback ModelExecutor ModelDenseExec ModelTMHeap ModelHeapRun SpecHeap ProofsHeap
  ProofsTMHeap ProofsTMHeapB ProofsTMHeapC ProofsTMHeapD ProofsTMHeapE ProofsTMHeapF ProofsTMHeapG ProofsTMHeapH ProofsHeapRun.
Import ListNotations.
Open Scope Z_scope.

(** initialize and cleanup of one object. *)
Lemma cycle_ok : forall bo std_of fast_of nlit ncls seed s h, sized nlit ncls s -> seed <> 0 ->
  exists s1 h1 s2 h2, h_initialize bo std_of fast_of seed s h = Some ((true, s1), h1) /\
    live h1 = (live h + per bo)%nat /\
    h_cleanup bo s1 h1 = Some (s2, h2) /\ live h2 = S (live h) /\ released bo s2 /\ sized nlit ncls s2 /\
    (forall id, (id < length h)%nat -> nth_error h2 id = nth_error h id).
Proof.
  intros bo std_of fast_of nlit ncls seed s h (S1 & S2 & S3 & S4) SD.
  destruct (initialize_ok bo std_of fast_of nlit (Z.to_nat (hs_ncl s)) ncls (hs_budget s) (hs_s_inv s) (hs_s_min1_inv s) seed [] s h)
    as (b & s1 & h1 & I1 & E1 & B1 & _ & M1 & M2 & M3 & K1 & Q1); auto; try lia.
  assert (EB : each_block bo false h1 [fresh_ids (length h)] [(true, s1)] [(true, b)]) by (cbn [each_block]; auto).
  assert (ND : NoDup (concat (map (owned bo) [fresh_ids (length h)]))) by (cbn [map concat]; rewrite app_nil_r; apply fresh_nodup1).
  pose proof (each_ptrs _ _ _ _ _ _ EB) as PT.
  assert (KD : forall id, In id (concat (map (owned bo) [fresh_ids (length h)])) -> kind_at h1 id = Some (Some KNew)).
  { intros id I. cbn [map concat] in I. rewrite app_nil_r in I. apply fresh_owned in I. unfold kind_at. rewrite Q1.
    assert (LK : length (kinds h) = length h) by apply map_length. rewrite nth_error_app2 by lia. rewrite LK.
    destruct bo; cbn [per fresh_kinds app] in *;
    [destruct (id - length h)%nat as [|[|[|[|[|n]]]]] eqn:EN|destruct (id - length h)%nat as [|[|[|[|n]]]] eqn:EN]; cbn [nth_error]; first [reflexivity|lia]. }
  cbn [all_ptrs] in PT. destruct PT as [(P1 & P2 & P3 & P4) _].
  cbn [map concat] in KD. rewrite app_nil_r in KD.
  destruct (cleanup_blocks_ok bo [fresh_ids (length h)] [(true, s1)] h1 ND) as (hb' & h2 & E2 & Q2 & R2 & L2 & F2).
  { cbn [all_ptrs]. split; auto. unfold own_ptrs. auto. }
  { cbn [map concat]. rewrite app_nil_r. exact KD. }
  cbn [h_cleanup_blocks] in E2. unfold bind at 1 in E2. destruct (h_cleanup bo s1 h1) as [[s2 h3]|] eqn:EC; [|discriminate].
  cbn in E2. inversion E2; subst. inversion R2 as [|? ? R _]; subst. cbn [snd] in R.
  assert (LV : (live h1 = live h + per bo)%nat).
  { rewrite !live_kinds. fold (nlive (kinds h1)). fold (nlive (kinds h)). rewrite Q1, nlive_app, nlive_fresh. reflexivity. }
  exists s1, h1, s2, h2. split; [exact E1|]. split; [exact LV|]. split; [exact EC|]. split.
  { rewrite !live_kinds in *. fold (nlive (kinds h1)) in LV. fold (nlive (kinds h)) in *. fold (nlive (kinds h2)).
    cbn [length] in Q2. destruct bo; cbn [per] in *; lia. }
  split; [exact R|]. split.
  { destruct (cleanup_ok bo (fresh_ids (length h)) s1 h1 (fresh_nodup1 _ _) P1 P2 P3 P4)
      as (s3 & h3 & E3 & _ & _ & _ & _ & _ & _ & A6 & A7 & A8 & _); try (apply KD; unfold owned; cbn [In]; auto 8; fail).
    { intros ->. apply KD. unfold owned. cbn [In]. auto 8. }
    rewrite EC in E3. inversion E3; subst. red. rewrite A6, A7, A8, M1, M2, M3. rewrite Nat2Z.id. auto with zarith. }
  intros id L. rewrite F2; [now apply K1|]. cbn [map concat]. rewrite app_nil_r. intros I. apply fresh_owned in I. lia.
Qed.

Lemma cycles_ok : forall bo std_of fast_of nlit ncls seed, seed <> 0 -> forall k s h, sized nlit ncls s ->
  exists s' h', h_cycles bo std_of fast_of seed k s h = Some (s', h') /\ live h' = (live h + k)%nat.
Proof.
  intros bo std_of fast_of nlit ncls seed SD. induction k; intros s h Z.
  - exists s, h. split; [reflexivity|lia].
  - destruct (cycle_ok bo std_of fast_of nlit ncls seed s h Z SD) as (s1 & h1 & s2 & h2 & E1 & _ & E2 & L2 & _ & Z2 & _).
    destruct (IHk s2 h2 Z2) as (s' & h' & E & L). exists s', h'. split; [|lia].
    cbn [h_cycles]. erewrite bind_some by exact E1. cbn [snd]. erewrite bind_some by exact E2. exact E.
Qed.

(** ** Outside the preconditions *)
Lemma bind_none : forall A B (m : M A) (f : A -> M B) h, m h = None -> bind m f h = None.
Proof. intros A B m f h E. unfold bind. now rewrite E. Qed.
Lemma chk_none : forall z h, int_max < z -> chk z h = None.
Proof. intros z h L. unfold chk. destruct (_ && _) eqn:E; [lia|reflexivity]. Qed.

Lemma size_clauses : forall bo std_of fast_of seed s h, seed <> 0 ->
  0 <= hs_ncl s -> 0 <= hs_nlit s -> int_max < hs_ncl s * hs_nlit s * 2 ->
  h_initialize bo std_of fast_of seed s h = None.
Proof.
  intros bo std_of fast_of seed s h SD A B C. unfold h_initialize. destruct (seed =? 0) eqn:E; [lia|].
  destruct (Z_le_gt_dec (hs_ncl s * hs_nlit s) int_max) as [L|G].
  - erewrite bind_some by (apply imul_ok; nia). apply bind_none. apply chk_none. exact C.
  - apply bind_none. apply chk_none. lia.
Qed.

Lemma size_weights : forall bo std_of fast_of seed s h, seed <> 0 ->
  0 <= hs_ncl s -> 0 <= hs_nlit s -> hs_ncl s * hs_nlit s * 2 <= int_max -> hs_ncl s <= int_max ->
  int_max < hs_ncl s * hs_ncls s ->
  h_initialize bo std_of fast_of seed s h = None.
Proof.
  intros bo std_of fast_of seed s h SD A B C D W. unfold h_initialize. destruct (seed =? 0) eqn:E; [lia|].
  erewrite bind_some by (apply imul_ok; nia). erewrite bind_some by (apply imul_ok; nia).
  replace (hs_ncl s * hs_nlit s * 2) with (Z.of_nat (Z.to_nat (hs_ncl s * hs_nlit s * 2))) by (apply Z2Nat.id; nia).
  erewrite bind_some by apply new_arr_ok.
  match goal with |- bind _ _ ?hh = None => generalize hh end. intros g.
  assert (X : new_arr (hs_ncl s) g = Some (start (length g), g ++ [Some (mkChunk KNew (repeat None (Z.to_nat (hs_ncl s))))])).
  { unfold new_arr. destruct (0 <=? hs_ncl s) eqn:Y; [reflexivity|lia]. }
  erewrite bind_some by exact X.
  destruct (mset_ok (g ++ [Some (mkChunk KNew (repeat None (Z.to_nat (hs_ncl s))))]) (length g) _ (Z.to_nat (hs_ncl s)) 0 (halloc_cells _ _ _))
    as (h3 & E3 & _); [rewrite repeat_length; lia|]. rewrite Z2Nat.id in E3 by lia.
  erewrite bind_some by exact E3. apply bind_none. apply chk_none. exact W.
Qed.

Lemma data_index : forall index inp h, 0 <= index -> int_max < index * in_nlit inp -> h_prepare index inp h = None.
Proof.
  intros index inp h A B. unfold h_prepare.
  assert (G : forall (lab : ptr) h, (o <- imul index (in_nlit inp) ;; mcopy (in_cur inp) 0 (in_data inp) o (in_nlit inp) ;;;
     ret (mkIn (in_nlit inp) (in_nex inp) (in_nlab inp) (in_data inp) (in_labels inp) (in_cur inp) lab)) h = None).
  { intros lab h0. apply bind_none. now apply chk_none. }
  unfold bind at 1. destruct (_ h) as [[lab h1]|]; [|reflexivity]. apply G.
Qed.

(** Seed 0: initialize declines, and a loaded state is copied through null. *)
Lemma seed_zero : forall bo std_of fast_of s h, exists s', h_initialize bo std_of fast_of 0 s h = Some ((false, s'), h) /\
  hs_clauses s' = hs_clauses s /\ hs_weights s' = hs_weights s /\ hs_ncl s' = hs_ncl s /\ hs_init s' = false.
Proof. intros. eexists. split; [reflexivity|]. auto. Qed.

Lemma chk_same : forall z h a h', chk z h = Some (a, h') -> h' = h /\ a = z.
Proof. intros z h a h' E. unfold chk in E. destruct (_ && _); inversion E; auto. Qed.

Lemma set_state_null : forall s arr off h, hs_clauses s = null -> 0 < hs_ncl s -> h_set_clause_state s arr off h = None.
Proof.
  intros s arr off h P N. unfold h_set_clause_state. rewrite P.
  destruct (Z.to_nat (hs_ncl s)) as [|n] eqn:EN; [lia|]. cbn [mloop]. apply bind_none.
  do 5 (unfold bind at 1; match goal with |- match ?x with _ => _ end = None => destruct x as [[? ?]|]; [|reflexivity] end).
  apply bind_none. unfold mcopy. apply bind_none. reflexivity.
Qed.

(** A label that is no class. *)
Section Label.
  Variables (fl : hflags) (nlit ncls : nat) (icur idata ilab : nat) (is : list ids).
  Hypothesis Ncd : icur <> idata.
  Hypothesis Ncl : icur <> ilab.
  Hypothesis Nown : NoDup (concat (map (owned (fl_budget fl)) is)).
  Hypothesis Nc : ~ In icur (concat (map (owned (fl_budget fl)) is)).
  Hypothesis Nl : ~ In ilab (concat (map (owned (fl_budget fl)) is)).

  Lemma bad_label : forall ct h inp hb f mb data k d, each_block (fl_budget fl) ct h is hb mb ->
    is_data h idata ilab icur inp nlit data -> dims nlit ncls mb -> fb_inv ncls f ->
    nth_error data k = Some d -> (ncls <= snd d)%nat ->
    h_train_one fl k (mkHx inp hb f) h = None.
  Proof.
    intros ct h inp hb f mb data k d E ID D FI EK LB.
    destruct (prepare_ok nlit icur idata ilab Ncd Ncl h inp data k d ID EK) as (h1 & E1 & B1 & L1 & U1).
    set (inp1 := mkIn (in_nlit inp) (in_nex inp) (in_nlab inp) (in_data inp) (in_labels inp) (in_cur inp)
                      (Some (mkAddr ilab (Z.of_nat k)))) in *.
    assert (IC : in_cur inp1 = start icur) by (destruct (id_cur _ _ _ _ _ _ _ ID); auto).
    destruct (run_examples_ok fl nlit ncls icur ct true (h_train_example fl inp1) (dense_train_ex (fl_budget fl)) (fst d))
      with (is := is) (hb := hb) (mb := mb) (f := fb_reset f) (h := h1)
      as (mb2 & f2 & h2 & R1 & R2 & R3 & R4 & R5 & R6); auto.
    - intros. eapply train_example_ok; eauto.
    - eapply each_frame; [exact E|exact U1|]. intros id [X|[]]. now subst.
    - now apply fb_inv_reset.
    - unfold h_train_one. cbn [hx_fb hx_in hx_blocks].
      erewrite bind_some by exact E1. erewrite bind_some by exact R2. apply bind_none.
      destruct (id_labels _ _ _ _ _ _ _ ID) as [PL HL].
      assert (HL2 : holds h2 ilab (map (fun d => Z.of_nat (snd d)) data)).
      { eapply only_cells; [exact R6|exact Nl|]. eapply cells_one; [exact U1|auto|exact HL]. }
      unfold h_process. cbn [inp1 in_lab]. erewrite bind_some by (eapply (label_load icur idata ilab); eauto).
      destruct R5 as [R51 R52]. destruct (Z.of_nat (snd d) <? Z.of_nat (fb_ncls f2)) eqn:X; [lia|reflexivity].
  Qed.
End Label.
