(** The executor on the heap. *)
From Coq Require Import ZArith List Bool QArith Lia ZifyBool.
From Verif Require Import Base ModelHeap ModelDense ModelFeedback ModelExecutor ModelDenseExec ModelTMHeap SpecHeap ProofsHeap
  ProofsTMHeap ProofsTMHeapB ProofsTMHeapC ProofsTMHeapD ProofsTMHeapE.
From Verif Require ProofsFeedback.
Import ListNotations.
Open Scope Z_scope.

Lemma nodup_app : forall A (a b : list A), NoDup (a ++ b) -> NoDup a /\ NoDup b /\ forall x, In x a -> ~ In x b.
Proof.
  induction a as [|x a IH]; intros b N; cbn [app] in N.
  - split; [constructor|]. split; [exact N|]. intros x [].
  - inversion N as [|y l NI ND]; subst. destruct (IH b ND) as (A1 & A2 & A3). split.
    + constructor; auto. intros I. apply NI. apply in_or_app. auto.
    + split; [exact A2|]. intros y [E|I]; [subst; intros I; apply NI; apply in_or_app; auto|now apply A3].
Qed.

Lemma fb_inv_reset : forall n f, fb_inv n f -> fb_inv n (fb_reset f).
Proof. intros n f [A B]. split; cbn [fb_reset fb_ncls fb_votes]; auto. now rewrite repeat_length. Qed.
Lemma fb_inv_register : forall n f v, fb_inv n f -> length v = n -> fb_inv n (fb_register v f).
Proof.
  intros n f v [A B] L. split; cbn [fb_register fb_ncls fb_votes]; auto.
  rewrite add_votes_len; lia.
Qed.
Lemma fb_inv_process : forall n f l, fb_inv n f -> fb_inv n (fb_process l f).
Proof. intros n f l [A B]. unfold fb_process. destruct (sample_discrete _ _). split; cbn [fb_ncls fb_votes]; auto. Qed.

Lemma process_classes : forall n f l, fb_inv n f -> (l < n)%nat ->
  (fb_pos (fb_process l f) < n)%nat /\ (fb_neg (fb_process l f) < n)%nat.
Proof.
  intros n f l [A B] L. unfold fb_process.
  assert (LP : length (set_nth l 0%Q (map (neg_prob (fb_thr f)) (firstn (fb_ncls f) (fb_votes f)))) = n).
  { rewrite hset_length, map_length, firstn_length. lia. }
  set (ps := set_nth l 0%Q (map (neg_prob (fb_thr f)) (firstn (fb_ncls f) (fb_votes f)))) in *.
  destruct (sample_discrete ps (fb_rng f)) as [neg r] eqn:E. cbn [fb_pos fb_neg]. split; [exact L|].
  unfold sample_discrete in E. destruct (length ps <? 2)%nat.
  - injection E as <- _. lia.
  - destruct (next_u (fb_rng f)) as [u r0]. injection E as <- _.
    assert (ps <> []) as NE by (intros X; rewrite X in LP; cbn in LP; lia).
    pose proof (ProofsFeedback.pick_loop_range (qsum ps) ps 0 u 0 NE). lia.
Qed.

Lemma each_frame : forall bo ct is hb mb h h' l, each_block bo ct h is hb mb -> only l h h' ->
  (forall id, In id l -> ~ In id (concat (map (owned bo) is))) -> each_block bo ct h' is hb mb.
Proof.
  intros bo ct. induction is as [|i is IH]; intros hb mb h h' l E U N; destruct hb as [|[t s] hb], mb as [|[t' b] mb]; cbn [each_block] in *; auto.
  destruct E as (E1 & E2 & E3). split; [auto|]. cbn [map concat] in N. split.
  - eapply is_block_frame; eauto. intros id I J. apply (N id I). apply in_or_app. auto.
  - eapply IH; eauto. intros id I J. apply (N id I). apply in_or_app. auto.
Qed.

Lemma only_app_l : forall (a b : list nat) h h', only a h h' -> only (a ++ b) h h'.
Proof. intros. eapply only_incl; [eassumption|]. intros x I. apply in_or_app. auto. Qed.
Lemma only_app_r : forall (a b : list nat) h h', only b h h' -> only (a ++ b) h h'.
Proof. intros. eapply only_incl; [eassumption|]. intros x I. apply in_or_app. auto. Qed.

Section Exec.
  Variables (fl : hflags) (nlit ncls : nat) (icur : nat).
  Notation bo := (fl_budget fl).

  Lemma train_example_ok : forall ct i h s b inp lits f, is_block bo ct i h s b ->
    ~ In icur (owned bo i) -> buffer_holds h icur lits -> length lits = b_nlit b -> in_cur inp = start icur ->
    fb_inv (b_ncls b) f ->
    exists h', h_train_example fl inp s f h = Some (fb_register (snd (dense_train_ex bo lits b)) f, h') /\
      is_block bo true i h' s (fst (dense_train_ex bo lits b)) /\
      length (snd (dense_train_ex bo lits b)) = b_ncls b /\ only (owned bo i) h h'.
  Proof.
    intros ct i h s b inp lits f H NI BH L IN FI.
    destruct (train_output_ok bo ct i h s b icur lits H NI BH L) as (h1 & E1 & H1 & U1).
    destruct (votes_ok bo true i h1 s _ H1) as (h2 & E2 & H2 & U2).
    exists h2. unfold h_train_example. rewrite IN.
    erewrite bind_some by exact E1. erewrite bind_some by exact E2.
    pose proof (ib_votes _ _ _ _ _ _ H2) as [PV HV]. rewrite PV.
    pose proof (ib_shaped _ _ _ _ _ _ H2) as (_ & _ & _ & _ & LV).
    destruct FI as [F1 F2].
    split; [|split; [exact H2|split; [exact LV|]]].
    - rewrite (register_ok (i_votes i) _ f h2 HV).
      + reflexivity.
      + rewrite LV. cbn [count_votes train_set_clause_output b_ncls]. congruence.
      + lia.
    - eapply only_trans; [eapply only_incl; [exact U1|apply out_ids_owned]|].
      eapply only1; [exact U2|]. unfold owned. cbn [In]. auto.
  Qed.

  Lemma eval_example_ok : forall ct i h s b inp lits f, is_block bo ct i h s b ->
    ~ In icur (owned bo i) -> buffer_holds h icur lits -> length lits = b_nlit b -> in_cur inp = start icur ->
    fb_inv (b_ncls b) f ->
    exists h', h_eval_example inp s f h = Some (fb_register (snd (dense_eval_ex lits b)) f, h') /\
      is_block bo ct i h' s (fst (dense_eval_ex lits b)) /\
      length (snd (dense_eval_ex lits b)) = b_ncls b /\ only (owned bo i) h h'.
  Proof.
    intros ct i h s b inp lits f H NI BH L IN FI.
    destruct (eval_output_ok bo ct i h s b icur lits H NI BH L) as (h1 & E1 & H1 & U1).
    destruct (votes_ok bo ct i h1 s _ H1) as (h2 & E2 & H2 & U2).
    exists h2. unfold h_eval_example. rewrite IN.
    erewrite bind_some by exact E1. erewrite bind_some by exact E2.
    pose proof (ib_votes _ _ _ _ _ _ H2) as [PV HV]. rewrite PV.
    pose proof (ib_shaped _ _ _ _ _ _ H2) as (_ & _ & _ & _ & LV).
    destruct FI as [F1 F2].
    split; [|split; [exact H2|split; [exact LV|]]].
    - rewrite (register_ok (i_votes i) _ f h2 HV).
      + reflexivity.
      + rewrite LV. cbn [count_votes eval_set_clause_output b_ncls]. congruence.
      + lia.
    - eapply only_trans; eapply only1; [exact U1| |exact U2|]; unfold owned; cbn [In]; auto.
  Qed.

  (** Both example loops. *)
  Lemma run_examples_ok : forall (ct ct' : bool) (hex : hstate -> fblock -> M fblock) (mex : list Z -> block -> block * list Z) lits,
    (forall i h s b f, is_block bo ct i h s b -> ~ In icur (owned bo i) -> buffer_holds h icur lits ->
       length lits = b_nlit b -> fb_inv (b_ncls b) f ->
       exists h', hex s f h = Some (fb_register (snd (mex lits b)) f, h') /\
         is_block bo ct' i h' s (fst (mex lits b)) /\ length (snd (mex lits b)) = b_ncls b /\ only (owned bo i) h h') ->
    (forall b, b_nlit (fst (mex lits b)) = b_nlit b /\ b_ncls (fst (mex lits b)) = b_ncls b) ->
    forall is hb mb f h, each_block bo ct h is hb mb -> NoDup (concat (map (owned bo) is)) ->
      ~ In icur (concat (map (owned bo) is)) -> buffer_holds h icur lits -> length lits = nlit ->
      dims nlit ncls mb -> fb_inv ncls f ->
      exists mb' f' h', run_examples block (list Z) mex lits mb f = (mb', f') /\
        h_run_examples hex hb f h = Some (f', h') /\
        each_block bo ct' h' is hb mb' /\ dims nlit ncls mb' /\ fb_inv ncls f' /\
        only (concat (map (owned bo) is)) h h'.
  Proof.
    intros ct ct' hex mex lits HX HD. induction is as [|i is IH]; intros hb mb f h E N NI BH L D FI;
      destruct hb as [|[t s] hb], mb as [|[t' b] mb]; cbn [each_block] in E; try contradiction.
    - exists [], f, h. split; [reflexivity|]. split; [reflexivity|]. split; [exact I|]. split; [constructor|]. split; [auto|apply only_refl].
    - destruct E as (-> & E2 & E3). cbn [map concat] in *. inversion D as [|x y [D1 D2] D3]; subst x y. cbn [snd] in D1, D2.
      destruct (nodup_app _ _ _ N) as (N1 & N2 & N3).
      destruct (HX i h s b f E2) as (h1 & X1 & X2 & X3 & X4).
      + intros J. apply NI. apply in_or_app. auto.
      + exact BH.
      + congruence.
      + rewrite D2. exact FI.
      + destruct (IH hb mb (fb_register (snd (mex lits b)) f) h1) as (mb' & f' & h' & R1 & R2 & R3 & R4 & R5 & R6).
        * eapply each_frame; [exact E3|exact X4|]. exact N3.
        * exact N2.
        * intros J. apply NI. apply in_or_app. auto.
        * destruct BH as [rest C]. exists rest. eapply only_cells; [exact X4| |exact C]. intros J. apply NI. apply in_or_app. auto.
        * exact L.
        * exact D3.
        * apply fb_inv_register; auto. congruence.
        * exists ((t', fst (mex lits b)) :: mb'), f', h'. cbn [run_examples h_run_examples].
          destruct (mex lits b) as [b1 v] eqn:EM. cbn [fst snd] in *. rewrite R1. split; [reflexivity|].
          split; [erewrite bind_some by exact X1; exact R2|]. split; [|split; [|split; [auto|]]].
          -- cbn [each_block]. split; [reflexivity|]. split; [|exact R3].
             eapply is_block_frame; [exact X2|exact R6|]. intros id J K. exact (N3 id K J).
          -- constructor; auto. cbn [snd]. destruct (HD b) as [A B]. rewrite EM in A, B. cbn [fst] in A, B. split; congruence.
          -- eapply only_trans; [apply only_app_l; exact X4|apply only_app_r; exact R6].
  Qed.

  Lemma run_updates_ok : forall inp lits f (ct : bool), (bo = true -> ct = true) -> in_cur inp = start icur ->
    (fb_pos f < ncls)%nat -> (fb_neg f < ncls)%nat ->
    forall is hb mb h, each_block bo ct h is hb mb -> NoDup (concat (map (owned bo) is)) ->
      ~ In icur (concat (map (owned bo) is)) -> buffer_holds h icur lits -> length lits = nlit ->
      dims nlit ncls mb ->
      exists hb' h', h_run_updates fl inp f hb h = Some (hb', h') /\
        each_block bo ct h' is hb' (run_updates block (list Z) (dense_upd bo (fl_boost fl)) lits f mb) /\
        dims nlit ncls (run_updates block (list Z) (dense_upd bo (fl_boost fl)) lits f mb) /\
        only (concat (map (owned bo) is)) h h'.
  Proof.
    intros inp lits f ct CT IN LP LN. induction is as [|i is IH]; intros hb mb h E N NI BH L D;
      destruct hb as [|[t s] hb], mb as [|[t' b] mb]; cbn [each_block] in E; try contradiction.
    - exists [], h. split; [reflexivity|]. split; [exact I|]. split; [constructor|apply only_refl].
    - destruct E as (-> & E2 & E3). cbn [map concat] in *. inversion D as [|x y [D1 D2] D3]; subst x y. cbn [snd] in D1, D2.
      destruct (nodup_app _ _ _ N) as (N1 & N2 & N3).
      assert (ST : exists s1 h1,
        (if t' then h_train_update bo (fl_boost fl) (in_cur inp) (Z.of_nat (fb_pos f)) (fb_pp f) (Z.of_nat (fb_neg f)) (fb_np f) s
         else ret s) h = Some (s1, h1) /\
        is_block bo ct i h1 s1 (if t' then dense_upd bo (fl_boost fl) lits (fb_pos f) (fb_pp f) (fb_neg f) (fb_np f) b else b) /\
        only (owned bo i) h h1).
      { destruct t'.
        - rewrite IN. destruct (update_ok bo ct (fl_boost fl) i h s b icur lits (fb_pos f) (fb_pp f) (fb_neg f) (fb_np f) E2 CT)
            as (s1 & h1 & A1 & A2 & A3).
          + intros J. apply NI. apply in_or_app. auto.
          + exact BH.
          + congruence.
          + congruence.
          + congruence.
          + exists s1, h1. split; [exact A1|]. split; [exact A2|]. eapply only_incl; [exact A3|apply upd_owned].
        - exists s, h. split; [reflexivity|]. split; [exact E2|apply only_refl]. }
      destruct ST as (s1 & h1 & X1 & X2 & X4).
      destruct (IH hb mb h1) as (hb' & h' & R1 & R3 & R4 & R6).
      + eapply each_frame; [exact E3|exact X4|]. exact N3.
      + exact N2.
      + intros J. apply NI. apply in_or_app. auto.
      + destruct BH as [rest C]. exists rest. eapply only_cells; [exact X4| |exact C]. intros J. apply NI. apply in_or_app. auto.
      + exact L.
      + exact D3.
      + exists ((t', s1) :: hb'), h'. cbn [h_run_updates run_updates map].
        split; [erewrite bind_some by exact X1; erewrite bind_some by exact R1; reflexivity|].
        assert (EQ : (if t' then (t', dense_upd bo (fl_boost fl) lits (fb_pos f) (fb_pp f) (fb_neg f) (fb_np f) b) else (t', b)) =
                (t', if t' then dense_upd bo (fl_boost fl) lits (fb_pos f) (fb_pp f) (fb_neg f) (fb_np f) b else b))
          by (destruct t'; reflexivity).
        unfold run_updates. cbn [map]. rewrite EQ. split; [|split].
        * cbn [each_block]. split; [reflexivity|]. split; [|exact R3].
          eapply is_block_frame; [exact X2|exact R6|]. intros id J K. exact (N3 id K J).
        * constructor; [|exact R4]. cbn [snd]. destruct t'; [|split; congruence].
          unfold dense_upd, train_update. destruct (train_update_loop _ _ _ _ _ _ _ _ _ _ _ _ _ _ _ _) as [[[[? ?] ?] ?] ?].
          cbn [b_nlit b_ncls]. split; congruence.
        * eapply only_trans; [apply only_app_l; exact X4|apply only_app_r; exact R6].
  Qed.

  (** ** prepare_example *)
  Variables (idata ilab : nat).
  Hypothesis Ncd : icur <> idata.
  Hypothesis Ncl : icur <> ilab.

  Lemma concat_split : forall (ds : list (list Z * nat)) k d n, Forall (fun d => length (fst d) = n) ds ->
    nth_error ds k = Some d ->
    exists a b, concat (map fst ds) = a ++ fst d ++ b /\ length a = (k * n)%nat /\ length (fst d) = n /\ (k < length ds)%nat.
  Proof.
    intros ds k d n F E. destruct (nth_error_split ds k E) as (a & b & -> & L).
    apply Forall_app in F. destruct F as [Fa Fb]. inversion Fb; subst.
    exists (concat (map fst a)), (concat (map fst b)).
    rewrite map_app, concat_app. cbn [map concat]. split; [reflexivity|].
    split; [|split; [reflexivity|rewrite app_length; cbn [length]; lia]].
    rewrite (concat_len _ (length (fst d))); [now rewrite map_length|].
    clear - Fa. induction Fa; cbn [map]; constructor; auto.
  Qed.

  Lemma prepare_ok : forall h inp data k d, is_data h idata ilab icur inp nlit data -> nth_error data k = Some d ->
    exists h', h_prepare (Z.of_nat k) inp h =
        Some (mkIn (in_nlit inp) (in_nex inp) (in_nlab inp) (in_data inp) (in_labels inp) (in_cur inp)
                   (Some (mkAddr ilab (Z.of_nat k))), h') /\
      buffer_holds h' icur (fst d) /\ length (fst d) = nlit /\ only [icur] h h'.
  Proof.
    intros h inp data k d ID E. destruct ID. destruct id_data as [PD HD]. destruct id_labels as [PL HL].
    destruct id_cur as (PC & cs & HC & LC). destruct id_fits as [F1 F2].
    destruct (concat_split data k d nlit id_rows E) as (a & b & EC & La & Ld & Lk).
    unfold h_prepare. rewrite PL, id_nlab, id_nlit, PD, PC. unfold start at 1.
    assert (B : (k * nlit <= length data * nlit)%nat) by (apply Nat.mul_le_mono_r; lia).
    assert (E0 : (i <- imul (Z.of_nat k) 1 ;; padd (start ilab) i) h = Some (Some (mkAddr ilab (Z.of_nat k)), h)).
    { erewrite bind_some by (apply imul_ok; lia). unfold start.
      erewrite padd_ok by (first [exact HL|rewrite !map_length; lia]). repeat f_equal. lia. }
    erewrite bind_some by exact E0.
    erewrite bind_some by (apply imul_ok; lia).
    destruct (mcopy_ok (fst d) (firstn nlit cs) icur idata h [] (skipn nlit cs) (map Some a) (map Some b)
                0 (Z.of_nat k * Z.of_nat nlit) (Z.of_nat nlit)) as (h' & E' & C' & U').
    - exact Ncd.
    - cbn [app]. rewrite firstn_skipn. exact HC.
    - rewrite <- !map_app. rewrite <- EC. exact HD.
    - rewrite firstn_length. lia.
    - reflexivity.
    - rewrite map_length. lia.
    - lia.
    - exists h'. split; [erewrite bind_some by exact E'; reflexivity|]. split; [exists (skipn nlit cs); exact C'|]. split; auto.
  Qed.

  Lemma is_data_frame : forall h h' inp data l, is_data h idata ilab icur inp nlit data -> only l h h' ->
    ~ In idata l -> ~ In ilab l -> ~ In icur l -> is_data h' idata ilab icur inp nlit data.
  Proof.
    intros h h' inp data l H U A B C. destruct H. constructor; auto.
    - destruct id_data as [X Y]. split; auto. eapply only_cells; eauto.
    - destruct id_labels as [X Y]. split; auto. eapply only_cells; eauto.
    - destruct id_cur as (X & cs & Y & Z). split; auto. exists cs. split; auto. eapply only_cells; eauto.
  Qed.
  Lemma is_data_prepared : forall h h' inp data lits p, is_data h idata ilab icur inp nlit data -> only [icur] h h' ->
    buffer_holds h' icur lits -> length lits = nlit ->
    is_data h' idata ilab icur (mkIn (in_nlit inp) (in_nex inp) (in_nlab inp) (in_data inp) (in_labels inp) (in_cur inp) p) nlit data.
  Proof.
    intros h h' inp data lits p H U [rest C] L. destruct H.
    constructor; cbn [in_nlit in_nex in_nlab in_data in_labels in_cur]; auto.
    - destruct id_data as [X Y]. split; auto. eapply cells_one; eauto.
    - destruct id_labels as [X Y]. split; auto. eapply cells_one; eauto.
    - destruct id_cur as (X & cs & Y & Z). split; auto. exists (map Some lits ++ rest). split; auto.
      rewrite app_length, map_length. lia.
  Qed.

  (** ** One example, a list of examples *)
  Variable is : list ids.
  Notation own := (concat (map (owned bo) is)).
  Hypothesis Nown : NoDup own.
  Hypothesis Nc : ~ In icur own.
  Hypothesis Nd : ~ In idata own.
  Hypothesis Nl : ~ In ilab own.

  Lemma label_load : forall h (data : list (list Z * nat)) k d, holds h ilab (map (fun d => Z.of_nat (snd d)) data) ->
    nth_error data k = Some d -> load_at (Some (mkAddr ilab (Z.of_nat k))) 0 h = Some (Z.of_nat (snd d), h).
  Proof.
    intros h data k d H E. eapply load_at_ok; [exact H|lia|].
    replace (Z.to_nat (Z.of_nat k + 0)) with k by lia. rewrite map_map.
    now apply (map_nth_error (fun d => Some (Z.of_nat (snd d)))).
  Qed.

  Notation mtrain := (train_one block (list Z) (dense_train_ex bo) (dense_upd bo (fl_boost fl)) nat fb_process).

  Lemma train_one_ok : forall ct h inp hb f mb data k d,
    each_block bo ct h is hb mb -> is_data h idata ilab icur inp nlit data ->
    dims nlit ncls mb -> fb_inv ncls f -> nth_error data k = Some d -> (snd d < ncls)%nat ->
    exists x h', h_train_one fl k (mkHx inp hb f) h = Some (x, h') /\
      each_block bo true h' is (hx_blocks x) (fst (mtrain d mb f)) /\
      hx_fb x = snd (mtrain d mb f) /\ is_data h' idata ilab icur (hx_in x) nlit data /\
      dims nlit ncls (fst (mtrain d mb f)) /\ fb_inv ncls (snd (mtrain d mb f)) /\ only (icur :: own) h h'.
  Proof.
    intros ct h inp hb f mb data k d E ID D FI EK LK.
    destruct (prepare_ok h inp data k d ID EK) as (h1 & E1 & B1 & L1 & U1).
    set (inp1 := mkIn (in_nlit inp) (in_nex inp) (in_nlab inp) (in_data inp) (in_labels inp) (in_cur inp)
                      (Some (mkAddr ilab (Z.of_nat k)))) in *.
    assert (ID1 : is_data h1 idata ilab icur inp1 nlit data) by (eapply is_data_prepared; eauto).
    assert (IC : in_cur inp1 = start icur) by (destruct (id_cur _ _ _ _ _ _ _ ID1); auto).
    destruct (run_examples_ok ct true (h_train_example fl inp1) (dense_train_ex bo) (fst d)) with (is := is) (hb := hb) (mb := mb) (f := fb_reset f) (h := h1)
      as (mb2 & f2 & h2 & R1 & R2 & R3 & R4 & R5 & R6); auto.
    - intros. eapply train_example_ok; eauto.
    - eapply each_frame; [exact E|exact U1|]. intros id [X|[]]. now subst.
    - now apply fb_inv_reset.
    - assert (ID2 : is_data h2 idata ilab icur inp1 nlit data) by (eapply is_data_frame; eauto).
      destruct (process_classes ncls f2 (snd d) R5 LK) as [P1 P2].
      assert (B2 : buffer_holds h2 icur (fst d)).
      { destruct B1 as [rest C]. exists rest. eapply only_cells; eauto. }
      destruct (run_updates_ok inp1 (fst d) (fb_process (snd d) f2) true (fun _ => eq_refl) IC P1 P2 is hb mb2 h2) as (hb' & h' & T1 & T2 & T3 & T4); auto.
      exists (mkHx inp1 hb' (fb_process (snd d) f2)), h'.
      unfold train_one. rewrite R1. cbn [fst snd hx_blocks hx_fb hx_in].
      split; [|split; [exact T2|split; [reflexivity|split; [eapply is_data_frame; eauto|split; [exact T3|split; [now apply fb_inv_process|]]]]]].
      + unfold h_train_one. cbn [hx_fb hx_in hx_blocks].
        erewrite bind_some by exact E1. erewrite bind_some by exact R2.
        destruct (id_labels _ _ _ _ _ _ _ ID2) as [PL HL].
        assert (EP : h_process (in_lab inp1) f2 h2 = Some (fb_process (snd d) f2, h2)).
        { unfold h_process. cbn [inp1 in_lab]. erewrite bind_some by (eapply label_load; eauto).
          destruct R5 as [R51 R52].
          destruct (Z.of_nat (snd d) <? Z.of_nat (fb_ncls f2)) eqn:X; [|lia]. rewrite Nat2Z.id. reflexivity. }
        erewrite bind_some by exact EP. erewrite bind_some by exact T1. reflexivity.
      + eapply only_trans; [eapply only1; [exact U1|cbn [In]; auto]|].
        assert (forall a b, only own a b -> only (icur :: own) a b) as K by (intros; eapply only_incl; [eassumption|intros ? ?; right; auto]).
        eapply only_trans; apply K; eauto.
  Qed.

  Notation mtrains := (train_list block (list Z) (dense_train_ex bo) (dense_upd bo (fl_boost fl)) nat fb_process).

  Lemma train_list_ok : forall data, (forall d, In d data -> (snd d < ncls)%nat) ->
    forall idx ct h inp hb f mb, (forall k, In k idx -> (k < length data)%nat) ->
    each_block bo ct h is hb mb -> is_data h idata ilab icur inp nlit data ->
    dims nlit ncls mb -> fb_inv ncls f ->
    exists x h', h_train_list fl idx (mkHx inp hb f) h = Some (x, h') /\
      each_block bo (match idx with [] => ct | _ => true end) h' is (hx_blocks x)
        (fst (mtrains (select (list Z) nat data idx) mb f)) /\
      hx_fb x = snd (mtrains (select (list Z) nat data idx) mb f) /\ is_data h' idata ilab icur (hx_in x) nlit data /\
      dims nlit ncls (fst (mtrains (select (list Z) nat data idx) mb f)) /\
      fb_inv ncls (snd (mtrains (select (list Z) nat data idx) mb f)) /\
      only (icur :: own) h h'.
  Proof.
    intros data LAB. induction idx as [|k idx IH]; intros ct h inp hb f mb LI E ID D FI.
    - eexists. exists h. split; [reflexivity|]. cbn [select flat_map train_list fst snd hx_blocks hx_fb hx_in].
      split; [exact E|]. split; [reflexivity|]. split; [exact ID|]. split; [exact D|]. split; [exact FI|apply only_refl].
    - assert (LK : (k < length data)%nat) by (apply LI; now left).
      destruct (nth_error data k) as [d|] eqn:EK; [|apply nth_error_None in EK; lia].
      destruct (train_one_ok ct h inp hb f mb data k d E ID D FI EK) as (x & h1 & X1 & X2 & X3 & X4 & X5 & X6 & X7).
      { apply LAB. eapply nth_error_In; eauto. }
      cbn [h_train_list select flat_map]. rewrite EK. cbn [app train_list].
      fold (select (list Z) nat data idx).
      destruct (mtrain d mb f) as [mb1 f1]. cbn [fst snd] in *.
      destruct x as [inp1 hb1 f1']. cbn [hx_blocks hx_fb hx_in] in *. subst f1'.
      destruct (IH true h1 inp1 hb1 f1 mb1) as (y & h' & Y1 & Y2 & Y3 & Y4 & Y5 & Y6 & Y7); auto.
      { intros j J. apply LI. now right. }
      exists y, h'. split; [erewrite bind_some by exact X1; exact Y1|].
      split; [destruct idx; exact Y2|]. split; [exact Y3|]. split; [exact Y4|]. split; [exact Y5|]. split; [exact Y6|].
      eapply only_trans; eauto.
  Qed.

  (** ** Evaluation *)
  Variable iout : nat.
  Hypothesis No : ~ In iout own.
  Hypothesis Noc : iout <> icur.
  Hypothesis Nod : iout <> idata.
  Hypothesis Nol : iout <> ilab.

  Notation meval := (eval_list block (list Z) dense_eval_ex).

  Lemma eval_list_ok : forall data ds dd ct h inp hb f mb od os, data = dd ++ ds ->
    each_block bo ct h is hb mb -> is_data h idata ilab icur inp nlit data ->
    dims nlit ncls mb -> fb_inv ncls f -> holds h iout (od ++ os) -> length od = length dd -> length os = length ds ->
    exists x h', h_eval_list (start iout) (seq (length dd) (length ds)) (mkHx inp hb f) h = Some (x, h') /\
      holds h' iout (od ++ map Z.of_nat (fst (fst (meval (map fst ds) mb f)))) /\
      each_block bo ct h' is (hx_blocks x) (snd (fst (meval (map fst ds) mb f))) /\
      hx_fb x = snd (meval (map fst ds) mb f) /\ is_data h' idata ilab icur (hx_in x) nlit data /\
      only (iout :: icur :: own) h h'.
  Proof.
    intros data. induction ds as [|d ds IH]; intros dd ct h inp hb f mb od os ED E ID D FI HO LO LS.
    - destruct os; [|discriminate]. eexists. exists h. split; [reflexivity|]. cbn [map eval_list fst snd hx_blocks hx_fb hx_in].
      split; [exact HO|]. split; [exact E|]. split; [reflexivity|]. split; [exact ID|apply only_refl].
    - destruct os as [|o os]; [discriminate|].
      assert (EK : nth_error data (length dd) = Some d) by (subst data; apply hnth_mid).
      destruct (prepare_ok h inp data _ d ID EK) as (h1 & E1 & B1 & L1 & U1).
      set (inp1 := mkIn (in_nlit inp) (in_nex inp) (in_nlab inp) (in_data inp) (in_labels inp) (in_cur inp)
                        (Some (mkAddr ilab (Z.of_nat (length dd))))) in *.
      assert (ID1 : is_data h1 idata ilab icur inp1 nlit data) by (eapply is_data_prepared; eauto).
      assert (IC : in_cur inp1 = start icur) by (destruct (id_cur _ _ _ _ _ _ _ ID1); auto).
      destruct (run_examples_ok ct ct (h_eval_example inp1) dense_eval_ex (fst d)) with (is := is) (hb := hb) (mb := mb) (f := fb_reset f) (h := h1)
        as (mb2 & f2 & h2 & R1 & R2 & R3 & R4 & R5 & R6); auto.
      { intros. eapply eval_example_ok; eauto. }
      { eapply each_frame; [exact E|exact U1|]. intros id [X|[]]. now subst. }
      { now apply fb_inv_reset. }
      assert (HO2 : holds h2 iout (od ++ o :: os)).
      { eapply only_cells; [exact R6|exact No|]. eapply cells_one; [exact U1|auto|]. exact HO. }
      destruct (store_at_mid h2 iout od o os 0 (Z.of_nat (length dd)) (Z.of_nat (fb_predict f2)) HO2) as (h3 & E3 & H3 & U3); [lia|].
      assert (ID3 : is_data h3 idata ilab icur inp1 nlit data).
      { eapply is_data_frame; [eapply is_data_frame; [exact ID1|exact R6|auto|auto|auto]|exact U3| | |];
          intros [X|[]]; congruence. }
      destruct (IH (dd ++ [d]) ct h3 inp1 hb f2 mb2 (od ++ [Z.of_nat (fb_predict f2)]) os) as (x & h' & Y1 & Y2 & Y3 & Y4 & Y5 & Y6); auto.
      { subst data. now rewrite <- app_assoc. }
      { eapply each_frame; [exact R3|exact U3|]. intros id [X|[]]. now subst. }
      { rewrite <- app_assoc. exact H3. }
      { rewrite !app_length. cbn [length]. lia. }
      exists x, h'. cbn [length seq h_eval_list map eval_list]. rewrite R1.
      destruct (meval (map fst ds) mb2 f2) as [[ys bs] fb] eqn:EM. cbn [fst snd] in *.
      split; [|split; [|split; [exact Y3|split; [exact Y4|split; [exact Y5|]]]]].
      + unfold h_eval_one at 1. cbn [hx_fb hx_in hx_blocks]. unfold bind at 1.
        erewrite bind_some by exact E1. erewrite bind_some by exact R2.
        unfold start at 1. erewrite bind_some by exact E3. unfold ret.
        rewrite app_length, Nat.add_1_r in Y1. exact Y1.
      + cbn [map]. rewrite <- app_assoc in Y2. exact Y2.
      + eapply only_trans; [eapply only1; [exact U1|cbn [In]; auto]|].
        eapply only_trans; [eapply only_incl; [exact R6|intros ? ?; do 2 right; auto]|].
        eapply only_trans; [eapply only1; [exact U3|cbn [In]; auto]|exact Y6].
  Qed.
End Exec.
