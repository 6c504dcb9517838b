(** Memory of the AVX2 convolutional block: aligned patches, and what was in new
    memory. *)
From Coq Require Import ZArith List Bool QArith Lia ZifyBool.
From Verif Require Import Base BaseProofs Spec ModelDense ModelLayout ModelAvx2 ModelConv ModelConvAvx2 SpecAvx2 SpecConvAvx2 ModelSparse ModelSparseImp ModelAvx2Imp
  ModelConvAvx2Imp SpecAvx2Imp SpecConvAvx2Imp ProofsLayout ProofsConv ProofsConvAvx2ImpB ProofsConvAvx2ImpC ProofsConvAvx2ImpD.
Import ListNotations.
Open Scope Z_scope.

Lemma whole_aligned : forall n np k, whole_patches n np -> (k < np)%nat -> patch_aligned n k = true.
Proof.
  intros n np k [H|H] Hk; unfold patch_aligned; apply Nat.eqb_eq.
  - apply Nat.mod_divide; [lia|]. apply Nat.mod_divide in H; [|lia]. destruct H as [q ->]. exists (k * q)%nat. lia.
  - assert (k = O) by lia. subst k. reflexivity.
Qed.

(** ** Aligned patches: nothing is undefined *)
Section aligned.
Variables (bo boost : bool) (n np L : nat) (mask : vec) (lits : list Z).
Hypothesis AL : forall k, (k < np)%nat -> patch_aligned n k = true.

Lemma steps_some : forall row ks st ppc, (forall k, In k ks -> (k < np)%nat) -> (forall k, In k st -> (k < np)%nat) ->
  exists st' ppc', fold_left (xc_patch_step bo n L mask lits row) ks (Some (st, ppc)) = Some (st', ppc') /\ forall k, In k st' -> (k < np)%nat.
Proof.
  intros row ks. induction ks as [|k ks IH]; intros st ppc HK HS; cbn [fold_left]; [eauto|].
  unfold xc_patch_step at 2. rewrite AL by (apply HK; left; reflexivity).
  destruct (xc_patch_output _ _ _ _); apply IH; auto; intros j Hj; try (apply HK; right; exact Hj).
  apply in_app_or in Hj. destruct Hj as [Hj|[<-|[]]]; auto. apply HK. left. reflexivity.
Qed.
Lemma clause_some : forall row a c ppc r, exists o a' c' ppc' r', xc_clause_output bo n L np mask lits row a c ppc r = Some (o, a', c', ppc', r') /\ silent_or_ok np o a'.
Proof.
  intros row a c ppc r. unfold xc_clause_output, xc_patches.
  destruct (steps_some row (seq 0 np) [] ppc) as (st & ppc' & E & HS); [intros k Hk; apply in_seq in Hk; lia|intros k []|]. rewrite E.
  destruct st as [|p st]; [do 5 eexists; split; [reflexivity|left; reflexivity]|].
  pose proof (pick_index_lt (length (p :: st)) r ltac:(cbn [length]; lia)) as PL. destruct (pick_index (length (p :: st)) r) as [i r1]. cbn [fst] in PL.
  do 5 eexists. split; [reflexivity|]. right. split; [reflexivity|]. apply HS. apply nth_In. exact PL.
Qed.
Lemma output_loop_some : forall rows aps cnts ppc r, length aps = length rows -> length cnts = length rows ->
  exists os aps' cnts' ppc' r', xc_output_loop bo n L np mask lits rows aps cnts ppc r = Some (os, aps', cnts', ppc', r') /\ Forall2 (silent_or_ok np) os aps'.
Proof.
  intros rows. induction rows as [|row rows IH]; intros aps cnts ppc r LA LC; cbn [xc_output_loop].
  - destruct aps; [|discriminate]. do 5 eexists. split; [reflexivity|constructor].
  - destruct aps as [|a aps]; [discriminate|]. destruct cnts as [|c cnts]; [discriminate|].
    destruct (clause_some row a c ppc r) as (o & a' & c' & ppc' & r' & E & HS). rewrite E.
    destruct (IH aps cnts ppc' r') as (os & aps' & cnts' & ppc2 & r2 & E2 & HS2); [cbn [length] in *; lia|cbn [length] in *; lia|]. rewrite E2.
    do 5 eexists. split; [reflexivity|]. constructor; auto.
Qed.
Lemma eval_patches_some : forall row ks, (forall k, In k ks -> (k < np)%nat) -> xc_eval_patches n L mask lits row ks <> None.
Proof.
  intros row ks. induction ks as [|k ks IH]; intros HK; cbn [xc_eval_patches]; [discriminate|]. rewrite AL by (apply HK; left; reflexivity).
  destruct (_ =? 1); [discriminate|]. apply IH. intros j Hj. apply HK. right. exact Hj.
Qed.
Lemma eval_loop_some : forall rows, xc_eval_loop n L np mask lits rows <> None.
Proof.
  intros rows. induction rows as [|row rows IH]; cbn [xc_eval_loop]; [discriminate|].
  pose proof (eval_patches_some row (seq 0 np)) as E. destruct (xc_eval_patches n L mask lits row (seq 0 np)).
  - destruct (xc_eval_loop n L np mask lits rows); [discriminate|contradiction].
  - exfalso. apply E; [|reflexivity]. intros k Hk. apply in_seq in Hk. lia.
Qed.
Lemma update_loop_some : forall bud cmp pc pp nc npq rows wss outs cnts aps r fast, Forall2 (silent_or_ok np) outs aps ->
  xc_update_loop bo boost bud cmp n L lits pc pp nc npq rows wss outs cnts aps r fast <> None.
Proof.
  intros bud cmp pc pp nc npq rows. induction rows as [|row rows IH]; intros wss outs cnts aps r fast HS; cbn [xc_update_loop]; [discriminate|].
  destruct wss as [|ws wss]; [discriminate|]. destruct outs as [|o outs]; [discriminate|]. destruct aps as [|a aps]; [inversion HS|].
  assert (H1 : silent_or_ok np o a) by (inversion HS; assumption). assert (H2 : Forall2 (silent_or_ok np) outs aps) by (inversion HS; assumption).
  assert (E : exists x, xc_update_clause bo boost bud cmp n L lits pc pp nc npq row ws o (hd 0 cnts) (hd O (a :: aps)) r fast = Some x).
  { unfold xc_update_clause. cbn [hd]. destruct (draw_lt fast pp) as [d1 f1]. destruct (draw_lt f1 npq) as [d2 f2].
    destruct H1 as [->|[_ H1]].
    - replace (if bo && (hd 0 cnts >? bud) then 0 else 0) with 0 by (destruct (bo && (hd 0 cnts >? bud)); reflexivity).
      rewrite andb_false_r. cbn [andb]. eauto.
    - rewrite AL by exact H1. cbn [negb]. rewrite andb_false_r. eauto. }
  destruct E as [[[[[row1 ws1] o1] r1] fast1] E]. rewrite E. cbn [tl].
  specialize (IH wss outs (tl cnts) aps r1 fast1 H2). destruct (xc_update_loop _ _ _ _ _ _ _ _ _ _ _ rows _ _ _ _ _ _) as [[[[[? ?] ?] ?] ?]|]; [discriminate|contradiction].
Qed.
End aligned.

Lemma x_call_some : forall bo boost pad v c, xshape bo pad v -> whole_patches (a_nlit (xc_b v)) (xc_np v) -> x_call bo boost (Some v) c <> None.
Proof.
  intros bo boost pad v c Sh HW. pose proof (fun k => whole_aligned _ _ k HW) as AL.
  destruct c as [l pc pp nc npq|l|st off|w off]; cbn [x_call]; [| |discriminate|discriminate].
  - unfold xc_train_ex, xc_set_output.
    destruct (output_loop_some bo (a_nlit (xc_b v)) (xc_np v) (a_lmem (xc_b v)) (a_mask (xc_b v)) l AL (a_rows (xc_b v)) (xc_active v) (a_counts (xc_b v)) (xc_ppc v) (xc_rng v)
      (xs_active _ _ _ Sh) (xs_counts _ _ _ Sh)) as (os & aps & cnts & ppc & r & E & HS). rewrite E. cbn [fst xc_upd].
    unfold xc_update, xc_count_votes, avx_count_votes. cbn [xc_b a_budget a_cmp a_nlit a_lmem a_rows a_weights a_outputs a_counts a_vrng a_fast xc_active].
    pose proof (update_loop_some bo boost (a_nlit (xc_b v)) (xc_np v) (a_lmem (xc_b v)) l AL (a_budget (xc_b v)) (a_cmp (xc_b v)) pc pp nc npq
      (a_rows (xc_b v)) (a_weights (xc_b v)) os cnts aps (a_vrng (xc_b v)) (a_fast (xc_b v)) HS) as U.
    destruct (xc_update_loop _ _ _ _ _ _ _ _ _ _ _ _ _ _ _ _ _ _) as [[[[[? ?] ?] ?] ?]|]; [discriminate|contradiction].
  - unfold xc_eval_ex, xc_eval_set. pose proof (eval_loop_some (a_nlit (xc_b v)) (xc_np v) (a_lmem (xc_b v)) (a_mask (xc_b v)) l AL (a_rows (xc_b v))) as U.
    destruct (xc_eval_loop _ _ _ _ _ _); [discriminate|contradiction].
Qed.

(** ** What was in new memory *)

Lemma avx_zero : forall bo boost bud cmp L lits lits' pc pp nc np row ws c c' r fast,
  avx_update_clause bo boost bud cmp L lits pc pp nc np row ws 0 c r fast = avx_update_clause bo boost bud cmp L lits' pc pp nc np row ws 0 c' r fast.
Proof.
  intros. unfold avx_update_clause.
  assert (Z0 : forall b : bool, (if b then 0 else 0) = 0) by (intros []; reflexivity). rewrite !Z0.
  rewrite (avx_silent boost cmp L row (nth pc ws 0) 1 lits lits' 0 r eq_refl). destruct (draw_lt fast pp) as [d1 r1].
  destruct d1.
  - destruct (avx_clause_update boost cmp L row (nth pc ws 0) 1 lits' 0 r) as [[row1 w1] r3]. destruct (draw_lt r1 np) as [d2 r2]. destruct d2; [|reflexivity].
    rewrite (avx_silent boost cmp L row1 _ (-1) lits lits' 0 r3 eq_refl). reflexivity.
  - destruct (draw_lt r1 np) as [d2 r2]. destruct d2; [|reflexivity]. rewrite (avx_silent boost cmp L row _ (-1) lits lits' 0 r eq_refl). reflexivity.
Qed.

Section trace.
Variables (bo boost : bool) (n np L : nat) (mask : vec) (lits : list Z).
Hypothesis HB : bo = false \/ np = 1%nat.

(** What two runs have to agree on for a clause. *)
Definition agree (o : Z) (c c' : Z) (a a' : nat) : Prop := o = 0 \/ a' = a /\ (bo = true -> c' = c).

Lemma steps_trace : forall row ks st ppc ppc', length ppc' = length ppc ->
  match fold_left (xc_patch_step bo n L mask lits row) ks (Some (st, ppc)), fold_left (xc_patch_step bo n L mask lits row) ks (Some (st, ppc')) with
  | None, None => True
  | Some (s, p), Some (s', p') => s' = s /\ length p' = length p
  | _, _ => False
  end.
Proof.
  intros row ks. induction ks as [|k ks IH]; intros st ppc ppc' Hl; cbn [fold_left]; [auto|].
  assert (SE : forall p, xc_patch_step bo n L mask lits row (Some (st, p)) k =
    if patch_aligned n k then match xc_patch_output (patch_mem n lits k) L mask row with
      | Some count => Some (st ++ [k], if bo then set_nth k count p else p) | None => Some (st, p) end else None) by reflexivity.
  rewrite !SE. destruct (patch_aligned n k); [|rewrite !steps_none; exact I].
  destruct (xc_patch_output _ _ _ _); apply IH; auto. destruct bo; auto. rewrite !set_nth_length. exact Hl.
Qed.

Lemma clause_trace : forall row a a' c c' ppc ppc' r, length ppc = np -> length ppc' = np ->
  match xc_clause_output bo n L np mask lits row a c ppc r, xc_clause_output bo n L np mask lits row a' c' ppc' r with
  | None, None => True
  | Some (o, a1, c1, p1, r1), Some (o', a2, c2, p2, r2) => o' = o /\ r2 = r1 /\ length p2 = length p1 /\ agree o c1 c2 a1 a2
  | _, _ => False
  end.
Proof.
  intros row a a' c c' ppc ppc' r L1 L2. unfold xc_clause_output, xc_patches.
  pose proof (steps_trace row (seq 0 np) [] ppc ppc' ltac:(lia)) as ST.
  assert (PC : bo = true -> forall s p s' p' i, fold_left (xc_patch_step bo n L mask lits row) (seq 0 np) (Some ([], ppc)) = Some (s, p) ->
    fold_left (xc_patch_step bo n L mask lits row) (seq 0 np) (Some ([], ppc')) = Some (s', p') -> (i < length s)%nat -> nth i p' 0 = nth i p 0).
  { intros Eb s p s' p' i. destruct HB as [F|E1]; [congruence|]. rewrite E1 in *. cbn [seq fold_left xc_patch_step]. rewrite Eb.
    destruct (patch_aligned n 0); [|discriminate]. destruct ppc as [|x [|y ppc]]; try discriminate. destruct ppc' as [|x' [|y' ppc']]; try discriminate.
    destruct (xc_patch_output _ _ _ _) as [count|]; intros F1 F2; injection F1 as <- <-; injection F2 as <- <-.
    - intros _. reflexivity.
    - cbn [length]. lia. }
  destruct (fold_left _ _ (Some ([], ppc))) as [[s p]|]; destruct (fold_left _ _ (Some ([], ppc'))) as [[s' p']|]; try contradiction; auto.
  destruct ST as [-> Lp]. destruct s as [|q0 s].
  - split; [reflexivity|]. split; [reflexivity|]. split; [exact Lp|]. left. reflexivity.
  - pose proof (pick_index_lt (length (q0 :: s)) r ltac:(cbn [length]; lia)) as PL. destruct (pick_index (length (q0 :: s)) r) as [i r1]. cbn [fst] in PL.
    split; [reflexivity|]. split; [reflexivity|]. split; [exact Lp|]. right. split; [reflexivity|]. intros Eb. rewrite Eb. eapply PC; eauto.
Qed.

Fixpoint agrees (os : list Z) (cs cs' : list Z) (aps aps' : list nat) : Prop :=
  match os, cs, cs', aps, aps' with
  | [], [], [], [], [] => True
  | o :: os, c :: cs, c' :: cs', a :: aps, a' :: aps' => agree o c c' a a' /\ agrees os cs cs' aps aps'
  | _, _, _, _, _ => False
  end.

Lemma clause_ppc : forall row a c ppc r o a1 c1 p1 r1, xc_clause_output bo n L np mask lits row a c ppc r = Some (o, a1, c1, p1, r1) -> length p1 = length ppc.
Proof.
  intros row a c ppc r o a1 c1 p1 r1. unfold xc_clause_output, xc_patches.
  assert (G : forall ks st ppc st' p', fold_left (xc_patch_step bo n L mask lits row) ks (Some (st, ppc)) = Some (st', p') -> length p' = length ppc).
  { intros ks. induction ks as [|k ks IH]; intros st p st' p'; cbn [fold_left]; [intros E; injection E as <- <-; reflexivity|].
    unfold xc_patch_step at 2. destruct (patch_aligned n k); [|rewrite steps_none; discriminate].
    destruct (xc_patch_output _ _ _ _); intros E; apply IH in E; auto. destruct bo; auto. rewrite set_nth_length in E. exact E. }
  destruct (fold_left _ _ _) as [[s p]|] eqn:E; [|discriminate]. apply G in E. destruct s as [|q0 s].
  - intros F. injection F as <- <- <- <- <-. exact E.
  - destruct (pick_index (length (q0 :: s)) r) as [i r2]. intros F. injection F as <- <- <- <- <-. exact E.
Qed.

Lemma output_trace : forall rows aps aps' cs cs' ppc ppc' r, length ppc = np -> length ppc' = np ->
  length aps = length rows -> length aps' = length rows -> length cs = length rows -> length cs' = length rows ->
  match xc_output_loop bo n L np mask lits rows aps cs ppc r, xc_output_loop bo n L np mask lits rows aps' cs' ppc' r with
  | None, None => True
  | Some (os, a1, c1, p1, r1), Some (os', a2, c2, p2, r2) => os' = os /\ r2 = r1 /\ length p1 = np /\ length p2 = np /\ agrees os c1 c2 a1 a2
  | _, _ => False
  end.
Proof.
  intros rows. induction rows as [|row rows IH]; intros aps aps' cs cs' ppc ppc' r L1 L2 A1 A2 C1 C2; cbn [xc_output_loop].
  - destruct aps; [|discriminate]. destruct aps'; [|discriminate]. destruct cs; [|discriminate]. destruct cs'; [|discriminate]. cbn [agrees]. auto.
  - destruct aps as [|a aps]; [discriminate|]. destruct aps' as [|a' aps']; [discriminate|].
    destruct cs as [|c cs]; [discriminate|]. destruct cs' as [|c' cs']; [discriminate|]. cbn [length] in *.
    pose proof (clause_trace row a a' c c' ppc ppc' r L1 L2) as CT.
    destruct (xc_clause_output bo n L np mask lits row a c ppc r) as [[[[[o a1] c1] p1] r1]|] eqn:E1;
    destruct (xc_clause_output bo n L np mask lits row a' c' ppc' r) as [[[[[o' a2] c2] p2] r2]|] eqn:E2; try contradiction; auto.
    destruct CT as (-> & -> & _ & AG). apply clause_ppc in E1. apply clause_ppc in E2.
    pose proof (IH aps aps' cs cs' p1 p2 r1) as IH1. specialize (IH1 ltac:(lia) ltac:(lia) ltac:(lia) ltac:(lia) ltac:(lia) ltac:(lia)).
    destruct (xc_output_loop bo n L np mask lits rows aps cs p1 r1) as [[[[[os b1] d1] e1] f1]|];
    destruct (xc_output_loop bo n L np mask lits rows aps' cs' p2 r1) as [[[[[os' b2] d2] e2] f2]|]; try contradiction; auto.
    destruct IH1 as (-> & -> & I3 & I4 & I5). cbn [agrees]. auto 8.
Qed.

Lemma update_trace : forall bud cmp pc pp nc npq rows wss outs cs cs' aps aps' r fast, agrees outs cs cs' aps aps' ->
  xc_update_loop bo boost bud cmp n L lits pc pp nc npq rows wss outs cs' aps' r fast = xc_update_loop bo boost bud cmp n L lits pc pp nc npq rows wss outs cs aps r fast.
Proof.
  intros bud cmp pc pp nc npq rows. induction rows as [|row rows IH]; intros wss outs cs cs' aps aps' r fast AG; cbn [xc_update_loop]; [reflexivity|].
  destruct wss as [|ws wss]; [reflexivity|]. destruct outs as [|o outs]; [reflexivity|].
  destruct cs as [|c cs], cs' as [|c' cs'], aps as [|a aps], aps' as [|a' aps']; cbn [agrees] in AG; try contradiction. destruct AG as [AG1 AG2]. cbn [hd tl].
  assert (E : xc_update_clause bo boost bud cmp n L lits pc pp nc npq row ws o c' a' r fast = xc_update_clause bo boost bud cmp n L lits pc pp nc npq row ws o c a r fast).
  { unfold xc_update_clause. destruct AG1 as [->|[-> AG1]].
    - assert (Z0 : forall b : bool, (if b then 0 else 0) = 0) by (intros []; reflexivity). rewrite !Z0.
      destruct (draw_lt fast pp) as [d1 r1]. destruct (draw_lt r1 npq) as [d2 r2]. cbn [Z.eqb]. rewrite andb_false_r. cbn [andb].
      rewrite (avx_zero bo boost bud cmp L (patch_mem n lits a') (patch_mem n lits a) pc pp nc npq row ws c' c r fast). reflexivity.
    - assert (E : (if bo && (c' >? bud) then 0 else o) = (if bo && (c >? bud) then 0 else o)) by (destruct bo; [rewrite AG1 by reflexivity; reflexivity|reflexivity]).
      rewrite E. rewrite (avx_count bo boost bud cmp L (patch_mem n lits a) pc pp nc npq row ws o c' c r fast) by (intros Eb; symmetry; auto). reflexivity. }
  rewrite E. clear E. destruct (xc_update_clause bo boost bud cmp n L lits pc pp nc npq row ws o c a r fast) as [[[[[row1 ws1] o1] r1] fast1]|]; [|reflexivity].
  rewrite (IH wss outs cs cs' aps aps' r1 fast1 AG2). reflexivity.
Qed.
End trace.

#[local] Ltac red_b := cbn [a_nlit a_lmem a_mask a_ncls a_rows a_weights a_outputs a_counts a_votes a_budget a_cmp a_vrng a_fast
         xc_b xc_np xc_active xc_ppc xc_rng].

Lemma x_call_trace : forall bo boost pad v w c, (bo = false \/ xc_np v = 1%nat) -> xshape bo pad v -> xshape bo pad w -> alike v w ->
  alike_o (x_call bo boost (Some v) c) (x_call bo boost (Some w) c).
Proof.
  intros bo boost pad v w c HB S1 S2 A. destruct A as [a1 a2 a3 a4 a5 a6 a7 a8 a9 b1 b2 b3 b4 b5].
  destruct c as [l pc pp nc npq|l|st off|wt off]; cbn [x_call].
  - unfold xc_train_ex, xc_set_output. rewrite a1, a2, a3, a5, b4, b5.
    pose proof (output_trace bo (a_nlit (xc_b v)) (xc_np v) (a_lmem (xc_b v)) (a_mask (xc_b v)) l HB (a_rows (xc_b v)) (xc_active v) (xc_active w)
      (a_counts (xc_b v)) (a_counts (xc_b w)) (xc_ppc v) (xc_ppc w) (xc_rng v)) as OT.
    specialize (OT (xs_ppc _ _ _ S1)). rewrite (xs_ppc _ _ _ S2), b4 in OT. specialize (OT eq_refl (xs_active _ _ _ S1)).
    rewrite (xs_active _ _ _ S2), a5 in OT. specialize (OT eq_refl (xs_counts _ _ _ S1)). rewrite (xs_counts _ _ _ S2), a5 in OT. specialize (OT eq_refl).
    destruct (xc_output_loop bo (a_nlit (xc_b v)) (a_lmem (xc_b v)) (xc_np v) (a_mask (xc_b v)) l (a_rows (xc_b v)) (xc_active v) (a_counts (xc_b v)) (xc_ppc v) (xc_rng v))
      as [[[[[os d1] e1] f1] g1]|];
    destruct (xc_output_loop bo (a_nlit (xc_b v)) (a_lmem (xc_b v)) (xc_np v) (a_mask (xc_b v)) l (a_rows (xc_b v)) (xc_active w) (a_counts (xc_b w)) (xc_ppc w) (xc_rng v))
      as [[[[[os' d2] e2] f2] g2]|]; try contradiction; cbn [fst xc_upd]; auto.
    destruct OT as (-> & -> & _ & _ & AG). unfold xc_update, xc_count_votes, avx_count_votes. red_b.
    rewrite a4, a6, a9, b1, b2, b3. rewrite (update_trace bo boost (a_nlit (xc_b v)) (xc_np v) (a_lmem (xc_b v)) l HB _ _ pc pp nc npq _ _ os e1 e2 d1 d2 _ _ AG).
    destruct (xc_update_loop _ _ _ _ _ _ _ _ _ _ _ _ _ _ _ _ _ _) as [[[[[x1 x2] x3] x4] x5]|]; cbn [alike_o]; auto. constructor; red_b; reflexivity.
  - unfold xc_eval_ex, xc_eval_set. rewrite a1, a2, a3, a5, b4. destruct (xc_eval_loop _ _ _ _ _ _) as [os|]; cbn [fst alike_o]; auto.
    unfold xc_count_votes, avx_count_votes. red_b. rewrite a4, a6, a9, b1, b2, b3, b5. constructor; red_b; reflexivity.
  - cbn [alike_o]. unfold xc_with, with_rows. red_b. constructor; red_b; congruence.
  - cbn [alike_o]. unfold xc_with, with_weights. red_b. constructor; red_b; congruence.
Qed.

Theorem trace_calls : forall bo boost pad rest rest' cs v w, (bo = false \/ xc_np v = 1%nat) -> xshape bo pad v -> xshape bo pad w -> alike v w ->
  Forall (xcall_ok (a_nlit (xc_b v)) (xc_np v) (length (a_rows (xc_b v))) (a_ncls (xc_b v))) cs ->
  exists v' w', xi_calls bo boost cs (xinmem bo pad rest v) = mem_of bo pad rest v' /\ xi_calls bo boost cs (xinmem bo pad rest' w) = mem_of bo pad rest' w' /\
    alike_o v' w'.
Proof.
  intros bo boost pad rest rest' cs. induction cs as [|c cs IH]; intros v w HB S1 S2 A HF.
  - exists (Some v), (Some w). auto.
  - assert (A' := A). destruct A' as [a1 a2 a3 a4 a5 a6 a7 a8 a9 b1 b2 b3 b4 b5].
    destruct (xcall_eq bo boost pad rest v c S1 (Forall_inv HF)) as (E1 & T1).
    assert (H2 : xcall_ok (a_nlit (xc_b w)) (xc_np w) (length (a_rows (xc_b w))) (a_ncls (xc_b w)) c) by (rewrite a1, a4, a5, b4; exact (Forall_inv HF)).
    destruct (xcall_eq bo boost pad rest' w c S2 H2) as (E2 & T2). cbn [xi_calls]. rewrite E1, E2.
    pose proof (x_call_trace bo boost pad v w c HB S1 S2 A) as X.
    destruct (x_call bo boost (Some v) c) as [v1|]; destruct (x_call bo boost (Some w) c) as [w1|]; cbn [alike_o] in X; try contradiction; cbn [mem_of bindR].
    + destruct (T1 _ eq_refl) as (U1 & U2 & U3 & U4 & U5). destruct (T2 _ eq_refl) as (V1 & _). apply IH; auto; [rewrite U2; exact HB|].
      rewrite U2, U3, U4, U5. exact (Forall_inv_tail HF).
    + exists None, None. auto.
Qed.
Theorem safe_calls : forall bo boost pad cs v, xshape bo pad v -> whole_patches (a_nlit (xc_b v)) (xc_np v) ->
  Forall (xcall_ok (a_nlit (xc_b v)) (xc_np v) (length (a_rows (xc_b v))) (a_ncls (xc_b v))) cs ->
  exists v', fold_left (x_call bo boost) cs (Some v) = Some v'.
Proof.
  intros bo boost pad cs. induction cs as [|c cs IH]; intros v Sh HW HF; cbn [fold_left]; [eauto|].
  pose proof (x_call_some bo boost pad v c Sh HW) as X. destruct (xcall_eq bo boost pad [] v c Sh (Forall_inv HF)) as (_ & T1).
  destruct (x_call bo boost (Some v) c) as [v1|]; [|contradiction]. destruct (T1 _ eq_refl) as (U1 & U2 & U3 & U4 & U5).
  apply IH; auto; rewrite U2, U3; auto. rewrite U4, U5. exact (Forall_inv_tail HF).
Qed.
