(** The AVX2 convolutional block with one patch is the dense AVX2 block. *)
From Coq Require Import ZArith Arith List Bool QArith Lia ZifyBool.
From Verif Require Import Base BaseProofs ModelDense ModelLayout ModelFeedback ModelExecutor ModelAvx2 ModelConv ModelConvAvx2
  SpecAvx2 SpecConvAvx2 ProofsClause ProofsStep ProofsAvx2Hist ProofsConv ProofsConvStep ProofsSim ProofsConvAvx2.
Import ListNotations.
Open Scope Z_scope.

Definition set_counts (cnts : list Z) (b : ablock) : ablock :=
  mkABlock (a_nlit b) (a_lmem b) (a_mask b) (a_ncls b) (a_rows b) (a_weights b) (a_outputs b) cnts (a_votes b) (a_budget b) (a_cmp b) (a_vrng b) (a_fast b).

Lemma xc_patch_output_dense : forall lits lmem mask row,
  xc_patch_output lits lmem mask row = if fst (avx_set_output lits lmem mask row) =? 1 then snd (avx_set_output lits lmem mask row) else None.
Proof.
  intros. unfold xc_patch_output, avx_set_output. destruct (set_chunks lits row lmem 0 (lmem / 32 - 1) 0) as [count f]. destruct f; [reflexivity|].
  destruct (set_reminder lits row lmem mask (lmem / 32 - 1) count) as [o st]. reflexivity.
Qed.

Lemma avx_set_output_cases : forall lits lmem mask row,
  (fst (avx_set_output lits lmem mask row) = 1 /\ exists c, snd (avx_set_output lits lmem mask row) = Some c) \/ fst (avx_set_output lits lmem mask row) = 0.
Proof.
  intros. unfold avx_set_output, set_reminder. destruct (set_chunks lits row lmem 0 (lmem / 32 - 1) 0) as [count f]. destruct f; [right; reflexivity|]. cbv zeta.
  match goal with |- context [if v_any ?a then (0, None) else _] => destruct (v_any a); [right; reflexivity|] end.
  match goal with |- context [if v_any ?a then 0 else 1] => destruct (v_any a); [right; reflexivity|left] end. split; [reflexivity|]. eexists. reflexivity.
Qed.

(** One clause: the same output; the same count when it is 1. *)
Lemma one_clause : forall bo n lmem mask lits row ap cnt ppc r, length ppc = 1%nat ->
  exists ap1 cnt1 ppc1 r1,
    xc_clause_output bo n lmem 1 mask lits row ap cnt ppc r = Some (fst (avx_set_output lits lmem mask row), ap1, cnt1, ppc1, r1) /\ length ppc1 = 1%nat /\
    (fst (avx_set_output lits lmem mask row) = 1 -> ap1 = O /\ (bo = true -> Some cnt1 = snd (avx_set_output lits lmem mask row))).
Proof.
  intros bo n lmem mask lits row ap cnt ppc r HP. unfold xc_clause_output, xc_patches. cbn [seq fold_left xc_patch_step].
  unfold patch_aligned, patch_mem. change (0 * n)%nat with O. change (Nat.eqb (0 mod 32) 0) with true. cbn [skipn]. rewrite xc_patch_output_dense.
  destruct (avx_set_output_cases lits lmem mask row) as [[-> [c ->]]| ->]; cbn [Z.eqb Pos.eqb].
  - cbn [app length]. pose proof (pick_index_lt 1 r ltac:(lia)) as PI. destruct (pick_index 1 r) as [i r1]. cbn [fst] in PI.
    assert (i = O) by lia. subst i. cbn [nth]. eexists _, _, _, _. split; [reflexivity|]. split; [destruct bo; rewrite ?set_nth_length; auto|].
    intros _. split; [reflexivity|]. intros ->. destruct ppc as [|p ppc]; cbn [length] in HP; [lia|]. reflexivity.
  - eexists _, _, _, _. split; [reflexivity|]. split; [auto|]. discriminate.
Qed.

Lemma one_loop : forall bo n lmem mask lits rows aps cnts ppc r, length ppc = 1%nat -> length aps = length rows -> length cnts = length rows ->
  exists aps1 cnts1 ppc1 r1,
    xc_output_loop bo n lmem 1 mask lits rows aps cnts ppc r = Some (map fst (map (avx_set_output lits lmem mask) rows), aps1, cnts1, ppc1, r1) /\
    length ppc1 = 1%nat /\ length aps1 = length rows /\ length cnts1 = length rows /\
    forall k, nth k (map fst (map (avx_set_output lits lmem mask) rows)) 0 = 1 -> nth k aps1 O = O /\
      (bo = true -> forall old, length old = length rows ->
         nth k cnts1 0 = nth k (map2 (fun (r : Z * option Z) old => match snd r with Some c => c | None => old end) (map (avx_set_output lits lmem mask) rows) old) 0).
Proof.
  intros bo n lmem mask lits rows. induction rows as [|row rows IH]; intros [|ap aps] [|cnt cnts] ppc r HP HA HC; cbn [length] in HA, HC; try lia.
  - exists [], [], ppc, r. cbn [xc_output_loop map length]. split; [reflexivity|]. repeat (split; [auto; fail|]). intros [|k]; cbn [nth]; discriminate.
  - cbn [xc_output_loop map]. destruct (one_clause bo n lmem mask lits row ap cnt ppc r HP) as [ap1 [cnt1 [ppc1 [r1 [A1 [A2 A3]]]]]]. rewrite A1.
    destruct (IH aps cnts ppc1 r1 A2 ltac:(lia) ltac:(lia)) as [aps2 [cnts2 [ppc2 [r2 [B1 [B2 [B3 [B4 B5]]]]]]]]. rewrite B1.
    exists (ap1 :: aps2), (cnt1 :: cnts2), ppc2, r2. split; [reflexivity|]. cbn [length]. split; [auto|]. split; [lia|]. split; [lia|].
    intros [|k] Hk; cbn [nth] in Hk.
    + destruct (A3 Hk) as [-> A4]. split; [reflexivity|]. intros Hb [|o old] HO; cbn [length] in HO; [lia|]. cbn [map2 nth]. rewrite <- (A4 Hb). reflexivity.
    + destruct (B5 k Hk) as [B6 B7]. split; [exact B6|]. intros Hb [|o old] HO; cbn [length] in HO; [lia|]. cbn [map2 nth]. apply B7; auto.
Qed.

Lemma avx_update_clause_same : forall bo boost bud cmp lmem l pc pp nc np row ws o c1 c2 r f,
  (if bo && (c1 >? bud) then 0 else o) = (if bo && (c2 >? bud) then 0 else o) ->
  avx_update_clause bo boost bud cmp lmem l pc pp nc np row ws o c1 r f = avx_update_clause bo boost bud cmp lmem l pc pp nc np row ws o c2 r f.
Proof. intros. unfold avx_update_clause. rewrite H. reflexivity. Qed.

Lemma avx_update_clause_silent_literals : forall bo boost bud cmp lmem l l' pc pp nc np row ws cnt r f,
  avx_update_clause bo boost bud cmp lmem l pc pp nc np row ws 0 cnt r f = avx_update_clause bo boost bud cmp lmem l' pc pp nc np row ws 0 cnt r f.
Proof.
  assert (E0 : forall boost cmp lmem row w t x x' r, avx_clause_update boost cmp lmem row w t x 0 r = avx_clause_update boost cmp lmem row w t x' 0 r).
  { intros. unfold avx_clause_update. cbn [Z.eqb]. rewrite andb_false_r. reflexivity. }
  intros. unfold avx_update_clause. replace (if bo && (cnt >? bud) then 0 else 0) with 0 by (destruct (bo && (cnt >? bud)); reflexivity).
  destruct (draw_lt f pp) as [d f1]. rewrite (E0 boost cmp lmem row (nth pc ws 0) 1 l l'). destruct d.
  - destruct (avx_clause_update boost cmp lmem row (nth pc ws 0) 1 l' 0 r) as [[c1 w1] r1]. destruct (draw_lt f1 np) as [d2 f2].
    rewrite (E0 boost cmp lmem c1 _ (-1) l l'). reflexivity.
  - destruct (draw_lt f1 np) as [d2 f2]. rewrite (E0 boost cmp lmem row _ (-1) l l'). reflexivity.
Qed.

Lemma one_update_loop : forall bo boost bud cmp n lmem lits pc pp nc npr rows wss outs cnts cnts' aps r f,
  Forall (fun o => o = 0 \/ o = 1) outs -> (forall k, nth k outs 0 = 1 -> nth k aps O = O /\ (bo = true -> nth k cnts 0 = nth k cnts' 0)) ->
  xc_update_loop bo boost bud cmp n lmem lits pc pp nc npr rows wss outs cnts aps r f =
  Some (avx_update_loop bo boost bud cmp lmem lits pc pp nc npr rows wss outs cnts' r f) /\
  length (fst (fst (fst (fst (avx_update_loop bo boost bud cmp lmem lits pc pp nc npr rows wss outs cnts' r f))))) = length rows.
Proof.
  intros bo boost bud cmp n lmem lits pc pp nc npr rows. induction rows as [|row rows IH]; intros [|ws wss] [|o outs] cnts cnts' aps r f HO HK;
    cbn [xc_update_loop avx_update_loop]; auto.
  inversion HO as [|? ? O1 O2]; subst.
  assert (E : xc_update_clause bo boost bud cmp n lmem lits pc pp nc npr row ws o (hd 0 cnts) (hd O aps) r f =
    Some (avx_update_clause bo boost bud cmp lmem lits pc pp nc npr row ws o (hd 0 cnts') r f)).
  { unfold xc_update_clause. destruct (draw_lt f pp) as [d1 f1]. destruct (draw_lt f1 npr) as [d2 f2]. destruct O1 as [->| ->].
    - replace ((if bo && (hd 0 cnts >? bud) then 0 else 0) =? 1) with false by (destruct (bo && _); reflexivity). rewrite andb_false_r. cbn [andb].
      f_equal. rewrite (avx_update_clause_silent_literals _ _ _ _ _ _ lits). apply avx_update_clause_same. destruct (bo && (hd 0 cnts >? bud)), (bo && (hd 0 cnts' >? bud)); reflexivity.
    - destruct (HK O eq_refl) as [HA HC]. assert (EA : hd O aps = O) by (destruct aps; auto). rewrite EA.
      unfold patch_aligned, patch_mem. change (0 * n)%nat with O. change (Nat.eqb (0 mod 32) 0) with true. cbn [negb skipn]. rewrite andb_false_r.
      f_equal. apply avx_update_clause_same. destruct bo; cbn [andb]; [|reflexivity].
      replace (hd 0 cnts) with (nth 0 cnts 0) by (destruct cnts; auto). replace (hd 0 cnts') with (nth 0 cnts' 0) by (destruct cnts'; auto). rewrite HC by auto. reflexivity. }
  rewrite E. destruct (avx_update_clause bo boost bud cmp lmem lits pc pp nc npr row ws o (hd 0 cnts') r f) as [[[[row1 ws1] o1] r1] f1].
  destruct (IH wss outs (tl cnts) (tl cnts') (tl aps) r1 f1 O2) as [I1 I2].
  { intros k Hk. specialize (HK (S k) Hk). rewrite !nth_tl_any. exact HK. }
  rewrite I1. destruct (avx_update_loop bo boost bud cmp lmem lits pc pp nc npr rows wss outs (tl cnts') r1 f1) as [[[[rows2 wss2] outs2] r2] f2].
  cbn [fst length] in *. auto.
Qed.

(** ** Executors *)

Definition one_rel (s : option xcblock) (b : ablock) : Prop :=
  exists v, s = Some v /\ one_patch v /\ length (a_counts b) = length (a_rows b) /\ b = set_counts (a_counts b) (xc_b v).
Definition one_rel1 (bo : bool) (s : option xcblock) (b : ablock) : Prop :=
  exists v, s = Some v /\ one_patch v /\ length (a_counts b) = length (a_rows b) /\ b = set_counts (a_counts b) (xc_b v) /\
    Forall (fun o => o = 0 \/ o = 1) (a_outputs b) /\
    forall k, nth k (a_outputs b) 0 = 1 -> nth k (xc_active v) O = O /\ (bo = true -> nth k (a_counts (xc_b v)) 0 = nth k (a_counts b) 0).

Lemma map2_length_same : forall A B C (g : A -> B -> C) l1 l2, length l1 = length l2 -> length (map2 g l1 l2) = length l1.
Proof. intros A B C g l1. induction l1 as [|a l1 IH]; intros [|b l2] H; cbn [length map2] in *; auto. Qed.

Lemma one_train : forall bo lits s b, one_rel s b ->
  one_rel1 bo (fst (xc_train_ex bo lits s)) (fst (avx_train_ex bo lits b)) /\ snd (xc_train_ex bo lits s) = snd (avx_train_ex bo lits b).
Proof.
  intros bo lits s b [v [-> [[P1 [P2 [P3 P4]]] [LC EB]]]]. unfold xclauses in *.
  assert (ER : a_rows b = a_rows (xc_b v)) by (rewrite EB; reflexivity).
  assert (EL : a_lmem b = a_lmem (xc_b v)) by (rewrite EB; reflexivity).
  assert (EM : a_mask b = a_mask (xc_b v)) by (rewrite EB; reflexivity).
  unfold xc_train_ex, xc_set_output. rewrite P1.
  destruct (one_loop bo (a_nlit (xc_b v)) (a_lmem (xc_b v)) (a_mask (xc_b v)) lits (a_rows (xc_b v)) (xc_active v) (a_counts (xc_b v)) (xc_ppc v) (xc_rng v) P4 P2 P3)
    as [aps1 [cnts1 [ppc1 [r1 [A1 [A2 [A3 [A4 A5]]]]]]]]. rewrite A1.
  unfold avx_train_ex, avx_train_output, xc_count_votes, avx_count_votes. 
  cbn [fst snd xc_b xc_np xc_active xc_ppc xc_rng a_nlit a_lmem a_mask a_ncls a_rows a_weights a_outputs a_counts a_votes a_budget a_cmp a_vrng a_fast].
  rewrite ER in LC. rewrite ER, EL, EM.
  assert (EN : a_ncls b = a_ncls (xc_b v) /\ a_weights b = a_weights (xc_b v) /\ a_nlit b = a_nlit (xc_b v) /\ a_budget b = a_budget (xc_b v) /\ a_cmp b = a_cmp (xc_b v) /\
    a_vrng b = a_vrng (xc_b v) /\ a_fast b = a_fast (xc_b v)) by (rewrite EB; auto 10).
  destruct EN as [E1 [E2 [E3 [E4 [E5 [E6 E7]]]]]]. rewrite E1, E2, E3, E4, E5, E6, E7. split; [|reflexivity].
  eexists. split; [reflexivity|]. unfold one_patch, xclauses, set_counts.
  cbn [fst snd xc_b xc_np xc_active xc_ppc xc_rng a_nlit a_lmem a_mask a_ncls a_rows a_weights a_outputs a_counts a_votes a_budget a_cmp a_vrng a_fast].
  split; [auto|]. split.
  { clear -LC. destruct bo; [rewrite map2_length_same; rewrite map_length; lia|lia]. }
  split; [reflexivity|]. split.
  { apply Forall_map, Forall_map, Forall_forall. intros row _. destruct (avx_set_output_cases lits (a_lmem (xc_b v)) (a_mask (xc_b v)) row) as [[H _]|H]; auto. }
  intros k Hk. destruct (A5 k Hk) as [A6 A7]. split; [exact A6|]. intros ->. apply A7; auto.
Qed.

Lemma one_update : forall bo boost lits pc pp nc npr s b, one_rel1 bo s b -> one_rel (xc_upd bo boost lits pc pp nc npr s) (avx_upd bo boost lits pc pp nc npr b).
Proof.
  intros bo boost lits pc pp nc npr s b [v [-> [[P1 [P2 [P3 P4]]] [LC [EB [HO HK]]]]]]. unfold xclauses in *.
  assert (EN : a_rows b = a_rows (xc_b v) /\ a_lmem b = a_lmem (xc_b v) /\ a_mask b = a_mask (xc_b v) /\ a_outputs b = a_outputs (xc_b v) /\ a_votes b = a_votes (xc_b v) /\
    a_ncls b = a_ncls (xc_b v) /\ a_weights b = a_weights (xc_b v) /\ a_nlit b = a_nlit (xc_b v) /\ a_budget b = a_budget (xc_b v) /\ a_cmp b = a_cmp (xc_b v) /\
    a_vrng b = a_vrng (xc_b v) /\ a_fast b = a_fast (xc_b v)) by (rewrite EB; auto 20).
  destruct EN as [E1 [E2 [E3 [E4 [E5 [E6 [E7 [E8 [E9 [E10 [E11 E12]]]]]]]]]]].
  cbn [xc_upd]. unfold xc_update, avx_upd, avx_train_update. rewrite E4 in HO, HK.
  destruct (one_update_loop bo boost (a_budget (xc_b v)) (a_cmp (xc_b v)) (a_nlit (xc_b v)) (a_lmem (xc_b v)) lits pc pp nc npr (a_rows (xc_b v)) (a_weights (xc_b v))
    (a_outputs (xc_b v)) (a_counts (xc_b v)) (a_counts b) (xc_active v) (a_vrng (xc_b v)) (a_fast (xc_b v)) HO HK) as [U1 U2].
  rewrite E1 in LC. rewrite E1, E2, E3, E4, E5, E6, E7, E8, E9, E10, E11, E12, U1.
  destruct (avx_update_loop _ _ _ _ _ _ _ _ _ _ _ _ _ _ _ _) as [[[[rows2 wss2] outs2] r2] f2]. cbn [fst] in U2.
  eexists. split; [reflexivity|]. unfold one_patch, xclauses, set_counts.
  cbn [xc_b xc_np xc_active xc_ppc xc_rng a_nlit a_lmem a_mask a_ncls a_rows a_weights a_outputs a_counts a_votes a_budget a_cmp a_vrng a_fast].
  split; [split; [auto|]; split; [lia|]; split; [lia|auto]|]. split; [lia|reflexivity].
Qed.

Lemma one_eval : forall lits s b, one_rel s b ->
  one_rel (fst (xc_eval_ex lits s)) (fst (avx_eval_ex lits b)) /\ snd (xc_eval_ex lits s) = snd (avx_eval_ex lits b).
Proof.
  intros lits s b [v [-> [[P1 [P2 [P3 P4]]] [LC EB]]]]. unfold xclauses in *.
  assert (EN : a_rows b = a_rows (xc_b v) /\ a_lmem b = a_lmem (xc_b v) /\ a_mask b = a_mask (xc_b v) /\ a_outputs b = a_outputs (xc_b v) /\ a_votes b = a_votes (xc_b v) /\
    a_ncls b = a_ncls (xc_b v) /\ a_weights b = a_weights (xc_b v) /\ a_nlit b = a_nlit (xc_b v) /\ a_budget b = a_budget (xc_b v) /\ a_cmp b = a_cmp (xc_b v) /\
    a_vrng b = a_vrng (xc_b v) /\ a_fast b = a_fast (xc_b v)) by (rewrite EB; auto 20).
  destruct EN as [E1 [E2 [E3 [E4 [E5 [E6 [E7 [E8 [E9 [E10 [E11 E12]]]]]]]]]]].
  assert (EO : forall lmem mask row, avx_eval_output lits lmem mask row = 0 \/ avx_eval_output lits lmem mask row = 1).
  { intros lm mask row. unfold avx_eval_output, eval_reminder. destruct (eval_chunks lits row lm 0 (lm / 32 - 1) false) as [act f]. destruct f; [auto|]. cbv zeta.
    match goal with |- context [if v_any ?a then 0 else _] => destruct (v_any a); [auto|] end.
    match goal with |- context [if v_any ?a then 0 else _] => destruct (v_any a); [auto|] end.
    match goal with |- (if ?c then _ else _) = _ \/ _ => destruct c; auto | _ => idtac end. }
  assert (EV : forall rows, xc_eval_loop (a_nlit (xc_b v)) (a_lmem (xc_b v)) 1 (a_mask (xc_b v)) lits rows = Some (map (avx_eval_output lits (a_lmem (xc_b v)) (a_mask (xc_b v))) rows)).
  { induction rows as [|row rows IH]; [reflexivity|]. cbn [xc_eval_loop seq xc_eval_patches map]. unfold patch_aligned, patch_mem. change (0 * a_nlit (xc_b v))%nat with O.
    change (Nat.eqb (0 mod 32) 0) with true. cbn [skipn]. rewrite IH. destruct (EO (a_lmem (xc_b v)) (a_mask (xc_b v)) row) as [H|H]; rewrite H; reflexivity. }
  unfold xc_eval_ex, xc_eval_set, avx_eval_ex, avx_eval_set. rewrite P1, EV.
  unfold xc_count_votes, avx_count_votes.
  cbn [fst snd xc_b xc_np xc_active xc_ppc xc_rng a_nlit a_lmem a_mask a_ncls a_rows a_weights a_outputs a_counts a_votes a_budget a_cmp a_vrng a_fast].
  rewrite E1, E2, E3, E6, E7, E8, E9, E10, E11, E12. split; [|reflexivity].
  eexists. split; [reflexivity|]. unfold one_patch, xclauses, set_counts.
  cbn [xc_b xc_np xc_active xc_ppc xc_rng a_nlit a_lmem a_mask a_ncls a_rows a_weights a_outputs a_counts a_votes a_budget a_cmp a_vrng a_fast].
  split; [auto|]. split; [rewrite <- E1; lia|reflexivity].
Qed.

Lemma one_rel_init : forall v, one_patch v -> one_rel (Some v) (xc_b v).
Proof. intros v H. exists v. split; [auto|]. split; [auto|]. split; [apply H|]. destruct v as [[] ? ? ? ?]. reflexivity. Qed.

Lemma one_rel_same : forall s b, one_rel s b -> exists v, s = Some v /\ same_but_counts (xc_b v) b.
Proof. intros s b [v [-> [_ [_ E]]]]. exists v. split; [auto|]. rewrite E. unfold same_but_counts. cbn. auto 20. Qed.

Theorem one_patch_run : forall (L : Type) (process : L -> fblock -> fblock) bo boost cs bs fb idx r,
  Forall (fun tv : bool * xcblock => one_patch (snd tv)) bs ->
  exec_alike (option xcblock) ablock one_rel
    (grun (option xcblock) (list Z) (xc_train_ex bo) xc_eval_ex (xc_upd bo boost) L process cs (mkExec (map (fun tv => (fst tv, Some (snd tv))) bs) fb idx r))
    (grun ablock (list Z) (avx_train_ex bo) avx_eval_ex (avx_upd bo boost) L process cs (mkExec (map (fun tv => (fst tv, xc_b (snd tv))) bs) fb idx r)).
Proof.
  intros L process bo boost cs bs fb idx r H.
  apply (grun_sim (option xcblock) ablock (list Z) (list Z) (xc_train_ex bo) xc_eval_ex (avx_train_ex bo) avx_eval_ex (xc_upd bo boost) (avx_upd bo boost) L process
    one_rel (one_rel1 bo) eq).
  - intros e1 e2 b1 b2 -> Hb. apply one_train; auto.
  - intros b1 b2 [v [V1 [V2 [V3 [V4 _]]]]]. exists v. auto.
  - intros e1 e2 pc pp nc np b1 b2 -> Hb. apply one_update; auto.
  - intros e1 e2 b1 b2 -> Hb. apply one_eval; auto.
  - apply (Forall2_diag _ (fun _ => True)); [|apply Forall_forall; auto]. 
    assert (D : forall d : list (list Z * L), Forall2 (same_example (list Z) (list Z) L eq) d d)
      by (intros d; apply (Forall2_diag _ (fun _ => True)); [intros; split; auto|apply Forall_forall; auto]).
    intros [d|d o] _; cbn [same_call]; auto.
  - unfold exec_alike. cbn [x_blocks x_fb x_index x_rng]. split; [|auto]. induction H as [|tv bs H1 H IH]; cbn [map]; constructor; auto.
    split; cbn [fst snd]; [reflexivity|apply one_rel_init; auto].
Qed.

Theorem one_patch_predict : forall (L : Type) (process : L -> fblock -> fblock) bo boost cs bs fb idx r data out,
  Forall (fun tv : bool * xcblock => one_patch (snd tv)) bs ->
  fst (eval_predict (option xcblock) (list Z) xc_eval_ex L data out
    (grun (option xcblock) (list Z) (xc_train_ex bo) xc_eval_ex (xc_upd bo boost) L process cs (mkExec (map (fun tv => (fst tv, Some (snd tv))) bs) fb idx r))) =
  fst (eval_predict ablock (list Z) avx_eval_ex L data out
    (grun ablock (list Z) (avx_train_ex bo) avx_eval_ex (avx_upd bo boost) L process cs (mkExec (map (fun tv => (fst tv, xc_b (snd tv))) bs) fb idx r))).
Proof.
  intros L process bo boost cs bs fb idx r data out H.
  apply (eval_predict_sim (option xcblock) ablock (list Z) (list Z) xc_eval_ex avx_eval_ex L one_rel eq).
  - intros e1 e2 b1 b2 -> Hb. apply one_eval; auto.
  - apply (Forall2_diag _ (fun _ => True)); [intros; split; auto|apply Forall_forall; auto].
  - apply one_patch_run. auto.
Qed.
