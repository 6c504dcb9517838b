(** AVX2: Type II as in the scalar block, training histories, the literal
    budget, the byte threshold. *)
From Coq Require Import ZArith Arith List Bool QArith Qround Qabs Lqa Lia ZifyBool.
From Verif Require Import Base BaseProofs Spec SpecLearning ModelInference ModelDense ModelLayout ModelFeedback ModelExecutor ModelDenseExec ModelAvx2
  SpecAvx2 ProofsClause ProofsLayout ProofsEval ProofsLearning ProofsStep ProofsExecutor ProofsDenseExec ProofsInput ProofsAvx2 ProofsAvx2Scalar ProofsAvx2Step.
Import ListNotations.
Open Scope Z_scope.

(** ** Type II *)

Theorem avx_t2_scalar : forall n x lits row, (0 < n)%nat -> buffer_of n x lits -> binary x ->
  length row = (2 * lmem_of n)%nat -> row8 row ->
  let '(ps, qs) := type2 (cl_pos (row_clause n (lmem_of n) row)) (cl_neg (row_clause n (lmem_of n) row)) x in
  row_clause n (lmem_of n) (avx_t2 lits (lmem_of n) row) = mkClause ps qs.
Proof.
  intros n x lits row Hn Hb Hx HL H8. pose proof (lmem_of_facts n Hn) as [F1 [F2 F3]].
  pose proof (rc_pos_len n row Hn HL) as LP. pose proof (rc_neg_len n row Hn HL) as LN.
  assert (I8 : forall l k, (forall i, (i < k)%nat -> is_int8 (nth i l 0)) -> length l = k -> int8s l).
  { intros l k H E. apply row8_of_nth. intros j Hj. apply H. lia. }
  assert (HX : length x = n) by apply Hb.
  pose proof (type2_exact x (cl_pos (row_clause n (lmem_of n) row)) (cl_neg (row_clause n (lmem_of n) row)) ltac:(lia) ltac:(lia)) as T.
  destruct (type2 _ _ x) as [ps qs].
  destruct T as [T1 [T2 [T3 T4]]].
  { apply (I8 _ n); auto. intros i Hi. rewrite rc_pos_nth by auto. apply row8_nth; auto. }
  { apply (I8 _ n); auto. intros i Hi. rewrite rc_neg_nth by auto. apply row8_nth; auto. }
  destruct Hb as [B1 [B2 B3]].
  pose proof (avx_t2_exact lits (lmem_of n) B2 F3 row HL H8) as [A1 [A2 A3]].
  assert (LV : forall i, (i < n)%nat -> off0 lits i = (nth i x 0 =? 0)).
  { intros i Hi. unfold off0. destruct (lit_val n x lits row Hn (conj B1 (conj B2 B3)) Hx HL i Hi) as [E _]. now rewrite E. }
  rewrite HX in *. unfold row_clause. f_equal.
  - apply list_ext0.
    + rewrite firstn_length. lia.
    + intros i Hi. rewrite firstn_length in Hi. rewrite nth_firstn_lt by lia. destruct (A3 i ltac:(lia)) as [J1 _].
      rewrite J1, T3 by lia. unfold t2_lane. rewrite LV by lia. rewrite (rc_pos_nth n row Hn HL) by lia. reflexivity.
  - unfold slice. apply list_ext0.
    + rewrite firstn_length, skipn_length. lia.
    + intros i Hi. rewrite firstn_length, skipn_length in Hi. rewrite nth_firstn_lt by lia. rewrite nth_skipn. destruct (A3 i ltac:(lia)) as [_ J1].
      rewrite J1, T4 by lia. unfold t2_lane. rewrite LV by lia. rewrite (rc_neg_nth n row Hn HL) by lia. reflexivity.
Qed.

(** ** One clause, one block *)

Section Keep.
  Variables (lits : list Z) (lmem : nat).
  Hypothesis Hlits : (lmem <= length lits)%nat.
  Hypothesis Hdiv : lmem = (lmem / 32 * 32)%nat.

  Definition row_good (row : list Z) : Prop := length row = (2 * lmem)%nat /\ row8 row.

  Lemma vrng_ok_advance : forall r k, vrng_ok r -> vrng_ok (vadvance k r).
  Proof. intros r k H j. apply H. Qed.

  Lemma avx_clause_update_keep : forall boost cmp row w t o r, row_good row -> vrng_ok r ->
    let '(row', w', r') := avx_clause_update boost cmp lmem row w t lits o r in row_good row' /\ vrng_ok r'.
  Proof.
    intros boost cmp row w t o r [G1 G2] VR. unfold avx_clause_update.
    destruct (t * (if w >=? 0 then 1 else -1) >? 0).
    - destruct (o =? 1).
      + pose proof (avx_t1a_exact cmp lits lmem Hlits Hdiv boost row r VR G1 G2) as A.
        destruct (avx_t1a boost cmp lits lmem row r) as [row' r']. destruct A as [A1 [A2 [A3 A4]]]. subst r'.
        split; [split; auto|]. apply vrng_ok_advance; auto.
      + pose proof (avx_t1b_exact cmp lits lmem Hlits Hdiv row r VR G1 G2) as A.
        destruct (avx_t1b cmp lmem row r) as [row' r']. destruct A as [A1 [A2 [A3 A4]]]. subst r'.
        split; [split; auto|]. apply vrng_ok_advance; auto.
    - destruct ((t * (if w >=? 0 then 1 else -1) <? 0) && (o =? 1)).
      + destruct (avx_t2_exact lits lmem Hlits Hdiv row G1 G2) as [A1 [A2 A3]]. split; [split; auto|auto].
      + split; [split; auto|auto].
  Qed.

  (** A silent clause never moves an automaton up. *)
  Lemma avx_clause_update_silent : forall boost cmp row w t o r, row_good row -> vrng_ok r -> o <> 1 ->
    let '(row', w', r') := avx_clause_update boost cmp lmem row w t lits o r in
    w' = w /\ forall j, (j < 2 * lmem)%nat -> nth j row' 0 <= nth j row 0.
  Proof.
    intros boost cmp row w t o r [G1 G2] VR Ho. unfold avx_clause_update.
    replace (o =? 1) with false by lia. rewrite andb_false_r.
    destruct (t * (if w >=? 0 then 1 else -1) >? 0); [|split; auto; intros; lia].
    pose proof (avx_t1b_exact cmp lits lmem Hlits Hdiv row r VR G1 G2) as A.
    destruct (avx_t1b cmp lmem row r) as [row' r']. destruct A as [A1 [A2 [A3 A4]]]. split; [auto|].
    intros j Hj.
    assert (D : forall b v, is_int8 v -> t1b_lane b v <= v) by (intros b v H; unfold t1b_lane, down8, is_int8 in *; destruct b; lia).
    destruct (Nat.lt_ge_cases j lmem) as [B|B].
    - destruct (A4 j B) as [E _]. rewrite E. apply D, row8_nth; auto.
    - destruct (A4 (j - lmem)%nat ltac:(lia)) as [_ E]. replace (lmem + (j - lmem))%nat with j in E by lia. rewrite E. apply D, row8_nth; auto.
  Qed.

  Lemma avx_update_clause_keep : forall bo boost bud cmp pc pp nc np row ws o cnt r f, row_good row -> vrng_ok r ->
    let '(row1, ws1, o1, r1, f1) := avx_update_clause bo boost bud cmp lmem lits pc pp nc np row ws o cnt r f in
    row_good row1 /\ vrng_ok r1.
  Proof.
    intros bo boost bud cmp pc pp nc np row ws o cnt r f G VR. unfold avx_update_clause.
    set (out := if bo && (cnt >? bud) then 0 else o). clearbody out. destruct (draw_lt f pp) as [d1 f1].
    pose proof (avx_clause_update_keep boost cmp row (nth pc ws 0) 1 out r G VR) as A.
    destruct (avx_clause_update boost cmp lmem row (nth pc ws 0) 1 lits out r) as [[row' w'] r'].
    destruct A as [A1 A2].
    destruct d1; destruct (draw_lt f1 np) as [d2 f2];
      match goal with |- context [avx_clause_update ?a ?b ?c ?row ?w ?t ?l ?o ?r] =>
        pose proof (avx_clause_update_keep a b row w t o r ltac:(auto) ltac:(auto)) as K2;
        destruct (avx_clause_update a b c row w t l o r) as [[row2 w2] r2]; destruct K2 as [K1 K2] end;
      destruct d2; auto.
  Qed.

  Lemma set_nth_self : forall i (l : list Z), set_nth i (nth i l 0) l = l.
  Proof. induction i as [|i IH]; intros [|a l]; cbn [nth set_nth]; auto. f_equal. apply IH. Qed.

  Lemma avx_update_clause_silent : forall bo boost bud cmp pc pp nc np row ws o cnt r f, row_good row -> vrng_ok r ->
    (if bo && (cnt >? bud) then 0 else o) <> 1 ->
    let '(row1, ws1, o1, r1, f1) := avx_update_clause bo boost bud cmp lmem lits pc pp nc np row ws o cnt r f in
    ws1 = ws /\ forall j, (j < 2 * lmem)%nat -> nth j row1 0 <= nth j row 0.
  Proof.
    intros bo boost bud cmp pc pp nc np row ws o cnt r f G VR. unfold avx_update_clause.
    set (out := if bo && (cnt >? bud) then 0 else o). clearbody out. intros Ho. destruct (draw_lt f pp) as [d1 f1].
    pose proof (avx_clause_update_keep boost cmp row (nth pc ws 0) 1 out r G VR) as A.
    pose proof (avx_clause_update_silent boost cmp row (nth pc ws 0) 1 out r G VR Ho) as S.
    destruct (avx_clause_update boost cmp lmem row (nth pc ws 0) 1 lits out r) as [[row' w'] r'].
    destruct A as [A1 A2]. destruct S as [S1 S2]. subst w'. rewrite set_nth_self.
    destruct d1; destruct (draw_lt f1 np) as [d2 f2];
      match goal with |- context [avx_clause_update ?a ?b ?c ?row ?w ?t ?l ?o ?r] =>
        pose proof (avx_clause_update_silent a b row w t o r ltac:(auto) ltac:(auto) Ho) as K2;
        destruct (avx_clause_update a b c row w t l o r) as [[row2 w2] r2]; destruct K2 as [K1 K2] end;
      subst w2; rewrite set_nth_self; destruct d2; (split; [reflexivity|]); intros j Hj; try (specialize (K2 j Hj)); try (specialize (S2 j Hj)); try lia.
  Qed.

  Lemma avx_update_loop_nth : forall bo boost bud cmp pc pp nc np rows wss outs counts r f,
    length wss = length rows -> length outs = length rows -> Forall row_good rows -> vrng_ok r ->
    let '(rows2, wss2, outs2, r2, f2) := avx_update_loop bo boost bud cmp lmem lits pc pp nc np rows wss outs counts r f in
    length rows2 = length rows /\ length wss2 = length rows /\ length outs2 = length rows /\ Forall row_good rows2 /\ vrng_ok r2 /\
    forall k, (k < length rows)%nat -> exists rk fk, vrng_ok rk /\
      let t := avx_update_clause bo boost bud cmp lmem lits pc pp nc np (nth k rows []) (nth k wss []) (nth k outs 0) (nth k counts 0) rk fk in
      nth k rows2 [] = fst (fst (fst (fst t))) /\ nth k wss2 [] = snd (fst (fst (fst t))).
  Proof.
    intros bo boost bud cmp pc pp nc np rows. induction rows as [|row rows IH]; intros [|ws wss] [|o outs] counts r f H1 H2 G VR; cbn [length] in *; try lia.
    - cbn [avx_update_loop]. repeat split; auto. intros k Hk. lia.
    - cbn [avx_update_loop]. inversion G as [|? ? G1 G2]; subst.
      pose proof (avx_update_clause_keep bo boost bud cmp pc pp nc np row ws o (hd 0 counts) r f G1 VR) as A.
      destruct (avx_update_clause bo boost bud cmp lmem lits pc pp nc np row ws o (hd 0 counts) r f) as [[[[row1 ws1] o1] r1] f1] eqn:E1.
      destruct A as [A1 A2].
      specialize (IH wss outs (tl counts) r1 f1 ltac:(lia) ltac:(lia) G2 A2).
      destruct (avx_update_loop _ _ _ _ _ _ _ _ _ _ _ _ _ _ _ _) as [[[[rows2 wss2] outs2] r2] f2].
      destruct IH as [I1 [I2 [I3 [I4 [I5 I6]]]]]. cbn [length].
      split; [lia|]. split; [lia|]. split; [lia|]. split; [constructor; auto|]. split; [auto|].
      intros [|k] Hk.
      + exists r, f. split; [auto|]. cbn [nth]. replace (nth 0 counts 0) with (hd 0 counts) by (destruct counts; auto).
        rewrite E1. cbv zeta. auto.
      + destruct (I6 k ltac:(lia)) as [rk [fk [V Hrk]]]. exists rk, fk. split; [auto|]. cbn [nth]. rewrite nth_tl in Hrk. exact Hrk.
  Qed.

  (** Without any condition on the number of weights or outputs. *)
  Lemma avx_update_loop_keep : forall bo boost bud cmp pc pp nc np rows wss outs counts r f, Forall row_good rows -> vrng_ok r ->
    let '(rows2, wss2, outs2, r2, f2) := avx_update_loop bo boost bud cmp lmem lits pc pp nc np rows wss outs counts r f in
    length rows2 = length rows /\ Forall row_good rows2 /\ vrng_ok r2.
  Proof.
    intros bo boost bud cmp pc pp nc np rows. induction rows as [|row rows IH]; intros [|ws wss] [|o outs] counts r f G VR; cbn [avx_update_loop]; auto.
    inversion G as [|? ? G1 G2]; subst.
    pose proof (avx_update_clause_keep bo boost bud cmp pc pp nc np row ws o (hd 0 counts) r f G1 VR) as A.
    destruct (avx_update_clause bo boost bud cmp lmem lits pc pp nc np row ws o (hd 0 counts) r f) as [[[[row1 ws1] o1] r1] f1].
    destruct A as [A1 A2]. specialize (IH wss outs (tl counts) r1 f1 G2 A2).
    destruct (avx_update_loop _ _ _ _ _ _ _ _ _ _ _ _ _ _ _ _) as [[[[rows2 wss2] outs2] r2] f2].
    destruct IH as [I1 [I2 I3]]. cbn [length]. split; [lia|]. split; auto.
  Qed.
End Keep.

(** ** Blocks *)

(** Shape, every automaton (padding included) an int8, whole vectors drawn. *)
Definition avx_good (n : nat) (b : ablock) : Prop :=
  avx_ok n b /\ Forall row8 (a_rows b) /\ vrng_ok (a_vrng b).

Lemma avx_good_rows : forall n b, avx_good n b -> Forall (row_good (lmem_of n)) (a_rows b).
Proof.
  intros n b [[O1 O2 O3 O4 O5] [R8 _]]. apply Forall_forall. intros row Hr. rewrite Forall_forall in O5, R8.
  split; [apply O5|apply R8]; auto.
Qed.

Lemma avx_train_good : forall n bo lits b, avx_good n b -> avx_good n (fst (avx_train_ex bo lits b)).
Proof. intros n bo lits b [[O1 O2 O3 O4 O5] [H1 H2]]. split; [constructor; auto|split; auto]. Qed.

Lemma avx_eval_good : forall n lits b, avx_good n b -> avx_good n (fst (avx_eval_ex lits b)).
Proof. intros n lits b [[O1 O2 O3 O4 O5] [H1 H2]]. split; [constructor; auto|split; auto]. Qed.

Lemma avx_upd_good : forall n bo boost lits pc pp nc np b, (lmem_of n <= length lits)%nat -> avx_good n b ->
  avx_good n (avx_upd bo boost lits pc pp nc np b).
Proof.
  intros n bo boost lits pc pp nc np b HL G. pose proof (avx_good_rows n b G) as GR. destruct G as [[O1 O2 O3 O4 O5] [H1 H2]].
  unfold avx_upd, avx_train_update.
  destruct (lmem_of_facts n O1) as [F1 [F2 F3]].
  pose proof (avx_update_loop_keep lits (lmem_of n) HL F3 bo boost (a_budget b) (a_cmp b) pc pp nc np (a_rows b) (a_weights b) (a_outputs b) (a_counts b) (a_vrng b) (a_fast b) GR H2) as K.
  rewrite O3. destruct (avx_update_loop _ _ _ _ _ _ _ _ _ _ _ _ _ _ _ _) as [[[[rows2 wss2] outs2] r2] f2].
  destruct K as [K1 [K2 K3]]. split; [|split].
  - constructor; auto. cbn [a_rows]. apply Forall_forall. intros row Hr. rewrite Forall_forall in K2. apply K2. auto.
  - cbn [a_rows]. apply Forall_forall. intros row Hr. rewrite Forall_forall in K2. apply K2. auto.
  - auto.
Qed.

(** ** Any executor keeps an invariant of its blocks *)

Section Preserve.
  Variables B E : Type.
  Variables train_ex eval_ex : E -> B -> B * list Z.
  Variable update : E -> nat -> Q -> nat -> Q -> B -> B.
  Variable L : Type.
  Variable process : L -> fblock -> fblock.
  Variable P : B -> Prop.
  Variable Eok : E -> Prop.
  Hypothesis train_P : forall e b, Eok e -> P b -> P (fst (train_ex e b)).
  Hypothesis eval_P : forall e b, Eok e -> P b -> P (fst (eval_ex e b)).
  Hypothesis upd_P : forall e pc pp nc np b, Eok e -> P b -> P (update e pc pp nc np b).

  Definition all_P (bs : list (bool * B)) : Prop := Forall (fun tb => P (snd tb)) bs.

  Lemma run_examples_P : forall f e bs fb, (forall b, P b -> P (fst (f e b))) -> all_P bs -> all_P (fst (run_examples B E f e bs fb)).
  Proof.
    intros f e bs. induction bs as [|[t b] bs IH]; intros fb Hf H; cbn [run_examples]; auto.
    inversion H as [|? ? H1 H2]; subst. pose proof (Hf b H1) as F. destruct (f e b) as [b1 v]. specialize (IH (fb_register v fb) Hf H2).
    destruct (run_examples B E f e bs (fb_register v fb)) as [bs2 fb2]. constructor; auto.
  Qed.

  Lemma train_one_P : forall d bs fb, Eok (fst d) -> all_P bs -> all_P (fst (train_one B E train_ex update L process d bs fb)).
  Proof.
    intros d bs fb He H. unfold train_one.
    pose proof (run_examples_P train_ex (fst d) bs (fb_reset fb) (fun b => train_P (fst d) b He) H) as R.
    destruct (run_examples B E train_ex (fst d) bs (fb_reset fb)) as [bs1 fb1]. cbn [fst] in *.
    unfold all_P, run_updates in *. apply Forall_forall. intros tb Hin. apply in_map_iff in Hin.
    destruct Hin as [[t b] [<- Hin]]. rewrite Forall_forall in R. specialize (R _ Hin). destruct t; cbn [snd] in *; auto.
  Qed.

  Lemma train_list_P : forall ds bs fb, Forall (fun d => Eok (fst d)) ds -> all_P bs -> all_P (fst (train_list B E train_ex update L process ds bs fb)).
  Proof.
    induction ds as [|d ds IH]; intros bs fb HE H; cbn [train_list]; auto. inversion HE; subst.
    pose proof (train_one_P d bs fb ltac:(auto) H) as T. destruct (train_one B E train_ex update L process d bs fb) as [bs1 fb1]. auto.
  Qed.

  Lemma train_epoch_P : forall data x, Forall (fun d => Eok (fst d)) data -> all_P (x_blocks x) ->
    all_P (x_blocks (snd (train_epoch B E train_ex update L process data x))).
  Proof.
    intros data x HE H. unfold train_epoch, train_slice. cbn [x_blocks x_fb x_index x_rng Nat.eqb].
    destruct (shuffle (seq 0 (length data)) (x_rng x)) as [idx r].
    match goal with |- context [train_list _ _ _ _ _ _ ?ds _ _] => set (sel := ds) end.
    assert (HS : Forall (fun d => Eok (fst d)) sel).
    { unfold sel, select. apply Forall_forall. intros d Hd. apply in_flat_map in Hd. destruct Hd as [i [_ Hi]].
      destruct (nth_error data i) eqn:En; [|easy]. destruct Hi as [Hi|[]]. subst. rewrite Forall_forall in HE. apply HE. eapply nth_error_In; eauto. }
    pose proof (train_list_P sel (x_blocks x) (fb_reset_counter (x_fb x)) HS H) as T.
    destruct (train_list B E train_ex update L process sel (x_blocks x) (fb_reset_counter (x_fb x))) as [bs fb]. exact T.
  Qed.

  Lemma eval_list_P : forall es bs fb, Forall Eok es -> all_P bs -> all_P (snd (fst (eval_list B E eval_ex es bs fb))).
  Proof.
    induction es as [|e es IH]; intros bs fb HE H; cbn [eval_list]; auto. inversion HE; subst.
    pose proof (run_examples_P eval_ex e bs (fb_reset fb) (fun b => eval_P e b ltac:(auto)) H) as R.
    destruct (run_examples B E eval_ex e bs (fb_reset fb)) as [bs1 fb1]. cbn [fst] in R.
    specialize (IH bs1 fb1 ltac:(auto) R). destruct (eval_list B E eval_ex es bs1 fb1) as [[ys bs2] fb2]. exact IH.
  Qed.

  Lemma eval_predict_P : forall data out x, Forall (fun d => Eok (fst d)) data -> all_P (x_blocks x) ->
    all_P (x_blocks (snd (eval_predict B E eval_ex L data out x))).
  Proof.
    intros data out x HE H. unfold eval_predict. destruct (negb (length out =? length data)%nat); auto.
    assert (HE' : Forall Eok (map fst data)) by (rewrite Forall_forall in *; intros e He; apply in_map_iff in He; destruct He as [d [<- Hd]]; auto).
    pose proof (eval_list_P (map fst data) (x_blocks x) (x_fb x) HE' H) as R.
    destruct (eval_list B E eval_ex (map fst data) (x_blocks x) (x_fb x)) as [[ys bs] fb]. exact R.
  Qed.

  (** Any sequence of training epochs and evaluations. *)
  Inductive gcall := GTrain (data : list (E * L)) | GEval (data : list (E * L)) (out : list nat).
  Definition gdata (c : gcall) : list (E * L) := match c with GTrain d => d | GEval d _ => d end.
  Fixpoint grun (cs : list gcall) (x : exec B) : exec B :=
    match cs with
    | [] => x
    | GTrain data :: cs' => grun cs' (snd (train_epoch B E train_ex update L process data x))
    | GEval data out :: cs' => grun cs' (snd (eval_predict B E eval_ex L data out x))
    end.

  Theorem grun_P : forall cs x, Forall (fun c => Forall (fun d => Eok (fst d)) (gdata c)) cs -> all_P (x_blocks x) -> all_P (x_blocks (grun cs x)).
  Proof.
    induction cs as [|c cs IH]; intros x HC H; cbn [grun]; auto. inversion HC as [|? ? H1 H2]; subst.
    destruct c as [data|data out]; cbn [gdata] in H1; apply IH; auto; [apply train_epoch_P|apply eval_predict_P]; auto.
  Qed.
End Preserve.

(** ** Over budget *)

Theorem avx_over_budget : forall n x lits b boost pc pp nc np, avx_good n b -> buffer_of n x lits -> binary x ->
  length (a_counts b) = length (a_rows b) -> length (a_weights b) = length (a_rows b) ->
  let b' := avx_step true boost lits pc pp nc np b in
  forall k, (k < length (a_rows b))%nat -> a_budget b < n_included (row_of (row_clause n (lmem_of n) (nth k (a_rows b) []))) ->
    nth k (a_weights b') [] = nth k (a_weights b) [] /\
    forall j, (j < 2 * lmem_of n)%nat -> nth j (nth k (a_rows b') []) 0 <= nth j (nth k (a_rows b) []) 0.
Proof.
  intros n x lits b boost pc pp nc np G Hb Hx HC HW b' k Hk Hbud.
  pose proof (avx_good_rows n b G) as GR. pose proof G as [OK [R8 VR]].
  pose proof OK as [O1 O2 O3 O4 O5]. destruct (lmem_of_facts n O1) as [F1 [F2 F3]]. pose proof Hb as [B1 [B2 B3]].
  assert (Hrow : length (nth k (a_rows b) []) = (2 * lmem_of n)%nat).
  { rewrite Forall_forall in O5. apply O5, nth_In; auto. }
  unfold b', avx_step, avx_upd, avx_train_update, avx_train_ex. cbn [fst].
  cbn [avx_count_votes avx_train_output a_nlit a_lmem a_mask a_ncls a_rows a_weights a_outputs a_counts a_votes a_budget a_cmp a_vrng a_fast].
  set (rs := map (avx_set_output lits (a_lmem b) (a_mask b)) (a_rows b)).
  set (cnts := map2 (fun r old => match snd r with Some c => c | None => old end) rs (a_counts b)).
  assert (LR : length rs = length (a_rows b)) by (unfold rs; apply map_length).
  pose proof (avx_update_loop_nth lits (lmem_of n) B2 F3 true boost (a_budget b) (a_cmp b) pc pp nc np (a_rows b) (a_weights b) (map fst rs) cnts (a_vrng b) (a_fast b)
    HW ltac:(rewrite map_length; auto) GR VR) as U.
  rewrite O3. destruct (avx_update_loop _ _ _ _ _ _ _ _ _ _ _ _ _ _ _ _) as [[[[rows2 wss2] outs2] r2] f2].
  destruct U as [U1 [U2 [U3 [U4 [U5 U6]]]]]. destruct (U6 k Hk) as [rk [fk [VK T]]]. cbv zeta in T.
  cbn [a_weights a_rows].
  assert (ER : nth k rs (0, None) = avx_set_output lits (lmem_of n) (mask_of n) (nth k (a_rows b) [])).
  { unfold rs. rewrite O3, O4. rewrite (nth_indep _ (0, None) (avx_set_output lits (lmem_of n) (mask_of n) [])) by (rewrite map_length; auto).
    apply (map_nth (avx_set_output lits (lmem_of n) (mask_of n))). }
  assert (EO : nth k (map fst rs) 0 = fst (nth k rs (0, None))) by (apply (map_nth fst rs (0, None))).
  assert (EC : nth k cnts 0 = match snd (nth k rs (0, None)) with Some c => c | None => nth k (a_counts b) 0 end).
  { unfold cnts. rewrite (nth_map2_same _ _ rs (a_counts b) k (0, None)) by lia. reflexivity. }
  destruct (avx_set_output_scalar n x lits (nth k (a_rows b) []) O1 Hb Hx Hrow true) as [A1 A2]. rewrite <- ER in A1, A2.
  assert (Silent : (if true && (nth k cnts 0 >? a_budget b) then 0 else nth k (map fst rs) 0) <> 1).
  { cbn [andb]. rewrite EC, EO.
    destruct (Z.eq_dec (fst (nth k rs (0, None))) 1) as [Ef|Ef].
    - rewrite A2 by congruence. rewrite A1 in Ef.
      assert (CN : snd (set_output true x (row_clause n (lmem_of n) (nth k (a_rows b) []))) =
                   n_included (row_of (row_clause n (lmem_of n) (nth k (a_rows b) [])))).
      { unfold n_included, row_of. apply (set_output_count n); auto; [apply rc_pos_len|apply rc_neg_len]; auto. }
      rewrite CN. replace (_ >? a_budget b) with true by lia. lia.
    - destruct (_ >? a_budget b); [lia|exact Ef]. }
  pose proof (avx_update_clause_silent lits (lmem_of n) B2 F3 true boost (a_budget b) (a_cmp b) pc pp nc np (nth k (a_rows b) []) (nth k (a_weights b) [])
     (nth k (map fst rs) 0) (nth k cnts 0) rk fk) as S.
  destruct (avx_update_clause _ _ _ _ _ _ _ _ _ _ _ _ _ _ _ _) as [[[[row1 ws1] o1] r1] f1]. cbn [fst snd] in T.
  destruct T as [T1 T2]. destruct S as [S1 S2]; auto.
  { rewrite Forall_forall in GR. apply GR, nth_In; auto. }
  rewrite T1, T2. auto.
Qed.

(** ** No jumps *)

Definition within (d : Z) (row row' : list Z) : Prop := forall j, nth j row 0 - d <= nth j row' 0 <= nth j row 0 + d.

Lemma within_halves : forall d lmem (row row' : list Z), 0 <= d -> length row = (2 * lmem)%nat -> length row' = (2 * lmem)%nat ->
  (forall j, (j < lmem)%nat -> nth j row 0 - d <= nth j row' 0 <= nth j row 0 + d /\
     nth (lmem + j) row 0 - d <= nth (lmem + j) row' 0 <= nth (lmem + j) row 0 + d) -> within d row row'.
Proof.
  intros d lmem row row' Hd H1 H2 H j. destruct (Nat.lt_ge_cases j lmem) as [B|B]; [apply H; auto|].
  destruct (Nat.lt_ge_cases j (2 * lmem)) as [B2|B2].
  - destruct (H (j - lmem)%nat ltac:(lia)) as [_ E]. replace (lmem + (j - lmem))%nat with j in E by lia. exact E.
  - rewrite !nth_overflow by lia. lia.
Qed.

Lemma avx_clause_update_delta : forall lits lmem boost cmp row w t o r, (lmem <= length lits)%nat -> lmem = (lmem / 32 * 32)%nat ->
  row_good lmem row -> vrng_ok r ->
  within 1 row (fst (fst (avx_clause_update boost cmp lmem row w t lits o r))).
Proof.
  intros lits lmem boost cmp row w t o r Hlits Hdiv [G1 G2] VR. unfold avx_clause_update.
  destruct (t * (if w >=? 0 then 1 else -1) >? 0).
  - destruct (o =? 1).
    + pose proof (avx_t1a_exact cmp lits lmem Hlits Hdiv boost row r VR G1 G2) as A.
      destruct (avx_t1a boost cmp lits lmem row r) as [row' r']. destruct A as [A1 [A2 [A3 A4]]]. cbn [fst].
      apply (within_halves 1 lmem); auto; try lia. intros j Hj. destruct (A4 j Hj) as [E1 E2]. rewrite E1, E2.
      assert (D : forall b1 b2 v, is_int8 v -> v - 1 <= t1a_lane boost b1 b2 v <= v + 1)
        by (intros b1 b2 v H; unfold t1a_lane, up8, down8, is_int8 in *; destruct b1, b2, boost; cbn [orb negb]; lia).
      split; apply D; apply row8_nth; auto.
    + pose proof (avx_t1b_exact cmp lits lmem Hlits Hdiv row r VR G1 G2) as A.
      destruct (avx_t1b cmp lmem row r) as [row' r']. destruct A as [A1 [A2 [A3 A4]]]. cbn [fst].
      apply (within_halves 1 lmem); auto; try lia. intros j Hj. destruct (A4 j Hj) as [E1 E2]. rewrite E1, E2.
      assert (D : forall b v, is_int8 v -> v - 1 <= t1b_lane b v <= v + 1)
        by (intros b v H; unfold t1b_lane, down8, is_int8 in *; destruct b; lia).
      split; apply D; apply row8_nth; auto.
  - destruct ((t * (if w >=? 0 then 1 else -1) <? 0) && (o =? 1)).
    + destruct (avx_t2_exact lits lmem Hlits Hdiv row G1 G2) as [A1 [A2 A3]]. cbn [fst].
      apply (within_halves 1 lmem); auto; try lia. intros j Hj. destruct (A3 j Hj) as [E1 E2]. rewrite E1, E2.
      assert (D : forall b v, v - 1 <= t2_lane b v <= v + 1) by (intros b v; unfold t2_lane; destruct (b && (v <? 0)); lia).
      split; apply D.
    + cbn [fst]. intros j. lia.
Qed.

Lemma avx_update_clause_delta : forall lits lmem bo boost bud cmp pc pp nc np row ws o cnt r f, (lmem <= length lits)%nat ->
  lmem = (lmem / 32 * 32)%nat -> row_good lmem row -> vrng_ok r ->
  within 2 row (fst (fst (fst (fst (avx_update_clause bo boost bud cmp lmem lits pc pp nc np row ws o cnt r f))))).
Proof.
  intros lits lmem bo boost bud cmp pc pp nc np row ws o cnt r f HL HD G VR. unfold avx_update_clause.
  set (out := if bo && (cnt >? bud) then 0 else o). clearbody out. destruct (draw_lt f pp) as [d1 f1].
  pose proof (avx_clause_update_keep lits lmem HL HD boost cmp row (nth pc ws 0) 1 out r G VR) as A.
  pose proof (avx_clause_update_delta lits lmem boost cmp row (nth pc ws 0) 1 out r HL HD G VR) as S.
  destruct (avx_clause_update boost cmp lmem row (nth pc ws 0) 1 lits out r) as [[row' w'] r'].
  destruct A as [A1 A2]. cbn [fst] in S.
  destruct d1; destruct (draw_lt f1 np) as [d2 f2];
    match goal with |- context [avx_clause_update ?a ?b ?c ?row ?w ?t ?l ?o ?r] =>
      pose proof (avx_clause_update_delta l c a b row w t o r HL HD ltac:(auto) ltac:(auto)) as K2;
      destruct (avx_clause_update a b c row w t l o r) as [[row2 w2] r2]; cbn [fst] in K2 end;
    destruct d2; cbn [fst]; intros j; specialize (S j); specialize (K2 j); lia.
Qed.

Theorem avx_step_delta : forall n lits b bo boost pc pp nc np, avx_good n b -> (lmem_of n <= length lits)%nat ->
  length (a_weights b) = length (a_rows b) ->
  let b' := avx_step bo boost lits pc pp nc np b in
  forall k, (k < length (a_rows b))%nat -> within 2 (nth k (a_rows b) []) (nth k (a_rows b') []).
Proof.
  intros n lits b bo boost pc pp nc np G HL HW b' k Hk.
  pose proof (avx_good_rows n b G) as GR. pose proof G as [OK [R8 VR]].
  pose proof OK as [O1 O2 O3 O4 O5]. destruct (lmem_of_facts n O1) as [F1 [F2 F3]].
  unfold b', avx_step, avx_upd, avx_train_update, avx_train_ex. cbn [fst].
  cbn [avx_count_votes avx_train_output a_nlit a_lmem a_mask a_ncls a_rows a_weights a_outputs a_counts a_votes a_budget a_cmp a_vrng a_fast].
  set (rs := map (avx_set_output lits (a_lmem b) (a_mask b)) (a_rows b)).
  set (cnts := if bo then _ else _).
  assert (LR : length rs = length (a_rows b)) by (unfold rs; apply map_length).
  pose proof (avx_update_loop_nth lits (lmem_of n) HL F3 bo boost (a_budget b) (a_cmp b) pc pp nc np (a_rows b) (a_weights b) (map fst rs) cnts (a_vrng b) (a_fast b)
    HW ltac:(rewrite map_length; auto) GR VR) as U.
  rewrite O3. destruct (avx_update_loop _ _ _ _ _ _ _ _ _ _ _ _ _ _ _ _) as [[[[rows2 wss2] outs2] r2] f2].
  destruct U as [U1 [U2 [U3 [U4 [U5 U6]]]]]. destruct (U6 k Hk) as [rk [fk [VK T]]]. cbv zeta in T. cbn [a_rows].
  destruct T as [T1 _]. rewrite T1. apply avx_update_clause_delta; auto.
  rewrite Forall_forall in GR. apply GR, nth_In; auto.
Qed.

(** ** Initialisation *)

Lemma avx_init_lits_good : forall n r, let '(p, q, _) := avx_init_lits n r in
  length p = n /\ length q = n /\ Forall (fun v => v = 0 \/ v = -1) p /\ Forall (fun v => v = 0 \/ v = -1) q.
Proof.
  induction n as [|n IH]; intros r; cbn [avx_init_lits]; [repeat split; constructor|].
  destruct (next_u r) as [u r1]. destruct (next_u r1) as [v r2]. specialize (IH r2).
  destruct (avx_init_lits n r2) as [[p q] r3]. destruct IH as [I1 [I2 [I3 I4]]]. cbn [length].
  split; [lia|]. split; [lia|]. split; constructor; auto.
  - destruct (Qlt_bool (1#2) u); auto.
  - destruct (Qlt_bool (1#2) v); auto.
Qed.

Lemma avx_init_rows_good : forall n ncl r, (0 < n)%nat -> Forall (row_good (lmem_of n)) (fst (avx_init_rows n ncl r)) /\
  length (fst (avx_init_rows n ncl r)) = ncl.
Proof.
  intros n ncl. induction ncl as [|k IH]; intros r Hn; cbn [avx_init_rows]; [split; [constructor|reflexivity]|].
  unfold avx_init_row. pose proof (avx_init_lits_good n r) as A. destruct (avx_init_lits n r) as [[p q] r1].
  destruct A as [A1 [A2 [A3 A4]]]. specialize (IH r1 Hn). destruct (avx_init_rows n k r1) as [t r2]. cbn [fst length] in *.
  destruct IH as [I1 I2]. split; [|lia]. constructor; auto. pose proof (lmem_of_facts n Hn) as [F1 [F2 F3]]. split.
  - rewrite !app_length, !repeat_length. lia.
  - unfold row8, is_int8.
    assert (Z1 : forall l, Forall (fun v => v = 0 \/ v = -1) l -> Forall (fun v => -128 <= v <= 127) l)
      by (intros l; apply Forall_impl; intros; lia).
    assert (Z2 : forall z m, -128 <= z <= 127 -> Forall (fun v => -128 <= v <= 127) (repeat z m))
      by (intros z m Hz; apply Forall_forall; intros v Hv; apply repeat_spec in Hv; lia).
    repeat (apply Forall_app; split); auto; apply Z2; lia.
Qed.

Theorem avx_initialize_good : forall vec_of fast_of junk n ncl ncls budget s seed b, (0 < n)%nat -> (forall z, vrng_ok (vec_of z)) ->
  avx_initialize vec_of fast_of junk n ncl ncls budget s seed = Some b -> avx_good n b /\ length (a_rows b) = ncl.
Proof.
  intros vec_of fast_of junk n ncl ncls budget s seed b Hn HV. unfold avx_initialize. destruct (seed =? 0); [discriminate|].
  pose proof (avx_init_rows_good n ncl (fast_of seed) Hn) as A. destruct (avx_init_rows n ncl (fast_of seed)) as [rows f].
  destruct A as [A1 A2]. cbn [fst] in *. destruct (init_weights ncls ncl f) as [ws f2]. intros H. injection H as <-.
  cbn [a_rows]. split; [|auto]. split; [|split].
  - constructor; auto. cbn [a_rows]. apply Forall_forall. intros row Hr. rewrite Forall_forall in A1. apply A1; auto.
  - cbn [a_rows]. apply Forall_forall. intros row Hr. rewrite Forall_forall in A1. apply A1; auto.
  - apply HV.
Qed.

(** ** The byte threshold for 1/s *)

Lemma bytes_below_count : forall c, -128 <= c <= 127 -> Z.of_nat (length (filter (fun v => v <? c) all_bytes)) = c + 128.
Proof.
  intros c Hc.
  assert (A : forallb (fun i => Z.of_nat (length (filter (fun v => v <? Z.of_nat i - 128) all_bytes)) =? Z.of_nat i) (seq 0 256) = true) by (vm_compute; reflexivity).
  rewrite forallb_forall in A. specialize (A (Z.to_nat (c + 128))). rewrite in_seq in A. specialize (A ltac:(lia)).
  rewrite Z2Nat.id in A by lia. replace (c + 128 - 128) with c in A by lia. lia.
Qed.

Theorem gtcmp_range : forall s, -127 <= gtcmp_for_s s <= 126.
Proof. intros s. unfold gtcmp_for_s. lia. Qed.

Theorem gtcmp_close : forall s : Q, (1 <= s)%Q ->
  (Qabs (inject_Z (gtcmp_for_s s + 128) / 256 - 1 / s) <= 1 # 128)%Q.
Proof.
  intros s Hs. unfold gtcmp_for_s. set (x := (1 / s * 255)%Q).
  assert (Hp0 : (0 <= 1 / s)%Q) by (apply Qle_shift_div_l; lra).
  assert (Hp1 : (1 / s <= 1)%Q) by (apply Qle_shift_div_r; lra).
  assert (Hx : (x == 1 / s * 255)%Q) by reflexivity.
  assert (Hq : Z.quot (Qnum x) (Zpos (Qden x)) = Qfloor x).
  { assert (N : 0 <= Qnum x). { assert (X0 : (0 <= x)%Q) by (rewrite Hx; lra). unfold Qle in X0. cbn [Qnum Qden] in X0. lia. }
    rewrite Z.quot_div_nonneg by lia. unfold Qfloor. destruct x; reflexivity. }
  rewrite Hq. pose proof (Qfloor_le x) as L1. pose proof (Qlt_floor x) as L2.
  assert (B : 0 <= Qfloor x <= 255).
  { split.
    - change 0 with (Qfloor 0). apply Qfloor_resp_le. rewrite Hx. lra.
    - change 255 with (Qfloor 255). apply Qfloor_resp_le. rewrite Hx. lra. }
  rewrite inject_Z_plus in L2. change (inject_Z 1) with 1%Q in L2.
  set (q := Qfloor x) in *. clearbody q x. set (p := (1 / s)%Q) in *. clearbody p.
  apply Qabs_Qle_condition.
  assert (Ed : forall z, (inject_Z z / 256 == inject_Z z * (1 # 256))%Q) by (intros z; reflexivity). rewrite Ed.
  destruct (Z.leb_spec q 252).
  - replace (Z.max (-127) (Z.min 126 (q - 127 + 1)) + 128) with (q + 2) by lia.
    rewrite inject_Z_plus. change (inject_Z 2) with 2%Q. 
    assert (Q1 : (inject_Z q <= 252)%Q) by (change 252%Q with (inject_Z 252); rewrite <- Zle_Qle; lia). split; lra.
  - replace (Z.max (-127) (Z.min 126 (q - 127 + 1)) + 128) with 254 by lia.
    assert (Q1 : (253 <= inject_Z q)%Q) by (change 253%Q with (inject_Z 253); rewrite <- Zle_Qle; lia).
    change (inject_Z 254) with 254%Q. split; lra.
Qed.
