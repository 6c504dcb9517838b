(** Sparse state transfer. *)
From Coq Require Import ZArith Arith List Bool QArith Lia ZifyBool.
From Verif Require Import Base BaseProofs Spec ModelDense ModelRuleSet ModelLayout ModelFeedback ModelExecutor ModelSparse SpecSparse ProofsLayout ProofsInput ProofsSparse.
Import ListNotations.
Open Scope Z_scope.

Lemma map_nth_seq : forall A (d : A) l, map (fun k => nth k l d) (seq 0 (length l)) = l.
Proof.
  intros A d l. induction l as [|a l IH]; cbn [length seq map nth]; auto. f_equal.
  rewrite <- seq_shift, map_map. exact IH.
Qed.

Fixpoint offset (rows : list (list nat)) (i : nat) : nat :=
  match i with O => O | S k => (offset rows k + length (nth k rows []))%nat end.

Lemma offset_mono : forall rows i j, (i <= j)%nat -> (offset rows i <= offset rows j)%nat.
Proof. intros rows i j H. induction H; cbn [offset]; lia. Qed.

Section Get.
  Variable b : sblock.
  Let m := (sp_ncl b * 2)%nat.
  Hypothesis HL : forall i, (i < m)%nat -> length (nth i (sp_states b) []) = length (nth i (sp_rows b) []).

  Lemma csr_get_loop : forall i, (i <= m)%nat -> for_loop i (csr_get_step b) ([], [], [], O) =
    (concat (map (fun k => nth k (sp_states b) []) (seq 0 i)), concat (map (fun k => nth k (sp_rows b) []) (seq 0 i)),
     map (offset (sp_rows b)) (seq 0 i), offset (sp_rows b) i).
  Proof.
    induction i as [|i IH]; intros Hi; [reflexivity|].
    cbn [for_loop]. rewrite IH by lia. unfold csr_get_step.
    rewrite !seq_S, !map_app, !concat_app. cbn [map concat Nat.add]. rewrite !app_nil_r. cbn [offset].
    rewrite (map_nth_seq _ O). rewrite <- (HL i) by lia. rewrite (map_nth_seq _ 0). rewrite (HL i) by lia. reflexivity.
  Qed.

  Lemma csr_get_eq : csr_get b =
    (concat (map (fun k => nth k (sp_states b) []) (seq 0 m)), concat (map (fun k => nth k (sp_rows b) []) (seq 0 m)),
     map (offset (sp_rows b)) (seq 0 (S m))).
  Proof.
    unfold csr_get. fold m. rewrite csr_get_loop by lia. rewrite (seq_S m), map_app. reflexivity.
  Qed.
End Get.

Lemma nth_concat : forall A (d : A) (rows : list (list A)) (len : nat -> nat) i j,
  (forall k, (k < length rows)%nat -> length (nth k rows []) = len k) -> (i < length rows)%nat -> (j < len i)%nat ->
  nth (fold_right Nat.add O (map len (seq 0 i)) + j) (concat rows) d = nth j (nth i rows []) d.
Proof.
  intros A d rows. induction rows as [|r rows IH]; intros len i j HL Hi Hj; cbn [length] in *; [lia|].
  cbn [concat]. destruct i as [|i].
  - cbn [seq map fold_right nth]. rewrite app_nth1; auto. specialize (HL O ltac:(lia)). cbn [nth] in HL. lia.
  - cbn [seq map fold_right nth]. pose proof (HL O ltac:(lia)) as H0. cbn [nth] in H0.
    rewrite <- seq_shift, map_map. rewrite app_nth2 by lia.
    replace (len O + fold_right Nat.add O (map (fun x => len (S x)) (seq 0 i)) + j - length r)%nat
      with (fold_right Nat.add O (map (fun x => len (S x)) (seq 0 i)) + j)%nat by lia.
    rewrite (IH (fun x => len (S x))); auto; [|lia]. intros k Hk. apply (HL (S k)). lia.
Qed.

Lemma offset_sum : forall rows i, offset rows i = fold_right Nat.add O (map (fun k => length (nth k rows [])) (seq 0 i)).
Proof.
  intros rows i. induction i as [|i IH]; [reflexivity|]. rewrite seq_S, map_app, fold_right_app. cbn [offset map fold_right Nat.add].
  rewrite IH. rewrite Nat.add_0_r. generalize (length (nth i rows [])) as c. generalize (map (fun k => length (nth k rows [])) (seq 0 i)) as l.
  induction l as [|x l IHl]; intros c; cbn [fold_right]; [lia|]. specialize (IHl c). lia.
Qed.

(** Reading the state and writing it back into any block of the same size
    restores every clause. *)
Theorem csr_set_get : forall b b0, length (sp_rows b) = (2 * sp_ncl b)%nat -> length (sp_states b) = (2 * sp_ncl b)%nat ->
  (forall i, (i < 2 * sp_ncl b)%nat -> length (nth i (sp_states b) []) = length (nth i (sp_rows b) [])) ->
  sp_rows (csr_set (csr_get b) b0) = sp_rows b /\ sp_states (csr_set (csr_get b) b0) = sp_states b.
Proof.
  intros b b0 H1 H2 H3. rewrite csr_get_eq by (intros i Hi; apply H3; lia).
  unfold csr_set. cbn [sp_rows sp_states sp_with_rows]. rewrite map_length, seq_length.
  set (m := (sp_ncl b * 2)%nat) in *. replace (S m - 1)%nat with m by lia.
  assert (ON : forall i, (i <= m)%nat -> nth i (map (offset (sp_rows b)) (seq 0 (S m))) O = offset (sp_rows b) i).
  { intros i Hi. rewrite (nth_indep _ O (offset (sp_rows b) O)) by (rewrite map_length, seq_length; lia).
    rewrite map_nth, seq_nth by lia. reflexivity. }
  assert (G : forall A (d : A) (rows : list (list A)), length rows = m ->
    (forall k, (k < m)%nat -> length (nth k rows []) = length (nth k (sp_rows b) [])) ->
    map (fun i => map (fun j => nth j (concat (map (fun k => nth k rows []) (seq 0 m))) d)
       (seq (nth i (map (offset (sp_rows b)) (seq 0 (S m))) O)
            (nth (S i) (map (offset (sp_rows b)) (seq 0 (S m))) O - nth i (map (offset (sp_rows b)) (seq 0 (S m))) O))) (seq 0 m) = rows).
  { intros A d rows HR HK.
    replace (map (fun k => nth k rows []) (seq 0 m)) with rows by (rewrite <- HR; symmetry; apply map_nth_seq).
    transitivity (map (fun k => nth k rows []) (seq 0 m)); [|rewrite <- HR; apply map_nth_seq]. apply map_ext_in. intros i Hi. apply in_seq in Hi.
    rewrite !ON by lia. cbn [offset]. replace (offset (sp_rows b) i + length (nth i (sp_rows b) []) - offset (sp_rows b) i)%nat
      with (length (nth i (sp_rows b) [])) by lia.
    rewrite <- (map_nth_seq _ d (nth i rows [])) at 1. rewrite (HK i) by lia.
    set (len := length (nth i (sp_rows b) [])).
    replace (seq (offset (sp_rows b) i) len) with (map (fun j => (offset (sp_rows b) i + j)%nat) (seq 0 len)).
    2:{ clear. generalize (offset (sp_rows b) i) as o. induction len as [|len IH]; intros o; [reflexivity|].
        cbn [seq map]. f_equal; [lia|]. rewrite <- (IH (S o)). rewrite <- seq_shift, map_map. apply map_ext. intros. lia. }
    rewrite map_map. symmetry. apply map_ext_in. intros j Hj. apply in_seq in Hj. rewrite offset_sum.
    erewrite <- (map_ext_in (fun k => length (nth k rows []))); [|intros k Hk; apply in_seq in Hk; apply HK; lia].
    symmetry. apply (nth_concat _ d rows (fun k => length (nth k rows []))); auto; [lia|]. rewrite HK by lia. unfold len in Hj. lia. }
  split.
  - apply (G nat O); auto; lia.
  - apply (G Z 0); auto; [lia|]. intros k Hk. apply H3. lia.
Qed.

Lemma firstn_map_nth : forall A (d : A) l n, (n <= length l)%nat -> firstn n l = map (fun j => nth j l d) (seq 0 n).
Proof.
  intros A d l. induction l as [|a l IH]; intros [|n] H; cbn [length] in H; try lia; try reflexivity.
  cbn [firstn seq map nth]. f_equal. rewrite IH by lia. rewrite <- seq_shift, map_map. reflexivity.
Qed.

Lemma csr_slices : forall A (d : A) (l : list A) (p : nat -> nat) n,
  p O = O -> (forall i, (i < n)%nat -> (p i <= p (S i))%nat) -> (p n <= length l)%nat ->
  concat (map (fun i => map (fun j => nth j l d) (seq (p i) (p (S i) - p i))) (seq 0 n)) = firstn (p n) l.
Proof.
  intros A d l p n H0 HM. induction n as [|n IH]; intros HE.
  - rewrite H0. reflexivity.
  - rewrite seq_S, map_app, concat_app. cbn [map concat Nat.add]. rewrite app_nil_r.
    pose proof (HM n ltac:(lia)) as HN. rewrite IH by (intros; try apply HM; lia).
    rewrite !(firstn_map_nth _ d) by lia.
    rewrite <- map_app. f_equal. replace (p (S n)) with (p n + (p (S n) - p n))%nat at 2 by lia. rewrite seq_app. reflexivity.
Qed.

(** Writing a valid CSR matrix and reading it back gives the same arrays. *)
Theorem csr_get_set : forall c b, csr_valid (2 * sp_ncl b) c -> csr_get (csr_set c b) = c.
Proof.
  intros [[data indices] indptr] b [V1 [V2 [V3 [V4 V5]]]].
  assert (LN : length (seq 0 (length indptr - 1)) = (2 * sp_ncl b)%nat) by (rewrite seq_length; lia).
  assert (RowN : forall A (f : nat -> list A) i, (i < 2 * sp_ncl b)%nat -> nth i (map f (seq 0 (length indptr - 1))) [] = f i).
  { intros A f i Hi. rewrite (nth_indep _ [] (f O)) by (rewrite map_length, LN; auto). rewrite map_nth, seq_nth by lia. reflexivity. }
  rewrite csr_get_eq.
  2:{ intros i Hi. unfold csr_set. cbn [sp_rows sp_states sp_with_rows]. cbn [sp_ncl csr_set sp_with_rows] in Hi.
      rewrite !RowN by lia. rewrite !map_length. reflexivity. }
  unfold csr_set. cbn [sp_rows sp_states sp_with_rows sp_ncl].
  replace (sp_ncl b * 2)%nat with (2 * sp_ncl b)%nat by lia. set (m := (2 * sp_ncl b)%nat) in *.
  set (spn := fun i => seq (nth i indptr O) (nth (S i) indptr O - nth i indptr O)) in *.
  assert (Mono : forall i, (i <= m)%nat -> (nth i indptr O <= nth m indptr O)%nat).
  { intros i Hi. remember (m - i)%nat as k. revert i Hi Heqk. induction k as [|k IH]; intros i Hi Hk.
    - replace i with m by lia. lia.
    - specialize (V5 i ltac:(lia)). specialize (IH (S i) ltac:(lia) ltac:(lia)). lia. }
  f_equal; [f_equal|].
  - rewrite (map_ext_in _ (fun i => map (fun j => nth j data 0) (spn i))) by (intros i Hi; apply in_seq in Hi; apply RowN; lia).
    unfold spn. rewrite (csr_slices _ 0 data (fun i => nth i indptr O) m); auto; [|lia].
    rewrite V4. apply firstn_all.
  - rewrite (map_ext_in _ (fun i => map (fun j => nth j indices O) (spn i))) by (intros i Hi; apply in_seq in Hi; apply RowN; lia).
    unfold spn. rewrite (csr_slices _ O indices (fun i => nth i indptr O) m); auto; [|lia].
    rewrite V4, <- V3. apply firstn_all.
  - rewrite <- (map_nth_seq _ O indptr) at 2. rewrite V1. apply map_ext_in. intros i Hi. apply in_seq in Hi.
    assert (Hi' : (i <= m)%nat) by lia. clear Hi.
    induction i as [|i IH]; cbn [offset]; [auto|]. rewrite IH by lia. rewrite V1 in RowN. rewrite RowN by lia. rewrite map_length. unfold spn. rewrite seq_length.
    specialize (V5 i ltac:(lia)). lia.
Qed.

(** ** Weights and active literals of one block *)

Definition wts (b : sblock) : list (list Z) := map (fun i => nth i (sp_weights b) []) (seq 0 (sp_ncl b)).

Lemma wts_length : forall b, length (wts b) = sp_ncl b.
Proof. intros. unfold wts. now rewrite map_length, seq_length. Qed.
Lemma wts_full : forall b, length (sp_weights b) = sp_ncl b -> wts b = sp_weights b.
Proof. intros b H. unfold wts. rewrite <- H. apply map_nth_seq. Qed.

Lemma set_nth_app_hd : forall A (x y : A) pre post, set_nth (length pre) x (pre ++ y :: post) = pre ++ x :: post.
Proof. intros A x y pre. induction pre as [|a pre IH]; intros post; cbn [length app set_nth]; [reflexivity|]. now rewrite IH. Qed.

Lemma skipn_tail : forall A k (l : list A) x t, skipn k l = x :: t -> skipn (S k) l = t.
Proof.
  intros A k. induction k as [|k IH]; intros [|y l] x t H; cbn [skipn] in *; try discriminate; [congruence|].
  now apply IH in H.
Qed.

Lemma get_weights_eq : forall b pre mid post, length mid = sp_ncl b ->
  sp_get_weights (pre ++ mid ++ post) (length pre) b = pre ++ wts b ++ post.
Proof.
  intros b pre mid post HM. unfold sp_get_weights, wts.
  assert (K : forall k, (k <= length mid)%nat ->
    for_loop k (fun i dst => set_nth (i + length pre) (nth i (sp_weights b) []) dst) (pre ++ mid ++ post)
    = pre ++ map (fun i => nth i (sp_weights b) []) (seq 0 k) ++ skipn k mid ++ post).
  { induction k as [|k IH]; intros Hk; [reflexivity|]. cbn [for_loop]. rewrite IH by lia.
    destruct (skipn k mid) as [|m0 ms] eqn:E.
    - exfalso. apply (f_equal (@length _)) in E. rewrite skipn_length in E. cbn [length] in E. lia.
    - rewrite (skipn_tail _ _ _ _ _ E).
      rewrite seq_S, map_app. cbn [map Nat.add app]. rewrite (app_assoc pre).
      replace (k + length pre)%nat with (length (pre ++ map (fun i => nth i (sp_weights b) []) (seq 0 k)))
        by (rewrite app_length, map_length, seq_length; lia).
      rewrite set_nth_app_hd. rewrite <- !app_assoc. reflexivity. }
  rewrite <- HM. rewrite K by lia. rewrite skipn_all. reflexivity.
Qed.

Lemma set_weights_wts : forall b pre ws post, length ws = sp_ncl b ->
  sp_weights (sp_set_weights (pre ++ ws ++ post) (length pre) b) = ws.
Proof.
  intros b pre ws post H. unfold sp_set_weights. cbn [sp_weights sp_with_weights].
  transitivity (map (fun k => nth k ws []) (seq 0 (length ws))); [|apply map_nth_seq]. rewrite <- H. apply map_ext_in. intros i Hi. apply in_seq in Hi.
  rewrite app_nth2 by lia. replace (i + length pre - length pre)%nat with i by lia. apply app_nth1. lia.
Qed.

(** ** Whole machines *)

Lemma sp_load_loop_eq : forall cbs c al pre mid post, length mid = nsum (map sp_ncl cbs) ->
  sp_load_loop cbs (length pre) c al (pre ++ mid ++ post)
  = (c ++ map csr_get cbs, al ++ map al_get cbs, pre ++ concat (map wts cbs) ++ post).
Proof.
  induction cbs as [|b t IH]; intros c al pre mid post H; cbn [sp_load_loop map concat nsum fold_right] in *.
  - destruct mid; cbn [length] in H; [|lia]. rewrite !app_nil_r. reflexivity.
  - fold (nsum (map sp_ncl t)) in H.
    rewrite <- (firstn_skipn (sp_ncl b) mid). rewrite <- app_assoc.
    rewrite get_weights_eq by (rewrite firstn_length; lia).
    replace (length pre + sp_ncl b)%nat with (length (pre ++ wts b)) by (rewrite app_length, wts_length; lia).
    rewrite (app_assoc pre). rewrite IH by (rewrite skipn_length; lia).
    rewrite <- !app_assoc. reflexivity.
Qed.

Theorem sp_load_state_eq : forall nlit ncls cbs,
  sp_load_state nlit (nsum (map sp_ncl cbs)) ncls cbs =
  mkSparse (Some nlit) ncls (concat (map wts cbs)) (map csr_get cbs) (map al_get cbs).
Proof.
  intros nlit ncls cbs. unfold sp_load_state.
  pose proof (sp_load_loop_eq cbs [] [] [] (repeat (repeat 0 ncls) (nsum (map sp_ncl cbs))) []) as H.
  cbn [app length] in H. rewrite app_nil_r in H. rewrite H by apply repeat_length. rewrite app_nil_r. reflexivity.
Qed.

Lemma al_set_even : forall rows b, even_al rows -> rows <> [] ->
  al_set rows b = Ok (sp_with_al b (map (fun i => nth i rows []) (seq 0 (sp_ncls b)))).
Proof.
  intros rows b E N. unfold al_set.
  replace (forallb _ rows) with true.
  2:{ symmetry. apply forallb_forall. intros r Hr. apply Nat.eqb_eq. auto. }
  destruct rows; [congruence|]. reflexivity.
Qed.

Lemma al_get_full : forall b, length (sp_al b) = sp_ncls b -> al_get b = sp_al b.
Proof. intros b H. unfold al_get. rewrite <- H. apply map_nth_seq. Qed.

Lemma save_after_load_loop : forall src tgt s prec preal prew posc posal posw,
  Forall sized src -> Forall (fun b => even_al (sp_al b)) src ->
  Forall2 (fun a b => sp_ncl a = sp_ncl b /\ sp_ncls a = sp_ncls b) src tgt ->
  ss_c s = prec ++ map csr_get src ++ posc -> ss_al s = preal ++ map al_get src ++ posal ->
  ss_w s = prew ++ concat (map wts src) ++ posw -> length prec = length preal ->
  exists r, sp_save_loop s tgt (length prec) (length prew) = Ok r /\ Forall2 same_state r src.
Proof.
  intros src. induction src as [|a src IH]; intros tgt s prec preal prew posc posal posw HS HE HF HC HA HW HP.
  - inversion HF; subst. exists []. split; [reflexivity|constructor].
  - inversion HF as [|? b ? t [N1 N2] HF']; subst. inversion HS as [|? ? S1 S2]; subst. inversion HE as [|? ? E1 E2]; subst.
    destruct S1 as [Q1 [Q2 [Q3 [Q4 [Q5 Q6]]]]]. cbn [sp_save_loop].
    cbn [map app concat] in HC, HA, HW. rewrite <- app_assoc in HW.
    assert (C1 : nth_error (ss_c s) (length prec) = Some (csr_get a)).
    { rewrite HC, nth_error_app2, Nat.sub_diag by lia. reflexivity. }
    assert (C2 : nth_error (ss_al s) (length prec) = Some (al_get a)).
    { rewrite HA, nth_error_app2, HP, Nat.sub_diag by lia. reflexivity. }
    rewrite C1, C2. rewrite al_get_full by auto. rewrite al_set_even; auto.
    2:{ intros C. rewrite C in Q5. cbn [length] in Q5. lia. }
    destruct (IH t s (prec ++ [csr_get a]) (preal ++ [al_get a]) (prew ++ wts a) posc posal posw) as [r [R1 R2]]; auto.
    { rewrite HC, <- app_assoc. reflexivity. }
    { rewrite HA, <- app_assoc. reflexivity. }
    { rewrite HW, <- app_assoc. reflexivity. }
    { rewrite !app_length. cbn [length]. lia. }
    rewrite !app_length in R1. cbn [length] in R1. rewrite wts_length, Nat.add_1_r, N1 in R1. rewrite R1.
    eexists. split; [reflexivity|]. constructor; auto.
    destruct (csr_set_get a b Q1 Q2 Q3) as [G1 G2].
    unfold same_state. cbn [sp_with_al sp_rows sp_states sp_weights sp_al sp_set_weights sp_with_weights sp_ncls].
    split; [exact G1|]. split; [exact G2|]. split.
    + pose proof (set_weights_wts (csr_set (csr_get a) b) prew (wts a) (concat (map wts src) ++ posw)) as W.
      rewrite <- HW in W. cbn [sp_weights sp_set_weights sp_with_weights] in W. rewrite <- (wts_full a Q4). apply W.
      rewrite wts_length, N1. destruct (csr_get a) as [[? ?] ?]. reflexivity.
    + replace (sp_ncls (csr_set (csr_get a) b)) with (sp_ncls b) by (destruct (csr_get a) as [[? ?] ?]; reflexivity).
      rewrite <- N2, <- Q5. apply map_nth_seq.
Qed.

(** Reading the machine's state and writing it into other blocks of the same
    sizes gives blocks with the same clauses, weights and active literals. *)
Theorem sp_save_after_load : forall nlit ncls src tgt, Forall sized src -> Forall (fun b => even_al (sp_al b)) src ->
  Forall2 (fun a b => sp_ncl a = sp_ncl b /\ sp_ncls a = sp_ncls b) src tgt ->
  exists r, sp_save_state (sp_load_state nlit (nsum (map sp_ncl src)) ncls src) tgt = Ok r /\ Forall2 same_state r src.
Proof.
  intros nlit ncls src tgt H1 H2 H3. rewrite sp_load_state_eq. unfold sp_save_state.
  apply (save_after_load_loop src tgt _ [] [] [] [] [] []); auto; cbn [ss_c ss_al ss_w app]; now rewrite app_nil_r.
Qed.

(** If the active literal lists of one block differ in length it fails. *)
Theorem sp_save_ragged : forall nlit ncls a src tgt, length (sp_al a) = sp_ncls a -> ~ even_al (sp_al a) -> tgt <> [] ->
  sp_save_state (sp_load_state nlit (nsum (map sp_ncl (a :: src))) ncls (a :: src)) tgt = Raise TypeError.
Proof.
  intros nlit ncls a src [|b t] HL HE HN; [congruence|]. rewrite sp_load_state_eq. unfold sp_save_state. cbn [sp_save_loop ss_c ss_al map nth_error].
  rewrite al_get_full by auto. unfold al_set.
  destruct (forallb _ (sp_al a)) eqn:F; [|reflexivity]. exfalso. apply HE. intros r Hr. rewrite forallb_forall in F.
  specialize (F r Hr). now apply Nat.eqb_eq in F.
Qed.

Lemma load_after_save_loop : forall cbs s index off prec cs preal als prew ws r,
  Forall2 (fun b c => csr_valid (2 * sp_ncl b) c) cbs cs -> Forall2 (fun b al => length al = sp_ncls b) cbs als ->
  length ws = nsum (map sp_ncl cbs) ->
  ss_c s = prec ++ cs -> ss_al s = preal ++ als -> ss_w s = prew ++ ws -> length prec = index -> length preal = index -> length prew = off ->
  sp_save_loop s cbs index off = Ok r ->
  map csr_get r = cs /\ map al_get r = als /\ concat (map wts r) = ws /\ map sp_ncl r = map sp_ncl cbs.
Proof.
  intros cbs. induction cbs as [|b t IH]; intros s index off prec cs preal als prew ws r HV HL HN HC HA HW I1 I2 I3 H.
  - inversion HV; inversion HL; subst. cbn [sp_save_loop] in H. injection H as <-. cbn [map nsum fold_right] in HN.
    apply length_zero_iff_nil in HN. subst. repeat split.
  - inversion HV as [|? c ? cs' V1 V2]; subst. inversion HL as [|? al ? als' L1 L2]; subst. cbn [sp_save_loop] in H.
    assert (C1 : nth_error (ss_c s) (length prec) = Some c) by (rewrite HC, nth_error_app2, Nat.sub_diag by lia; reflexivity).
    assert (C2 : nth_error (ss_al s) (length prec) = Some al) by (rewrite HA, nth_error_app2, <- I2, Nat.sub_diag by lia; reflexivity).
    rewrite C1, C2 in H.
    destruct (al_set al (sp_set_weights (ss_w s) (length prew) (csr_set c b))) as [b'|e] eqn:E; [|discriminate].
    destruct (sp_save_loop s t (S (length prec)) (length prew + sp_ncl b)) as [t'|e] eqn:E2; [|discriminate]. injection H as <-.
    cbn [map nsum fold_right] in HN. fold (nsum (map sp_ncl t)) in HN.
    destruct (IH s (S (length prec)) (length prew + sp_ncl b)%nat (prec ++ [c]) cs' (preal ++ [al]) als' (prew ++ firstn (sp_ncl b) ws) (skipn (sp_ncl b) ws) t')
      as [R1 [R2 [R3 R4]]]; auto.
    { rewrite skipn_length. lia. }
    { rewrite HC, <- app_assoc. reflexivity. }
    { rewrite HA, <- app_assoc. reflexivity. }
    { rewrite HW, <- app_assoc, firstn_skipn. reflexivity. }
    { rewrite app_length. cbn [length]. lia. }
    { rewrite app_length. cbn [length]. lia. }
    { rewrite app_length, firstn_length. lia. }
    unfold al_set in E. destruct (forallb _ al); [|discriminate]. destruct (length al =? 0)%nat; [discriminate|]. injection E as <-.
    assert (N1 : sp_ncl (csr_set c b) = sp_ncl b) by (destruct c as [[? ?] ?]; reflexivity).
    assert (N2 : sp_ncls (csr_set c b) = sp_ncls b) by (destruct c as [[? ?] ?]; reflexivity).
    cbn [map concat]. rewrite R1, R2, R3, R4. split; [|split; [|split]].
    + f_equal. etransitivity; [|exact (csr_get_set c b V1)]. destruct c as [[? ?] ?]. reflexivity.
    + f_equal. rewrite al_get_full; cbn [sp_with_al sp_al sp_ncls sp_set_weights sp_with_weights].
      * rewrite N2, <- L1. apply map_nth_seq.
      * rewrite map_length, seq_length. reflexivity.
    + rewrite <- (firstn_skipn (sp_ncl b) ws) at 2. f_equal.
      transitivity (wts (sp_set_weights (ss_w s) (length prew) (csr_set c b))); [reflexivity|].
      pose proof (set_weights_wts (csr_set c b) prew (firstn (sp_ncl b) ws) (skipn (sp_ncl b) ws)) as W.
      rewrite firstn_skipn, <- HW, N1 in W. rewrite wts_full; [apply W; rewrite firstn_length; lia|].
      rewrite W by (rewrite firstn_length; lia). cbn [sp_ncl sp_set_weights sp_with_weights]. rewrite firstn_length. lia.
    + cbn [sp_with_al sp_ncl sp_set_weights sp_with_weights]. rewrite N1. reflexivity.
Qed.

(** Writing a state into the blocks and reading it back gives the same state. *)
Theorem sp_load_after_save : forall s nlit cbs r, ss_nlit s = Some nlit ->
  Forall2 (fun b c => csr_valid (2 * sp_ncl b) c) cbs (ss_c s) -> Forall2 (fun b al => length al = sp_ncls b) cbs (ss_al s) ->
  length (ss_w s) = nsum (map sp_ncl cbs) -> sp_save_state s cbs = Ok r ->
  sp_load_state nlit (nsum (map sp_ncl r)) (ss_ncls s) r = s.
Proof.
  intros s nlit cbs r N H1 H2 H3 H. unfold sp_save_state in H.
  destruct (load_after_save_loop cbs s 0 0 [] (ss_c s) [] (ss_al s) [] (ss_w s) r) as [R1 [R2 [R3 R4]]]; auto.
  rewrite sp_load_state_eq, R1, R2, R3. destruct s as [sn sc sw scs sal]. cbn [ss_nlit ss_ncls ss_w ss_c ss_al] in *. subst. reflexivity.
Qed.

(** When the sizes fit it succeeds. *)
Theorem sp_save_ok : forall s cbs, Forall2 (fun b (_ : csr) => True) cbs (ss_c s) ->
  Forall2 (fun (_ : sblock) al => even_al al /\ al <> []) cbs (ss_al s) -> exists r, sp_save_state s cbs = Ok r.
Proof.
  intros s cbs H1 H2. unfold sp_save_state.
  assert (K : forall cbs index off prec cs preal als, Forall2 (fun b (_ : csr) => True) cbs cs ->
    Forall2 (fun (_ : sblock) al => even_al al /\ al <> []) cbs als -> ss_c s = prec ++ cs -> ss_al s = preal ++ als ->
    length prec = index -> length preal = index -> exists r, sp_save_loop s cbs index off = Ok r).
  { clear. intros cbs. induction cbs as [|b t IH]; intros index off prec cs preal als HV HL HC HA I1 I2; cbn [sp_save_loop].
    - eexists; reflexivity.
    - inversion HV as [|? c ? cs' V1 V2]; subst. inversion HL as [|? al ? als' [L1 L1'] L2]; subst.
      assert (C1 : nth_error (ss_c s) (length prec) = Some c) by (rewrite HC, nth_error_app2, Nat.sub_diag by lia; reflexivity).
      assert (C2 : nth_error (ss_al s) (length prec) = Some al) by (rewrite HA, nth_error_app2, <- I2, Nat.sub_diag by lia; reflexivity).
      rewrite C1, C2, al_set_even by auto.
      destruct (IH (S (length prec)) (off + sp_ncl b)%nat (prec ++ [c]) cs' (preal ++ [al]) als') as [r R]; auto.
      { rewrite HC, <- app_assoc. reflexivity. }
      { rewrite HA, <- app_assoc. reflexivity. }
      { rewrite app_length. cbn [length]. lia. }
      { rewrite app_length. cbn [length]. lia. }
      rewrite R. eexists; reflexivity. }
  apply (K cbs O O [] (ss_c s) [] (ss_al s)); auto.
Qed.
