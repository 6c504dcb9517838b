(** Index safety of the sparse state transfer, and states loaded into other
    numbers of blocks. *)
From Coq Require Import ZArith List Bool QArith Lia ZifyBool.
From Verif Require Import Base BaseProofs Spec ModelDense ModelLayout ModelSparse ModelSparseImp SpecSparse SpecSparseImp
  ProofsSparseState ProofsSparseImp ProofsSparseImpFb.
Import ListNotations.
Open Scope Z_scope.

Lemma fill_seq : forall A (f : nat -> A) n l, length l = n -> fold_left (fun l i => set_nth i (f i) l) (seq 0 n) l = map f (seq 0 n).
Proof.
  intros A f n l HL.
  assert (K : forall m i pre rest, length pre = i -> length rest = m ->
    fold_left (fun l i => set_nth i (f i) l) (seq i m) (pre ++ rest) = pre ++ map f (seq i m)).
  { intros m. induction m as [|m IH]; intros i pre rest L1 L2; cbn [seq fold_left map].
    - destruct rest; [reflexivity|discriminate L2].
    - destruct rest as [|x rest]; [discriminate L2|]. cbn [length] in L2.
      replace (set_nth i (f i) (pre ++ x :: rest)) with ((pre ++ [f i]) ++ rest)
        by (rewrite <- app_assoc; cbn [app]; rewrite <- (set_mid _ pre rest x (f i)), L1; reflexivity).
      rewrite IH; [rewrite <- app_assoc; reflexivity|rewrite app_length; cbn [length]; lia|lia]. }
  apply (K n O [] l); auto.
Qed.

Lemma imp_copy_eq : forall A (d : A) src a b, (b <= length src)%nat ->
  imp_copy src a b = Ret (map (fun j => nth j src d) (seq a (b - a))).
Proof.
  intros A d src a b H. unfold imp_copy.
  assert (K : forall m i acc, (i + m <= length src)%nat ->
    fold_ix m i (fun j acc => bindR (ix src j) (fun x => Ret (acc ++ [x]))) acc = Ret (acc ++ map (fun j => nth j src d) (seq i m))).
  { intros m. induction m as [|m IH]; intros i acc L; cbn [fold_ix seq map]; [rewrite app_nil_r; reflexivity|].
    rewrite (ix_nth _ d) by lia. cbn [bindR]. rewrite IH by lia. rewrite <- app_assoc. reflexivity. }
  destruct (Nat.le_gt_cases a b) as [L|L].
  - rewrite K by lia. reflexivity.
  - replace (b - a)%nat with O by lia. reflexivity.
Qed.

Lemma imp_csr_set_eq : forall c b, csr_in c -> imp_csr_set c (flat b) = Ret (flat (csr_set c b)).
Proof.
  intros [[data indices] indptr] b [N H]. unfold imp_csr_set, csr_set.
  destruct (Nat.eqb_spec (length indptr) 0) as [E|_]; [destruct indptr; [congruence|discriminate E]|].
  set (row := fun i => map (fun j => nth j indices O) (seq (nth i indptr O) (nth (S i) indptr O - nth i indptr O))).
  set (st := fun i => map (fun j => nth j data 0) (seq (nth i indptr O) (nth (S i) indptr O - nth i indptr O))).
  destruct (fold_seq (list (list nat) * list (list Z)) (fun _ => True) (fun i rs => (fst rs ++ [row i], snd rs ++ [st i]))
    (fun i (rs : list (list nat) * list (list Z)) =>
            bindR (ix indptr i) (fun a => bindR (ix indptr (S i)) (fun b =>
            bindR (imp_copy data a b) (fun d => bindR (imp_copy indices a b) (fun r =>
            Ret (fst rs ++ [r], snd rs ++ [d])))))) (length indptr - 1) ([], []) I) as [F _].
  - intros k s Hk _. split; auto. destruct (H k ltac:(lia)) as [H1 H2].
    rewrite !(ix_nth _ O) by lia. cbn [bindR]. rewrite (imp_copy_eq _ 0), (imp_copy_eq _ O) by auto. reflexivity.
  - rewrite F. cbn [bindR]. f_equal. unfold flat, i_store, sp_with_rows. cbn.
    assert (K : forall l a c, fold_left (fun (s : list (list nat) * list (list Z)) k => (fst s ++ [row k], snd s ++ [st k])) l (a, c) = (a ++ map row l, c ++ map st l)).
    { intros l. induction l as [|x l IH]; intros a c; cbn [fold_left map fst snd]; [rewrite !app_nil_r; reflexivity|].
      rewrite IH, <- !app_assoc. reflexivity. }
    rewrite K. reflexivity.
Qed.

Lemma set_nth_rows : forall n (W : list (list Z)) i r, rows_of n W -> length r = n -> rows_of n (set_nth i r W).
Proof.
  intros n W i r H Hr. unfold rows_of in *. revert i. induction H as [|w W Hw H IH]; intros [|i]; cbn [set_nth]; constructor; auto.
Qed.

Lemma imp_set_weights_eq : forall src off b, rows_of (sp_ncls b) src -> rows_of (sp_ncls b) (sp_weights b) -> length (sp_weights b) = sp_ncl b ->
  (off + sp_ncl b <= length src)%nat -> imp_set_weights (concat src) off (flat b) = Ret (flat (sp_set_weights src off b)).
Proof.
  intros src off b Hs Hw Hl Ho. unfold imp_set_weights. cbn [flat i_ncl i_ncls i_weights]. set (n := sp_ncls b) in *.
  set (body := fun (i : nat) (ws : list Z) => fold_ix n 0 (fun c ws => bindR (ix (concat src) ((i + off) * n + c)) (fun x => set_ix (i * n + c) x ws)) ws).
  assert (Inner : forall i W, (i < sp_ncl b)%nat -> length W = sp_ncl b -> rows_of n W -> body i (concat W) = Ret (concat (set_nth i (nth (i + off) src []) W))).
  { intros i W Hi HW HR. unfold body. set (new := nth (i + off) src []).
    assert (Ln : length new = n) by (unfold rows_of in Hs; rewrite Forall_forall in Hs; apply Hs, nth_In; lia).
    assert (K : forall m c row, (c + m = n)%nat -> length row = n ->
      fold_ix m c (fun c ws => bindR (ix (concat src) ((i + off) * n + c)) (fun x => set_ix (i * n + c) x ws)) (concat (set_nth i row W)) =
      Ret (concat (set_nth i (fold_left (fun r c => set_nth c (nth c new 0) r) (seq c m) row) W))).
    { intros m. induction m as [|m IH]; intros c row E L; cbn [fold_ix seq fold_left]; auto.
      rewrite (ix_some _ _ _ (nth c new 0)) by (apply concat_ix; auto; lia). cbn [bindR].
      assert (HR2 := set_nth_rows n W i row HR L).
      rewrite set_ix_ok by (rewrite (concat_length_eq _ n), set_nth_length, HW by exact HR2; apply pos_lt; lia). cbn [bindR].
      rewrite (concat_set Z 0 n) by (auto; rewrite ?set_nth_length; lia).
      rewrite set_get by lia. rewrite set_set. apply IH; [lia|rewrite set_nth_length; auto]. }
    replace (concat W) with (concat (set_nth i (nth i W []) W)) by (f_equal; apply set_same, nth_error_some; lia).
    rewrite K; auto.
    - rewrite (fill_seq Z (fun c => nth c new 0)). + rewrite <- Ln, map_nth_seq. reflexivity.
      + unfold rows_of in HR. rewrite Forall_forall in HR. apply HR, nth_In. lia.
    - unfold rows_of in HR. rewrite Forall_forall in HR. apply HR, nth_In. lia. }
  assert (Outer : forall m i W, (i + m = sp_ncl b)%nat -> length W = sp_ncl b -> rows_of n W ->
    fold_ix m i body (concat W) = Ret (concat (fold_left (fun W i => set_nth i (nth (i + off) src []) W) (seq i m) W))).
  { intros m. induction m as [|m IH]; intros i W E L HR; cbn [fold_ix seq fold_left]; auto.
    rewrite Inner by (auto; lia). cbn [bindR]. apply IH; [lia|rewrite set_nth_length; auto|].
    apply set_nth_rows; auto. unfold rows_of in Hs. rewrite Forall_forall in Hs. apply Hs, nth_In. lia. }
  fold body. rewrite Outer by auto. cbn [bindR]. f_equal. rewrite (fill_seq (list Z) (fun i => nth (i + off) src [])) by auto. reflexivity.
Qed.

Lemma imp_put_al_eq : forall al b, even_al al -> length al = sp_ncls b -> (1 <= sp_ncls b)%nat -> length (sp_al b) = sp_ncls b ->
  exists b', al_set al b = Ok b' /\ imp_put_al al (flat b) = Ret (flat b') /\ b' = sp_with_al b al.
Proof.
  intros al b E L P La. rewrite al_set_even; auto; [|intros ->; cbn [length] in L; lia].
  assert (M : map (fun i => nth i al []) (seq 0 (sp_ncls b)) = al) by (rewrite <- L; apply map_nth_seq).
  eexists. split; [reflexivity|]. rewrite M. split; [|reflexivity].
  unfold imp_put_al.
  replace (forallb (fun r => (length r =? length (hd [] al))%nat) al) with true
    by (symmetry; apply forallb_forall; intros r Hr; apply Nat.eqb_eq; auto).
  destruct (Nat.eqb_spec (length al) 0) as [|_]; [lia|]. unfold imp_al_set. cbn [flat i_ncls i_al].
  set (w := length (hd [] al)).
  destruct (fold_seq (list (list nat)) (fun l => length l = sp_ncls b) (fun i l => set_nth i (nth i al []) l)
     (fun i l => bindR (ix [length al; w] 1) (fun w => bindR (imp_copy (concat al) (i * w) (i * w + w)) (fun r => set_ix i r l))) (sp_ncls b) (sp_al b) La) as [F _].
  - intros k l Hk Hl. split; [|rewrite set_nth_length; auto]. cbn [ix nth_error bindR].
    assert (R : Forall (fun r => length r = w) al) by (apply Forall_forall; intros r Hr; apply E; auto).
    rewrite (imp_copy_eq _ O) by (rewrite (concat_length_eq _ w) by auto; rewrite L; nia). cbn [bindR].
    rewrite set_ix_ok by lia. f_equal. f_equal.
    assert (Lk : length (nth k al []) = w) by (apply E, nth_In; lia).
    apply (nth_ext _ _ O O).
    + rewrite map_length, seq_length. lia.
    + intros j Hj. rewrite map_length, seq_length in Hj.
      rewrite (nth_indep _ O (nth O (concat al) O)) by (rewrite map_length, seq_length; auto).
      rewrite (map_nth (fun j => nth j (concat al) O)), seq_nth by lia.
      apply nth_error_nth. apply concat_ix; auto; lia.
  - rewrite F. cbn [bindR]. f_equal. rewrite (fill_seq (list nat) (fun i => nth i al [])) by auto.
    rewrite M. reflexivity.
Qed.

Lemma csr_get_in : forall b, (forall i, (i < 2 * sp_ncl b)%nat -> length (nth i (sp_states b) []) = length (nth i (sp_rows b) [])) ->
  csr_in (csr_get b) /\ length (snd (csr_get b)) = S (2 * sp_ncl b).
Proof.
  intros b H. rewrite csr_get_eq by (intros i Hi; apply H; lia). cbn [snd]. rewrite map_length, seq_length. split; [|lia].
  split; [discriminate|]. intros i Hi. rewrite map_length, seq_length in Hi.
  set (m := (sp_ncl b * 2)%nat) in *.
  assert (O1 : nth (S i) (map (offset (sp_rows b)) (seq 0 (S m))) O = offset (sp_rows b) (S i)).
  { rewrite (nth_indep _ O (offset (sp_rows b) O)) by (rewrite map_length, seq_length; auto). rewrite map_nth, seq_nth by lia. reflexivity. }
  rewrite O1. pose proof (offset_mono (sp_rows b) (S i) m ltac:(lia)) as M.
  assert (Len : forall B (f : nat -> list B) k, (forall j, (j < k)%nat -> length (f j) = length (nth j (sp_rows b) [])) ->
    length (concat (map f (seq 0 k))) = offset (sp_rows b) k).
  { intros B f k. induction k as [|k IH]; intros Hf; [reflexivity|]. rewrite seq_S, map_app, concat_app, app_length. cbn [map concat plus offset].
    rewrite app_nil_r, IH by (intros; apply Hf; lia). rewrite Hf by lia. reflexivity. }
  split.
  - rewrite (Len _ (fun k => nth k (sp_states b) [])) by (intros; apply H; lia). lia.
  - rewrite (Len _ (fun k => nth k (sp_rows b) [])) by reflexivity. lia.
Qed.

(** The block after the three transfers. *)
Lemma shape_put : forall bo c ws off al b, shape bo b -> length (snd c) = S (2 * sp_ncl b) -> rows_of (sp_ncls b) ws -> (off + sp_ncl b <= length ws)%nat ->
  length al = sp_ncls b -> shape bo (sp_with_al (sp_set_weights ws off (csr_set c b)) al) /\ same_dims (sp_with_al (sp_set_weights ws off (csr_set c b)) al) b.
Proof.
  intros bo [[data indices] indptr] ws off al b [H1 H2 H3 H4 H5 H6 H7 H8 H9 H10 H11 H12] Lc Hw Ho La. cbn [snd] in Lc.
  split; [|repeat split].
  constructor; cbn [sp_with_al sp_set_weights sp_with_weights csr_set sp_with_rows sp_rows sp_states sp_ncl sp_ncls sp_al sp_repl sp_alsize sp_weights sp_outputs sp_counts sp_votes];
    rewrite ?map_length, ?seq_length; auto; try lia.
  - intros i Hi.
    set (row := fun i => map (fun j => nth j indices O) (seq (nth i indptr O) (nth (S i) indptr O - nth i indptr O))).
    set (st := fun i => map (fun j => nth j data 0) (seq (nth i indptr O) (nth (S i) indptr O - nth i indptr O))).
    rewrite (nth_indep _ [] (st O)), (nth_indep _ [] (row O)) by (rewrite map_length, seq_length; lia).
    rewrite (map_nth st), (map_nth row), !seq_nth by lia. unfold st, row. rewrite !map_length, !seq_length. reflexivity.
  - unfold rows_of in *. rewrite Forall_forall in *. intros x Hx. apply in_map_iff in Hx. destruct Hx as (i & <- & Hi). apply in_seq in Hi.
    apply Hw, nth_In. lia.
Qed.

Lemma save_same_sizes : forall bo st src tgt index off prec preal,
  Forall (shape bo) src -> Forall (shape bo) tgt -> Forall (fun b => even_al (sp_al b)) src ->
  Forall2 (fun a b => sp_ncl a = sp_ncl b /\ sp_ncls a = sp_ncls b /\ (1 <= sp_ncls a)%nat /\ sp_ncls a = ss_ncls st) src tgt ->
  ss_c st = prec ++ map csr_get src -> ss_al st = preal ++ map al_get src -> length prec = index -> length preal = index ->
  rows_of (ss_ncls st) (ss_w st) -> (off + nsum (map sp_ncl tgt) <= length (ss_w st))%nat ->
  exists out, imp_save st (map flat tgt) index off = Ret (map flat out) /\ sp_save_loop st tgt index off = Ok out /\ Forall (shape bo) out /\
    Forall2 same_dims out tgt.
Proof.
  intros bo st src. induction src as [|a src IH]; intros tgt index off prec preal S1 S2 E1 F HC HA L1 L2 HW HO.
  - inversion F; subst. exists []. cbn [map imp_save sp_save_loop]. auto.
  - inversion F as [|? b ? t (D1 & D2 & D3 & D4) F']; subst.
    pose proof (Forall_inv S1) as Sa. apply Forall_inv_tail in S1. pose proof (Forall_inv S2) as Sb. apply Forall_inv_tail in S2.
    pose proof (Forall_inv E1) as Ea. apply Forall_inv_tail in E1. cbv beta in Ea.
    cbn [map] in HC, HA. cbn [map imp_save sp_save_loop nsum fold_right] in *. fold (nsum (map sp_ncl t)) in HO.
    assert (C1 : nth_error (ss_c st) (length prec) = Some (csr_get a)) by (rewrite HC, nth_error_app2, Nat.sub_diag by lia; reflexivity).
    assert (C2 : nth_error (ss_al st) (length prec) = Some (al_get a)) by (rewrite HA, nth_error_app2, <- L2, Nat.sub_diag by lia; reflexivity).
    rewrite (at_some _ _ _ _ C1), (at_some _ _ _ _ C2), C1, C2. cbn [bindR].
    destruct (csr_get_in a) as [In1 In2]; [apply (sh_row _ _ Sa)|].
    rewrite imp_csr_set_eq by auto. cbn [bindR].
    set (c := csr_get a) in *.
    assert (Dc : sp_ncls (csr_set c b) = sp_ncls b /\ sp_ncl (csr_set c b) = sp_ncl b /\ sp_weights (csr_set c b) = sp_weights b /\ sp_al (csr_set c b) = sp_al b)
      by (destruct c as [[? ?] ?]; repeat split).
    destruct Dc as (Q1 & Q2 & Q3 & Q4).
    rewrite imp_set_weights_eq;
      [|rewrite Q1, <- D2, D4; exact HW|rewrite Q1, Q3; apply (sh_width _ _ Sb)|rewrite Q2, Q3; apply (sh_weights _ _ Sb)|rewrite Q2; lia].
    cbn [bindR]. rewrite al_get_full by apply (sh_al _ _ Sa).
    destruct (imp_put_al_eq (sp_al a) (sp_set_weights (ss_w st) off (csr_set c b))) as (b' & P1 & P2 & P3); auto.
    { cbn [sp_set_weights sp_with_weights sp_ncls]. rewrite Q1, <- D2. apply (sh_al _ _ Sa). }
    { cbn [sp_set_weights sp_with_weights sp_ncls]. rewrite Q1, <- D2. auto. }
    { cbn [sp_set_weights sp_with_weights sp_ncls sp_al]. rewrite Q1, Q4. apply (sh_al _ _ Sb). }
    rewrite P1, P2. cbn [bindR].
    destruct (shape_put bo c (ss_w st) off (sp_al a) b Sb) as [SP DP]; auto.
    { rewrite In2, D1. reflexivity. }
    { rewrite <- D2, D4. exact HW. }
    { lia. }
    { rewrite <- D2. apply (sh_al _ _ Sa). }
    rewrite <- P3 in SP, DP.
    replace (i_ncl (flat b')) with (sp_ncl b) by (cbn [flat i_ncl]; destruct DP as [-> _]; reflexivity).
    destruct (IH t (S (length prec)) (off + sp_ncl b)%nat (prec ++ [c]) (preal ++ [al_get a])) as (out & R1 & R2 & R3 & R4); auto.
    { rewrite HC, <- app_assoc. reflexivity. }
    { rewrite HA, <- app_assoc. reflexivity. }
    { rewrite app_length. cbn [length]. lia. }
    { rewrite app_length. cbn [length]. lia. }
    { lia. }
    rewrite R1, R2. cbn [bindR]. exists (b' :: out). split; [reflexivity|]. split; [reflexivity|]. split; constructor; auto.
Qed.

(** ** Other block sizes *)

Definition no_throw {A} (m : R A) : Prop := m <> Throw.
Lemma nt_ret : forall A (a : A), no_throw (Ret a). Proof. intros A a H. discriminate H. Qed.
Lemma nt_ix : forall A (l : list A) k, no_throw (ix l k).
Proof. intros A l k. unfold ix. destruct (nth_error l k); (intro; discriminate). Qed.
Lemma nt_set : forall A k (x : A) l, no_throw (set_ix k x l).
Proof. intros A k x l. unfold set_ix. destruct (k <? length l)%nat; (intro; discriminate). Qed.
Lemma nt_bind : forall A B (m : R A) (f : A -> R B), no_throw m -> (forall a, no_throw (f a)) -> no_throw (bindR m f).
Proof. intros A B [a| |] f H H2; cbn [bindR]; [apply H2|exfalso; apply H; reflexivity|intro X; discriminate X]. Qed.
Lemma nt_scan : forall Ot fuel i (step : nat -> R (option Ot)), (forall i, no_throw (step i)) -> no_throw (scan_ix fuel i step).
Proof. intros Ot fuel. induction fuel as [|f IH]; intros i step H; cbn [scan_ix]; [(intro; discriminate)|].
  apply nt_bind; auto. intros [x|]; [(intro; discriminate)|apply IH; auto]. Qed.
Lemma nt_fold : forall T fuel i (body : nat -> T -> R T) s, (forall i s, no_throw (body i s)) -> no_throw (fold_ix fuel i body s).
Proof. intros T fuel. induction fuel as [|f IH]; intros i body s H; cbn [fold_ix]; [(intro; discriminate)|]. apply nt_bind; auto. Qed.

Lemma nt_scan_pos : forall ta lits, no_throw (imp_scan_pos ta lits).
Proof. intros. rewrite imp_scan_pos_eq. apply nt_ret. Qed.
Lemma nt_scan_pos_eval : forall ta lits, no_throw (imp_scan_pos_eval ta lits).
Proof. intros. rewrite imp_scan_pos_eval_eq. apply nt_ret. Qed.
Lemma nt_scan_neg : forall ta lits, no_throw (imp_scan_neg ta lits).
Proof. intros. rewrite imp_scan_neg_eq. apply nt_ret. Qed.

Ltac nt := repeat first [apply nt_ret | apply nt_scan_pos | apply nt_scan_pos_eval | apply nt_scan_neg | apply nt_ix | apply nt_set | apply nt_bind; [|intro] | apply nt_scan; intro | apply nt_fold; intros
  | match goal with |- no_throw (if ?c then _ else _) => destruct c end | match goal with |- no_throw (match ?c with _ => _ end) => destruct c end ].

Lemma nt_pos : forall lits row sts, no_throw (imp_pos lits row sts).
Proof. intros. unfold imp_pos. nt. Qed.
Lemma nt_pos_eval : forall lits row sts, no_throw (imp_pos_eval lits row sts).
Proof. intros. unfold imp_pos_eval. nt. Qed.
Lemma nt_neg : forall lits row sts, no_throw (imp_neg lits row sts).
Proof. intros. unfold imp_neg. nt. Qed.
#[local] Opaque imp_pos imp_neg imp_pos_eval.
Lemma nt_count : forall row sts, no_throw (imp_count row sts).
Proof. intros. unfold imp_count. nt. Qed.
#[local] Opaque imp_count.
Lemma nt_set_clause : forall bo lits k s, no_throw (imp_set_clause bo lits k s).
Proof. intros. unfold imp_set_clause. nt; first [apply nt_pos|apply nt_neg|apply nt_count]. Qed.
Lemma nt_eval_clause : forall lits k s, no_throw (imp_eval_clause lits k s).
Proof. intros. unfold imp_eval_clause. nt; first [apply nt_pos_eval|apply nt_neg]. Qed.

Lemma bind_inv : forall A B (m : R A) (f : A -> R B) b, bindR m f = Ret b -> exists a, m = Ret a /\ f a = Ret b.
Proof. intros A B [a| |] f b H; cbn [bindR] in H; try discriminate. eauto. Qed.
Lemma ix_inv : forall A (l : list A) k x, ix l k = Ret x -> (k < length l)%nat.
Proof. intros A l k x H. unfold ix in H. destruct (nth_error l k) eqn:E; [|discriminate]. apply some_lt in E. auto. Qed.

(** A call that returns has found the vectors of the clause. *)
Lemma clause_inv : forall (body : nat -> simp -> R simp) k s s',
  (forall s', body k s = Ret s' -> (k + i_ncl s < length (i_rows s))%nat /\ exists o c, s' = i_set_outputs s o c) ->
  body k s = Ret s' -> (k + i_ncl s < length (i_rows s))%nat /\ i_rows s' = i_rows s /\ i_ncl s' = i_ncl s.
Proof. intros body k s s' H E. destruct (H s' E) as (H1 & o & c & ->). auto. Qed.
Lemma set_clause_inv : forall bo lits k s s', imp_set_clause bo lits k s = Ret s' -> (k + i_ncl s < length (i_rows s))%nat /\ exists o c, s' = i_set_outputs s o c.
Proof.
  intros bo lits k s s' H. unfold imp_set_clause in H.
  apply bind_inv in H. destruct H as (pr & _ & H). apply bind_inv in H. destruct H as (nr & Hn & H).
  split; [apply (ix_inv _ _ _ _ Hn)|].
  apply bind_inv in H. destruct H as (ps & _ & H). apply bind_inv in H. destruct H as (ns & _ & H). apply bind_inv in H. destruct H as (o & _ & H).
  destruct (_ && _).
  - apply bind_inv in H. destruct H as (c & _ & H). injection H as <-. eauto.
  - apply bind_inv in H. destruct H as (f1 & _ & H). apply bind_inv in H. destruct H as (f2 & _ & H). apply bind_inv in H. destruct H as (o2 & _ & H).
    apply bind_inv in H. destruct H as (c & _ & H). injection H as <-. eauto.
Qed.
Lemma eval_clause_inv : forall lits k s s', imp_eval_clause lits k s = Ret s' -> (k + i_ncl s < length (i_rows s))%nat /\ exists o c, s' = i_set_outputs s o c.
Proof.
  intros lits k s s' H. unfold imp_eval_clause in H.
  apply bind_inv in H. destruct H as (pr & _ & H). apply bind_inv in H. destruct H as (nr & Hn & H).
  split; [apply (ix_inv _ _ _ _ Hn)|].
  apply bind_inv in H. destruct H as (ps & _ & H). apply bind_inv in H. destruct H as (ns & _ & H). apply bind_inv in H. destruct H as (o & _ & H).
  destruct (_ || _).
  - apply bind_inv in H. destruct H as (c & _ & H). injection H as <-. eauto.
  - apply bind_inv in H. destruct H as (f1 & _ & H). apply bind_inv in H. destruct H as (f2 & _ & H). apply bind_inv in H. destruct H as (o2 & _ & H).
    injection H as <-. eauto.
Qed.
Lemma fold_inv : forall (body : nat -> simp -> R simp),
  (forall k s s', body k s = Ret s' -> (k + i_ncl s < length (i_rows s))%nat /\ exists o c, s' = i_set_outputs s o c) ->
  forall n i s s', fold_ix n i body s = Ret s' -> forall k, (i <= k < i + n)%nat -> (k + i_ncl s < length (i_rows s))%nat.
Proof.
  intros body H n. induction n as [|n IH]; intros i s s' E k Hk; [lia|]. cbn [fold_ix] in E.
  apply bind_inv in E. destruct E as (s1 & E1 & E2). destruct (H _ _ _ E1) as (L & o & c & ->).
  destruct (Nat.eq_dec k i) as [->|N]; [exact L|]. apply (IH (S i) (i_set_outputs s o c) s' E2). lia.
Qed.

(** Too few clause vectors: the first example is undefined. *)
Lemma small_wild : forall bo lits s, (0 < i_ncl s)%nat -> (length (i_rows s) < 2 * i_ncl s)%nat ->
  imp_train_ex bo lits s = Wild /\ imp_eval_ex lits s = Wild.
Proof.
  intros bo lits s P L. split; [unfold imp_train_ex|unfold imp_eval_ex].
  - assert (W : imp_set bo lits s = Wild); [|rewrite W; reflexivity].
    destruct (imp_set bo lits s) as [s'| |] eqn:E; [|exfalso; revert E; apply nt_fold; intros; apply nt_set_clause|reflexivity].
    exfalso. pose proof (fold_inv _ (set_clause_inv bo lits) _ _ _ _ E (i_ncl s - 1)%nat ltac:(lia)). lia.
  - assert (W : imp_eval lits s = Wild); [|rewrite W; reflexivity].
    destruct (imp_eval lits s) as [s'| |] eqn:E; [|exfalso; revert E; apply nt_fold; intros; apply nt_eval_clause|reflexivity].
    exfalso. pose proof (fold_inv _ (eval_clause_inv lits) _ _ _ _ E (i_ncl s - 1)%nat ltac:(lia)). lia.
Qed.

(** What a transfer that returns has done to the vectors. *)
Lemma csr_set_inv : forall c s s', imp_csr_set c s = Ret s' -> length (i_rows s') = (length (snd c) - 1)%nat /\ i_ncl s' = i_ncl s.
Proof.
  intros [[data indices] indptr] s s' H. unfold imp_csr_set in H. cbn [snd]. destruct (length indptr =? 0)%nat; [discriminate|].
  apply bind_inv in H. destruct H as (rs & E & H). injection H as <-. cbn [i_store i_rows i_ncl]. split; auto.
  assert (K : forall n i rs rs', fold_ix n i (fun i (rs : list (list nat) * list (list Z)) =>
            bindR (ix indptr i) (fun a => bindR (ix indptr (S i)) (fun b =>
            bindR (imp_copy data a b) (fun d => bindR (imp_copy indices a b) (fun r =>
            Ret (fst rs ++ [r], snd rs ++ [d])))))) rs = Ret rs' -> length (fst rs') = (length (fst rs) + n)%nat).
  { intros n. induction n as [|n IH]; intros i r0 r1 F; cbn [fold_ix] in F; [injection F as <-; lia|].
    apply bind_inv in F. destruct F as (r2 & F1 & F2). apply IH in F2. rewrite F2.
    apply bind_inv in F1. destruct F1 as (a & _ & F1). apply bind_inv in F1. destruct F1 as (b & _ & F1). apply bind_inv in F1. destruct F1 as (d & _ & F1).
    apply bind_inv in F1. destruct F1 as (r & _ & F1). injection F1 as <-. cbn [fst]. rewrite app_length. cbn [length]. lia. }
  apply K in E. cbn [fst length] in E. lia.
Qed.
Lemma set_weights_inv : forall src off s s', imp_set_weights src off s = Ret s' -> i_rows s' = i_rows s /\ i_ncl s' = i_ncl s.
Proof. intros src off s s' H. unfold imp_set_weights in H. apply bind_inv in H. destruct H as (ws & _ & H). injection H as <-. auto. Qed.
Lemma put_al_inv : forall al s s', imp_put_al al s = Ret s' -> i_rows s' = i_rows s /\ i_ncl s' = i_ncl s.
Proof. intros al s s' H. unfold imp_put_al in H. destruct (forallb _ _); [|discriminate]. unfold imp_al_set in H.
  apply bind_inv in H. destruct H as (ws & _ & H). injection H as <-. auto. Qed.

Lemma save_inv : forall st cbs index off out, imp_save st cbs index off = Ret out ->
  map i_ncl out = map i_ncl cbs /\ (length cbs <= length (ss_c st) - index)%nat /\
  forall k s, nth_error out k = Some s -> exists c, nth_error (ss_c st) (index + k) = Some c /\ length (i_rows s) = (length (snd c) - 1)%nat.
Proof.
  intros st cbs. induction cbs as [|cb t IH]; intros index off out H; cbn [imp_save] in H.
  - injection H as <-. split; [reflexivity|]. split; [cbn [length]; lia|]. intros [|k] s Hs; discriminate Hs.
  - apply bind_inv in H. destruct H as (c & Hc & H). apply bind_inv in H. destruct H as (s1 & H1 & H). apply bind_inv in H. destruct H as (s2 & H2 & H).
    apply bind_inv in H. destruct H as (al & _ & H). apply bind_inv in H. destruct H as (s3 & H3 & H). apply bind_inv in H. destruct H as (t' & H4 & H).
    injection H as <-. apply csr_set_inv in H1. apply set_weights_inv in H2. apply put_al_inv in H3.
    destruct H1 as [A1 A2]. destruct H2 as [B1 B2]. destruct H3 as [C1 C2].
    destruct (IH _ _ _ H4) as (I1 & I2 & I3).
    unfold at_ in Hc. destruct (nth_error (ss_c st) index) as [c'|] eqn:E; [|discriminate]. injection Hc as ->.
    split; [cbn [map]; f_equal; [congruence|exact I1]|]. split; [apply some_lt in E; cbn [length]; lia|].
    intros [|k] s Hs; cbn [nth_error] in Hs.
    + injection Hs as <-. exists c. rewrite Nat.add_0_r. split; [exact E|]. congruence.
    + destruct (I3 k s Hs) as (c2 & G1 & G2). exists c2. replace (index + S k)%nat with (S index + k)%nat by lia. auto.
Qed.

(** Two lists of positive sizes with the same sum, the first at least as long:
    they are equal or some entry of the second is larger. *)
Lemma sizes : forall (ss ts : list nat), Forall (fun n => (0 < n)%nat) ss -> (length ts <= length ss)%nat -> nsum ss = nsum ts ->
  ss = ts \/ exists k a b, nth_error ss k = Some a /\ nth_error ts k = Some b /\ (a < b)%nat.
Proof.
  intros ss ts Hp HL HS.
  assert (K : forall ss ts, Forall (fun n => (0 < n)%nat) ss -> (length ts <= length ss)%nat -> (nsum ss <= nsum ts)%nat ->
    ss = ts \/ exists k a b, nth_error ss k = Some a /\ nth_error ts k = Some b /\ (a < b)%nat).
  { clear. intros ss. induction ss as [|a ss IH]; intros [|b ts] Hp HL HS; cbn [length] in HL; try lia; auto.
    - pose proof (Forall_inv Hp). cbv beta in H. cbn [nsum fold_right] in HS. lia.
    - destruct (Nat.lt_ge_cases a b) as [L|L]; [right; exists O, a, b; auto|].
      cbn [nsum fold_right] in HS. fold (nsum ss) (nsum ts) in HS.
      destruct (IH ts (Forall_inv_tail Hp) ltac:(lia) ltac:(lia)) as [->|(k & x & y & E)].
      + left. f_equal. lia.
      + right. exists (S k), x, y. exact E. }
  apply K; auto. lia.
Qed.

(** Whatever the sizes of the target blocks, the transfer itself stays in its
    arrays; it ends with an exception when the state has too few blocks. *)
Lemma save_runs : forall bo st ncls src tgt index off prec preal,
  Forall (shape bo) src -> Forall (shape bo) tgt -> Forall (fun b => even_al (sp_al b)) src ->
  Forall (fun b => sp_ncls b = ncls) src -> Forall (fun b => sp_ncls b = ncls) tgt -> (1 <= ncls)%nat ->
  ss_c st = prec ++ map csr_get src -> ss_al st = preal ++ map al_get src -> length prec = index -> length preal = index ->
  rows_of ncls (ss_w st) -> (off + nsum (map sp_ncl tgt) <= length (ss_w st))%nat ->
  if (length tgt <=? length src)%nat then exists out, imp_save st (map flat tgt) index off = Ret out
  else imp_save st (map flat tgt) index off = Throw.
Proof.
  intros bo st ncls src. induction src as [|a src IH]; intros tgt index off prec preal S1 S2 E1 N1 N2 P HC HA L1 L2 HW HO.
  - destruct tgt as [|b t]; cbn [length Nat.leb map imp_save]; [eauto|].
    cbn [map] in HC. rewrite app_nil_r in HC. unfold at_. rewrite HC.
    replace (nth_error prec index) with (@None csr) by (symmetry; apply nth_error_None; lia). reflexivity.
  - destruct tgt as [|b t]; [cbn [length Nat.leb map imp_save]; eauto|].
    pose proof (Forall_inv S1) as Sa. apply Forall_inv_tail in S1. pose proof (Forall_inv S2) as Sb. apply Forall_inv_tail in S2.
    pose proof (Forall_inv E1) as Ea. apply Forall_inv_tail in E1. pose proof (Forall_inv N1) as Na. apply Forall_inv_tail in N1.
    pose proof (Forall_inv N2) as Nb. apply Forall_inv_tail in N2. cbv beta in Ea, Na, Nb.
    cbn [map] in HC, HA. cbn [map imp_save nsum fold_right length Nat.leb] in *. fold (nsum (map sp_ncl t)) in HO.
    assert (C1 : nth_error (ss_c st) index = Some (csr_get a)) by (rewrite HC, <- L1, nth_error_app2, Nat.sub_diag by lia; reflexivity).
    assert (C2 : nth_error (ss_al st) index = Some (al_get a)) by (rewrite HA, <- L2, nth_error_app2, Nat.sub_diag by lia; reflexivity).
    rewrite (at_some _ _ _ _ C1), (at_some _ _ _ _ C2). cbn [bindR].
    destruct (csr_get_in a) as [In1 In2]; [apply (sh_row _ _ Sa)|].
    rewrite imp_csr_set_eq by auto. cbn [bindR].
    set (c := csr_get a) in *.
    assert (Dc : sp_ncls (csr_set c b) = sp_ncls b /\ sp_ncl (csr_set c b) = sp_ncl b /\ sp_weights (csr_set c b) = sp_weights b /\ sp_al (csr_set c b) = sp_al b)
      by (destruct c as [[? ?] ?]; repeat split).
    destruct Dc as (Q1 & Q2 & Q3 & Q4).
    rewrite imp_set_weights_eq;
      [|rewrite Q1, Nb; exact HW|rewrite Q1, Q3; apply (sh_width _ _ Sb)|rewrite Q2, Q3; apply (sh_weights _ _ Sb)|rewrite Q2; lia].
    cbn [bindR]. rewrite al_get_full by apply (sh_al _ _ Sa).
    destruct (imp_put_al_eq (sp_al a) (sp_set_weights (ss_w st) off (csr_set c b))) as (b' & P1 & P2 & P3); auto.
    { cbn [sp_set_weights sp_with_weights sp_ncls]. rewrite Q1, Nb, <- Na. apply (sh_al _ _ Sa). }
    { cbn [sp_set_weights sp_with_weights sp_ncls]. rewrite Q1, Nb. auto. }
    { cbn [sp_set_weights sp_with_weights sp_ncls sp_al]. rewrite Q1, Q4. apply (sh_al _ _ Sb). }
    rewrite P2. cbn [bindR].
    replace (i_ncl (flat b')) with (sp_ncl b) by (rewrite P3; cbn [flat i_ncl sp_with_al sp_set_weights sp_with_weights sp_ncl]; rewrite Q2; reflexivity).
    specialize (IH t (S index) (off + sp_ncl b)%nat (prec ++ [c]) (preal ++ [al_get a]) S1 S2 E1 N1 N2 P).
    assert (IH' := IH ltac:(rewrite HC, <- app_assoc; reflexivity) ltac:(rewrite HA, <- app_assoc; reflexivity)
      ltac:(rewrite app_length; cbn [length]; lia) ltac:(rewrite app_length; cbn [length]; lia) HW ltac:(lia)).
    destruct (length t <=? length src)%nat.
    + destruct IH' as [out ->]. cbn [bindR]. eauto.
    + rewrite IH'. reflexivity.
Qed.

(** The machine states of C115. *)
Section split.
Variables (bo : bool) (nlit ncls : nat) (src tgt : list sblock).
Hypothesis Ssrc : Forall (shape bo) src.
Hypothesis Stgt : Forall (shape bo) tgt.
Hypothesis Ev : Forall (fun b => even_al (sp_al b)) src.
Hypothesis Nsrc : Forall (fun b => sp_ncls b = ncls) src.
Hypothesis Ntgt : Forall (fun b => sp_ncls b = ncls) tgt.
Hypothesis Psrc : Forall (fun b => (0 < sp_ncl b)%nat) src.
Hypothesis Pc : (1 <= ncls)%nat.
Hypothesis Tot : nsum (map sp_ncl src) = nsum (map sp_ncl tgt).
Let st := sp_load_state nlit (nsum (map sp_ncl src)) ncls src.

Lemma split_wts : rows_of ncls (ss_w st) /\ length (ss_w st) = nsum (map sp_ncl src).
Proof.
  unfold st. rewrite sp_load_state_eq. cbn [ss_w]. clear - Ssrc Nsrc. induction src as [|a l IH]; cbn [map concat nsum fold_right].
  - split; [constructor|reflexivity].
  - pose proof (Forall_inv Ssrc) as Sa. pose proof (Forall_inv Nsrc) as Na. cbv beta in Na.
    destruct (IH (Forall_inv_tail Ssrc) (Forall_inv_tail Nsrc)) as [I1 I2]. split.
    + apply Forall_app. split; [|exact I1]. unfold wts. rewrite <- Na. rewrite <- (sh_weights _ _ Sa), map_nth_seq. apply (sh_width _ _ Sa).
    + rewrite app_length, wts_length, I2. reflexivity.
Qed.

Lemma split_runs : if (length tgt <=? length src)%nat then exists out, imp_save st (map flat tgt) 0 0 = Ret out
  else imp_save st (map flat tgt) 0 0 = Throw.
Proof.
  destruct split_wts as [W1 W2].
  apply (save_runs bo st ncls src tgt O O [] []); auto; try (unfold st; rewrite sp_load_state_eq; reflexivity).
  rewrite W2. cbn [Nat.add]. lia.
Qed.

Lemma split_same : map sp_ncl src = map sp_ncl tgt -> exists out, imp_save st (map flat tgt) 0 0 = Ret (map flat out) /\
  sp_save_state st tgt = Ok out /\ Forall (shape bo) out /\ Forall2 same_dims out tgt.
Proof.
  intros E. destruct split_wts as [W1 W2]. unfold sp_save_state.
  apply (save_same_sizes bo st src tgt O O [] []); auto; try (unfold st; rewrite sp_load_state_eq; reflexivity).
  - unfold st. rewrite sp_load_state_eq. cbn [ss_ncls]. clear - E Nsrc Ntgt Pc. revert tgt E Ntgt. induction src as [|a l IH]; intros [|b t] E Nt; try discriminate E; constructor.
    + injection E as E _. pose proof (Forall_inv Nsrc). pose proof (Forall_inv Nt). cbv beta in *. repeat split; congruence || lia.
    + apply IH; [apply (Forall_inv_tail Nsrc)|injection E; auto|apply (Forall_inv_tail Nt)].
  - unfold st at 1. rewrite sp_load_state_eq. cbn [ss_ncls]. exact W1.
  - rewrite W2. cbn [Nat.add]. lia.
Qed.

Lemma split_other : forall out, imp_save st (map flat tgt) 0 0 = Ret out -> map sp_ncl src <> map sp_ncl tgt ->
  exists s, In s out /\ forall lits, imp_train_ex bo lits s = Wild /\ imp_eval_ex lits s = Wild.
Proof.
  intros out H NE. destruct (save_inv _ _ _ _ _ H) as (V1 & V2 & V3).
  assert (Sc : ss_c st = map csr_get src) by (unfold st; rewrite sp_load_state_eq; reflexivity).
  assert (L : (length tgt <= length src)%nat) by (rewrite Sc, !map_length in V2; lia).
  destruct (sizes (map sp_ncl src) (map sp_ncl tgt)) as [E|(k & a & b & Ka & Kb & Lab)]; auto.
  - apply Forall_map. exact Psrc.
  - rewrite !map_length. exact L.
  - congruence.
  - rewrite map_map in V1. change (fun x => i_ncl (flat x)) with sp_ncl in V1. rewrite <- V1 in Kb.
    rewrite nth_error_map in Kb. destruct (nth_error out k) as [s|] eqn:Es; [|discriminate Kb]. cbn in Kb. injection Kb as Kb.
    destruct (V3 k s Es) as (c & Hc & Hl). cbn [Nat.add] in Hc. rewrite Sc, nth_error_map in Hc. rewrite nth_error_map in Ka.
    destruct (nth_error src k) as [sb|] eqn:Eb; [|discriminate Ka]. cbn in Ka, Hc. injection Ka as Ka. injection Hc as Hc.
    assert (Sb : shape bo sb) by (rewrite Forall_forall in Ssrc; apply Ssrc, (nth_error_In _ _ Eb)).
    destruct (csr_get_in sb (sh_row _ _ Sb)) as [_ Li]. rewrite Hc in Li.
    exists s. split; [apply (nth_error_In _ _ Es)|]. intros lits. apply small_wild; lia.
Qed.
End split.
