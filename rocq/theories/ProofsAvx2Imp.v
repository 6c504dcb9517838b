(** Memory safety of the AVX2 block: vector accesses and clause outputs. *)
From Coq Require Import ZArith List Bool QArith Lia ZifyBool.
From Verif Require Import Base BaseProofs Spec ModelDense ModelLayout ModelAvx2 SpecAvx2 ModelSparse ModelSparseImp ModelAvx2Imp
  SpecAvx2Imp ProofsLayout ProofsSparseImp.
Import ListNotations.
Open Scope Z_scope.

Lemma int_ok : forall n, Z.of_nat n <= int_max -> int_ n = Ret n.
Proof. intros n H. unfold int_. unfold int_max in H. destruct (Z.leb_spec (Z.of_nat n) 2147483647); [reflexivity|lia]. Qed.

Lemma slice_mid : forall (A row B : list Z) o n, (o + n <= length row)%nat -> slice (A ++ row ++ B) (length A + o) n = slice row o n.
Proof.
  intros A row B o n H. unfold slice. rewrite skipn_app. rewrite skipn_all2 by lia. cbn [app].
  replace (length A + o - length A)%nat with o by lia. rewrite skipn_app, firstn_app, skipn_length.
  replace (n - (length row - o))%nat with O by lia. cbn [firstn]. apply app_nil_r.
Qed.
Lemma memcpy_mid : forall (A row B v : list Z) o n, (o + n <= length row)%nat ->
  memcpy (A ++ row ++ B) (length A + o) v 0 n = A ++ memcpy row o v 0 n ++ B.
Proof.
  intros A row B v o n H. unfold memcpy. cbn [skipn].
  rewrite firstn_app. rewrite firstn_all2 by lia. replace (length A + o - length A)%nat with o by lia.
  rewrite firstn_app. replace (o - length row)%nat with O by lia. cbn [firstn]. rewrite app_nil_r.
  rewrite skipn_app, (skipn_all2 A) by lia. cbn [app]. replace (length A + o + n - length A)%nat with (o + n)%nat by lia.
  rewrite skipn_app. replace (o + n - length row)%nat with O by lia. cbn [skipn]. rewrite <- !app_assoc. reflexivity.
Qed.
Lemma memcpy_len : forall (row v : list Z) o n, (o + n <= length row)%nat -> length v = n -> length (memcpy row o v 0 n) = length row.
Proof.
  intros row v o n H Hv. unfold memcpy. cbn [skipn]. rewrite !app_length, !firstn_length, skipn_length. lia.
Qed.

Lemma lmem_mod : forall n, exists q, lmem_of n = (q * 32)%nat /\ (n <= lmem_of n)%nat /\ (lmem_of n < n + 32)%nat /\ ((0 < n)%nat -> (0 < q)%nat).
Proof.
  intros n. unfold lmem_of. pose proof (Nat.div_mod n 32 ltac:(lia)) as E. pose proof (Nat.mod_upper_bound n 32 ltac:(lia)) as U.
  destruct (Nat.eqb_spec (n mod 32) 0) as [Z0|Z0].
  - exists (n / 32)%nat. repeat split; lia.
  - exists (n / 32 + 1)%nat. repeat split; lia.
Qed.

Lemma map2_len : forall (f : Z -> Z -> Z) a b n, length a = n -> length b = n -> length (map2 f a b) = n.
Proof. intros f a. induction a as [|x a IH]; intros [|y b] n H1 H2; cbn [map2 length] in *; try lia. destruct n; [lia|]. rewrite (IH b n); lia. Qed.

(** ** One clause: the row lies between [A] and [B] *)
Section row.
Variables (A B : list Z) (L q : nat).
Hypothesis HL : L = (q * 32)%nat.
Hypothesis HA : exists p, length A = (p * 32)%nat.
Hypothesis HI : Z.of_nat (2 * L) <= int_max.

Lemma vld_row : forall row c neg, length row = (2 * L)%nat -> (c < q)%nat ->
  vld (A ++ row ++ B) (length A) ((if neg : bool then L else 0) + c * 32) = Ret (v_load row ((if neg then L else 0) + c * 32)).
Proof.
  intros row c neg Hr Hc. unfold vld. set (o := ((if neg then L else 0) + c * 32)%nat).
  assert (Ho : (o + 32 <= 2 * L)%nat) by (subst o; destruct neg; lia).
  rewrite int_ok by lia. cbn [bindR].
  assert (M : ((length A + o) mod 32 = 0)%nat).
  { destruct HA as [p Hp]. subst o. rewrite Hp, HL. destruct neg; apply Nat.mod_divide; try lia.
    - exists (p + (q + c))%nat. lia.
    - exists (p + c)%nat. lia. }
  rewrite M, Nat.eqb_refl. destruct (Nat.leb_spec (length A + o + 32) (length (A ++ row ++ B))) as [H|H]; [|rewrite !app_length in H; lia].
  cbn [andb]. f_equal. unfold v_load. apply slice_mid. lia.
Qed.
Lemma vst_row : forall row c neg v, length row = (2 * L)%nat -> (c < q)%nat ->
  vst (A ++ row ++ B) (length A) ((if neg : bool then L else 0) + c * 32) v = Ret (A ++ v_store row ((if neg then L else 0) + c * 32) v ++ B).
Proof.
  intros row c neg v Hr Hc. unfold vst. set (o := ((if neg then L else 0) + c * 32)%nat).
  assert (Ho : (o + 32 <= 2 * L)%nat) by (subst o; destruct neg; lia).
  rewrite int_ok by lia. cbn [bindR].
  assert (M : ((length A + o) mod 32 = 0)%nat).
  { destruct HA as [p Hp]. subst o. rewrite Hp, HL. destruct neg; apply Nat.mod_divide; try lia.
    - exists (p + (q + c))%nat. lia.
    - exists (p + c)%nat. lia. }
  rewrite M, Nat.eqb_refl. destruct (Nat.leb_spec (length A + o + 32) (length (A ++ row ++ B))) as [H|H]; [|rewrite !app_length in H; lia].
  cbn [andb]. f_equal. unfold v_store. apply memcpy_mid. lia.
Qed.
Lemma vld_p : forall row c, length row = (2 * L)%nat -> (c < q)%nat -> vld (A ++ row ++ B) (length A) (c * 32) = Ret (v_load row (c * 32)).
Proof. intros row c Hr Hc. exact (vld_row row c false Hr Hc). Qed.
Lemma vld_n : forall row c, length row = (2 * L)%nat -> (c < q)%nat -> vld (A ++ row ++ B) (length A) (L + c * 32) = Ret (v_load row (L + c * 32)).
Proof. intros row c Hr Hc. exact (vld_row row c true Hr Hc). Qed.
Lemma vst_p : forall row c v, length row = (2 * L)%nat -> (c < q)%nat -> vst (A ++ row ++ B) (length A) (c * 32) v = Ret (A ++ v_store row (c * 32) v ++ B).
Proof. intros row c v Hr Hc. exact (vst_row row c false v Hr Hc). Qed.
Lemma vst_n : forall row c v, length row = (2 * L)%nat -> (c < q)%nat -> vst (A ++ row ++ B) (length A) (L + c * 32) v = Ret (A ++ v_store row (L + c * 32) v ++ B).
Proof. intros row c v Hr Hc. exact (vst_row row c true v Hr Hc). Qed.
Lemma vld_lits : forall lits c, (L <= length lits)%nat -> (c < q)%nat -> vld_u lits 0 (c * 32) = Ret (v_load_u lits (c * 32)).
Proof.
  intros lits c Hl Hc. unfold vld_u. rewrite int_ok by lia. cbn [bindR Nat.add].
  rewrite Nat.mod_mul by lia. cbn [Nat.eqb]. destruct (Nat.leb_spec (c * 32 + 32) (length lits)); [reflexivity|lia].
Qed.

Section lits.
Variables (lits row : list Z).
Hypothesis Hl : (L <= length lits)%nat.
Hypothesis Hr : length row = (2 * L)%nat.

Lemma set_chunk_eq : forall c count, (c < q)%nat -> imp_set_chunk lits (A ++ row ++ B) (length A) L c count = Ret (set_chunk lits row L c count).
Proof.
  intros c count Hc. unfold imp_set_chunk, set_chunk. rewrite vld_lits by auto. cbn [bindR].
  rewrite (vld_p row c) by auto. rewrite (vld_n row c) by auto. cbn [bindR Nat.add].
  destruct (v_any _); reflexivity.
Qed.
Lemma set_chunks_eq : forall k c count, (c + k <= q)%nat -> imp_set_chunks lits (A ++ row ++ B) (length A) L c k count = Ret (set_chunks lits row L c k count).
Proof.
  intros k. induction k as [|k IH]; intros c count Hc; cbn [imp_set_chunks set_chunks]; auto.
  rewrite set_chunk_eq by lia. cbn [bindR]. destruct (set_chunk lits row L c count) as [n f]. cbn [fst snd].
  destruct f; auto. apply IH. lia.
Qed.
Lemma set_reminder_eq : forall mask c count, (c < q)%nat ->
  imp_set_reminder lits (A ++ row ++ B) (length A) L mask c count = Ret (set_reminder lits row L mask c count).
Proof.
  intros mask c count Hc. unfold imp_set_reminder, set_reminder. rewrite vld_lits by auto. cbn [bindR].
  rewrite (vld_p row c) by auto. rewrite (vld_n row c) by auto. cbn [bindR Nat.add].
  destruct (v_any _); reflexivity.
Qed.
Lemma eval_chunk_eq : forall c act, (c < q)%nat -> imp_eval_chunk lits (A ++ row ++ B) (length A) L c act = Ret (eval_chunk lits row L c act).
Proof.
  intros c act Hc. unfold imp_eval_chunk, eval_chunk. rewrite vld_lits by auto. cbn [bindR].
  rewrite (vld_p row c) by auto. rewrite (vld_n row c) by auto. cbn [bindR Nat.add].
  destruct (v_any _); reflexivity.
Qed.
Lemma eval_chunks_eq : forall k c act, (c + k <= q)%nat -> imp_eval_chunks lits (A ++ row ++ B) (length A) L c k act = Ret (eval_chunks lits row L c k act).
Proof.
  intros k. induction k as [|k IH]; intros c act Hc; cbn [imp_eval_chunks eval_chunks]; auto.
  rewrite eval_chunk_eq by lia. cbn [bindR]. destruct (eval_chunk lits row L c act) as [n f]. cbn [fst snd].
  destruct f; auto. apply IH. lia.
Qed.
Lemma eval_reminder_eq : forall mask c act, (c < q)%nat ->
  imp_eval_reminder lits (A ++ row ++ B) (length A) L mask c act = Ret (eval_reminder lits row L mask c act).
Proof.
  intros mask c act Hc. unfold imp_eval_reminder, eval_reminder. rewrite vld_lits by auto. cbn [bindR].
  rewrite (vld_p row c) by auto. rewrite (vld_n row c) by auto. cbn [bindR Nat.add].
  destruct (v_any _); [reflexivity|]. destruct (v_any _); reflexivity.
Qed.
End lits.

(** Feedback writes the row and keeps its length. *)
Lemma v_store_len : forall row c neg v, length row = (2 * L)%nat -> (c < q)%nat -> length v = 32%nat ->
  length (v_store row ((if neg : bool then L else 0) + c * 32) v) = (2 * L)%nat.
Proof. intros row c neg v Hr Hc Hv. unfold v_store. rewrite memcpy_len; auto. destruct neg; lia. Qed.
Lemma v_load_len : forall row c neg, length row = (2 * L)%nat -> (c < q)%nat -> length (v_load row ((if neg : bool then L else 0) + c * 32)) = 32%nat.
Proof. intros row c neg Hr Hc. unfold v_load. apply slice_length. destruct neg; lia. Qed.
Lemma vset_lits_len : forall lits c, (L <= length lits)%nat -> (c < q)%nat -> length (v_load_u lits (c * 32)) = 32%nat.
Proof. intros lits c H Hc. unfold v_load_u. rewrite map_length. apply slice_length. lia. Qed.

Ltac vl := repeat first [assumption | rewrite repeat_length; reflexivity | apply map2_len | (unfold v_not; rewrite map_length)
   | progress unfold v_adds, v_or, v_and, v_cmpeq, v_cmpgt, v_set1 ].

Lemma t1a_chunk_eq : forall boost cmp lits row r c, (L <= length lits)%nat -> length row = (2 * L)%nat -> vrng_ok r -> (c < q)%nat ->
  imp_t1a_chunk boost cmp lits (length A) L c (A ++ row ++ B, r) =
    Ret (let '(row', r') := avx_t1a_chunk boost cmp lits L c (row, r) in (A ++ row' ++ B, r')) /\
  length (fst (avx_t1a_chunk boost cmp lits L c (row, r))) = (2 * L)%nat /\ vrng_ok (snd (avx_t1a_chunk boost cmp lits L c (row, r))).
Proof.
  intros boost cmp lits row r c Hl Hr Hv Hc. unfold imp_t1a_chunk, avx_t1a_chunk. cbn [next_v].
  rewrite vld_lits by auto. cbn [bindR]. rewrite (vld_p row c) by auto. cbn [bindR next_v vr_src vr_pos fst snd].
  set (lit := v_load_u lits (c * 32)). assert (Ll : length lit = 32%nat) by (apply vset_lits_len; auto).
  set (R1 := vr_src r (vr_pos r)). assert (L1 : length R1 = 32%nat) by apply Hv.
  set (R2 := vr_src r (S (vr_pos r))). assert (L2 : length R2 = 32%nat) by apply Hv.
  pose proof (v_load_len row c false Hr Hc) as La. cbn [Nat.add] in *.
  match goal with |- context [vst _ _ (c * 32) ?v] => set (v1 := v) end.
  assert (Lv : length v1 = 32%nat) by (subst v1; destruct boost; vl).
  rewrite (vst_p row c v1) by auto. cbn [bindR Nat.add].
  set (row1 := v_store row (c * 32) v1). assert (Lr : length row1 = (2 * L)%nat) by (apply (v_store_len row c false); auto).
  rewrite (vld_n row1 c) by auto. cbn [bindR]. pose proof (v_load_len row1 c true Lr Hc) as Lb.
  match goal with |- context [vst _ _ (L + c * 32) ?v] => set (v2 := v) end.
  assert (Lv2 : length v2 = 32%nat) by (subst v2; destruct boost; vl).
  rewrite (vst_n row1 c v2) by auto. cbn [bindR]. split; [reflexivity|]. split; [|exact Hv].
  apply (v_store_len row1 c true); auto.
Qed.
Lemma t1b_chunk_eq : forall cmp row r c, length row = (2 * L)%nat -> vrng_ok r -> (c < q)%nat ->
  imp_t1b_chunk cmp (length A) L c (A ++ row ++ B, r) =
    Ret (let '(row', r') := avx_t1b_chunk cmp L c (row, r) in (A ++ row' ++ B, r')) /\
  length (fst (avx_t1b_chunk cmp L c (row, r))) = (2 * L)%nat /\ vrng_ok (snd (avx_t1b_chunk cmp L c (row, r))).
Proof.
  intros cmp row r c Hr Hv Hc. unfold imp_t1b_chunk, avx_t1b_chunk. cbn [next_v].
  rewrite (vld_p row c) by auto. cbn [bindR next_v vr_src vr_pos fst snd].
  set (R1 := vr_src r (vr_pos r)). assert (L1 : length R1 = 32%nat) by apply Hv.
  set (R2 := vr_src r (S (vr_pos r))). assert (L2 : length R2 = 32%nat) by apply Hv.
  pose proof (v_load_len row c false Hr Hc) as La. cbn [Nat.add] in *.
  match goal with |- context [vst _ _ (c * 32) ?v] => set (v1 := v) end.
  assert (Lv : length v1 = 32%nat) by (subst v1; vl).
  rewrite (vst_p row c v1) by auto. cbn [bindR Nat.add].
  set (row1 := v_store row (c * 32) v1). assert (Lr : length row1 = (2 * L)%nat) by (apply (v_store_len row c false); auto).
  rewrite (vld_n row1 c) by auto. cbn [bindR]. pose proof (v_load_len row1 c true Lr Hc) as Lb.
  match goal with |- context [vst _ _ (L + c * 32) ?v] => set (v2 := v) end.
  assert (Lv2 : length v2 = 32%nat) by (subst v2; vl).
  rewrite (vst_n row1 c v2) by auto. cbn [bindR]. split; [reflexivity|]. split; [|exact Hv].
  apply (v_store_len row1 c true); auto.
Qed.
Lemma t2_chunk_eq : forall lits row c, (L <= length lits)%nat -> length row = (2 * L)%nat -> (c < q)%nat ->
  imp_t2_chunk lits (length A) L c (A ++ row ++ B) = Ret (A ++ avx_t2_chunk lits L c row ++ B) /\
  length (avx_t2_chunk lits L c row) = (2 * L)%nat.
Proof.
  intros lits row c Hl Hr Hc. unfold imp_t2_chunk, avx_t2_chunk.
  rewrite vld_lits by auto. cbn [bindR]. rewrite (vld_p row c) by auto. cbn [bindR].
  set (lit := v_load_u lits (c * 32)). assert (Ll : length lit = 32%nat) by (apply vset_lits_len; auto).
  pose proof (v_load_len row c false Hr Hc) as La. cbn [Nat.add] in *.
  match goal with |- context [vst _ _ (c * 32) ?v] => set (v1 := v) end.
  assert (Lv : length v1 = 32%nat) by (subst v1; vl).
  rewrite (vst_p row c v1) by auto. cbn [bindR Nat.add].
  set (row1 := v_store row (c * 32) v1). assert (Lr : length row1 = (2 * L)%nat) by (apply (v_store_len row c false); auto).
  rewrite (vld_n row1 c) by auto. cbn [bindR]. pose proof (v_load_len row1 c true Lr Hc) as Lb.
  match goal with |- context [vst _ _ (L + c * 32) ?v] => set (v2 := v) end.
  assert (Lv2 : length v2 = 32%nat) by (subst v2; vl).
  rewrite (vst_n row1 c v2) by auto. split; [reflexivity|].
  apply (v_store_len row1 c true); auto.
Qed.
End row.

(** A loop over chunks refines [for_loop] through an embedding. *)
Lemma fold_for : forall S T (emb : S -> T) (P : S -> Prop) (g : nat -> S -> S) (body : nat -> T -> R T) n s,
  P s -> (forall k s, (k < n)%nat -> P s -> body k (emb s) = Ret (emb (g k s)) /\ P (g k s)) ->
  fold_ix n 0 body (emb s) = Ret (emb (for_loop n g s)) /\ P (for_loop n g s).
Proof.
  intros S T emb P g body n s Hs H.
  assert (K : forall m i t, (i + m <= n)%nat -> P t -> fold_ix m i body (emb t) = Ret (emb (fold_left (fun s k => g k s) (seq i m) t)) /\
    P (fold_left (fun s k => g k s) (seq i m) t)).
  { intros m. induction m as [|m IH]; intros i t L Pt; cbn [fold_ix seq fold_left]; auto.
    destruct (H i t ltac:(lia) Pt) as [E1 P1]. rewrite E1. cbn [bindR]. apply IH; auto. lia. }
  destruct (K n O s ltac:(lia) Hs) as [K1 K2].
  assert (F : forall m t, for_loop m g t = fold_left (fun s k => g k s) (seq 0 m) t).
  { intros m t. induction m as [|m IH]; [reflexivity|]. rewrite seq_S, fold_left_app. cbn [for_loop fold_left plus]. rewrite IH. reflexivity. }
  rewrite F. auto.
Qed.

Section clause.
Variables (A B : list Z) (L q : nat).
Hypothesis HL : L = (q * 32)%nat.
Hypothesis HA : exists p, length A = (p * 32)%nat.
Hypothesis HI : Z.of_nat (2 * L) <= int_max.

Definition emb2 (s : list Z * vrng) : list Z * vrng := (A ++ fst s ++ B, snd s).

Lemma t1a_eq : forall boost cmp lits row r, (L <= length lits)%nat -> length row = (2 * L)%nat -> vrng_ok r ->
  fold_ix (L / 32) 0 (imp_t1a_chunk boost cmp lits (length A) L) (A ++ row ++ B, r) =
    Ret (A ++ fst (avx_t1a boost cmp lits L row r) ++ B, snd (avx_t1a boost cmp lits L row r)) /\
  length (fst (avx_t1a boost cmp lits L row r)) = (2 * L)%nat /\ vrng_ok (snd (avx_t1a boost cmp lits L row r)).
Proof.
  intros boost cmp lits row r Hl Hr Hv. unfold avx_t1a.
  assert (E : (L / 32)%nat = q) by (rewrite HL; apply Nat.div_mul; lia). rewrite E.
  apply (fold_for _ _ emb2 (fun s => length (fst s) = (2 * L)%nat /\ vrng_ok (snd s)) (avx_t1a_chunk boost cmp lits L) _ q (row, r)); [auto|].
  intros k [row1 r1] Hk [P1 P2]. cbn [fst snd] in *. unfold emb2 at 1. cbn [fst snd].
  destruct (t1a_chunk_eq A B L q HL HA HI boost cmp lits row1 r1 k Hl P1 P2 Hk) as (E1 & E2 & E3). rewrite E1. split; [|auto].
  unfold emb2. destruct (avx_t1a_chunk boost cmp lits L k (row1, r1)). reflexivity.
Qed.
Lemma t1b_eq : forall cmp row r, length row = (2 * L)%nat -> vrng_ok r ->
  fold_ix (L / 32) 0 (imp_t1b_chunk cmp (length A) L) (A ++ row ++ B, r) =
    Ret (A ++ fst (avx_t1b cmp L row r) ++ B, snd (avx_t1b cmp L row r)) /\
  length (fst (avx_t1b cmp L row r)) = (2 * L)%nat /\ vrng_ok (snd (avx_t1b cmp L row r)).
Proof.
  intros cmp row r Hr Hv. unfold avx_t1b.
  assert (E : (L / 32)%nat = q) by (rewrite HL; apply Nat.div_mul; lia). rewrite E.
  apply (fold_for _ _ emb2 (fun s => length (fst s) = (2 * L)%nat /\ vrng_ok (snd s)) (avx_t1b_chunk cmp L) _ q (row, r)); [auto|].
  intros k [row1 r1] Hk [P1 P2]. cbn [fst snd] in *. unfold emb2 at 1. cbn [fst snd].
  destruct (t1b_chunk_eq A B L q HL HA HI cmp row1 r1 k P1 P2 Hk) as (E1 & E2 & E3). rewrite E1. split; [|auto].
  unfold emb2. destruct (avx_t1b_chunk cmp L k (row1, r1)). reflexivity.
Qed.
Lemma t2_eq : forall lits row, (L <= length lits)%nat -> length row = (2 * L)%nat ->
  fold_ix (L / 32) 0 (imp_t2_chunk lits (length A) L) (A ++ row ++ B) = Ret (A ++ avx_t2 lits L row ++ B) /\
  length (avx_t2 lits L row) = (2 * L)%nat.
Proof.
  intros lits row Hl Hr. unfold avx_t2.
  assert (E : (L / 32)%nat = q) by (rewrite HL; apply Nat.div_mul; lia). rewrite E.
  apply (fold_for _ _ (fun row => A ++ row ++ B) (fun s => length s = (2 * L)%nat) (avx_t2_chunk lits L) _ q row); [auto|].
  intros k row1 Hk P1. apply (t2_chunk_eq A B L q HL HA HI); auto.
Qed.
End clause.
