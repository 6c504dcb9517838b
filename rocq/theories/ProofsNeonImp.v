(** Memory safety of the NEON block: vector accesses and clause outputs. *)
From Coq Require Import ZArith List Bool QArith Lia ZifyBool.
From Verif Require Import Base BaseProofs Spec ModelDense ModelLayout ModelAvx2 ModelNeon SpecAvx2 SpecNeon ModelSparse ModelSparseImp ModelAvx2Imp
  SpecAvx2Imp ModelNeonImp SpecNeonImp ProofsLayout ProofsSparseImp ProofsAvx2Imp.
Import ListNotations.
Open Scope Z_scope.

Lemma nlmem_mod : forall n, exists q, nlmem_of n = (q * 16)%nat /\ (n <= nlmem_of n)%nat /\ (nlmem_of n < n + 16)%nat /\ ((0 < n)%nat -> (0 < q)%nat).
Proof.
  intros n. unfold nlmem_of. pose proof (Nat.div_mod n 16 ltac:(lia)) as E. pose proof (Nat.mod_upper_bound n 16 ltac:(lia)) as U.
  destruct (Nat.eqb_spec (n mod 16) 0) as [Z0|Z0].
  - exists (n / 16)%nat. repeat split; lia.
  - exists (n / 16 + 1)%nat. repeat split; lia.
Qed.

(** ** One clause: the row lies between [A] and [B] *)
Section row.
Variables (A B : list Z) (L q : nat).
Hypothesis HL : L = (q * 16)%nat.
Hypothesis HI : Z.of_nat (2 * L) <= int_max.

Lemma nvld_row : forall row c neg, length row = (2 * L)%nat -> (c < q)%nat ->
  nvld (A ++ row ++ B) (length A) ((if neg : bool then L else 0) + c * 16) = Ret (nv_load row ((if neg then L else 0) + c * 16)).
Proof.
  intros row c neg Hr Hc. unfold nvld. set (o := ((if neg then L else 0) + c * 16)%nat).
  assert (Ho : (o + 16 <= 2 * L)%nat) by (subst o; destruct neg; lia).
  rewrite int_ok by lia. cbn [bindR].
  destruct (Nat.leb_spec (length A + o + 16) (length (A ++ row ++ B))) as [H|H]; [|rewrite !app_length in H; lia].
  f_equal. unfold nv_load. apply slice_mid. lia.
Qed.
Lemma nvst_row : forall row c neg v, length row = (2 * L)%nat -> (c < q)%nat ->
  nvst (A ++ row ++ B) (length A) ((if neg : bool then L else 0) + c * 16) v = Ret (A ++ nv_store row ((if neg then L else 0) + c * 16) v ++ B).
Proof.
  intros row c neg v Hr Hc. unfold nvst. set (o := ((if neg then L else 0) + c * 16)%nat).
  assert (Ho : (o + 16 <= 2 * L)%nat) by (subst o; destruct neg; lia).
  rewrite int_ok by lia. cbn [bindR].
  destruct (Nat.leb_spec (length A + o + 16) (length (A ++ row ++ B))) as [H|H]; [|rewrite !app_length in H; lia].
  f_equal. unfold nv_store. apply memcpy_mid. lia.
Qed.
Lemma nvld_p : forall row c, length row = (2 * L)%nat -> (c < q)%nat -> nvld (A ++ row ++ B) (length A) (c * 16) = Ret (nv_load row (c * 16)).
Proof. intros row c Hr Hc. exact (nvld_row row c false Hr Hc). Qed.
Lemma nvld_n : forall row c, length row = (2 * L)%nat -> (c < q)%nat -> nvld (A ++ row ++ B) (length A) (L + c * 16) = Ret (nv_load row (L + c * 16)).
Proof. intros row c Hr Hc. exact (nvld_row row c true Hr Hc). Qed.
Lemma nvst_p : forall row c v, length row = (2 * L)%nat -> (c < q)%nat -> nvst (A ++ row ++ B) (length A) (c * 16) v = Ret (A ++ nv_store row (c * 16) v ++ B).
Proof. intros row c v Hr Hc. exact (nvst_row row c false v Hr Hc). Qed.
Lemma nvst_n : forall row c v, length row = (2 * L)%nat -> (c < q)%nat -> nvst (A ++ row ++ B) (length A) (L + c * 16) v = Ret (A ++ nv_store row (L + c * 16) v ++ B).
Proof. intros row c v Hr Hc. exact (nvst_row row c true v Hr Hc). Qed.
Lemma nvld_lits : forall lits c, (L <= length lits)%nat -> (c < q)%nat -> nvld_u lits 0 (c * 16) = Ret (nv_load_u lits (c * 16)).
Proof.
  intros lits c Hl Hc. unfold nvld_u. rewrite int_ok by lia. cbn [bindR Nat.add].
  destruct (Nat.leb_spec (c * 16 + 16) (length lits)); [reflexivity|lia].
Qed.

Section lits.
Variables (lits row : list Z).
Hypothesis Hl : (L <= length lits)%nat.
Hypothesis Hr : length row = (2 * L)%nat.

Lemma nset_chunk_eq : forall c count, (c < q)%nat -> nimp_set_chunk lits (A ++ row ++ B) (length A) L c count = Ret (nset_chunk lits row L c count).
Proof.
  intros c count Hc. unfold nimp_set_chunk, nset_chunk. rewrite nvld_lits by auto. cbn [bindR].
  rewrite (nvld_p row c) by auto. rewrite (nvld_n row c) by auto. cbn [bindR Nat.add].
  destruct (v_any _); reflexivity.
Qed.
Lemma nset_chunks_eq : forall k c count, (c + k <= q)%nat -> nimp_set_chunks lits (A ++ row ++ B) (length A) L c k count = Ret (nset_chunks lits row L c k count).
Proof.
  intros k. induction k as [|k IH]; intros c count Hc; cbn [nimp_set_chunks nset_chunks]; auto.
  rewrite nset_chunk_eq by lia. cbn [bindR]. destruct (nset_chunk lits row L c count) as [n f]. cbn [fst snd].
  destruct f; auto. apply IH. lia.
Qed.
Lemma nset_reminder_eq : forall mmem mask c count, nvld mmem 0 0 = Ret mask -> (c < q)%nat ->
  nimp_set_reminder lits (A ++ row ++ B) (length A) L mmem c count = Ret (nset_reminder lits row L mask c count).
Proof.
  intros mmem mask c count Hm Hc. unfold nimp_set_reminder, nset_reminder. rewrite Hm. cbn [bindR]. rewrite nvld_lits by auto. cbn [bindR].
  rewrite (nvld_p row c) by auto. rewrite (nvld_n row c) by auto. cbn [bindR Nat.add].
  destruct (v_any _); reflexivity.
Qed.
Lemma neval_chunk_eq : forall c act, (c < q)%nat -> nimp_eval_chunk lits (A ++ row ++ B) (length A) L c act = Ret (neval_chunk lits row L c act).
Proof.
  intros c act Hc. unfold nimp_eval_chunk, neval_chunk. rewrite nvld_lits by auto. cbn [bindR].
  rewrite (nvld_p row c) by auto. rewrite (nvld_n row c) by auto. cbn [bindR Nat.add].
  destruct (v_any _); reflexivity.
Qed.
Lemma neval_chunks_eq : forall k c act, (c + k <= q)%nat -> nimp_eval_chunks lits (A ++ row ++ B) (length A) L c k act = Ret (neval_chunks lits row L c k act).
Proof.
  intros k. induction k as [|k IH]; intros c act Hc; cbn [nimp_eval_chunks neval_chunks]; auto.
  rewrite neval_chunk_eq by lia. cbn [bindR]. destruct (neval_chunk lits row L c act) as [n f]. cbn [fst snd].
  destruct f; auto. apply IH. lia.
Qed.
Lemma neval_reminder_eq : forall mmem mask c act, nvld mmem 0 0 = Ret mask -> (c < q)%nat ->
  nimp_eval_reminder lits (A ++ row ++ B) (length A) L mmem c act = Ret (neval_reminder lits row L mask c act).
Proof.
  intros mmem mask c act Hm Hc. unfold nimp_eval_reminder, neval_reminder. rewrite Hm. cbn [bindR]. rewrite nvld_lits by auto. cbn [bindR].
  rewrite (nvld_p row c) by auto. rewrite (nvld_n row c) by auto. cbn [bindR Nat.add].
  destruct (v_any _); [reflexivity|]. destruct (v_any _); reflexivity.
Qed.
End lits.

(** Feedback writes the row and keeps its length. *)
Lemma nv_store_len : forall row c neg v, length row = (2 * L)%nat -> (c < q)%nat -> length v = 16%nat ->
  length (nv_store row ((if neg : bool then L else 0) + c * 16) v) = (2 * L)%nat.
Proof. intros row c neg v Hr Hc Hv. unfold nv_store. rewrite memcpy_len; auto. destruct neg; lia. Qed.
Lemma nv_load_len : forall row c neg, length row = (2 * L)%nat -> (c < q)%nat -> length (nv_load row ((if neg : bool then L else 0) + c * 16)) = 16%nat.
Proof. intros row c neg Hr Hc. unfold nv_load. apply slice_length. destruct neg; lia. Qed.
Lemma nvset_lits_len : forall lits c, (L <= length lits)%nat -> (c < q)%nat -> length (nv_load_u lits (c * 16)) = 16%nat.
Proof. intros lits c H Hc. unfold nv_load_u. rewrite map_length. apply slice_length. lia. Qed.

Ltac vl := repeat first [assumption | rewrite repeat_length; reflexivity | apply map2_len | (unfold v_not; rewrite map_length)
   | progress unfold v_adds, v_or, v_and, v_cmpeq, v_cmpgt, nv_set1 ].

Lemma nt1a_chunk_eq : forall boost cmp lits row r c, (L <= length lits)%nat -> length row = (2 * L)%nat -> nvrng_ok r -> (c < q)%nat ->
  nimp_t1a_chunk boost cmp lits (length A) L c (A ++ row ++ B, r) =
    Ret (let '(row', r') := neon_t1a_chunk boost cmp lits L c (row, r) in (A ++ row' ++ B, r')) /\
  length (fst (neon_t1a_chunk boost cmp lits L c (row, r))) = (2 * L)%nat /\ nvrng_ok (snd (neon_t1a_chunk boost cmp lits L c (row, r))).
Proof.
  intros boost cmp lits row r c Hl Hr Hv Hc. unfold nimp_t1a_chunk, neon_t1a_chunk. cbn [next_v].
  rewrite nvld_lits by auto. cbn [bindR]. rewrite (nvld_p row c) by auto. cbn [bindR next_v vr_src vr_pos fst snd].
  set (lit := nv_load_u lits (c * 16)). assert (Ll : length lit = 16%nat) by (apply nvset_lits_len; auto).
  set (R1 := vr_src r (vr_pos r)). assert (L1 : length R1 = 16%nat) by apply Hv.
  set (R2 := vr_src r (S (vr_pos r))). assert (L2 : length R2 = 16%nat) by apply Hv.
  pose proof (nv_load_len row c false Hr Hc) as La. cbn [Nat.add] in *.
  match goal with |- context [nvst _ _ (c * 16) ?v] => set (v1 := v) end.
  assert (Lv : length v1 = 16%nat) by (subst v1; destruct boost; vl).
  rewrite (nvst_p row c v1) by auto. cbn [bindR Nat.add].
  set (row1 := nv_store row (c * 16) v1). assert (Lr : length row1 = (2 * L)%nat) by (apply (nv_store_len row c false); auto).
  rewrite (nvld_n row1 c) by auto. cbn [bindR]. pose proof (nv_load_len row1 c true Lr Hc) as Lb.
  match goal with |- context [nvst _ _ (L + c * 16) ?v] => set (v2 := v) end.
  assert (Lv2 : length v2 = 16%nat) by (subst v2; destruct boost; vl).
  rewrite (nvst_n row1 c v2) by auto. cbn [bindR]. split; [reflexivity|]. split; [|exact Hv].
  apply (nv_store_len row1 c true); auto.
Qed.
Lemma nt1b_chunk_eq : forall cmp row r c, length row = (2 * L)%nat -> nvrng_ok r -> (c < q)%nat ->
  nimp_t1b_chunk cmp (length A) L c (A ++ row ++ B, r) =
    Ret (let '(row', r') := neon_t1b_chunk cmp L c (row, r) in (A ++ row' ++ B, r')) /\
  length (fst (neon_t1b_chunk cmp L c (row, r))) = (2 * L)%nat /\ nvrng_ok (snd (neon_t1b_chunk cmp L c (row, r))).
Proof.
  intros cmp row r c Hr Hv Hc. unfold nimp_t1b_chunk, neon_t1b_chunk. cbn [next_v].
  rewrite (nvld_p row c) by auto. cbn [bindR next_v vr_src vr_pos fst snd].
  set (R1 := vr_src r (vr_pos r)). assert (L1 : length R1 = 16%nat) by apply Hv.
  set (R2 := vr_src r (S (vr_pos r))). assert (L2 : length R2 = 16%nat) by apply Hv.
  pose proof (nv_load_len row c false Hr Hc) as La. cbn [Nat.add] in *.
  match goal with |- context [nvst _ _ (c * 16) ?v] => set (v1 := v) end.
  assert (Lv : length v1 = 16%nat) by (subst v1; vl).
  rewrite (nvst_p row c v1) by auto. cbn [bindR Nat.add].
  set (row1 := nv_store row (c * 16) v1). assert (Lr : length row1 = (2 * L)%nat) by (apply (nv_store_len row c false); auto).
  rewrite (nvld_n row1 c) by auto. cbn [bindR]. pose proof (nv_load_len row1 c true Lr Hc) as Lb.
  match goal with |- context [nvst _ _ (L + c * 16) ?v] => set (v2 := v) end.
  assert (Lv2 : length v2 = 16%nat) by (subst v2; vl).
  rewrite (nvst_n row1 c v2) by auto. cbn [bindR]. split; [reflexivity|]. split; [|exact Hv].
  apply (nv_store_len row1 c true); auto.
Qed.
Lemma nt2_chunk_eq : forall lits row c, (L <= length lits)%nat -> length row = (2 * L)%nat -> (c < q)%nat ->
  nimp_t2_chunk lits (length A) L c (A ++ row ++ B) = Ret (A ++ neon_t2_chunk lits L c row ++ B) /\
  length (neon_t2_chunk lits L c row) = (2 * L)%nat.
Proof.
  intros lits row c Hl Hr Hc. unfold nimp_t2_chunk, neon_t2_chunk.
  rewrite nvld_lits by auto. cbn [bindR]. rewrite (nvld_p row c) by auto. cbn [bindR].
  set (lit := nv_load_u lits (c * 16)). assert (Ll : length lit = 16%nat) by (apply nvset_lits_len; auto).
  pose proof (nv_load_len row c false Hr Hc) as La. cbn [Nat.add] in *.
  match goal with |- context [nvst _ _ (c * 16) ?v] => set (v1 := v) end.
  assert (Lv : length v1 = 16%nat) by (subst v1; vl).
  rewrite (nvst_p row c v1) by auto. cbn [bindR Nat.add].
  set (row1 := nv_store row (c * 16) v1). assert (Lr : length row1 = (2 * L)%nat) by (apply (nv_store_len row c false); auto).
  rewrite (nvld_n row1 c) by auto. cbn [bindR]. pose proof (nv_load_len row1 c true Lr Hc) as Lb.
  match goal with |- context [nvst _ _ (L + c * 16) ?v] => set (v2 := v) end.
  assert (Lv2 : length v2 = 16%nat) by (subst v2; vl).
  rewrite (nvst_n row1 c v2) by auto. split; [reflexivity|].
  apply (nv_store_len row1 c true); auto.
Qed.
End row.

Section clause.
Variables (A B : list Z) (L q : nat).
Hypothesis HL : L = (q * 16)%nat.
Hypothesis HI : Z.of_nat (2 * L) <= int_max.

Definition nemb2 (s : list Z * vrng) : list Z * vrng := (A ++ fst s ++ B, snd s).

Lemma nt1a_eq : forall boost cmp lits row r, (L <= length lits)%nat -> length row = (2 * L)%nat -> nvrng_ok r ->
  fold_ix (L / 16) 0 (nimp_t1a_chunk boost cmp lits (length A) L) (A ++ row ++ B, r) =
    Ret (A ++ fst (neon_t1a boost cmp lits L row r) ++ B, snd (neon_t1a boost cmp lits L row r)) /\
  length (fst (neon_t1a boost cmp lits L row r)) = (2 * L)%nat /\ nvrng_ok (snd (neon_t1a boost cmp lits L row r)).
Proof.
  intros boost cmp lits row r Hl Hr Hv. unfold neon_t1a.
  assert (E : (L / 16)%nat = q) by (rewrite HL; apply Nat.div_mul; lia). rewrite E.
  apply (fold_for _ _ nemb2 (fun s => length (fst s) = (2 * L)%nat /\ nvrng_ok (snd s)) (neon_t1a_chunk boost cmp lits L) _ q (row, r)); [auto|].
  intros k [row1 r1] Hk [P1 P2]. cbn [fst snd] in *. unfold nemb2 at 1. cbn [fst snd].
  destruct (nt1a_chunk_eq A B L q HL HI boost cmp lits row1 r1 k Hl P1 P2 Hk) as (E1 & E2 & E3). rewrite E1. split; [|auto].
  unfold nemb2. destruct (neon_t1a_chunk boost cmp lits L k (row1, r1)). reflexivity.
Qed.
Lemma nt1b_eq : forall cmp row r, length row = (2 * L)%nat -> nvrng_ok r ->
  fold_ix (L / 16) 0 (nimp_t1b_chunk cmp (length A) L) (A ++ row ++ B, r) =
    Ret (A ++ fst (neon_t1b cmp L row r) ++ B, snd (neon_t1b cmp L row r)) /\
  length (fst (neon_t1b cmp L row r)) = (2 * L)%nat /\ nvrng_ok (snd (neon_t1b cmp L row r)).
Proof.
  intros cmp row r Hr Hv. unfold neon_t1b.
  assert (E : (L / 16)%nat = q) by (rewrite HL; apply Nat.div_mul; lia). rewrite E.
  apply (fold_for _ _ nemb2 (fun s => length (fst s) = (2 * L)%nat /\ nvrng_ok (snd s)) (neon_t1b_chunk cmp L) _ q (row, r)); [auto|].
  intros k [row1 r1] Hk [P1 P2]. cbn [fst snd] in *. unfold nemb2 at 1. cbn [fst snd].
  destruct (nt1b_chunk_eq A B L q HL HI cmp row1 r1 k P1 P2 Hk) as (E1 & E2 & E3). rewrite E1. split; [|auto].
  unfold nemb2. destruct (neon_t1b_chunk cmp L k (row1, r1)). reflexivity.
Qed.
Lemma nt2_eq : forall lits row, (L <= length lits)%nat -> length row = (2 * L)%nat ->
  fold_ix (L / 16) 0 (nimp_t2_chunk lits (length A) L) (A ++ row ++ B) = Ret (A ++ neon_t2 lits L row ++ B) /\
  length (neon_t2 lits L row) = (2 * L)%nat.
Proof.
  intros lits row Hl Hr. unfold neon_t2.
  assert (E : (L / 16)%nat = q) by (rewrite HL; apply Nat.div_mul; lia). rewrite E.
  apply (fold_for _ _ (fun row => A ++ row ++ B) (fun s => length s = (2 * L)%nat) (neon_t2_chunk lits L) _ q row); [auto|].
  intros k row1 Hk P1. apply (nt2_chunk_eq A B L q HL HI); auto.
Qed.
End clause.
