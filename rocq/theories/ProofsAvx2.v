(** The AVX2 kernels: outputs, votes and feedback lane by lane. *)
From Coq Require Import ZArith Arith List Bool QArith Lia.
From Verif Require Import Base BaseProofs Spec SpecLearning ModelDense ModelLayout ModelFeedback ModelExecutor ModelDenseExec ModelAvx2
  ProofsClause ProofsLayout ProofsStep.
Import ListNotations.
Open Scope Z_scope.

(** ** Vectors as functions of the lane *)

Notation lanes f := (map f (seq 0 32)).

Lemma slice_lanes : forall (mem : list Z) off n, (off + n <= length mem)%nat ->
  slice mem off n = map (fun i => nth (off + i) mem 0) (seq 0 n).
Proof.
  intros mem off n H. apply list_ext0.
  - unfold slice. rewrite firstn_length, skipn_length, map_length, seq_length. lia.
  - intros k Hk. unfold slice in *. rewrite firstn_length, skipn_length in Hk.
    rewrite nth_firstn_lt by lia. rewrite nth_skipn.
    symmetry. rewrite (nth_indep (map _ _) 0 ((fun i => nth (off + i) mem 0) O)) by (rewrite map_length, seq_length; lia).
    rewrite (map_nth (fun i => nth (off + i) mem 0)), seq_nth by lia. reflexivity.
Qed.

Lemma map2_map : forall (A B C D : Type) (f : B -> C -> D) (g : A -> B) (h : A -> C) l,
  map2 f (map g l) (map h l) = map (fun i => f (g i) (h i)) l.
Proof. intros. induction l as [|a l IH]; cbn [map map2]; [reflexivity|now rewrite IH]. Qed.

Lemma set1_lanes : forall v, v_set1 v = lanes (fun _ => v).
Proof. reflexivity. Qed.

Lemma load_lanes : forall mem off, (off + 32 <= length mem)%nat -> v_load mem off = lanes (fun i => nth (off + i) mem 0).
Proof. intros. now apply slice_lanes. Qed.

Lemma load_u_lanes : forall mem off, (off + 32 <= length mem)%nat -> v_load_u mem off = lanes (fun i => wrap8 (nth (off + i) mem 0)).
Proof. intros. unfold v_load_u. rewrite slice_lanes by auto. now rewrite map_map. Qed.

Lemma any_lanes : forall f l, v_any (map f l) = existsb (fun i : nat => negb (f i =? 0)) l.
Proof.
  intros f l. unfold v_any. induction l as [|a l IH]; [reflexivity|].
  cbn [map forallb existsb]. rewrite negb_andb, IH, Z.land_diag. reflexivity.
Qed.

Lemma popcount_lanes : forall f (l : list nat), popcount (v_movemask (map f l)) = zsum (map (fun i => b2z (f i <? 0)) l).
Proof. intros. unfold popcount, v_movemask. now rewrite !map_map. Qed.

Lemma movemask_any : forall f (l : list nat), existsb (fun x : bool => x) (v_movemask (map f l)) = existsb (fun i => f i <? 0) l.
Proof. intros. unfold v_movemask. rewrite map_map. induction l as [|a l IH]; cbn [map existsb]; [reflexivity|now rewrite IH]. Qed.

Ltac vlanes :=
  unfold v_cmpgt, v_cmpeq, v_and, v_or, v_adds, v_not; rewrite ?set1_lanes;
  repeat (rewrite map2_map || rewrite map_map).

Lemma existsb_ext_in : forall (A : Type) (f g : A -> bool) l, (forall x, In x l -> f x = g x) -> existsb f l = existsb g l.
Proof. intros A f g l H. induction l as [|a l IH]; cbn; [reflexivity|]. rewrite H by now left. rewrite IH; auto. intros. apply H. now right. Qed.

Lemma zsum_map_ext : forall (A : Type) (f g : A -> Z) l, (forall x, In x l -> f x = g x) -> zsum (map f l) = zsum (map g l).
Proof. intros A f g l H. f_equal. now apply map_ext_in. Qed.

Lemma zsum_app' : forall a b, zsum (a ++ b) = zsum a + zsum b.
Proof. induction a as [|x a IH]; intros b; cbn [app zsum]; [reflexivity|]. rewrite IH. lia. Qed.

Lemma seq_shift_map : forall (A : Type) (f : nat -> A) off n, map (fun i => f (off + i)%nat) (seq 0 n) = map f (seq off n).
Proof.
  intros A f off n. revert off. induction n as [|n IH]; intros off; [reflexivity|].
  cbn [seq map]. rewrite Nat.add_0_r. f_equal. rewrite <- seq_shift, map_map, <- IH.
  apply map_ext. intros i. f_equal. lia.
Qed.

Lemma existsb_map : forall (A B : Type) (f : B -> bool) (g : A -> B) l, existsb f (map g l) = existsb (fun x => f (g x)) l.
Proof. intros. induction l as [|a l IH]; cbn; [reflexivity|now rewrite IH]. Qed.

Lemma existsb_shift : forall (f : nat -> bool) off n, existsb (fun i => f (off + i)%nat) (seq 0 n) = existsb f (seq off n).
Proof.
  intros f off n. rewrite <- (existsb_map _ _ (fun b : bool => b) (fun i => f (off + i)%nat)).
  rewrite seq_shift_map. apply existsb_map.
Qed.

Lemma existsb_orb : forall (A : Type) (f g : A -> bool) l, existsb (fun x => f x || g x) l = existsb f l || existsb g l.
Proof. intros. induction l as [|a l IH]; cbn; [reflexivity|]. rewrite IH. destruct (f a), (g a), (existsb f l); reflexivity. Qed.

(** ** Clause outputs *)

Section Outputs.
  Variables (lits row : list Z) (lmem : nat).

  (** Literal [j] is falsified by the positive / negated automaton; the automaton
      is included. *)
  Definition fpos (j : nat) : bool := (0 <=? nth j row 0) && (wrap8 (nth j lits 0) =? 0).
  Definition fneg (j : nat) : bool := (0 <=? nth (lmem + j) row 0) && negb (wrap8 (nth j lits 0) =? 0).
  Definition ipos (j : nat) : Z := b2z (0 <=? nth j row 0).
  Definition ineg (j : nat) : Z := b2z (0 <=? nth (lmem + j) row 0).

  Lemma lane_pos : forall c l, negb ((if Z.lor (if c <? 0 then -1 else 0) l =? 0 then -1 else 0) =? 0) = (0 <=? c) && (l =? 0).
  Proof.
    intros c l. destruct (Z.ltb_spec c 0), (Z.leb_spec 0 c); try lia; cbn [andb].
    - now rewrite Z.lor_m1_l.
    - rewrite Z.lor_0_l. destruct (l =? 0); reflexivity.
  Qed.

  Lemma lane_neg : forall c l, negb ((if Z.lor (if c <? 0 then -1 else 0) (if 0 =? l then -1 else 0) =? 0 then -1 else 0) =? 0)
    = (0 <=? c) && negb (l =? 0).
  Proof. intros c l. rewrite lane_pos. rewrite (Z.eqb_sym 0 l). destruct (l =? 0); reflexivity. Qed.

  Lemma lane_active : forall c, (Z.lnot (if c <? 0 then -1 else 0) <? 0) = (0 <=? c).
  Proof. intros c. destruct (Z.ltb_spec c 0), (Z.leb_spec 0 c); try lia; reflexivity. Qed.

  Hypothesis Hrow : length row = (2 * lmem)%nat.
  Hypothesis Hlits : (lmem <= length lits)%nat.

  Lemma set_chunk_spec : forall c count, (c * 32 + 32 <= lmem)%nat ->
    let '(count', f) := set_chunk lits row lmem c count in
    f = existsb (fun j => fpos j || fneg j) (seq (c * 32) 32) /\
    (f = false -> count' = count + zsum (map (fun j => ipos j + ineg j) (seq (c * 32) 32))).
  Proof.
    intros c count H. unfold set_chunk.
    rewrite !load_u_lanes, !load_lanes by lia. vlanes.
    rewrite !any_lanes, !popcount_lanes.
    assert (E1 : existsb (fun i => negb ((if Z.lor (if nth (c * 32 + i) row 0 <? 0 then -1 else 0) (wrap8 (nth (c * 32 + i) lits 0)) =? 0 then -1 else 0) =? 0)) (seq 0 32)
                 = existsb fpos (seq (c * 32) 32)).
    { rewrite <- (existsb_shift fpos). apply existsb_ext_in. intros i _. apply lane_pos. }
    assert (E2 : existsb (fun i => negb ((if Z.lor (if nth (lmem + c * 32 + i) row 0 <? 0 then -1 else 0)
                    (if 0 =? wrap8 (nth (c * 32 + i) lits 0) then -1 else 0) =? 0 then -1 else 0) =? 0)) (seq 0 32)
                 = existsb fneg (seq (c * 32) 32)).
    { rewrite <- (existsb_shift fneg). apply existsb_ext_in. intros i _. rewrite lane_neg. unfold fneg.
      now rewrite Nat.add_assoc. }
    assert (C1 : zsum (map (fun i => b2z (Z.lnot (if nth (c * 32 + i) row 0 <? 0 then -1 else 0) <? 0)) (seq 0 32))
                 = zsum (map ipos (seq (c * 32) 32))).
    { rewrite <- (seq_shift_map _ ipos). apply zsum_map_ext. intros i _. unfold ipos. now rewrite lane_active. }
    assert (C2 : zsum (map (fun i => b2z (Z.lnot (if nth (lmem + c * 32 + i) row 0 <? 0 then -1 else 0) <? 0)) (seq 0 32))
                 = zsum (map ineg (seq (c * 32) 32))).
    { rewrite <- (seq_shift_map _ ineg). apply zsum_map_ext. intros i _. unfold ineg. now rewrite lane_active, Nat.add_assoc. }
    rewrite E1, E2, C1, C2. rewrite existsb_orb.
    destruct (existsb fpos (seq (c * 32) 32)); cbn [orb]; [split; [reflexivity|discriminate]|].
    split; [reflexivity|]. intros _.
    assert (D : forall l, zsum (map (fun j => ipos j + ineg j) l) = zsum (map ipos l) + zsum (map ineg l)).
    { induction l as [|a l IH]; cbn [map zsum]; [reflexivity|]. rewrite IH. lia. }
    rewrite D. lia.
  Qed.

  Lemma chunk_seq : forall c k, seq (c * 32) (S k * 32) = seq (c * 32) 32 ++ seq (S c * 32) (k * 32).
  Proof. intros. replace (S k * 32)%nat with (32 + k * 32)%nat by lia. rewrite seq_app. do 2 f_equal. lia. Qed.

  Lemma set_chunks_spec : forall k c count, ((c + k) * 32 <= lmem)%nat ->
    let '(count', f) := set_chunks lits row lmem c k count in
    f = existsb (fun j => fpos j || fneg j) (seq (c * 32) (k * 32)) /\
    (f = false -> count' = count + zsum (map (fun j => ipos j + ineg j) (seq (c * 32) (k * 32)))).
  Proof.
    induction k as [|k IH]; intros c count H.
    - cbn [set_chunks Nat.mul seq existsb map zsum]. split; [reflexivity|intros; lia].
    - cbn [set_chunks]. pose proof (set_chunk_spec c count ltac:(lia)) as A.
      destruct (set_chunk lits row lmem c count) as [c1 f1]. destruct A as [A1 A2].
      rewrite chunk_seq, existsb_app, map_app, zsum_app'. rewrite <- A1.
      destruct f1; cbn [orb]; [split; [reflexivity|discriminate]|].
      pose proof (IH (S c) c1 ltac:(lia)) as B. destruct (set_chunks lits row lmem (S c) k c1) as [c2 f2].
      destruct B as [B1 B2]. split; [exact B1|]. intros F. rewrite (B2 F), (A2 eq_refl). lia.
  Qed.

  Variables (n : nat) (mask : vec).
  Hypothesis Hmask : mask = lanes (fun i => if (lmem - 32 + i <? n)%nat then -1 else 0).
  Hypothesis Hn : (lmem - 32 <= n <= lmem)%nat.
  Hypothesis Hl32 : (32 <= lmem)%nat.
  Let c := (lmem - 32)%nat.

  Lemma mask_cut : forall (f : nat -> bool),
    existsb (fun i => (c + i <? n)%nat && f (c + i)%nat) (seq 0 32) = existsb f (seq c (n - c)).
  Proof.
    intros f. rewrite (existsb_shift (fun j => (j <? n)%nat && f j)).
    replace 32%nat with ((n - c) + (32 - (n - c)))%nat by (unfold c; lia).
    rewrite seq_app, existsb_app.
    assert (A : existsb (fun j => (j <? n)%nat && f j) (seq (c + (n - c)) (32 - (n - c))) = false).
    { apply not_true_is_false. intros E. apply existsb_exists in E. destruct E as [j [E1 E2]]. apply in_seq in E1.
      apply andb_true_iff in E2. destruct E2 as [E2 _]. apply Nat.ltb_lt in E2. unfold c in *. lia. }
    rewrite A, orb_false_r. apply existsb_ext_in. intros j Hj. apply in_seq in Hj.
    replace (j <? n)%nat with true by (symmetry; apply Nat.ltb_lt; unfold c in *; lia). reflexivity.
  Qed.

  Lemma mask_sum : forall (f : nat -> bool),
    zsum (map (fun i => b2z ((c + i <? n)%nat && f (c + i)%nat)) (seq 0 32)) = zsum (map (fun j => b2z (f j)) (seq c (n - c))).
  Proof.
    intros f. rewrite (seq_shift_map _ (fun j => b2z ((j <? n)%nat && f j))).
    replace 32%nat with ((n - c) + (32 - (n - c)))%nat by (unfold c; lia).
    rewrite seq_app, map_app, zsum_app'.
    assert (A : zsum (map (fun j => b2z ((j <? n)%nat && f j)) (seq (c + (n - c)) (32 - (n - c)))) = 0).
    { rewrite (zsum_map_ext _ _ (fun _ => 0)).
      - generalize (seq (c + (n - c)) (32 - (n - c))). induction l as [|a l IH]; cbn [map zsum]; auto.
      - intros j Hj. apply in_seq in Hj. replace (j <? n)%nat with false by (symmetry; apply Nat.ltb_ge; unfold c in *; lia). reflexivity. }
    rewrite A, Z.add_0_r. apply zsum_map_ext. intros j Hj. apply in_seq in Hj.
    replace (j <? n)%nat with true by (symmetry; apply Nat.ltb_lt; unfold c in *; lia). reflexivity.
  Qed.

  Lemma lane_pos_m : forall v l (m : bool),
    negb ((if Z.lor (Z.lnot (Z.land (Z.lnot (if v <? 0 then -1 else 0)) (if m then -1 else 0))) l =? 0 then -1 else 0) =? 0)
    = m && ((0 <=? v) && (l =? 0)).
  Proof.
    intros v l m. destruct (Z.ltb_spec v 0), (Z.leb_spec 0 v); try lia; destruct m; cbn [andb]; cbn [Z.lnot Z.pred Z.opp Z.pos_sub Z.add Z.land].
    all: try (change (Z.lnot 0) with (-1); rewrite Z.lor_m1_l; reflexivity).
    - change (Z.lnot (Z.land (Z.lnot 0) (-1))) with 0. rewrite Z.lor_0_l. destruct (l =? 0); reflexivity.
  Qed.

  Lemma lane_act_m : forall v (m : bool),
    (Z.land (Z.lnot (if v <? 0 then -1 else 0)) (if m then -1 else 0) <? 0) = m && (0 <=? v).
  Proof. intros v m. destruct (Z.ltb_spec v 0), (Z.leb_spec 0 v); try lia; destruct m; reflexivity. Qed.

  Lemma set_reminder_spec : forall k count, (k * 32)%nat = c ->
    let '(o, st) := set_reminder lits row lmem mask k count in
    o = (if existsb (fun j => fpos j || fneg j) (seq c (n - c)) then 0 else 1) /\
    (o = 1 -> st = Some (count + zsum (map (fun j => ipos j + ineg j) (seq c (n - c))))).
  Proof.
    intros k count Hk. unfold set_reminder. rewrite Hk, Hmask.
    rewrite !load_u_lanes, !load_lanes by (unfold c; lia). vlanes. rewrite !any_lanes, !popcount_lanes.
    fold c.
    assert (E1 : existsb (fun i => negb ((if Z.lor (Z.lnot (Z.land (Z.lnot (if nth (c + i) row 0 <? 0 then -1 else 0))
                     (if (c + i <? n)%nat then -1 else 0))) (wrap8 (nth (c + i) lits 0)) =? 0 then -1 else 0) =? 0)) (seq 0 32)
                 = existsb fpos (seq c (n - c))).
    { rewrite <- mask_cut. apply existsb_ext_in. intros i _. apply lane_pos_m. }
    assert (E2 : existsb (fun i => negb ((if Z.lor (Z.lnot (Z.land (Z.lnot (if nth (lmem + c + i) row 0 <? 0 then -1 else 0))
                     (if (c + i <? n)%nat then -1 else 0))) (if 0 =? wrap8 (nth (c + i) lits 0) then -1 else 0) =? 0 then -1 else 0) =? 0)) (seq 0 32)
                 = existsb fneg (seq c (n - c))).
    { rewrite <- mask_cut. apply existsb_ext_in. intros i _. rewrite lane_pos_m. unfold fneg. rewrite Nat.add_assoc, (Z.eqb_sym 0).
      destruct (wrap8 (nth (c + i) lits 0) =? 0); reflexivity. }
    assert (C1 : zsum (map (fun i => b2z (Z.land (Z.lnot (if nth (c + i) row 0 <? 0 then -1 else 0)) (if (c + i <? n)%nat then -1 else 0) <? 0)) (seq 0 32))
                 = zsum (map ipos (seq c (n - c)))).
    { unfold ipos. rewrite <- (mask_sum (fun j => 0 <=? nth j row 0)). apply zsum_map_ext. intros i _. now rewrite lane_act_m. }
    assert (C2 : zsum (map (fun i => b2z (Z.land (Z.lnot (if nth (lmem + c + i) row 0 <? 0 then -1 else 0)) (if (c + i <? n)%nat then -1 else 0) <? 0)) (seq 0 32))
                 = zsum (map ineg (seq c (n - c)))).
    { unfold ineg. rewrite <- (mask_sum (fun j => 0 <=? nth (lmem + j) row 0)). apply zsum_map_ext. intros i _.
      now rewrite lane_act_m, Nat.add_assoc. }
    rewrite E1, E2, C1, C2, existsb_orb.
    destruct (existsb fpos (seq c (n - c))); cbn [orb]; [split; [reflexivity|discriminate]|].
    split; [reflexivity|]. intros _. f_equal.
    assert (D : forall l, zsum (map (fun j => ipos j + ineg j) l) = zsum (map ipos l) + zsum (map ineg l)).
    { induction l as [|a l IH]; cbn [map zsum]; [reflexivity|]. rewrite IH. lia. }
    rewrite D. lia.
  Qed.

  Lemma lmem_chunks : lmem = (lmem / 32 * 32)%nat -> ((lmem / 32 - 1) * 32)%nat = c.
  Proof. intros H. unfold c. assert (1 <= lmem / 32)%nat by (apply Nat.div_le_lower_bound; lia). nia. Qed.

  Hypothesis Hdiv : lmem = (lmem / 32 * 32)%nat.

  Lemma split_n : seq 0 n = seq 0 c ++ seq c (n - c).
  Proof. rewrite <- seq_app. f_equal. unfold c. lia. Qed.

  Theorem avx_set_output_spec :
    let '(o, st) := avx_set_output lits lmem mask row in
    o = (if existsb (fun j => fpos j || fneg j) (seq 0 n) then 0 else 1) /\
    (o = 1 -> st = Some (zsum (map (fun j => ipos j + ineg j) (seq 0 n)))).
  Proof.
    unfold avx_set_output. pose proof (lmem_chunks Hdiv) as HK. set (k := (lmem / 32 - 1)%nat) in *.
    pose proof (set_chunks_spec k 0 0 ltac:(unfold c in HK; lia)) as A.
    destruct (set_chunks lits row lmem 0 k 0) as [count f]. destruct A as [A1 A2].
    cbn [Nat.mul] in A1, A2. rewrite HK in A1, A2.
    rewrite split_n, existsb_app, map_app, zsum_app'. rewrite <- A1.
    destruct f; cbn [orb]; [split; [reflexivity|discriminate]|].
    pose proof (set_reminder_spec k count HK) as B. destruct (set_reminder lits row lmem mask k count) as [o st].
    destruct B as [B1 B2]. split; [exact B1|]. intros Ho. rewrite (B2 Ho). f_equal. rewrite (A2 eq_refl). lia.
  Qed.

  (** Evaluation. *)
  Definition act_at (j : nat) : bool := (0 <=? nth j row 0) || (0 <=? nth (lmem + j) row 0).

  Lemma eval_chunk_spec : forall d act, (d * 32 + 32 <= lmem)%nat ->
    let '(act', f) := eval_chunk lits row lmem d act in
    f = existsb (fun j => fpos j || fneg j) (seq (d * 32) 32) /\
    (f = false -> act' = act || existsb act_at (seq (d * 32) 32)).
  Proof.
    intros d act H. unfold eval_chunk.
    rewrite !load_u_lanes, !load_lanes by lia. vlanes. rewrite !any_lanes, !movemask_any.
    assert (E1 : existsb (fun i => negb ((if Z.lor (if nth (d * 32 + i) row 0 <? 0 then -1 else 0) (wrap8 (nth (d * 32 + i) lits 0)) =? 0 then -1 else 0) =? 0)) (seq 0 32)
                 = existsb fpos (seq (d * 32) 32)).
    { rewrite <- (existsb_shift fpos). apply existsb_ext_in. intros i _. apply lane_pos. }
    assert (E2 : existsb (fun i => negb ((if Z.lor (if nth (lmem + d * 32 + i) row 0 <? 0 then -1 else 0)
                    (if 0 =? wrap8 (nth (d * 32 + i) lits 0) then -1 else 0) =? 0 then -1 else 0) =? 0)) (seq 0 32)
                 = existsb fneg (seq (d * 32) 32)).
    { rewrite <- (existsb_shift fneg). apply existsb_ext_in. intros i _. rewrite lane_neg. unfold fneg.
      now rewrite Nat.add_assoc. }
    assert (C1 : existsb (fun i => Z.lnot (if nth (d * 32 + i) row 0 <? 0 then -1 else 0) <? 0) (seq 0 32)
                 = existsb (fun j => 0 <=? nth j row 0) (seq (d * 32) 32)).
    { rewrite <- (existsb_shift (fun j => 0 <=? nth j row 0)). apply existsb_ext_in. intros i _. apply lane_active. }
    assert (C2 : existsb (fun i => Z.lnot (if nth (lmem + d * 32 + i) row 0 <? 0 then -1 else 0) <? 0) (seq 0 32)
                 = existsb (fun j => 0 <=? nth (lmem + j) row 0) (seq (d * 32) 32)).
    { rewrite <- (existsb_shift (fun j => 0 <=? nth (lmem + j) row 0)). apply existsb_ext_in. intros i _.
      now rewrite lane_active, Nat.add_assoc. }
    rewrite E1, E2, C1, C2. unfold act_at. rewrite !existsb_orb.
    destruct (existsb fpos (seq (d * 32) 32)); cbn [orb]; [split; [reflexivity|discriminate]|].
    split; [reflexivity|]. intros _. now rewrite orb_assoc.
  Qed.

  Lemma eval_chunks_spec : forall k d act, ((d + k) * 32 <= lmem)%nat ->
    let '(act', f) := eval_chunks lits row lmem d k act in
    f = existsb (fun j => fpos j || fneg j) (seq (d * 32) (k * 32)) /\
    (f = false -> act' = act || existsb act_at (seq (d * 32) (k * 32))).
  Proof.
    induction k as [|k IH]; intros d act H.
    - cbn [eval_chunks Nat.mul seq existsb map zsum]. split; [reflexivity|]. now rewrite orb_false_r.
    - cbn [eval_chunks]. pose proof (eval_chunk_spec d act ltac:(lia)) as A.
      destruct (eval_chunk lits row lmem d act) as [c1 f1]. destruct A as [A1 A2].
      rewrite chunk_seq, !existsb_app. rewrite <- A1.
      destruct f1; cbn [orb]; [split; [reflexivity|discriminate]|].
      pose proof (IH (S d) c1 ltac:(lia)) as B. destruct (eval_chunks lits row lmem (S d) k c1) as [c2 f2].
      destruct B as [B1 B2]. split; [exact B1|]. intros F. rewrite (B2 F), (A2 eq_refl). now rewrite orb_assoc.
  Qed.

  Lemma lane_pos_e : forall v l (m : bool),
    negb (Z.land (if Z.lor (if v <? 0 then -1 else 0) l =? 0 then -1 else 0) (if m then -1 else 0) =? 0)
    = m && ((0 <=? v) && (l =? 0)).
  Proof.
    intros v l m. destruct (Z.ltb_spec v 0), (Z.leb_spec 0 v); try lia; cbn [andb].
    - rewrite Z.lor_m1_l. destruct m; reflexivity.
    - rewrite Z.lor_0_l. destruct (l =? 0), m; reflexivity.
  Qed.

  Lemma eval_reminder_spec : forall k act, (k * 32)%nat = c ->
    eval_reminder lits row lmem mask k act =
    if existsb (fun j => fpos j || fneg j) (seq c (n - c)) then 0
    else if act || existsb act_at (seq c (n - c)) then 1 else 0.
  Proof.
    intros k act Hk. unfold eval_reminder. rewrite Hk, Hmask.
    rewrite !load_u_lanes, !load_lanes by (unfold c; lia). vlanes. rewrite !any_lanes, !movemask_any.
    fold c.
    assert (E1 : existsb (fun i => negb (Z.land (if Z.lor (if nth (c + i) row 0 <? 0 then -1 else 0) (wrap8 (nth (c + i) lits 0)) =? 0 then -1 else 0)
                    (if (c + i <? n)%nat then -1 else 0) =? 0)) (seq 0 32) = existsb fpos (seq c (n - c))).
    { rewrite <- mask_cut. apply existsb_ext_in. intros i _. apply lane_pos_e. }
    assert (E2 : existsb (fun i => negb (Z.land (if Z.lor (if nth (lmem + c + i) row 0 <? 0 then -1 else 0)
                    (if 0 =? wrap8 (nth (c + i) lits 0) then -1 else 0) =? 0 then -1 else 0)
                    (if (c + i <? n)%nat then -1 else 0) =? 0)) (seq 0 32) = existsb fneg (seq c (n - c))).
    { rewrite <- mask_cut. apply existsb_ext_in. intros i _. rewrite lane_pos_e. unfold fneg. rewrite Nat.add_assoc, (Z.eqb_sym 0).
      destruct (wrap8 (nth (c + i) lits 0) =? 0); reflexivity. }
    assert (C1 : existsb (fun i => Z.land (Z.lnot (if nth (c + i) row 0 <? 0 then -1 else 0)) (if (c + i <? n)%nat then -1 else 0) <? 0) (seq 0 32)
                 = existsb (fun j => 0 <=? nth j row 0) (seq c (n - c))).
    { rewrite <- mask_cut. apply existsb_ext_in. intros i _. apply lane_act_m. }
    assert (C2 : existsb (fun i => Z.land (Z.lnot (if nth (lmem + c + i) row 0 <? 0 then -1 else 0)) (if (c + i <? n)%nat then -1 else 0) <? 0) (seq 0 32)
                 = existsb (fun j => 0 <=? nth (lmem + j) row 0) (seq c (n - c))).
    { rewrite <- (mask_cut (fun j => 0 <=? nth (lmem + j) row 0)). apply existsb_ext_in. intros i _.
      now rewrite lane_act_m, Nat.add_assoc. }
    rewrite E1, E2, C1, C2. unfold act_at. rewrite !existsb_orb.
    destruct (existsb fpos (seq c (n - c))); cbn [orb]; [reflexivity|].
    rewrite orb_assoc. reflexivity.
  Qed.

  Theorem avx_eval_output_spec :
    avx_eval_output lits lmem mask row =
    if existsb (fun j => fpos j || fneg j) (seq 0 n) then 0
    else if existsb act_at (seq 0 n) then 1 else 0.
  Proof.
    unfold avx_eval_output. pose proof (lmem_chunks Hdiv) as HK. set (k := (lmem / 32 - 1)%nat) in *.
    pose proof (eval_chunks_spec k 0 false ltac:(unfold c in HK; lia)) as A.
    destruct (eval_chunks lits row lmem 0 k false) as [act f]. destruct A as [A1 A2].
    cbn [Nat.mul orb] in A1, A2. rewrite HK in A1, A2.
    rewrite split_n, !existsb_app. rewrite <- A1.
    destruct f; cbn [orb]; [reflexivity|].
    rewrite (eval_reminder_spec k act HK). rewrite (A2 eq_refl). reflexivity.
  Qed.
End Outputs.
