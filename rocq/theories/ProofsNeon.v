(** The NEON kernels: outputs lane by lane. *)
From Coq Require Import ZArith Arith List Bool QArith Lia.
From Verif Require Import Base BaseProofs Spec SpecLearning ModelDense ModelLayout ModelFeedback ModelExecutor ModelDenseExec ModelAvx2 ModelNeon
  ProofsClause ProofsLayout ProofsStep ProofsAvx2.
Import ListNotations.
Open Scope Z_scope.

Notation nlanes f := (map f (seq 0 16)).

Lemma nset1_lanes : forall v, nv_set1 v = nlanes (fun _ => v).
Proof. reflexivity. Qed.

Lemma nload_lanes : forall mem off, (off + 16 <= length mem)%nat -> nv_load mem off = nlanes (fun i => nth (off + i) mem 0).
Proof. intros. now apply slice_lanes. Qed.

Lemma nload_u_lanes : forall mem off, (off + 16 <= length mem)%nat -> nv_load_u mem off = nlanes (fun i => wrap8 (nth (off + i) mem 0)).
Proof. intros. unfold nv_load_u. rewrite slice_lanes by auto. now rewrite map_map. Qed.

Ltac nvlanes :=
  unfold v_cmpgt, v_cmpeq, v_and, v_or, v_adds, v_not; rewrite ?nset1_lanes;
  repeat (rewrite map2_map || rewrite map_map).

Lemma lane_nz : forall c, negb (Z.lnot (if c <? 0 then -1 else 0) =? 0) = (0 <=? c).
Proof. intros c. destruct (Z.ltb_spec c 0), (Z.leb_spec 0 c); try lia; reflexivity. Qed.

Lemma lane_nz_m : forall v (m : bool),
  negb (Z.land (Z.lnot (if v <? 0 then -1 else 0)) (if m then -1 else 0) =? 0) = m && (0 <=? v).
Proof. intros v m. destruct (Z.ltb_spec v 0), (Z.leb_spec 0 v); try lia; destruct m; reflexivity. Qed.

Lemma nlane_pos : forall c l, negb ((if Z.lor (if c <? 0 then -1 else 0) l =? 0 then -1 else 0) =? 0) = (0 <=? c) && (l =? 0).
Proof.
  intros c l. destruct (Z.ltb_spec c 0), (Z.leb_spec 0 c); try lia; cbn [andb].
  - now rewrite Z.lor_m1_l.
  - rewrite Z.lor_0_l. destruct (l =? 0); reflexivity.
Qed.

Lemma nlane_neg : forall c l, negb ((if Z.lor (if c <? 0 then -1 else 0) (if 0 =? l then -1 else 0) =? 0 then -1 else 0) =? 0)
  = (0 <=? c) && negb (l =? 0).
Proof. intros c l. rewrite nlane_pos. rewrite (Z.eqb_sym 0 l). destruct (l =? 0); reflexivity. Qed.

Lemma nlane_active : forall c, (Z.lnot (if c <? 0 then -1 else 0) <? 0) = (0 <=? c).
Proof. intros c. destruct (Z.ltb_spec c 0), (Z.leb_spec 0 c); try lia; reflexivity. Qed.

Lemma nlane_pos_m : forall v l (m : bool),
  negb ((if Z.lor (Z.lnot (Z.land (Z.lnot (if v <? 0 then -1 else 0)) (if m then -1 else 0))) l =? 0 then -1 else 0) =? 0)
  = m && ((0 <=? v) && (l =? 0)).
Proof.
  intros v l m. destruct (Z.ltb_spec v 0), (Z.leb_spec 0 v); try lia; destruct m; cbn [andb]; cbn [Z.lnot Z.pred Z.opp Z.pos_sub Z.add Z.land].
  all: try (change (Z.lnot 0) with (-1); rewrite Z.lor_m1_l; reflexivity).
  - change (Z.lnot (Z.land (Z.lnot 0) (-1))) with 0. rewrite Z.lor_0_l. destruct (l =? 0); reflexivity.
Qed.

Lemma nlane_act_m : forall v (m : bool),
  (Z.land (Z.lnot (if v <? 0 then -1 else 0)) (if m then -1 else 0) <? 0) = m && (0 <=? v).
Proof. intros v m. destruct (Z.ltb_spec v 0), (Z.leb_spec 0 v); try lia; destruct m; reflexivity. Qed.

Lemma nlane_pos_e : forall v l (m : bool),
  negb (Z.land (if Z.lor (if v <? 0 then -1 else 0) l =? 0 then -1 else 0) (if m then -1 else 0) =? 0)
  = m && ((0 <=? v) && (l =? 0)).
Proof.
  intros v l m. destruct (Z.ltb_spec v 0), (Z.leb_spec 0 v); try lia; cbn [andb].
  - rewrite Z.lor_m1_l. destruct m; reflexivity.
  - rewrite Z.lor_0_l. destruct (l =? 0), m; reflexivity.
Qed.

Section Outputs.
  Variables (lits row : list Z) (lmem : nat).
  Local Notation fpos := (fpos lits row).
  Local Notation fneg := (fneg lits row lmem).
  Local Notation ipos := (ipos row).
  Local Notation ineg := (ineg row lmem).
  Local Notation act_at := (act_at row lmem).

  Hypothesis Hrow : length row = (2 * lmem)%nat.
  Hypothesis Hlits : (lmem <= length lits)%nat.

  Lemma nset_chunk_spec : forall c count, (c * 16 + 16 <= lmem)%nat ->
    let '(count', f) := nset_chunk lits row lmem c count in
    f = existsb (fun j => fpos j || fneg j) (seq (c * 16) 16) /\
    (f = false -> count' = count + zsum (map (fun j => ipos j + ineg j) (seq (c * 16) 16))).
  Proof.
    intros c count H. unfold nset_chunk.
    rewrite !nload_u_lanes, !nload_lanes by lia. nvlanes.
    rewrite !any_lanes, !popcount_lanes.
    assert (E1 : existsb (fun i => negb ((if Z.lor (if nth (c * 16 + i) row 0 <? 0 then -1 else 0) (wrap8 (nth (c * 16 + i) lits 0)) =? 0 then -1 else 0) =? 0)) (seq 0 16)
                 = existsb fpos (seq (c * 16) 16)).
    { rewrite <- (existsb_shift fpos). apply existsb_ext_in. intros i _. apply nlane_pos. }
    assert (E2 : existsb (fun i => negb ((if Z.lor (if nth (lmem + c * 16 + i) row 0 <? 0 then -1 else 0)
                    (if 0 =? wrap8 (nth (c * 16 + i) lits 0) then -1 else 0) =? 0 then -1 else 0) =? 0)) (seq 0 16)
                 = existsb fneg (seq (c * 16) 16)).
    { rewrite <- (existsb_shift fneg). apply existsb_ext_in. intros i _. rewrite nlane_neg. unfold ProofsAvx2.fneg.
      now rewrite Nat.add_assoc. }
    assert (C1 : zsum (map (fun i => b2z (Z.lnot (if nth (c * 16 + i) row 0 <? 0 then -1 else 0) <? 0)) (seq 0 16))
                 = zsum (map ipos (seq (c * 16) 16))).
    { rewrite <- (seq_shift_map _ ipos). apply zsum_map_ext. intros i _. unfold ProofsAvx2.ipos. now rewrite nlane_active. }
    assert (C2 : zsum (map (fun i => b2z (Z.lnot (if nth (lmem + c * 16 + i) row 0 <? 0 then -1 else 0) <? 0)) (seq 0 16))
                 = zsum (map ineg (seq (c * 16) 16))).
    { rewrite <- (seq_shift_map _ ineg). apply zsum_map_ext. intros i _. unfold ProofsAvx2.ineg. now rewrite nlane_active, Nat.add_assoc. }
    rewrite E1, E2, C1, C2. rewrite existsb_orb.
    destruct (existsb fpos (seq (c * 16) 16)); cbn [orb]; [split; [reflexivity|discriminate]|].
    split; [reflexivity|]. intros _.
    assert (D : forall l, zsum (map (fun j => ipos j + ineg j) l) = zsum (map ipos l) + zsum (map ineg l)).
    { induction l as [|a l IH]; cbn [map zsum]; [reflexivity|]. rewrite IH. lia. }
    rewrite D. lia.
  Qed.

  Lemma nchunk_seq : forall c k, seq (c * 16) (S k * 16) = seq (c * 16) 16 ++ seq (S c * 16) (k * 16).
  Proof. intros. replace (S k * 16)%nat with (16 + k * 16)%nat by lia. rewrite seq_app. do 2 f_equal. lia. Qed.

  Lemma nset_chunks_spec : forall k c count, ((c + k) * 16 <= lmem)%nat ->
    let '(count', f) := nset_chunks lits row lmem c k count in
    f = existsb (fun j => fpos j || fneg j) (seq (c * 16) (k * 16)) /\
    (f = false -> count' = count + zsum (map (fun j => ipos j + ineg j) (seq (c * 16) (k * 16)))).
  Proof.
    induction k as [|k IH]; intros c count H.
    - cbn [nset_chunks Nat.mul seq existsb map zsum]. split; [reflexivity|intros; lia].
    - cbn [nset_chunks]. pose proof (nset_chunk_spec c count ltac:(lia)) as A.
      destruct (nset_chunk lits row lmem c count) as [c1 f1]. destruct A as [A1 A2].
      rewrite nchunk_seq, existsb_app, map_app, zsum_app'. rewrite <- A1.
      destruct f1; cbn [orb]; [split; [reflexivity|discriminate]|].
      pose proof (IH (S c) c1 ltac:(lia)) as B. destruct (nset_chunks lits row lmem (S c) k c1) as [c2 f2].
      destruct B as [B1 B2]. split; [exact B1|]. intros F. rewrite (B2 F), (A2 eq_refl). lia.
  Qed.

  Variables (n : nat) (mask : vec).
  Hypothesis Hmask : mask = nlanes (fun i => if (lmem - 16 + i <? n)%nat then -1 else 0).
  Hypothesis Hn : (lmem - 16 <= n <= lmem)%nat.
  Hypothesis Hl16 : (16 <= lmem)%nat.
  Let c := (lmem - 16)%nat.

  Lemma nmask_cut : forall (f : nat -> bool),
    existsb (fun i => (c + i <? n)%nat && f (c + i)%nat) (seq 0 16) = existsb f (seq c (n - c)).
  Proof.
    intros f. rewrite (existsb_shift (fun j => (j <? n)%nat && f j)).
    replace 16%nat with ((n - c) + (16 - (n - c)))%nat by (unfold c; lia).
    rewrite seq_app, existsb_app.
    assert (A : existsb (fun j => (j <? n)%nat && f j) (seq (c + (n - c)) (16 - (n - c))) = false).
    { apply not_true_is_false. intros E. apply existsb_exists in E. destruct E as [j [E1 E2]]. apply in_seq in E1.
      apply andb_true_iff in E2. destruct E2 as [E2 _]. apply Nat.ltb_lt in E2. unfold c in *. lia. }
    rewrite A, orb_false_r. apply existsb_ext_in. intros j Hj. apply in_seq in Hj.
    replace (j <? n)%nat with true by (symmetry; apply Nat.ltb_lt; unfold c in *; lia). reflexivity.
  Qed.

  Lemma nmask_sum : forall (f : nat -> bool),
    zsum (map (fun i => b2z ((c + i <? n)%nat && f (c + i)%nat)) (seq 0 16)) = zsum (map (fun j => b2z (f j)) (seq c (n - c))).
  Proof.
    intros f. rewrite (seq_shift_map _ (fun j => b2z ((j <? n)%nat && f j))).
    replace 16%nat with ((n - c) + (16 - (n - c)))%nat by (unfold c; lia).
    rewrite seq_app, map_app, zsum_app'.
    assert (A : zsum (map (fun j => b2z ((j <? n)%nat && f j)) (seq (c + (n - c)) (16 - (n - c)))) = 0).
    { rewrite (zsum_map_ext _ _ (fun _ => 0)).
      - generalize (seq (c + (n - c)) (16 - (n - c))). induction l as [|a l IH]; cbn [map zsum]; auto.
      - intros j Hj. apply in_seq in Hj. replace (j <? n)%nat with false by (symmetry; apply Nat.ltb_ge; unfold c in *; lia). reflexivity. }
    rewrite A, Z.add_0_r. apply zsum_map_ext. intros j Hj. apply in_seq in Hj.
    replace (j <? n)%nat with true by (symmetry; apply Nat.ltb_lt; unfold c in *; lia). reflexivity.
  Qed.

  Lemma nset_reminder_spec : forall k count, (k * 16)%nat = c ->
    let '(o, st) := nset_reminder lits row lmem mask k count in
    o = (if existsb (fun j => fpos j || fneg j) (seq c (n - c)) then 0 else 1) /\
    (o = 1 -> st = count + zsum (map (fun j => ipos j + ineg j) (seq c (n - c)))).
  Proof.
    intros k count Hk. unfold nset_reminder. rewrite Hk, Hmask.
    rewrite !nload_u_lanes, !nload_lanes by (unfold c; lia). nvlanes. rewrite !any_lanes, !popcount_lanes.
    fold c.
    assert (E1 : existsb (fun i => negb ((if Z.lor (Z.lnot (Z.land (Z.lnot (if nth (c + i) row 0 <? 0 then -1 else 0))
                     (if (c + i <? n)%nat then -1 else 0))) (wrap8 (nth (c + i) lits 0)) =? 0 then -1 else 0) =? 0)) (seq 0 16)
                 = existsb fpos (seq c (n - c))).
    { rewrite <- nmask_cut. apply existsb_ext_in. intros i _. apply nlane_pos_m. }
    assert (E2 : existsb (fun i => negb ((if Z.lor (Z.lnot (Z.land (Z.lnot (if nth (lmem + c + i) row 0 <? 0 then -1 else 0))
                     (if (c + i <? n)%nat then -1 else 0))) (if 0 =? wrap8 (nth (c + i) lits 0) then -1 else 0) =? 0 then -1 else 0) =? 0)) (seq 0 16)
                 = existsb fneg (seq c (n - c))).
    { rewrite <- nmask_cut. apply existsb_ext_in. intros i _. rewrite nlane_pos_m. unfold ProofsAvx2.fneg. rewrite Nat.add_assoc, (Z.eqb_sym 0).
      destruct (wrap8 (nth (c + i) lits 0) =? 0); reflexivity. }
    assert (C1 : zsum (map (fun i => b2z (Z.land (Z.lnot (if nth (c + i) row 0 <? 0 then -1 else 0)) (if (c + i <? n)%nat then -1 else 0) <? 0)) (seq 0 16))
                 = zsum (map ipos (seq c (n - c)))).
    { unfold ProofsAvx2.ipos. rewrite <- (nmask_sum (fun j => 0 <=? nth j row 0)). apply zsum_map_ext. intros i _. now rewrite nlane_act_m. }
    assert (C2 : zsum (map (fun i => b2z (Z.land (Z.lnot (if nth (lmem + c + i) row 0 <? 0 then -1 else 0)) (if (c + i <? n)%nat then -1 else 0) <? 0)) (seq 0 16))
                 = zsum (map ineg (seq c (n - c)))).
    { unfold ProofsAvx2.ineg. rewrite <- (nmask_sum (fun j => 0 <=? nth (lmem + j) row 0)). apply zsum_map_ext. intros i _.
      now rewrite nlane_act_m, Nat.add_assoc. }
    rewrite E1, E2, C1, C2, existsb_orb.
    destruct (existsb fpos (seq c (n - c))); cbn [orb]; [split; [reflexivity|discriminate]|].
    split; [reflexivity|]. intros _.
    assert (D : forall l, zsum (map (fun j => ipos j + ineg j) l) = zsum (map ipos l) + zsum (map ineg l)).
    { induction l as [|a l IH]; cbn [map zsum]; [reflexivity|]. rewrite IH. lia. }
    rewrite D. lia.
  Qed.

  Lemma nlmem_chunks : lmem = (lmem / 16 * 16)%nat -> ((lmem / 16 - 1) * 16)%nat = c.
  Proof. intros H. unfold c. assert (1 <= lmem / 16)%nat by (apply Nat.div_le_lower_bound; lia). nia. Qed.

  Hypothesis Hdiv : lmem = (lmem / 16 * 16)%nat.

  Lemma nsplit_n : seq 0 n = seq 0 c ++ seq c (n - c).
  Proof. rewrite <- seq_app. f_equal. unfold c. lia. Qed.

  Theorem neon_set_output_spec :
    let '(o, st) := neon_set_output lits lmem mask row in
    o = (if existsb (fun j => fpos j || fneg j) (seq 0 n) then 0 else 1) /\
    (o = 1 -> st = zsum (map (fun j => ipos j + ineg j) (seq 0 n))).
  Proof.
    unfold neon_set_output. pose proof (nlmem_chunks Hdiv) as HK. set (k := (lmem / 16 - 1)%nat) in *.
    pose proof (nset_chunks_spec k 0 0 ltac:(unfold c in HK; lia)) as A.
    destruct (nset_chunks lits row lmem 0 k 0) as [count f]. destruct A as [A1 A2].
    cbn [Nat.mul] in A1, A2. rewrite HK in A1, A2.
    rewrite nsplit_n, existsb_app, map_app, zsum_app'. rewrite <- A1.
    destruct f; cbn [orb]; [split; [reflexivity|discriminate]|].
    pose proof (nset_reminder_spec k count HK) as B. destruct (nset_reminder lits row lmem mask k count) as [o st].
    destruct B as [B1 B2]. split; [exact B1|]. intros Ho. rewrite (B2 Ho). rewrite (A2 eq_refl). lia.
  Qed.

  (** Evaluation.  A falsified literal is an included one, so the activity flag
      is right on the early exits too. *)
  Lemma false_active : forall l, existsb (fun j => fpos j || fneg j) l = true -> existsb act_at l = true.
  Proof.
    intros l H. apply existsb_exists in H. destruct H as [j [H1 H2]]. apply existsb_exists. exists j. split; auto.
    unfold ProofsAvx2.act_at. unfold ProofsAvx2.fpos, ProofsAvx2.fneg in H2.
    destruct (0 <=? nth j row 0); [reflexivity|]. destruct (0 <=? nth (lmem + j) row 0); [reflexivity|discriminate].
  Qed.

  Lemma fpos_active : forall l, existsb fpos l = true -> existsb (fun j => 0 <=? nth j row 0) l = true.
  Proof.
    intros l H. apply existsb_exists in H. destruct H as [j [H1 H2]]. apply existsb_exists. exists j. split; auto.
    unfold ProofsAvx2.fpos in H2. now apply andb_true_iff in H2.
  Qed.

  Lemma neval_chunk_spec : forall d act, (d * 16 + 16 <= lmem)%nat ->
    let '(act', f) := neval_chunk lits row lmem d act in
    f = existsb (fun j => fpos j || fneg j) (seq (d * 16) 16) /\
    act' = act || existsb act_at (seq (d * 16) 16).
  Proof.
    intros d act H. unfold neval_chunk.
    rewrite !nload_u_lanes, !nload_lanes by lia. nvlanes. rewrite !any_lanes, ?any_lanes.
    assert (E1 : existsb (fun i => negb ((if Z.lor (if nth (d * 16 + i) row 0 <? 0 then -1 else 0) (wrap8 (nth (d * 16 + i) lits 0)) =? 0 then -1 else 0) =? 0)) (seq 0 16)
                 = existsb fpos (seq (d * 16) 16)).
    { rewrite <- (existsb_shift fpos). apply existsb_ext_in. intros i _. apply nlane_pos. }
    assert (E2 : existsb (fun i => negb ((if Z.lor (if nth (lmem + d * 16 + i) row 0 <? 0 then -1 else 0)
                    (if 0 =? wrap8 (nth (d * 16 + i) lits 0) then -1 else 0) =? 0 then -1 else 0) =? 0)) (seq 0 16)
                 = existsb fneg (seq (d * 16) 16)).
    { rewrite <- (existsb_shift fneg). apply existsb_ext_in. intros i _. rewrite nlane_neg. unfold ProofsAvx2.fneg.
      now rewrite Nat.add_assoc. }
    assert (C1 : existsb (fun i => negb (Z.lnot (if nth (d * 16 + i) row 0 <? 0 then -1 else 0) =? 0)) (seq 0 16)
                 = existsb (fun j => 0 <=? nth j row 0) (seq (d * 16) 16)).
    { rewrite <- (existsb_shift (fun j => 0 <=? nth j row 0)). apply existsb_ext_in. intros i _. apply lane_nz. }
    assert (C2 : existsb (fun i => negb (Z.lnot (if nth (lmem + d * 16 + i) row 0 <? 0 then -1 else 0) =? 0)) (seq 0 16)
                 = existsb (fun j => 0 <=? nth (lmem + j) row 0) (seq (d * 16) 16)).
    { rewrite <- (existsb_shift (fun j => 0 <=? nth (lmem + j) row 0)). apply existsb_ext_in. intros i _.
      now rewrite lane_nz, Nat.add_assoc. }
    rewrite E1, E2, C1, C2. unfold ProofsAvx2.act_at. rewrite !existsb_orb.
    pose proof (fpos_active (seq (d * 16) 16)) as FA.
    destruct (existsb fpos (seq (d * 16) 16)); cbn [orb].
    - rewrite (FA eq_refl). cbn [orb]. now rewrite orb_true_r.
    - split; [reflexivity|]. now rewrite orb_assoc.
  Qed.

  Lemma neval_chunks_spec : forall k d act, ((d + k) * 16 <= lmem)%nat ->
    let '(act', f) := neval_chunks lits row lmem d k act in
    f = existsb (fun j => fpos j || fneg j) (seq (d * 16) (k * 16)) /\
    act' = act || existsb act_at (seq (d * 16) (k * 16)).
  Proof.
    induction k as [|k IH]; intros d act H.
    - cbn [neval_chunks Nat.mul seq existsb map zsum]. split; [reflexivity|now rewrite orb_false_r].
    - cbn [neval_chunks]. pose proof (neval_chunk_spec d act ltac:(lia)) as A.
      destruct (neval_chunk lits row lmem d act) as [c1 f1]. destruct A as [A1 A2].
      rewrite nchunk_seq, !existsb_app. rewrite <- A1.
      destruct f1; cbn [orb].
      { split; [reflexivity|]. rewrite A2, (false_active _ (eq_sym A1)). cbn [orb]. now rewrite !orb_true_r. }
      pose proof (IH (S d) c1 ltac:(lia)) as B. destruct (neval_chunks lits row lmem (S d) k c1) as [c2 f2].
      destruct B as [B1 B2]. split; [exact B1|]. rewrite B2, A2. now rewrite orb_assoc.
  Qed.

  Lemma neval_reminder_spec : forall k act, (k * 16)%nat = c ->
    neval_reminder lits row lmem mask k act =
    (if existsb (fun j => fpos j || fneg j) (seq c (n - c)) then 0
     else if act || existsb act_at (seq c (n - c)) then 1 else 0, act || existsb act_at (seq c (n - c))).
  Proof.
    intros k act Hk. unfold neval_reminder. rewrite Hk, Hmask.
    rewrite !nload_u_lanes, !nload_lanes by (unfold c; lia). nvlanes. rewrite !any_lanes, ?any_lanes.
    fold c.
    assert (E1 : existsb (fun i => negb (Z.land (if Z.lor (if nth (c + i) row 0 <? 0 then -1 else 0) (wrap8 (nth (c + i) lits 0)) =? 0 then -1 else 0)
                    (if (c + i <? n)%nat then -1 else 0) =? 0)) (seq 0 16) = existsb fpos (seq c (n - c))).
    { rewrite <- nmask_cut. apply existsb_ext_in. intros i _. apply nlane_pos_e. }
    assert (E2 : existsb (fun i => negb (Z.land (if Z.lor (if nth (lmem + c + i) row 0 <? 0 then -1 else 0)
                    (if 0 =? wrap8 (nth (c + i) lits 0) then -1 else 0) =? 0 then -1 else 0)
                    (if (c + i <? n)%nat then -1 else 0) =? 0)) (seq 0 16) = existsb fneg (seq c (n - c))).
    { rewrite <- nmask_cut. apply existsb_ext_in. intros i _. rewrite nlane_pos_e. unfold ProofsAvx2.fneg. rewrite Nat.add_assoc, (Z.eqb_sym 0).
      destruct (wrap8 (nth (c + i) lits 0) =? 0); reflexivity. }
    assert (C1 : existsb (fun i => negb (Z.land (Z.lnot (if nth (c + i) row 0 <? 0 then -1 else 0)) (if (c + i <? n)%nat then -1 else 0) =? 0)) (seq 0 16)
                 = existsb (fun j => 0 <=? nth j row 0) (seq c (n - c))).
    { rewrite <- nmask_cut. apply existsb_ext_in. intros i _. apply lane_nz_m. }
    assert (C2 : existsb (fun i => negb (Z.land (Z.lnot (if nth (lmem + c + i) row 0 <? 0 then -1 else 0)) (if (c + i <? n)%nat then -1 else 0) =? 0)) (seq 0 16)
                 = existsb (fun j => 0 <=? nth (lmem + j) row 0) (seq c (n - c))).
    { rewrite <- (nmask_cut (fun j => 0 <=? nth (lmem + j) row 0)). apply existsb_ext_in. intros i _.
      now rewrite lane_nz_m, Nat.add_assoc. }
    rewrite E1, E2, C1, C2. unfold ProofsAvx2.act_at. rewrite !existsb_orb.
    pose proof (fpos_active (seq c (n - c))) as FA.
    destruct (existsb fpos (seq c (n - c))); cbn [orb].
    - rewrite (FA eq_refl). cbn [orb]. reflexivity.
    - rewrite orb_assoc. reflexivity.
  Qed.

  Theorem neon_eval_clause_spec : forall act,
    neon_eval_clause lits lmem mask row act =
    (if existsb (fun j => fpos j || fneg j) (seq 0 n) then 0
     else if act || existsb act_at (seq 0 n) then 1 else 0, act || existsb act_at (seq 0 n)).
  Proof.
    intros act0. unfold neon_eval_clause. pose proof (nlmem_chunks Hdiv) as HK. set (k := (lmem / 16 - 1)%nat) in *.
    pose proof (neval_chunks_spec k 0 act0 ltac:(unfold c in HK; lia)) as A.
    destruct (neval_chunks lits row lmem 0 k act0) as [act f]. destruct A as [A1 A2].
    cbn [Nat.mul] in A1, A2. rewrite HK in A1, A2.
    rewrite nsplit_n, !existsb_app. rewrite <- A1.
    destruct f; cbn [orb].
    - rewrite A2, (false_active _ (eq_sym A1)). cbn [orb]. now rewrite orb_true_r.
    - rewrite (neval_reminder_spec k act HK). rewrite A2, !orb_assoc. reflexivity.
  Qed.
End Outputs.
