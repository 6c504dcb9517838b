(** Memory safety of the AVX2 block: state transfer, initialisation, histories. *)
From Coq Require Import ZArith List Bool QArith Lia ZifyBool.
From Verif Require Import Base BaseProofs Spec ModelDense ModelLayout ModelAvx2 SpecAvx2 ModelSparse ModelSparseImp ModelAvx2Imp
  SpecAvx2Imp ProofsLayout ProofsSparseImp ProofsAvx2Imp ProofsAvx2ImpB ProofsAvx2ImpC.
Import ListNotations.
Open Scope Z_scope.

Lemma wmem_ge : forall pad n, (n <= wmem_of pad n)%nat.
Proof. intros pad n. unfold wmem_of. destruct pad; [|lia]. pose proof (Nat.div_mod n 128 ltac:(lia)). pose proof (Nat.mod_upper_bound n 128 ltac:(lia)). lia. Qed.
Lemma outs_ge : forall n, (n <= outs_of n)%nat.
Proof. intros n. unfold outs_of. pose proof (Nat.div_mod n 128 ltac:(lia)). pose proof (Nat.mod_upper_bound n 128 ltac:(lia)). lia. Qed.

(** ** Copies *)

Lemma cpy_mid : forall (A row B SA srow SB : list Z) o so n, (o + n <= length row)%nat -> (so + n <= length srow)%nat ->
  cpy (A ++ row ++ B) (length A + o) (SA ++ srow ++ SB) (length SA + so) n =
  Ret (A ++ (firstn o row ++ slice srow so n ++ skipn (o + n) row) ++ B).
Proof.
  intros A row B SA srow SB o so n H1 H2. unfold cpy. rewrite !app_length.
  destruct (Nat.leb_spec (length A + o + n) (length A + (length row + length B))); [|lia].
  destruct (Nat.leb_spec (length SA + so + n) (length SA + (length srow + length SB))); [|lia]. cbn [andb]. f_equal.
  change (memcpy (A ++ row ++ B) (length A + o) (SA ++ srow ++ SB) (length SA + so) n) with
    (memcpy (A ++ row ++ B) (length A + o) (skipn (length SA + so) (SA ++ srow ++ SB)) 0 n).
  rewrite memcpy_mid by auto. f_equal. f_equal. unfold memcpy. cbn [skipn]. f_equal. f_equal.
  exact (slice_mid SA srow SB so n H2).
Qed.
Lemma slice_len2 : forall (l : list Z) o n, (o + n <= length l)%nat -> length (slice l o n) = n.
Proof. intros. apply slice_length. lia. Qed.

Lemma put_row_eq : forall n L (src row : list Z), (n <= L)%nat -> length row = (2 * L)%nat -> length src = (2 * n)%nat ->
  let row1 := firstn 0 row ++ slice src 0 n ++ skipn (0 + n) row in
  firstn L row1 ++ slice src n n ++ skipn (L + n) row1 = put_row n L src row /\ length row1 = (2 * L)%nat.
Proof.
  intros n L src row HnL Hr Hs. cbn [firstn app Nat.add]. change (slice src 0 n) with (firstn n src).
  assert (Ln : length (firstn n src) = n) by (rewrite firstn_length; lia). cbv zeta. split.
  - unfold put_row. rewrite firstn_app, Ln. rewrite firstn_all2 by lia.
    rewrite skipn_app, Ln. rewrite (skipn_all2 (firstn n src)) by lia. cbn [app]. rewrite <- app_assoc. do 3 f_equal.
    replace (L + n - n)%nat with L by lia. rewrite <- skipn_add. f_equal. lia.
  - rewrite app_length, Ln, skipn_length. lia.
Qed.
Lemma put_row_len : forall n L (src row : list Z), (n <= L)%nat -> length row = (2 * L)%nat -> length src = (2 * n)%nat -> length (put_row n L src row) = (2 * L)%nat.
Proof.
  intros n L src row H1 H2 H3. unfold put_row. rewrite !app_length, firstn_length, skipn_length, !slice_len2 by lia. lia.
Qed.

Section transfer.
Variables (rest : list Z) (L n ncl : nat).
Hypothesis HnL : (n <= L)%nat.
Hypothesis HIc : Z.of_nat (ncl * L * 2) <= int_max.

Lemma set_state_loop : forall T P off SA S, Forall (fun r => length r = (2 * L)%nat) (P ++ T) -> length (P ++ T) = ncl ->
  Forall (fun r => length r = (2 * n)%nat) (SA ++ S) -> length SA = (off + length P)%nat -> (length T <= length S)%nat ->
  Z.of_nat ((off + ncl) * (2 * n)) <= int_max ->
  fold_ix (length T) (length P) (fun i cl =>
     bindR (int_ ((i + off) * (n * 2))) (fun src_o => bindR (int_ (i * (L * 2))) (fun dst_o =>
     bindR (cpy cl dst_o (concat (SA ++ S)) src_o n) (fun cl => cpy cl (dst_o + L) (concat (SA ++ S)) (src_o + n) n)))) (concat (P ++ T) ++ rest) =
  Ret (concat (P ++ map2 (put_row n L) S T) ++ rest).
Proof.
  intros T. induction T as [|row T IH]; intros P off SA S HF HN HS HA HT HI.
  - cbn [length fold_ix]. destruct S; reflexivity.
  - destruct S as [|src S]; [cbn [length] in HT; lia|]. cbn [length fold_ix map2] in *.
    assert (HP : Forall (fun r => length r = (2 * L)%nat) P) by (apply Forall_app in HF; apply HF).
    assert (Hr : length row = (2 * L)%nat) by (apply Forall_app in HF; destruct HF as [_ HF]; exact (Forall_inv HF)).
    assert (HSA : Forall (fun r => length r = (2 * n)%nat) SA) by (apply Forall_app in HS; apply HS).
    assert (Hs : length src = (2 * n)%nat) by (apply Forall_app in HS; destruct HS as [_ HS]; exact (Forall_inv HS)).
    assert (LN : (length P < ncl)%nat) by (rewrite app_length in HN; cbn [length] in HN; lia).
    assert (I1 : ((length P + off) * (n * 2) <= (off + ncl) * (2 * n))%nat) by (rewrite (Nat.mul_comm n 2); apply Nat.mul_le_mono_r; lia).
    assert (I2 : (length P * (L * 2) <= ncl * L * 2)%nat) by (rewrite <- Nat.mul_assoc; apply Nat.mul_le_mono_r; lia).
    rewrite (int_ok ((length P + off) * (n * 2))) by lia. cbn [bindR]. rewrite (int_ok (length P * (L * 2))) by lia. cbn [bindR].
    assert (EP : (length P * (L * 2))%nat = length (concat P)) by (rewrite (concat_len (2 * L)) by auto; lia).
    assert (ES : ((length P + off) * (n * 2))%nat = length (concat SA)) by (rewrite (concat_len (2 * n)) by auto; rewrite HA; lia).
    rewrite EP, ES. rewrite row_at. rewrite (concat_app SA). cbn [concat].
    pose proof (cpy_mid (concat P) row (concat T ++ rest) (concat SA) src (concat S) 0 0 n ltac:(lia) ltac:(lia)) as C1.
    rewrite !Nat.add_0_r in C1. rewrite C1. cbn [bindR].
    destruct (put_row_eq n L src row HnL Hr Hs) as [R1 R2]. cbv zeta in R1, R2. set (row1 := firstn 0 row ++ slice src 0 n ++ skipn (0 + n) row) in *.
    rewrite (cpy_mid (concat P) row1 (concat T ++ rest) (concat SA) src (concat S) L n n) by lia. cbn [bindR].
    rewrite R1. rewrite <- row_at.
    pose proof (IH (P ++ [put_row n L src row]) off (SA ++ [src]) S) as IH'. rewrite <- !app_assoc in IH'. cbn [app] in IH'.
    rewrite (concat_app SA) in IH'. cbn [concat] in IH'.
    replace (length (P ++ [put_row n L src row])) with (Datatypes.S (length P)) in IH' by (rewrite app_length; cbn [length]; lia).
    apply IH'.
    + apply Forall_app. split; auto. constructor; [apply put_row_len; auto|]. apply Forall_app in HF. destruct HF as [_ HF]. exact (Forall_inv_tail HF).
    + rewrite app_length in *. cbn [length] in *. lia.
    + exact HS.
    + rewrite app_length. cbn [length]. lia.
    + lia.
    + exact HI.
Qed.

Lemma own_row_eq : forall (row drow : list Z), length row = (2 * L)%nat -> length drow = (2 * n)%nat ->
  let d1 := firstn 0 drow ++ slice row 0 n ++ skipn (0 + n) drow in
  firstn n d1 ++ slice row L n ++ skipn (n + n) d1 = own_row n L row /\ length d1 = (2 * n)%nat.
Proof.
  intros row drow Hr Hd. cbn [firstn app Nat.add]. change (slice row 0 n) with (firstn n row).
  assert (Ln : length (firstn n row) = n) by (rewrite firstn_length; lia). cbv zeta. split.
  - unfold own_row. rewrite firstn_app, Ln, Nat.sub_diag. cbn [firstn]. rewrite app_nil_r. rewrite firstn_all2 by lia.
    rewrite skipn_all2; [apply f_equal, app_nil_r|]. rewrite app_length, Ln, skipn_length. lia.
  - rewrite app_length, Ln, skipn_length. lia.
Qed.

Lemma get_state_loop : forall T P off DA D, Forall (fun r => length r = (2 * L)%nat) (P ++ T) -> length (P ++ T) = ncl ->
  Forall (fun r => length r = (2 * n)%nat) (DA ++ D) -> length DA = (off + length P)%nat -> (length T <= length D)%nat ->
  Z.of_nat ((off + ncl) * (2 * n)) <= int_max ->
  fold_ix (length T) (length P) (fun i dst =>
     bindR (int_ (i * L * 2)) (fun src_o => bindR (int_ ((i + off) * n * 2)) (fun dst_o =>
     bindR (cpy dst dst_o (concat (P ++ T) ++ rest) src_o n) (fun dst => cpy dst (dst_o + n) (concat (P ++ T) ++ rest) (src_o + L) n)))) (concat (DA ++ D)) =
  Ret (concat (DA ++ map (own_row n L) T ++ skipn (length T) D)).
Proof.
  intros T. induction T as [|row T IH]; intros P off DA D HF HN HS HA HT HI.
  - reflexivity.
  - destruct D as [|d D]; [cbn [length] in HT; lia|]. cbn [length fold_ix map skipn] in *.
    assert (HP : Forall (fun r => length r = (2 * L)%nat) P) by (apply Forall_app in HF; apply HF).
    assert (Hr : length row = (2 * L)%nat) by (apply Forall_app in HF; destruct HF as [_ HF]; exact (Forall_inv HF)).
    assert (HSA : Forall (fun r => length r = (2 * n)%nat) DA) by (apply Forall_app in HS; apply HS).
    assert (Hs : length d = (2 * n)%nat) by (apply Forall_app in HS; destruct HS as [_ HS]; exact (Forall_inv HS)).
    assert (LN : (length P < ncl)%nat) by (rewrite app_length in HN; cbn [length] in HN; lia).
    assert (I1 : ((length P + off) * n * 2 <= (off + ncl) * (2 * n))%nat).
    { rewrite <- Nat.mul_assoc, (Nat.mul_comm n 2). apply Nat.mul_le_mono_r. lia. }
    assert (I2 : (length P * L * 2 <= ncl * L * 2)%nat) by (apply Nat.mul_le_mono_r, Nat.mul_le_mono_r; lia).
    rewrite (int_ok (length P * L * 2)) by lia. cbn [bindR]. rewrite (int_ok ((length P + off) * n * 2)) by lia. cbn [bindR].
    assert (EP : (length P * L * 2)%nat = length (concat P)) by (rewrite (concat_len (2 * L)) by auto; lia).
    assert (ES : ((length P + off) * n * 2)%nat = length (concat DA)) by (rewrite (concat_len (2 * n)) by auto; rewrite HA; lia).
    rewrite EP, ES. rewrite row_at. rewrite (concat_app DA). cbn [concat].
    pose proof (cpy_mid (concat DA) d (concat D) (concat P) row (concat T ++ rest) 0 0 n ltac:(lia) ltac:(lia)) as C1.
    rewrite !Nat.add_0_r in C1. rewrite C1. cbn [bindR].
    destruct (own_row_eq row d Hr Hs) as [R1 R2]. cbv zeta in R1, R2. set (d1 := firstn 0 d ++ slice row 0 n ++ skipn (0 + n) d) in *.
    rewrite (cpy_mid (concat DA) d1 (concat D) (concat P) row (concat T ++ rest) n L n) by lia. cbn [bindR].
    rewrite R1. rewrite <- row_at.
    pose proof (IH (P ++ [row]) off (DA ++ [own_row n L row]) D) as IH'. rewrite <- !app_assoc in IH'. cbn [app] in IH'.
    rewrite (concat_app DA) in IH'. cbn [concat] in IH'.
    replace (length (P ++ [row])) with (Datatypes.S (length P)) in IH' by (rewrite app_length; cbn [length]; lia).
    apply IH'.
    + exact HF.
    + exact HN.
    + apply Forall_app. split; auto. constructor.
      * unfold own_row. rewrite app_length, firstn_length, slice_len2; lia.
      * apply Forall_app in HS. destruct HS as [_ HS]. exact (Forall_inv_tail HS).
    + rewrite app_length. cbn [length]. lia.
    + lia.
    + exact HI.
Qed.
End transfer.

Lemma widen_cut : forall W k (w : list Z), length w = k -> firstn k (widen W w) = w /\ skipn k (widen W w) = repeat 0 (W - k).
Proof.
  intros W k w H. unfold widen. rewrite H. rewrite firstn_app, skipn_app, H, Nat.sub_diag. cbn [firstn skipn].
  rewrite firstn_all2, skipn_all2 by lia. rewrite app_nil_r. auto.
Qed.
Lemma wlen : forall W k, (k <= W)%nat -> forall P, Forall (fun r : list Z => length r = k) P -> length (concat (map (widen W) P)) = (length P * W)%nat.
Proof.
  intros W k HkW P H. rewrite (concat_len W); [rewrite map_length; reflexivity|]. apply Forall_map. eapply Forall_impl; [|exact H].
  cbv beta. intros a Ha. apply widen_len. lia.
Qed.

Section wtransfer.
Variables (W k ncl : nat).
Hypothesis HkW : (k <= W)%nat.
Hypothesis HIw : Z.of_nat (ncl * W) <= int_max.

Lemma set_wts_loop : forall T P off SA S, Forall (fun r => length r = k) (P ++ T) -> length (P ++ T) = ncl ->
  Forall (fun r => length r = k) (SA ++ S) -> length SA = (off + length P)%nat -> (length T <= length S)%nat ->
  Z.of_nat ((off + ncl) * k) <= int_max ->
  fold_ix (length T) (length P) (fun i ws =>
     bindR (int_ ((i + off) * k)) (fun src_o => bindR (int_ (i * W)) (fun dst_o =>
     cpy ws dst_o (concat (SA ++ S)) src_o k))) (concat (map (widen W) (P ++ T))) =
  Ret (concat (map (widen W) (P ++ firstn (length T) S))).
Proof.
  intros T. induction T as [|row T IH]; intros P off SA S HF HN HS HA HT HI.
  - cbn [length fold_ix]. rewrite firstn_O. reflexivity.
  - destruct S as [|src S]; [cbn [length] in HT; lia|]. cbn [length fold_ix firstn] in *.
    assert (HP : Forall (fun r => length r = k) P) by (apply Forall_app in HF; apply HF).
    assert (Hr : length row = k) by (apply Forall_app in HF; destruct HF as [_ HF]; exact (Forall_inv HF)).
    assert (HSA : Forall (fun r => length r = k) SA) by (apply Forall_app in HS; apply HS).
    assert (Hs : length src = k) by (apply Forall_app in HS; destruct HS as [_ HS]; exact (Forall_inv HS)).
    assert (LN : (length P < ncl)%nat) by (rewrite app_length in HN; cbn [length] in HN; lia).
    assert (I1 : ((length P + off) * k <= (off + ncl) * k)%nat) by (apply Nat.mul_le_mono_r; lia).
    assert (I2 : (length P * W <= ncl * W)%nat) by (apply Nat.mul_le_mono_r; lia).
    rewrite (int_ok ((length P + off) * k)) by lia. cbn [bindR]. rewrite (int_ok (length P * W)) by lia. cbn [bindR].
    rewrite <- (wlen W k HkW P HP).
    assert (ES : ((length P + off) * k)%nat = length (concat SA)) by (rewrite (concat_len k) by auto; rewrite HA; lia). rewrite ES.
    rewrite (concat_app SA). cbn [concat].
    assert (EW : forall w, concat (map (widen W) (P ++ w :: T)) = concat (map (widen W) P) ++ widen W w ++ concat (map (widen W) T)).
    { intros w. rewrite map_app, concat_app. reflexivity. }
    rewrite (EW row).
    assert (Lw : length (widen W row) = W) by (apply widen_len; lia).
    pose proof (cpy_mid (concat (map (widen W) P)) (widen W row) (concat (map (widen W) T)) (concat SA) src (concat S) 0 0 k ltac:(lia) ltac:(lia)) as C1.
    rewrite !Nat.add_0_r in C1. rewrite C1. cbn [bindR firstn app Nat.add].
    destruct (widen_cut W k row Hr) as [_ Cr]. rewrite Cr.
    assert (E1 : slice src 0 k ++ repeat 0 (W - k) = widen W src).
    { unfold slice, widen. cbn [skipn]. rewrite firstn_all2 by lia. rewrite Hs. reflexivity. }
    rewrite E1. rewrite <- EW.
    pose proof (IH (P ++ [src]) off (SA ++ [src]) S) as IH'. rewrite <- !app_assoc in IH'. cbn [app] in IH'.
    rewrite (concat_app SA) in IH'. cbn [concat] in IH'.
    replace (length (P ++ [src])) with (Datatypes.S (length P)) in IH' by (rewrite app_length; cbn [length]; lia).
    apply IH'.
    + apply Forall_app. split; auto. constructor; auto. apply Forall_app in HF. destruct HF as [_ HF]. exact (Forall_inv_tail HF).
    + rewrite app_length in *. cbn [length] in *. lia.
    + exact HS.
    + rewrite app_length. cbn [length]. lia.
    + lia.
    + exact HI.
Qed.
Lemma get_wts_loop : forall T P off DA D, Forall (fun r => length r = k) (P ++ T) -> length (P ++ T) = ncl ->
  Forall (fun r => length r = k) (DA ++ D) -> length DA = (off + length P)%nat -> (length T <= length D)%nat ->
  Z.of_nat ((off + ncl) * k) <= int_max ->
  fold_ix (length T) (length P) (fun i dst =>
     bindR (int_ (i * W)) (fun src_o => bindR (int_ ((i + off) * k)) (fun dst_o =>
     cpy dst dst_o (concat (map (widen W) (P ++ T))) src_o k))) (concat (DA ++ D)) =
  Ret (concat (DA ++ T ++ skipn (length T) D)).
Proof.
  intros T. induction T as [|row T IH]; intros P off DA D HF HN HS HA HT HI.
  - reflexivity.
  - destruct D as [|d D]; [cbn [length] in HT; lia|]. cbn [length fold_ix skipn] in *.
    assert (HP : Forall (fun r => length r = k) P) by (apply Forall_app in HF; apply HF).
    assert (Hr : length row = k) by (apply Forall_app in HF; destruct HF as [_ HF]; exact (Forall_inv HF)).
    assert (HSA : Forall (fun r => length r = k) DA) by (apply Forall_app in HS; apply HS).
    assert (Hs : length d = k) by (apply Forall_app in HS; destruct HS as [_ HS]; exact (Forall_inv HS)).
    assert (LN : (length P < ncl)%nat) by (rewrite app_length in HN; cbn [length] in HN; lia).
    assert (I1 : ((length P + off) * k <= (off + ncl) * k)%nat) by (apply Nat.mul_le_mono_r; lia).
    assert (I2 : (length P * W <= ncl * W)%nat) by (apply Nat.mul_le_mono_r; lia).
    rewrite (int_ok (length P * W)) by lia. cbn [bindR]. rewrite (int_ok ((length P + off) * k)) by lia. cbn [bindR].
    rewrite <- (wlen W k HkW P HP).
    assert (ES : ((length P + off) * k)%nat = length (concat DA)) by (rewrite (concat_len k) by auto; rewrite HA; lia). rewrite ES.
    rewrite (concat_app DA). cbn [concat].
    assert (EW : concat (map (widen W) (P ++ row :: T)) = concat (map (widen W) P) ++ widen W row ++ concat (map (widen W) T)).
    { rewrite map_app, concat_app. reflexivity. }
    assert (Lw : length (widen W row) = W) by (apply widen_len; lia).
    rewrite EW. pose proof (cpy_mid (concat DA) d (concat D) (concat (map (widen W) P)) (widen W row) (concat (map (widen W) T)) 0 0 k ltac:(lia) ltac:(lia)) as C1.
    rewrite !Nat.add_0_r in C1. rewrite C1. cbn [bindR firstn app Nat.add]. rewrite <- EW.
    destruct (widen_cut W k row Hr) as [Cr _]. change (slice (widen W row) 0 k) with (firstn k (widen W row)). rewrite Cr.
    rewrite (skipn_all2 d) by lia. rewrite app_nil_r.
    pose proof (IH (P ++ [row]) off (DA ++ [row]) D) as IH'. rewrite <- !app_assoc in IH'. cbn [app] in IH'.
    rewrite (concat_app DA) in IH'. cbn [concat] in IH'.
    replace (length (P ++ [row])) with (Datatypes.S (length P)) in IH' by (rewrite app_length; cbn [length]; lia).
    apply IH'.
    + exact HF.
    + exact HN.
    + apply Forall_app. split; auto. constructor; auto. apply Forall_app in HS. destruct HS as [_ HS]. exact (Forall_inv_tail HS).
    + rewrite app_length. cbn [length]. lia.
    + lia.
    + exact HI.
Qed.
End wtransfer.
