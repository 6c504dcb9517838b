(** Input blocks, im2col and the XOR data set. *)
From Coq Require Import ZArith Arith List Bool QArith Lia.
From Verif Require Import Base BaseProofs Spec SpecInput ModelLayout ModelFeedback ModelExecutor ModelMachine ModelInput ModelDataset
  ProofsLayout.
Import ListNotations.
Open Scope Z_scope.

(** ** Writing to memory *)

Definition write (mem : list Z) (off : nat) (l : list Z) : list Z :=
  firstn off mem ++ l ++ skipn (off + length l) mem.

Lemma write_length : forall mem off l, (off + length l <= length mem)%nat -> length (write mem off l) = length mem.
Proof. intros. unfold write. rewrite !app_length, firstn_length, skipn_length. lia. Qed.

Lemma write_nil : forall mem off, write mem off [] = mem.
Proof. intros. unfold write. cbn [app length]. rewrite Nat.add_0_r. apply firstn_skipn. Qed.

Lemma memcpy_write : forall dst doff src soff n, (soff + n <= length src)%nat ->
  memcpy dst doff src soff n = write dst doff (slice src soff n).
Proof.
  intros. unfold memcpy, write, slice. f_equal. f_equal. f_equal.
  rewrite firstn_length, skipn_length. lia.
Qed.

Lemma skipn_write : forall mem off l k, (off + length l <= length mem)%nat -> (k = off + length l)%nat ->
  skipn k (write mem off l) = skipn k mem.
Proof.
  intros mem off l k H ->. unfold write.
  rewrite app_assoc, skipn_app.
  assert (L : length (firstn off mem ++ l) = (off + length l)%nat) by (rewrite app_length, firstn_length; lia).
  rewrite skipn_all2 by lia. rewrite L, Nat.sub_diag. reflexivity.
Qed.

Lemma firstn_write : forall mem off l k, (off + length l <= length mem)%nat -> (k = off + length l)%nat ->
  firstn k (write mem off l) = firstn off mem ++ l.
Proof.
  intros mem off l k H ->. unfold write. rewrite app_assoc, firstn_app.
  assert (L : length (firstn off mem ++ l) = (off + length l)%nat) by (rewrite app_length, firstn_length; lia).
  rewrite L, Nat.sub_diag, firstn_all2 by lia. cbn [firstn]. apply app_nil_r.
Qed.

Lemma skipn_skipn' : forall (A : Type) a b (l : list A), skipn a (skipn b l) = skipn (b + a) l.
Proof. intros A a b. induction b as [|b IH]; intros [|h l]; cbn [skipn Nat.add]; auto. apply skipn_nil. Qed.

(** Two writes, the second directly behind the first. *)
Lemma write_write : forall mem off a b k, (off + length a + length b <= length mem)%nat -> k = (off + length a)%nat ->
  write (write mem off a) k b = write mem off (a ++ b).
Proof.
  intros mem off a b k H ->. unfold write at 1.
  rewrite firstn_write by lia.
  rewrite <- skipn_skipn', skipn_write by lia. rewrite skipn_skipn'.
  unfold write. rewrite app_length, <- !app_assoc, Nat.add_assoc. reflexivity.
Qed.

Lemma concat_chunks_length : forall n len (chunk : nat -> list Z), (forall k, (k < n)%nat -> length (chunk k) = len) ->
  length (concat (map chunk (seq 0 n))) = (n * len)%nat.
Proof.
  intros n len chunk. induction n as [|n IH]; intros H; [reflexivity|].
  rewrite seq_S, map_app, concat_app, app_length. cbn [map concat Nat.add]. rewrite app_nil_r.
  rewrite IH by (intros; apply H; lia). rewrite H by lia. lia.
Qed.

(** A loop that writes equally long chunks one behind the other. *)
Lemma for_loop_write : forall n len (chunk : nat -> list Z) (body : nat -> list Z -> list Z) off mem,
  (forall k, (k < n)%nat -> length (chunk k) = len) ->
  (off + n * len <= length mem)%nat ->
  (forall k m, (k < n)%nat -> length m = length mem -> body k m = write m (off + k * len) (chunk k)) ->
  for_loop n body mem = write mem off (concat (map chunk (seq 0 n))).
Proof.
  intros n len chunk body off mem Hc Hm Hb. induction n as [|n IH].
  - cbn [for_loop seq map concat]. now rewrite write_nil.
  - cbn [for_loop]. rewrite IH; [|intros; apply Hc; lia|lia|intros; apply Hb; lia].
    assert (L : length (concat (map chunk (seq 0 n))) = (n * len)%nat)
      by (apply concat_chunks_length; intros; apply Hc; lia).
    rewrite Hb; [|lia|apply write_length; rewrite L; lia].
    rewrite seq_S, map_app, concat_app. cbn [map concat Nat.add]. rewrite app_nil_r.
    apply write_write; rewrite L; [rewrite Hc by lia; lia|reflexivity].
Qed.

(** ** Thermometer code *)

Definition thermo (number size : nat) : list Z := repeat 1 number ++ repeat 0 (size - number).

Lemma thermo_length : forall number size, (number <= size)%nat -> length (thermo number size) = size.
Proof. intros. unfold thermo. rewrite app_length, !repeat_length. lia. Qed.

Lemma thermo_nth : forall number size k, (k < size)%nat -> nth k (thermo number size) 0 = if (k <? number)%nat then 1 else 0.
Proof.
  intros number size k Hk. unfold thermo. destruct (Nat.ltb_spec k number).
  - rewrite app_nth1 by (rewrite repeat_length; lia).
    clear Hk. revert k H. induction number as [|m IH]; intros [|k] H; cbn [repeat nth]; auto; try lia. apply IH. lia.
  - rewrite app_nth2 by (rewrite repeat_length; lia). apply nth_repeat.
Qed.

Lemma set_nth_write : forall mem off v, (off < length mem)%nat -> set_nth off v mem = write mem off [v].
Proof.
  intros mem off v. revert off. induction mem as [|h t IH]; intros [|off] H; cbn [length] in H; try lia.
  - reflexivity.
  - cbn [set_nth]. rewrite IH by lia. reflexivity.
Qed.

Lemma write_over : forall mem off a b, (length a <= length b)%nat -> (off + length b <= length mem)%nat ->
  write (write mem off b) off a = write mem off (a ++ skipn (length a) b).
Proof.
  intros mem off a b H1 H2. unfold write at 1.
  assert (F : firstn off (write mem off b) = firstn off mem).
  { unfold write. rewrite firstn_app, firstn_firstn, firstn_length, Nat.min_id.
    replace (off - Nat.min off (length mem))%nat with O by lia. cbn [firstn]. apply app_nil_r. }
  rewrite F. unfold write at 2. f_equal. rewrite <- app_assoc. f_equal.
  rewrite <- skipn_skipn'. unfold write. rewrite skipn_app.
  replace (skipn off (firstn off mem)) with (@nil Z) by (symmetry; apply skipn_all2; rewrite firstn_length; lia).
  rewrite firstn_length. replace (off - Nat.min off (length mem))%nat with O by lia. cbn [app].
  change (skipn 0 (b ++ skipn (off + length b) mem)) with (b ++ skipn (off + length b) mem).
  rewrite skipn_app. replace (length a - length b)%nat with O by lia. f_equal.
  rewrite app_length, skipn_length. cbn [skipn]. f_equal. lia.
Qed.

Lemma concat_singles : forall n, concat (map (fun _ : nat => [1]) (seq 0 n)) = repeat 1 n.
Proof.
  intros n. induction n as [|n IH]; [reflexivity|]. rewrite seq_S, map_app, concat_app, IH.
  cbn [map concat app]. rewrite <- repeat_cons. reflexivity.
Qed.

Lemma cumlative_encode_write : forall mem off number size, (number <= size)%nat -> (off + size <= length mem)%nat ->
  cumlative_encode mem off number size = write mem off (thermo number size).
Proof.
  intros mem off number size H1 H2. unfold cumlative_encode.
  rewrite memcpy_write by (rewrite repeat_length; lia).
  assert (S0 : slice (repeat 0 size) 0 size = repeat 0 size).
  { unfold slice. cbn [skipn]. apply firstn_all2. rewrite repeat_length. lia. }
  rewrite S0.
  rewrite (for_loop_write number 1 (fun _ => [1]) _ off).
  - rewrite concat_singles. rewrite write_over by (rewrite ?repeat_length; lia).
    rewrite repeat_length. f_equal. unfold thermo. f_equal.
    clear. revert size. induction number as [|k IH]; intros [|size]; cbn [repeat skipn Nat.sub]; auto.
  - reflexivity.
  - rewrite write_length by (rewrite repeat_length; lia). lia.
  - intros k m Hk Hm. rewrite write_length in Hm by (rewrite repeat_length; lia).
    rewrite Nat.mul_1_r. apply set_nth_write. lia.
Qed.

(** ** im2col *)

  Lemma slice_concat : forall n len (chunk : nat -> list Z) k, (forall k, (k < n)%nat -> length (chunk k) = len) ->
    (k < n)%nat -> slice (concat (map chunk (seq 0 n))) (k * len) len = chunk k.
  Proof.
    intros n len chunk k Hc Hk. unfold slice.
    replace (seq 0 n) with (seq 0 k ++ k :: seq (S k) (n - S k)).
    2:{ replace n with (k + S (n - S k))%nat at 2 by lia. rewrite seq_app. reflexivity. }
    rewrite map_app, concat_app. cbn [map concat].
    assert (L : length (concat (map chunk (seq 0 k))) = (k * len)%nat)
      by (apply concat_chunks_length; intros; apply Hc; lia).
    rewrite skipn_app, skipn_all2, L, Nat.sub_diag by lia. cbn [app skipn].
    rewrite firstn_app, Hc, Nat.sub_diag, firstn_all2 by (rewrite ?Hc; lia). apply app_nil_r.
  Qed.

  Lemma slice_slice : forall (l : list Z) a n b m, (b + m <= n)%nat -> slice (slice l a n) b m = slice l (a + b) m.
  Proof.
    intros l a n b m H. unfold slice. rewrite skipn_firstn_comm, firstn_firstn, skipn_skipn'.
    f_equal. lia.
  Qed.

Section Im2col.
  Variables width height channels pw ph : nat.
  Hypothesis Hpw : (pw <= width)%nat.
  Hypothesis Hph : (ph <= height)%nat.
  Let lpp := (pw * ph * channels + (width - pw) + (height - ph))%nat.
  Let npx := (width - pw + 1)%nat.
  Let npy := (height - ph + 1)%nat.

  (** Contents of one patch. *)
  Definition patch (src : list Z) (e py px : nat) : list Z :=
    thermo py (height - ph) ++ thermo px (width - pw) ++
    concat (map (fun y => slice src (e * (width * height * channels) + (py + y) * width * channels + px * channels)
                                (pw * channels)) (seq 0 ph)).

  Lemma patch_rows : forall n_ex (src : list Z) e py px y, (e < n_ex)%nat -> (py < npy)%nat -> (px < npx)%nat -> (y < ph)%nat ->
    length src = (n_ex * (width * height * channels))%nat ->
    (e * (width * height * channels) + (py + y) * width * channels + px * channels + pw * channels <= length src)%nat.
  Proof.
    intros n_ex src e py px y He Hpy Hpx Hy Hl. unfold npy, npx in *. rewrite Hl.
    assert (A : ((py + y) * width * channels + px * channels + pw * channels <= width * height * channels)%nat).
    { replace ((py + y) * width * channels + px * channels + pw * channels)%nat
        with (((py + y) * width + (px + pw)) * channels)%nat by ring.
      apply Nat.mul_le_mono_r.
      assert (B : ((py + y + 1) * width <= height * width)%nat) by (apply Nat.mul_le_mono_r; lia).
      rewrite (Nat.mul_comm width height). nia. }
    assert (C : ((e + 1) * (width * height * channels) <= n_ex * (width * height * channels))%nat)
      by (apply Nat.mul_le_mono_r; lia).
    nia.
  Qed.

  Lemma patch_length : forall n_ex src e py px, (e < n_ex)%nat -> (py < npy)%nat -> (px < npx)%nat ->
    length src = (n_ex * (width * height * channels))%nat -> length (patch src e py px) = lpp.
  Proof.
    intros n_ex src e py px He Hpy Hpx Hl. unfold patch. rewrite !app_length, !thermo_length by (unfold npy, npx in *; lia).
    rewrite (concat_chunks_length ph (pw * channels)).
    - unfold lpp. nia.
    - intros y Hy. unfold slice. rewrite firstn_length, skipn_length.
      pose proof (patch_rows n_ex src e py px y He Hpy Hpx Hy Hl). lia.
  Qed.

  Lemma im2col_patch_write : forall n_ex src e py px dst_o idx mem,
    (e < n_ex)%nat -> (py < npy)%nat -> (px < npx)%nat ->
    length src = (n_ex * (width * height * channels))%nat ->
    (dst_o + idx * lpp + lpp <= length mem)%nat ->
    im2col_patch src width height channels pw ph (e * (width * height * channels)) dst_o lpp py px (mem, idx)
    = (write mem (dst_o + idx * lpp) (patch src e py px), S idx).
  Proof.
    intros n_ex src e py px dst_o idx mem He Hpy Hpx Hl Hm. unfold im2col_patch. f_equal.
    assert (B1 : (py <= height - ph)%nat) by (unfold npy in *; lia).
    assert (B2 : (px <= width - pw)%nat) by (unfold npx in *; lia).
    assert (B3 : lpp = ((height - ph) + (width - pw) + ph * (pw * channels))%nat) by (unfold lpp; nia).
    rewrite (cumlative_encode_write mem) by lia.
    assert (L1 : length (write mem (dst_o + idx * lpp) (thermo py (height - ph))) = length mem)
      by (apply write_length; rewrite thermo_length; lia).
    rewrite cumlative_encode_write by lia.
    rewrite write_write by (rewrite ?thermo_length; lia).
    rewrite (for_loop_write ph (pw * channels)
               (fun y => slice src (e * (width * height * channels) + (py + y) * width * channels + px * channels) (pw * channels))
               _ (dst_o + idx * lpp + (height - ph) + (width - pw))).
    - rewrite write_write.
      + unfold patch. now rewrite <- app_assoc.
      + rewrite app_length, !thermo_length by lia.
        rewrite (concat_chunks_length ph (pw * channels)); [lia|].
        intros y Hy. unfold slice. rewrite firstn_length, skipn_length.
        pose proof (patch_rows n_ex src e py px y He Hpy Hpx Hy Hl). lia.
      + rewrite app_length, !thermo_length by lia. lia.
    - intros y Hy. unfold slice. rewrite firstn_length, skipn_length.
      pose proof (patch_rows n_ex src e py px y He Hpy Hpx Hy Hl). lia.
    - rewrite write_length by (rewrite app_length, !thermo_length by lia; lia). lia.
    - intros y m Hy Hlen. apply memcpy_write. apply (patch_rows n_ex src e py px y He Hpy Hpx Hy Hl).
  Qed.

  Definition example_patches (src : list Z) (e : nat) : list Z :=
    concat (map (fun py => concat (map (fun px => patch src e py px) (seq 0 npx))) (seq 0 npy)).

  Lemma row_loop : forall n_ex src e py dst_o mem k,
    (e < n_ex)%nat -> (py < npy)%nat -> (k <= npx)%nat ->
    length src = (n_ex * (width * height * channels))%nat ->
    (dst_o + npx * npy * lpp <= length mem)%nat ->
    for_loop k (fun px st => im2col_patch src width height channels pw ph (e * (width * height * channels)) dst_o lpp py px st)
      (mem, (py * npx)%nat)
    = (write mem (dst_o + py * npx * lpp) (concat (map (fun px => patch src e py px) (seq 0 k))), (py * npx + k)%nat).
  Proof.
    intros n_ex src e py dst_o mem k He Hpy Hk Hl Hm. induction k as [|k IH].
    - cbn [for_loop seq map concat]. rewrite write_nil, Nat.add_0_r. reflexivity.
    - cbn [for_loop]. rewrite IH by lia.
      assert (Len : length (concat (map (fun px => patch src e py px) (seq 0 k))) = (k * lpp)%nat).
      { apply concat_chunks_length. intros j Hj. eapply patch_length; eauto. lia. }
      assert (B : ((py * npx + k + 1) * lpp <= npx * npy * lpp)%nat).
      { apply Nat.mul_le_mono_r. assert (((py + 1) * npx <= npy * npx)%nat) by (apply Nat.mul_le_mono_r; lia). lia. }
      replace ((py * npx + k + 1) * lpp)%nat with (py * npx * lpp + k * lpp + lpp)%nat in B by ring.
      assert (E : ((py * npx + k) * lpp = py * npx * lpp + k * lpp)%nat) by ring.
      assert (Lw : length (write mem (dst_o + py * npx * lpp) (concat (map (fun px => patch src e py px) (seq 0 k)))) = length mem)
        by (apply write_length; rewrite Len; lia).
      rewrite (im2col_patch_write n_ex); auto; try lia.
      + f_equal; [|lia]. rewrite seq_S, map_app, concat_app. cbn [map concat Nat.add]. rewrite app_nil_r.
        apply write_write; rewrite Len.
        * rewrite (patch_length n_ex) by (auto; lia). lia.
        * lia.
  Qed.

  Lemma rows_loop : forall n_ex src e dst_o mem k,
    (e < n_ex)%nat -> (k <= npy)%nat ->
    length src = (n_ex * (width * height * channels))%nat ->
    (dst_o + npx * npy * lpp <= length mem)%nat ->
    for_loop k (fun py st => for_loop npx (fun px st =>
        im2col_patch src width height channels pw ph (e * (width * height * channels)) dst_o lpp py px st) st) (mem, O)
    = (write mem dst_o (concat (map (fun py => concat (map (fun px => patch src e py px) (seq 0 npx))) (seq 0 k))), (k * npx)%nat).
  Proof.
    intros n_ex src e dst_o mem k He Hk Hl Hm. induction k as [|k IH].
    - cbn [for_loop seq map concat]. rewrite write_nil. reflexivity.
    - cbn [for_loop]. rewrite IH by lia.
      assert (RowLen : forall j, (j < npy)%nat -> length (concat (map (fun px => patch src e j px) (seq 0 npx))) = (npx * lpp)%nat).
      { intros j Hj. apply concat_chunks_length. intros i Hi. eapply patch_length; eauto. }
      assert (Len : length (concat (map (fun py => concat (map (fun px => patch src e py px) (seq 0 npx))) (seq 0 k))) = (k * (npx * lpp))%nat).
      { apply concat_chunks_length. intros j Hj. apply RowLen. lia. }
      assert (B : ((k + 1) * (npx * lpp) <= npx * npy * lpp)%nat).
      { replace (npx * npy * lpp)%nat with (npy * (npx * lpp))%nat by ring. apply Nat.mul_le_mono_r. lia. }
      replace ((k + 1) * (npx * lpp))%nat with (k * (npx * lpp) + npx * lpp)%nat in B by ring.
      assert (E : (k * npx * lpp = k * (npx * lpp))%nat) by ring.
      rewrite (row_loop n_ex); auto; try lia.
      + f_equal; [|lia]. rewrite seq_S, map_app, concat_app. cbn [map concat Nat.add]. rewrite app_nil_r.
        apply write_write; rewrite Len.
        * rewrite RowLen by lia. lia.
        * lia.
      + rewrite write_length by (rewrite Len; lia). exact Hm.
  Qed.

  Lemma example_patches_length : forall n_ex src e, (e < n_ex)%nat ->
    length src = (n_ex * (width * height * channels))%nat -> length (example_patches src e) = (npx * npy * lpp)%nat.
  Proof.
    intros n_ex src e He Hl. unfold example_patches. rewrite (concat_chunks_length npy (npx * lpp)); [ring|].
    intros j Hj. apply concat_chunks_length. intros i Hi. eapply patch_length; eauto.
  Qed.

  Theorem im2col_eq : forall n_ex src junk,
    length src = (n_ex * (width * height * channels))%nat -> length junk = (n_ex * (npx * npy * lpp))%nat ->
    im2col n_ex width height channels src pw ph junk = concat (map (example_patches src) (seq 0 n_ex)).
  Proof.
    intros n_ex src junk Hl Hj. unfold im2col. fold npx npy lpp.
    rewrite (for_loop_write n_ex (npx * npy * lpp) (example_patches src) _ 0).
    - unfold write. cbn [firstn app]. rewrite skipn_all2, app_nil_r; auto.
      rewrite (concat_chunks_length n_ex (npx * npy * lpp)); [lia|]. intros e He. eapply example_patches_length; eauto.
    - intros e He. eapply example_patches_length; eauto.
    - lia.
    - intros e m He Hm. rewrite (rows_loop n_ex); auto.
      rewrite Hm, Hj. assert ((e + 1) * (npx * npy * lpp) <= n_ex * (npx * npy * lpp))%nat by (apply Nat.mul_le_mono_r; lia). lia.
  Qed.

  (** The patch stored at position (e, py*npx + px) of the result. *)
  Theorem im2col_patch_at : forall n_ex src junk e py px,
    length src = (n_ex * (width * height * channels))%nat -> length junk = (n_ex * (npx * npy * lpp))%nat ->
    (e < n_ex)%nat -> (py < npy)%nat -> (px < npx)%nat ->
    slice (im2col n_ex width height channels src pw ph junk) ((e * (npx * npy) + (py * npx + px)) * lpp) lpp = patch src e py px.
  Proof.
    intros n_ex src junk e py px Hl Hj He Hpy Hpx. rewrite im2col_eq by auto.
    assert (L3 : forall e py px, (e < n_ex)%nat -> (py < npy)%nat -> (px < npx)%nat -> length (patch src e py px) = lpp)
      by (intros; eapply patch_length; eauto).
    assert (L2 : forall e py, (e < n_ex)%nat -> (py < npy)%nat ->
      length (concat (map (fun px => patch src e py px) (seq 0 npx))) = (npx * lpp)%nat)
      by (intros; apply concat_chunks_length; intros; apply L3; auto).
    assert (L1 : forall e, (e < n_ex)%nat -> length (example_patches src e) = (npy * (npx * lpp))%nat)
      by (intros; apply concat_chunks_length; intros; apply L2; auto).
    replace ((e * (npx * npy) + (py * npx + px)) * lpp)%nat
      with (e * (npy * (npx * lpp)) + (py * (npx * lpp) + px * lpp))%nat by ring.
    assert (B1 : ((px + 1) * lpp <= npx * lpp)%nat) by (apply Nat.mul_le_mono_r; lia).
    assert (B2 : ((py + 1) * (npx * lpp) <= npy * (npx * lpp))%nat) by (apply Nat.mul_le_mono_r; lia).
    rewrite <- (slice_slice _ _ (npy * (npx * lpp))) by lia.
    rewrite (slice_concat n_ex (npy * (npx * lpp)) (example_patches src) e L1 He).
    rewrite <- (slice_slice _ _ (npx * lpp)) by lia.
    unfold example_patches. rewrite (slice_concat npy (npx * lpp) _ py); auto.
    apply (slice_concat npx lpp (fun px => patch src e py px)); auto.
  Qed.
End Im2col.

Lemma nth_slice : forall l a n k, (k < n)%nat -> nth k (slice l a n) 0 = nth (a + k) l 0.
Proof.
  intros l a n k Hk. unfold slice. rewrite nth_firstn_lt by auto. apply nth_skipn.
Qed.

Lemma nth_concat_chunks : forall n len (chunk : nat -> list Z) i k, (forall k, (k < n)%nat -> length (chunk k) = len) ->
  (i < n)%nat -> (k < len)%nat -> nth (i * len + k) (concat (map chunk (seq 0 n))) 0 = nth k (chunk i) 0.
Proof.
  intros n len chunk i k Hc Hi Hk.
  rewrite <- (nth_slice _ (i * len) len k Hk). f_equal.
  apply (slice_concat n len chunk i Hc Hi).
Qed.

Theorem patch_square : forall n_ex N channels pw ph src e py px,
  (pw <= N)%nat -> (ph <= N)%nat -> length src = (n_ex * (N * N * channels))%nat ->
  (e < n_ex)%nat -> (py + ph <= N)%nat -> (px + pw <= N)%nat ->
  let row := patch N N channels pw ph src e py px in
  (forall k, (k < N - ph)%nat -> nth k row 0 = if (k <? py)%nat then 1 else 0) /\
  (forall k, (k < N - pw)%nat -> nth (N - ph + k) row 0 = if (k <? px)%nat then 1 else 0) /\
  (forall y x c, (y < ph)%nat -> (x < pw)%nat -> (c < channels)%nat ->
     nth (N - ph + (N - pw) + ((y * pw + x) * channels + c)) row 0 =
     nth (((e * N + (py + y)) * N + (px + x)) * channels + c) src 0).
Proof.
  intros n_ex N channels pw ph src e py px Hpw Hph Hl He Hpy Hpx row. unfold row, patch. clear row.
  split; [|split].
  - intros k Hk. rewrite app_nth1 by (rewrite thermo_length; lia). apply thermo_nth. lia.
  - intros k Hk. rewrite app_nth2 by (rewrite thermo_length; lia). rewrite thermo_length by lia.
    replace (N - ph + k - (N - ph))%nat with k by lia.
    rewrite app_nth1 by (rewrite thermo_length; lia). apply thermo_nth. lia.
  - intros y x c Hy Hx Hc.
    rewrite app_nth2 by (rewrite thermo_length; lia). rewrite thermo_length by lia.
    rewrite app_nth2 by (rewrite thermo_length; lia). rewrite thermo_length by lia.
    replace (N - ph + (N - pw) + ((y * pw + x) * channels + c) - (N - ph) - (N - pw))%nat
      with (y * (pw * channels) + (x * channels + c))%nat by nia.
    assert (Hxc : (x * channels + c < pw * channels)%nat).
    { assert ((x + 1) * channels <= pw * channels)%nat by (apply Nat.mul_le_mono_r; lia). lia. }
    rewrite (nth_concat_chunks ph (pw * channels)); auto.
    + rewrite nth_slice by auto. f_equal. ring.
    + intros j Hj. unfold slice. rewrite firstn_length, skipn_length.
      pose proof (patch_rows N N channels pw ph Hpw Hph n_ex src e py px j He ltac:(lia) ltac:(lia) Hj Hl). lia.
Qed.

(** ** Input blocks *)

Lemma set_ones : forall its (indices : list nat) cur j,
  (forall k, In k its -> (nth k indices O < length cur)%nat) ->
  nth j (fold_left (fun cur it => set_nth (nth it indices O) 1 cur) its cur) 0 =
  if existsb (fun k => Nat.eqb (nth k indices O) j) its then 1 else nth j cur 0.
Proof.
  induction its as [|it its IH]; intros indices cur j H; [reflexivity|].
  cbn [fold_left existsb]. rewrite IH.
  - destruct (existsb _ its) eqn:E; [now rewrite orb_true_r|]. rewrite orb_false_r.
    destruct (Nat.eqb_spec (nth it indices O) j) as [Ej|Hn].
    + rewrite Ej. apply nth_set_nth_eq. rewrite <- Ej. apply (H it). now left.
    + now rewrite nth_set_nth_neq.
  - intros k Hk. rewrite set_nth_length. apply H. now right.
Qed.

Lemma set_ones_length : forall its (indices : list nat) cur,
  length (fold_left (fun cur it => set_nth (nth it indices O) 1 cur) its cur) = length cur.
Proof. induction its as [|it its IH]; intros; [reflexivity|]. cbn [fold_left]. now rewrite IH, set_nth_length. Qed.

Lemma positive_sum : forall its (indices : list nat) data j, (forall k, In k its -> 0 < nth k data 0) ->
  (zsum (map (fun k => if Nat.eqb (nth k indices O) j then nth k data 0 else 0) its) =? 0) =
  negb (existsb (fun k => Nat.eqb (nth k indices O) j) its).
Proof.
  intros its indices data j H.
  assert (A : 0 <= zsum (map (fun k => if Nat.eqb (nth k indices O) j then nth k data 0 else 0) its) /\
              (existsb (fun k => Nat.eqb (nth k indices O) j) its = true ->
               0 < zsum (map (fun k => if Nat.eqb (nth k indices O) j then nth k data 0 else 0) its)) /\
              (existsb (fun k => Nat.eqb (nth k indices O) j) its = false ->
               zsum (map (fun k => if Nat.eqb (nth k indices O) j then nth k data 0 else 0) its) = 0)).
  { induction its as [|k its IH]; [cbn; split; [lia|split; intros; [discriminate|lia]]|].
    destruct IH as [I1 [I2 I3]]; [intros; apply H; now right|].
    pose proof (H k (or_introl eq_refl)). cbn [map zsum existsb].
    destruct (Nat.eqb (nth k indices O) j); cbn [orb]; split; try lia; split; intros E; try discriminate; try lia;
      [specialize (I2 E); lia|specialize (I3 E); lia]. }
  destruct A as [A1 [A2 A3]]. destruct (existsb _ its); cbn [negb].
  - specialize (A2 eq_refl). lia.
  - specialize (A3 eq_refl). lia.
Qed.

(** The aligned buffer is long enough and zero behind the literals. *)
Definition buffer_ok (n : nat) (cur : list Z) : Prop :=
  length cur = ((n / 32 + 1) * 32)%nat /\ forall k, (n <= k)%nat -> nth k cur 0 = 0.

Lemma buffer_room : forall n, (n <= (n / 32 + 1) * 32)%nat.
Proof. intros n. pose proof (Nat.div_mod n 32 ltac:(lia)). pose proof (Nat.mod_upper_bound n 32 ltac:(lia)). lia. Qed.

Lemma new_buffer_ok : forall n, buffer_ok n (ib_cur (new_iblock n)).
Proof.
  intros n. cbn [new_iblock ib_cur]. split; [apply repeat_length|]. intros k _. apply nth_repeat.
Qed.

Lemma row_buffer_nth : forall n f k, nth k (row_buffer n f) 0 = if (k <? n)%nat then f k else 0.
Proof.
  intros n f k. unfold row_buffer. destruct (Nat.ltb_spec k n).
  - rewrite app_nth1 by (rewrite map_length, seq_length; lia).
    rewrite (nth_indep _ 0 (f 0%nat)) by (rewrite map_length, seq_length; lia).
    rewrite map_nth, seq_nth by lia. reflexivity.
  - rewrite app_nth2 by (rewrite map_length, seq_length; lia). apply nth_repeat.
Qed.

Lemma row_buffer_length : forall n f, length (row_buffer n f) = ((n / 32 + 1) * 32)%nat.
Proof. intros. unfold row_buffer. rewrite app_length, map_length, seq_length, repeat_length. pose proof (buffer_room n). lia. Qed.

Lemma buffer_ext : forall n a f, length a = ((n / 32 + 1) * 32)%nat ->
  (forall k, nth k a 0 = if (k <? n)%nat then f k else 0) -> a = row_buffer n f.
Proof.
  intros n a f Hl H. apply list_ext0; [now rewrite row_buffer_length|].
  intros k Hk. now rewrite H, row_buffer_nth.
Qed.

Lemma row_buffer_ok : forall n f, buffer_ok n (row_buffer n f).
Proof.
  intros n f. split; [apply row_buffer_length|]. intros k Hk. rewrite row_buffer_nth.
  replace (k <? n)%nat with false by (symmetry; now apply Nat.ltb_ge). reflexivity.
Qed.

(** Dense block. *)
Lemma dense_prepare_row : forall rows b i, buffer_ok (ib_nlit b) (ib_cur b) ->
  length (ib_data b) = (rows * ib_nlit b)%nat -> (i < rows)%nat ->
  ib_cur (dense_prepare i b) = row_buffer (ib_nlit b) (fun j => nth (i * ib_nlit b + j) (ib_data b) 0).
Proof.
  intros rows b i [B1 B2] Hl Hi. cbn [dense_prepare with_current ib_cur].
  pose proof (buffer_room (ib_nlit b)).
  assert ((i + 1) * ib_nlit b <= rows * ib_nlit b)%nat by (apply Nat.mul_le_mono_r; lia).
  apply buffer_ext.
  - rewrite memcpy_length; lia.
  - intros k. rewrite memcpy_nth by lia. cbn [Nat.leb andb Nat.add]. rewrite Nat.sub_0_r.
    destruct (Nat.ltb_spec k (ib_nlit b)); auto.
Qed.

Lemma csr_prepare_row : forall rows data b i, buffer_ok (ib_nlit b) (ib_cur b) ->
  csr_ok (ib_nlit b) rows (ib_indices b) (ib_indptr b) data -> (i < rows)%nat -> Forall (fun v => 0 < v) data ->
  ib_cur (csr_prepare i b) =
  row_buffer (ib_nlit b) (fun j => if csr_entry (ib_indices b) (ib_indptr b) data i j =? 0 then 0 else 1).
Proof.
  intros rows data b i [B1 B2] [C1 [C2 [C3 C4]]] Hi Hd. cbn [csr_prepare with_current ib_cur].
  pose proof (buffer_room (ib_nlit b)) as Room.
  set (its := seq (nth i (ib_indptr b) O) (nth (i + 1) (ib_indptr b) O - nth i (ib_indptr b) O)).
  assert (Hits : forall k, In k its -> (k < length (ib_indices b))%nat).
  { intros k Hk. unfold its in Hk. apply in_seq in Hk. pose proof (C3 (i + 1)%nat ltac:(lia)). lia. }
  assert (Hcol : forall k, In k its -> (nth k (ib_indices b) O < ib_nlit b)%nat).
  { intros k Hk. apply (proj1 (Forall_forall _ _) C4). apply nth_In. auto. }
  assert (Len : length (memcpy (ib_cur b) 0 (repeat 0 (ib_nlit b)) 0 (ib_nlit b)) = ((ib_nlit b / 32 + 1) * 32)%nat)
    by (rewrite memcpy_length; rewrite ?repeat_length; lia).
  apply buffer_ext.
  - now rewrite set_ones_length.
  - intros k. rewrite set_ones by (intros j Hj; rewrite Len; specialize (Hcol j Hj); lia).
    unfold csr_entry. fold its. rewrite positive_sum.
    2:{ intros j Hj. apply (proj1 (Forall_forall _ _) Hd). apply nth_In. rewrite C2. auto. }
    rewrite memcpy_nth by (rewrite ?repeat_length; lia). cbn [Nat.leb andb Nat.add]. rewrite Nat.sub_0_r.
    destruct (existsb (fun j => Nat.eqb (nth j (ib_indices b) O) k) its) eqn:E; cbn [negb].
    + apply existsb_exists in E. destruct E as [j [E1 E2]]. apply Nat.eqb_eq in E2. subst k.
      replace (nth j (ib_indices b) O <? ib_nlit b)%nat with true by (symmetry; apply Nat.ltb_lt; auto). reflexivity.
    + destruct (Nat.ltb_spec k (ib_nlit b)); [apply nth_repeat|auto].
Qed.

(** Everything except the current example and label is fixed. *)
Definition same_source (a b : iblock) : Prop :=
  ib_nlit a = ib_nlit b /\ ib_nex a = ib_nex b /\ ib_perex a = ib_perex b /\ ib_data a = ib_data b /\
  ib_indices a = ib_indices b /\ ib_indptr a = ib_indptr b /\ ib_labels a = ib_labels b.

Lemma same_source_refl : forall b, same_source b b.
Proof. unfold same_source. tauto. Qed.

Lemma prepare_source : forall i b, same_source (dense_prepare i b) b /\ same_source (csr_prepare i b) b.
Proof. intros. split; unfold same_source; cbn; tauto. Qed.

Lemma same_source_trans : forall a b c, same_source a b -> same_source b c -> same_source a c.
Proof. unfold same_source. intros a b c H1 H2. intuition congruence. Qed.

Lemma dense_history : forall rows idx b, buffer_ok (ib_nlit b) (ib_cur b) ->
  length (ib_data b) = (rows * ib_nlit b)%nat -> Forall (fun i => (i < rows)%nat) idx ->
  same_source (prepare_all dense_prepare idx b) b /\ buffer_ok (ib_nlit b) (ib_cur (prepare_all dense_prepare idx b)).
Proof.
  intros rows idx. induction idx as [|i idx IH]; intros b Hb Hl Hi; [split; [apply same_source_refl|auto]|].
  inversion Hi; subst. cbn [prepare_all fold_left].
  assert (K : buffer_ok (ib_nlit b) (ib_cur (dense_prepare i b))).
  { rewrite (dense_prepare_row rows); auto. apply row_buffer_ok. }
  destruct (IH (dense_prepare i b)) as [A1 A2]; auto.
Qed.

Lemma csr_history : forall rows data idx b, buffer_ok (ib_nlit b) (ib_cur b) ->
  csr_ok (ib_nlit b) rows (ib_indices b) (ib_indptr b) data -> Forall (fun v => 0 < v) data ->
  Forall (fun i => (i < rows)%nat) idx ->
  same_source (prepare_all csr_prepare idx b) b /\ buffer_ok (ib_nlit b) (ib_cur (prepare_all csr_prepare idx b)).
Proof.
  intros rows data idx. induction idx as [|i idx IH]; intros b Hb Hl Hd Hi; [split; [apply same_source_refl|auto]|].
  inversion Hi; subst. cbn [prepare_all fold_left].
  assert (K : buffer_ok (ib_nlit b) (ib_cur (csr_prepare i b))).
  { rewrite (csr_prepare_row rows data); auto. apply row_buffer_ok. }
  destruct (IH (csr_prepare i b)) as [A1 A2]; auto.
Qed.

Lemma sparse_prepare_eq : forall i indices indptr cur,
  sparse_prepare i indices indptr cur =
  map (fun k => nth k indices O) (seq (nth i indptr O) (nth (i + 1) indptr O - nth i indptr O)).
Proof.
  intros i indices indptr cur. unfold sparse_prepare.
  assert (A : forall its acc, fold_left (fun cur it => cur ++ [nth it indices O]) its acc = acc ++ map (fun k => nth k indices O) its).
  { induction its as [|k its IH]; intros acc; cbn [fold_left map]; [now rewrite app_nil_r|].
    rewrite IH, <- app_assoc. reflexivity. }
  apply A.
Qed.

(** Training through an input block is training on the rows it presents. *)
Lemma train_input_rows : forall (B E L I : Type) train_ex update process (prep : nat -> I -> I) (ex : I -> E) (lab : I -> L)
  (inv : I -> Prop) (data : list (E * L)),
  (forall i s d, inv s -> nth_error data i = Some d -> (ex (prep i s), lab (prep i s)) = d /\ inv (prep i s)) ->
  forall idx s bs fb, inv s -> Forall (fun i => (i < length data)%nat) idx ->
  let '(s', bs', fb') := @train_input B E L I train_ex update process prep ex lab idx s bs fb in
  (bs', fb') = train_list B E train_ex update L process (select E L data idx) bs fb /\ inv s'.
Proof.
  intros B E L I train_ex update process prep ex lab inv data Hp idx.
  induction idx as [|i idx IH]; intros s bs fb Hs Hi; [split; auto|].
  inversion Hi; subst. cbn [train_input].
  destruct (nth_error data i) as [d|] eqn:Ed; [|apply nth_error_None in Ed; lia].
  destruct (Hp i s d Hs Ed) as [P1 P2]. rewrite P1.
  unfold select. cbn [flat_map]. rewrite Ed. cbn [app train_list].
  destruct (train_one B E train_ex update L process d bs fb) as [bs1 fb1].
  exact (IH (prep i s) bs1 fb1 P2 H2).
Qed.

(** ** XOR data set *)

Lemma randint_row_spec : forall cols r v r', randint_row cols r = (v, r') -> length v = cols /\ binary v.
Proof.
  induction cols as [|c IH]; intros r v r' H; cbn [randint_row] in H.
  - inversion H. split; [reflexivity|constructor].
  - destruct (next_int 2 r) as [k r1] eqn:En. assert (Hk : (k < 2)%nat) by
      (change k with (fst (k, r1)); rewrite <- En; apply (Nat.mod_upper_bound _ 2); lia).
    destruct (randint_row c r1) as [t r2] eqn:E. inversion H; subst.
    destruct (IH _ _ _ E) as [A B]. split; [cbn; lia|]. constructor; auto.
    lia.
Qed.

Lemma randint_spec : forall rows cols r m r', randint rows cols r = (m, r') ->
  length m = rows /\ rows_of cols m /\ Forall binary m.
Proof.
  induction rows as [|k IH]; intros cols r m r' H; cbn [randint] in H.
  - inversion H. repeat split; constructor.
  - destruct (randint_row cols r) as [v r1] eqn:E1. destruct (randint k cols r1) as [t r2] eqn:E2.
    inversion H; subst. destruct (randint_row_spec _ _ _ _ E1). destruct (IH _ _ _ _ E2) as [A [B C]].
    split; [cbn; lia|]. split; constructor; auto.
Qed.

Lemma random_length : forall n r, length (fst (random n r)) = n.
Proof.
  induction n as [|n IH]; intros r; [reflexivity|]. cbn [random next_u].
  specialize (IH (mkRng (rng_src r) (S (rng_pos r)))). destruct (random n _) as [t r2]. cbn in *. lia.
Qed.

Lemma random_nth : forall n r i, (i < n)%nat -> nth i (fst (random n r)) 0%Q = rng_src r (rng_pos r + i).
Proof.
  induction n as [|n IH]; intros r i Hi; [lia|]. cbn [random next_u].
  specialize (IH (mkRng (rng_src r) (S (rng_pos r)))). destruct (random n _) as [t r2] eqn:E.
  cbn [fst] in *. destruct i as [|i]; [now rewrite Nat.add_0_r|]. cbn [nth].
  rewrite IH by lia. cbn [rng_src rng_pos]. f_equal. lia.
Qed.

Lemma xor_bits : forall row, binary row -> (2 <= length row)%nat ->
  b2z (xorb (negb (nth 0 row 0 =? 0)) (negb (nth 1 row 0 =? 0))) = xor_of row.
Proof.
  intros [|a [|b row]] H L; cbn in L; try lia. inversion H; subst. inversion H3; subst. unfold xor_of. cbn [nth].
  destruct H2 as [->| ->], H4 as [->| ->]; reflexivity.
Qed.

(** ** Blocks in any reachable condition *)

Lemma csr_ok_ones : forall n rows indices indptr data, csr_ok n rows indices indptr data ->
  csr_ok n rows indices indptr (repeat 1 (length indices)).
Proof. intros n rows indices indptr data [H1 [H2 [H3 H4]]]. repeat split; auto. apply repeat_length. Qed.

Lemma csr_reach_ok : forall n b, csr_reach n b -> ib_nlit b = n /\ buffer_ok n (ib_cur b).
Proof.
  intros n b H. induction H as [|b indices indptr labels r b' H [I1 I2] E|b rows data i H [I1 I2] Hok Hi].
  - split; [reflexivity|apply new_buffer_ok].
  - unfold csr_set_data in E. cbn [ib_nlit ib_perex ib_data ib_cur ib_label ib_labels] in E.
    destruct (negb _); inversion E; subst; cbn; auto.
  - split; [exact I1|]. subst n. rewrite (csr_prepare_row rows (repeat 1 (length (ib_indices b)))); auto.
    + apply row_buffer_ok.
    + eapply csr_ok_ones; eauto.
    + apply Forall_forall. intros v Hv. apply repeat_spec in Hv. subst v. lia.
Qed.

Lemma dense_reach_ok : forall n b, dense_reach n b -> ib_nlit b = n /\ buffer_ok n (ib_cur b).
Proof.
  intros n b H. induction H as [|b examples labels r b' H [I1 I2] E|b rows i H [I1 I2] Hok Hi].
  - split; [reflexivity|apply new_buffer_ok].
  - unfold dense_set_data in E. cbn [ib_nlit ib_perex ib_data ib_cur ib_label ib_labels] in E.
    destruct (negb _); [inversion E; subst; cbn; auto|].
    unfold set_labels in E. destruct (a_shape labels) as [|[|k] rest]; [inversion E; subst; cbn; auto|inversion E; subst; cbn; auto|].
    destruct (negb _); inversion E; subst; cbn; auto.
  - split; [exact I1|]. subst n. rewrite (dense_prepare_row rows); auto. apply row_buffer_ok.
Qed.

Lemma csr_set_fields : forall indices indptr labels b b', csr_set_data indices indptr labels b = (Ok tt, b') ->
  a_shape labels <> [] ->
  ib_nlit b' = ib_nlit b /\ ib_indices b' = indices /\ ib_indptr b' = indptr /\ ib_cur b' = ib_cur b /\
  ib_labels b' = Some (a_mem labels) /\ ib_perex b' = labels_per labels /\ nth 0 (a_shape labels) O = (length indptr - 1)%nat.
Proof.
  intros indices indptr labels b b' E Hs. unfold csr_set_data in E.
  cbn [ib_nlit ib_perex ib_data ib_cur ib_label ib_labels] in E.
  destruct (Nat.eqb_spec (nth 0 (a_shape labels) O) (length indptr - 1)) as [En|En]; [|discriminate E].
  cbn [negb] in E. inversion E. cbn. repeat split; auto. unfold labels_per.
  destruct (a_shape labels) as [|a [|c l]]; [congruence|reflexivity|reflexivity].
Qed.

Lemma dense_set_fields : forall examples labels b b', dense_set_data examples labels b = (Ok tt, b') ->
  (0 < nth 0 (a_shape labels) O)%nat ->
  ib_nlit b' = ib_nlit b /\ ib_data b' = a_mem examples /\ ib_cur b' = ib_cur b /\
  ib_labels b' = Some (a_mem labels) /\ ib_perex b' = labels_per labels /\
  nth 0 (a_shape labels) O = nth 0 (a_shape examples) O /\ nth 1 (a_shape examples) O = ib_nlit b.
Proof.
  intros examples labels b b' E Hs. unfold dense_set_data in E.
  cbn [ib_nlit ib_perex ib_data ib_cur ib_label ib_labels] in E.
  destruct (Nat.eqb_spec (nth 1 (a_shape examples) O) (ib_nlit b)) as [E1|E1]; [|discriminate E].
  cbn [negb] in E. unfold set_labels in E. unfold labels_per.
  destruct (a_shape labels) as [|k rest]; cbn [nth] in *; [lia|]. destruct k as [|k]; [lia|].
  cbn [ib_nex ib_nlit ib_cur] in E.
  destruct (Nat.eqb_spec (S k) (nth 0 (a_shape examples) O)) as [E2|E2]; [|discriminate E].
  cbn [negb] in E. inversion E. cbn. repeat split; auto. destruct rest; reflexivity.
Qed.

(** CSR block after any number of presentations. *)
Lemma csr_presented : forall n rows indices indptr data labels b0 b idx i,
  csr_ok n rows indices indptr data -> Forall (fun v => 0 < v) data ->
  csr_reach n b0 -> a_shape labels <> [] -> csr_set_data indices indptr labels b0 = (Ok tt, b) ->
  Forall (fun k => (k < rows)%nat) idx -> (i < rows)%nat ->
  let b' := csr_prepare i (prepare_all csr_prepare idx b) in
  ib_cur b' = row_buffer n (fun j => if csr_entry indices indptr data i j =? 0 then 0 else 1) /\
  ib_label b' = slice (a_mem labels) (i * labels_per labels) (labels_per labels).
Proof.
  intros n rows indices indptr data labels b0 b idx i Hok Hd Hr Hs E Hidx Hi.
  destruct (csr_reach_ok n b0 Hr) as [R1 R2].
  destruct (csr_set_fields _ _ _ _ _ E Hs) as [F1 [F2 [F3 [F4 [F5 [F6 F7]]]]]].
  assert (Hb : buffer_ok (ib_nlit b) (ib_cur b)) by (rewrite F1, F4, R1; exact R2).
  assert (Hok' : csr_ok (ib_nlit b) rows (ib_indices b) (ib_indptr b) data) by (rewrite F1, F2, F3, R1; exact Hok).
  destruct (csr_history rows data idx b Hb Hok' Hd Hidx) as [[S1 [S2 [S3 [S4 [S5 [S6 S7]]]]]] S8].
  split.
  - rewrite (csr_prepare_row rows data); try rewrite S1; try rewrite S5; try rewrite S6; auto.
    rewrite F1, F2, F3, R1. reflexivity.
  - cbn [csr_prepare with_current ib_label]. unfold current_label. rewrite S7, S3, F5, F6. reflexivity.
Qed.

Lemma dense_presented : forall n rows examples labels b0 b idx i,
  length (a_mem examples) = (rows * n)%nat -> (0 < nth 0 (a_shape labels) O)%nat ->
  dense_reach n b0 -> dense_set_data examples labels b0 = (Ok tt, b) ->
  Forall (fun k => (k < rows)%nat) idx -> (i < rows)%nat ->
  let b' := dense_prepare i (prepare_all dense_prepare idx b) in
  ib_cur b' = row_buffer n (fun j => nth (i * n + j) (a_mem examples) 0) /\
  ib_label b' = slice (a_mem labels) (i * labels_per labels) (labels_per labels).
Proof.
  intros n rows examples labels b0 b idx i Hl Hs Hr E Hidx Hi.
  destruct (dense_reach_ok n b0 Hr) as [R1 R2].
  destruct (dense_set_fields _ _ _ _ E Hs) as [F1 [F2 [F3 [F4 [F5 [F6 F7]]]]]].
  assert (Hb : buffer_ok (ib_nlit b) (ib_cur b)) by (rewrite F1, F3, R1; exact R2).
  assert (Hl' : length (ib_data b) = (rows * ib_nlit b)%nat) by (rewrite F2, F1, R1; exact Hl).
  destruct (dense_history rows idx b Hb Hl' Hidx) as [[S1 [S2 [S3 [S4 [S5 [S6 S7]]]]]] S8].
  split.
  - rewrite (dense_prepare_row rows); try rewrite S1; try rewrite S4; auto.
    rewrite F2, F1, R1. reflexivity.
  - cbn [dense_prepare with_current ib_label]. unfold current_label. rewrite S7, S3, F4, F5. reflexivity.
Qed.

(** Training with either block is training on the list of presented rows. *)
Lemma prepare_all_snoc : forall prep idx i b, prepare_all prep (idx ++ [i]) b = prep i (prepare_all prep idx b).
Proof. intros. unfold prepare_all. now rewrite fold_left_app. Qed.

Lemma csr_trains : forall (B : Type) train_ex update process n rows indices indptr data labels b0 b idx bs fb,
  csr_ok n rows indices indptr data -> Forall (fun v => 0 < v) data ->
  csr_reach n b0 -> a_shape labels <> [] -> csr_set_data indices indptr labels b0 = (Ok tt, b) ->
  Forall (fun k => (k < rows)%nat) idx ->
  let r := @train_input B (list Z) (list Z) iblock train_ex update process csr_prepare ib_cur ib_label idx b bs fb in
  (snd (fst r), snd r) = train_list B (list Z) train_ex update (list Z) process
    (map (fun i => (row_buffer n (fun j => if csr_entry indices indptr data i j =? 0 then 0 else 1),
                    slice (a_mem labels) (i * labels_per labels) (labels_per labels))) idx) bs fb.
Proof.
  intros B train_ex update process n rows indices indptr data labels b0 b idx bs fb Hok Hd Hr Hs E Hidx.
  assert (G : forall idx pre bs fb, Forall (fun k => (k < rows)%nat) pre -> Forall (fun k => (k < rows)%nat) idx ->
    let r := @train_input B (list Z) (list Z) iblock train_ex update process csr_prepare ib_cur ib_label idx
               (prepare_all csr_prepare pre b) bs fb in
    (snd (fst r), snd r) = train_list B (list Z) train_ex update (list Z) process
      (map (fun i => (row_buffer n (fun j => if csr_entry indices indptr data i j =? 0 then 0 else 1),
                      slice (a_mem labels) (i * labels_per labels) (labels_per labels))) idx) bs fb).
  { clear idx Hidx bs fb. induction idx as [|i idx IH]; intros pre bs fb Hp Hi; [reflexivity|].
    inversion Hi; subst. cbn [train_input map train_list].
    destruct (csr_presented n rows indices indptr data labels b0 b pre i Hok Hd Hr Hs E Hp H1) as [P1 P2].
    rewrite P1, P2.
    destruct (train_one B (list Z) train_ex update (list Z) process _ bs fb) as [bs1 fb1].
    rewrite <- prepare_all_snoc. apply IH; auto. apply Forall_app. split; auto. }
  exact (G idx [] bs fb (Forall_nil _) Hidx).
Qed.

Lemma dense_trains : forall (B : Type) train_ex update process n rows examples labels b0 b idx bs fb,
  length (a_mem examples) = (rows * n)%nat -> (0 < nth 0 (a_shape labels) O)%nat ->
  dense_reach n b0 -> dense_set_data examples labels b0 = (Ok tt, b) ->
  Forall (fun k => (k < rows)%nat) idx ->
  let r := @train_input B (list Z) (list Z) iblock train_ex update process dense_prepare ib_cur ib_label idx b bs fb in
  (snd (fst r), snd r) = train_list B (list Z) train_ex update (list Z) process
    (map (fun i => (row_buffer n (fun j => nth (i * n + j) (a_mem examples) 0),
                    slice (a_mem labels) (i * labels_per labels) (labels_per labels))) idx) bs fb.
Proof.
  intros B train_ex update process n rows examples labels b0 b idx bs fb Hl Hs Hr E Hidx.
  assert (G : forall idx pre bs fb, Forall (fun k => (k < rows)%nat) pre -> Forall (fun k => (k < rows)%nat) idx ->
    let r := @train_input B (list Z) (list Z) iblock train_ex update process dense_prepare ib_cur ib_label idx
               (prepare_all dense_prepare pre b) bs fb in
    (snd (fst r), snd r) = train_list B (list Z) train_ex update (list Z) process
      (map (fun i => (row_buffer n (fun j => nth (i * n + j) (a_mem examples) 0),
                      slice (a_mem labels) (i * labels_per labels) (labels_per labels))) idx) bs fb).
  { clear idx Hidx bs fb. induction idx as [|i idx IH]; intros pre bs fb Hp Hi; [reflexivity|].
    inversion Hi; subst. cbn [train_input map train_list].
    destruct (dense_presented n rows examples labels b0 b pre i Hl Hs Hr E Hp H1) as [P1 P2].
    rewrite P1, P2.
    destruct (train_one B (list Z) train_ex update (list Z) process _ bs fb) as [bs1 fb1].
    rewrite <- prepare_all_snoc. apply IH; auto. apply Forall_app. split; auto. }
  exact (G idx [] bs fb (Forall_nil _) Hidx).
Qed.

(** ** Position codes *)

Lemma slice_length : forall (l : list Z) a n, (a + n <= length l)%nat -> length (slice l a n) = n.
Proof. intros. unfold slice. rewrite firstn_length, skipn_length. lia. Qed.

Lemma codes_differ : forall N channels pw ph src e1 e2 py px qy qx n_ex,
  (pw <= N)%nat -> (ph <= N)%nat -> length src = (n_ex * (N * N * channels))%nat ->
  (e1 < n_ex)%nat -> (e2 < n_ex)%nat ->
  (py + ph <= N)%nat -> (px + pw <= N)%nat -> (qy + ph <= N)%nat -> (qx + pw <= N)%nat ->
  firstn (N - ph + (N - pw)) (patch N N channels pw ph src e1 py px) =
  firstn (N - ph + (N - pw)) (patch N N channels pw ph src e2 qy qx) -> py = qy /\ px = qx.
Proof.
  intros N channels pw ph src e1 e2 py px qy qx n_ex Hpw Hph Hl He1 He2 H1 H2 H3 H4 E.
  destruct (patch_square n_ex N channels pw ph src e1 py px) as [A1 [A2 _]]; auto.
  destruct (patch_square n_ex N channels pw ph src e2 qy qx) as [B1 [B2 _]]; auto.
  assert (C : forall k, (k < N - ph + (N - pw))%nat ->
    nth k (patch N N channels pw ph src e1 py px) 0 = nth k (patch N N channels pw ph src e2 qy qx) 0).
  { intros k Hk. rewrite <- (nth_firstn_lt (patch N N channels pw ph src e1 py px) (N - ph + (N - pw)) k) by exact Hk.
    rewrite E. now apply nth_firstn_lt. }
  split.
  - destruct (Nat.lt_trichotomy py qy) as [L|[L|L]]; auto.
    + pose proof (C py ltac:(lia)) as D. rewrite A1, B1 in D by lia.
      rewrite Nat.ltb_irrefl in D. replace (py <? qy)%nat with true in D by (symmetry; apply Nat.ltb_lt; lia). discriminate.
    + pose proof (C qy ltac:(lia)) as D. rewrite A1, B1 in D by lia.
      rewrite Nat.ltb_irrefl in D. replace (qy <? py)%nat with true in D by (symmetry; apply Nat.ltb_lt; lia). discriminate.
  - destruct (Nat.lt_trichotomy px qx) as [L|[L|L]]; auto.
    + pose proof (C (N - ph + px)%nat ltac:(lia)) as D. rewrite A2, B2 in D by lia.
      rewrite Nat.ltb_irrefl in D. replace (px <? qx)%nat with true in D by (symmetry; apply Nat.ltb_lt; lia). discriminate.
    + pose proof (C (N - ph + qx)%nat ltac:(lia)) as D. rewrite A2, B2 in D by lia.
      rewrite Nat.ltb_irrefl in D. replace (qx <? px)%nat with true in D by (symmetry; apply Nat.ltb_lt; lia). discriminate.
Qed.

(** ** XOR labels *)

Lemma xor_labels_eq : forall cols m, rows_of cols m -> Forall binary m -> (2 <= cols)%nat ->
  map b2z (xor_labels m) = map xor_of m.
Proof.
  intros cols m H1 H2 Hc. unfold xor_labels. rewrite map_map. apply map_ext_in. intros row Hin.
  apply xor_bits; [now apply (proj1 (Forall_forall _ _) H2)|]. rewrite (proj1 (Forall_forall _ _) H1 row Hin). exact Hc.
Qed.

Lemma flip_nth : forall p us ys i, (i < length us)%nat -> length us = length ys ->
  nth i (map b2z (flip_labels p us ys)) 0 =
  if fl_ltb (Fin (nth i us 0%Q)) p then 1 - nth i (map b2z ys) 0 else nth i (map b2z ys) 0.
Proof.
  intros p us. induction us as [|u us IH]; intros [|y ys] i Hi Hl; cbn in Hi, Hl; try lia.
  destruct i as [|i]; cbn [flip_labels map2 map nth].
  - destruct (fl_ltb (Fin u) p), y; reflexivity.
  - apply (IH ys i); lia.
Qed.

Lemma flip_length : forall p us ys, length us = length ys -> length (flip_labels p us ys) = length ys.
Proof. intros p us. induction us as [|u us IH]; intros [|y ys] H; cbn in H; try lia; [reflexivity|].
  unfold flip_labels in *. cbn [map2 length]. rewrite IH; lia. Qed.
