(** More orders than engine states. *)
From Coq Require Import ZArith List Bool Lia Permutation.
From Verif Require Import Base BaseProofs ModelExecutor ModelEngine ProofsExecutor.
Import ListNotations.
Open Scope Z_scope.

Definition insert_at (i a : nat) (l : list nat) : list nat := firstn i l ++ a :: skipn i l.
Fixpoint orders (n : nat) : list (list nat) :=
  match n with
  | O => [[]]
  | S m => flat_map (fun p => map (fun i => insert_at i m p) (seq 0 (S m))) (orders m)
  end.
Lemma insert_perm : forall i a l, Permutation (insert_at i a l) (a :: l).
Proof. intros i a l. unfold insert_at. rewrite <- (firstn_skipn i l) at 3. symmetry. apply Permutation_middle. Qed.
Lemma orders_perm : forall n p, In p (orders n) -> Permutation p (seq 0 n).
Proof.
  induction n as [|m IH]; intros p Hp.
  - destruct Hp as [<-|[]]. constructor.
  - cbn [orders] in Hp. apply in_flat_map in Hp. destruct Hp as [q [Hq Hp]]. apply in_map_iff in Hp. destruct Hp as [i [<- _]].
    rewrite insert_perm, (IH q Hq). rewrite seq_S. cbn [Nat.add]. apply Permutation_cons_append.
Qed.
Lemma insert_inj : forall a i j p q, ~ In a p -> ~ In a q -> (i <= length p)%nat -> (j <= length q)%nat ->
  insert_at i a p = insert_at j a q -> i = j /\ p = q.
Proof.
  intros a i. induction i as [|i IH]; intros j p q Hp Hq Li Lj E; unfold insert_at in E.
  - destruct j as [|j]; cbn [firstn skipn app] in E; [injection E as <-; auto|]. destruct q as [|b q]; [cbn in Lj; lia|].
    cbn [firstn app] in E. injection E as Eb _. exfalso. apply Hq. left. auto.
  - destruct p as [|b p]; [cbn in Li; lia|]. destruct j as [|j]; cbn [firstn skipn app] in E.
    + injection E as Eb _. exfalso. apply Hp. left. auto.
    + destruct q as [|c q]; [cbn in Lj; lia|]. cbn [firstn skipn app] in E. injection E as <- E.
      destruct (IH j p q) as [-> ->]; auto.
      * intros H. apply Hp. right. exact H.
      * intros H. apply Hq. right. exact H.
      * cbn in Li. lia.
      * cbn in Lj. lia.
Qed.
Lemma orders_nodup : forall n, NoDup (orders n).
Proof.
  induction n as [|m IH]; [repeat constructor; auto|]. cbn [orders].
  assert (P : forall l, incl l (orders m) -> NoDup l -> NoDup (flat_map (fun p => map (fun i => insert_at i m p) (seq 0 (S m))) l)).
  { induction l as [|p l IHl]; intros Hl N; [constructor|]. inversion_clear N as [|? ? Np Nl]. cbn [flat_map].
    assert (Fr : forall q, In q (orders m) -> ~ In m q /\ length q = m).
    { intros q Hq. pose proof (orders_perm m q Hq) as Q. split.
      - intros H. apply (Permutation_in _ Q) in H. apply in_seq in H. lia.
      - rewrite (Permutation_length Q). apply seq_length. }
    destruct (Fr p ltac:(apply Hl; left; reflexivity)) as [Fp Lp].
    assert (D : forall v, In v (map (fun i => insert_at i m p) (seq 0 (S m))) -> ~ In v (flat_map (fun p => map (fun i => insert_at i m p) (seq 0 (S m))) l)).
    { intros v Hv Hw. apply in_map_iff in Hv. destruct Hv as [i [<- Hi]]. apply in_flat_map in Hw. destruct Hw as [q [Hq Hw]].
      apply in_map_iff in Hw. destruct Hw as [j [E Hj]]. destruct (Fr q ltac:(apply Hl; right; exact Hq)) as [Fq Lq]. rewrite in_seq in *.
      destruct (insert_inj m j i q p) as [_ ->]; auto; try lia. }
    assert (N1 : NoDup (map (fun i => insert_at i m p) (seq 0 (S m)))).
    { apply NoDup_nth_error. intros i j Hi E. rewrite map_length in Hi. rewrite !nth_error_map in E.
      assert (Hs : forall k, (k < S m)%nat -> nth_error (seq 0 (S m)) k = Some k).
      { intros k Hk. rewrite (nth_error_nth' _ O) by (rewrite seq_length; exact Hk). rewrite seq_nth by exact Hk. reflexivity. }
      rewrite seq_length in Hi. rewrite (Hs i Hi) in E. destruct (Nat.lt_ge_cases j (S m)) as [Hj|Hj].
      - rewrite (Hs j Hj) in E. cbn [option_map] in E. injection E as E. apply (insert_inj m i j p p) in E; auto; lia.
      - rewrite (proj2 (nth_error_None _ _)) in E by (rewrite seq_length; exact Hj). discriminate. }
    specialize (IHl (fun q H => Hl q (or_intror H)) Nl).
    clear -D N1 IHl. revert D. induction (map (fun i => insert_at i m p) (seq 0 (S m))) as [|v vs IHv]; intros D; [exact IHl|].
    inversion_clear N1 as [|? ? Nv Nvs]. cbn [app]. constructor.
    - rewrite in_app_iff. intros [H|H]; [contradiction|]. apply (D v); auto. left. reflexivity.
    - apply IHv; auto. intros w Hw. apply D. right. exact Hw. }
  apply P; [apply incl_refl|exact IH].
Qed.
Fixpoint zfact (n : nat) : Z := match n with O => 1 | S m => Z.of_nat n * zfact m end.
Lemma orders_length : forall n, Z.of_nat (length (orders n)) = zfact n.
Proof.
  induction n as [|m IH]; [reflexivity|]. cbn [zfact]. rewrite <- IH. cbn [orders].
  assert (P : forall l : list (list nat), Z.of_nat (length (flat_map (fun p => map (fun i => insert_at i m p) (seq 0 (S m))) l)) = Z.of_nat (S m) * Z.of_nat (length l)).
  { induction l as [|p l IHl]; [cbn [flat_map length]; lia|]. cbn [flat_map]. rewrite app_length, map_length, seq_length. cbn [length]. lia. }
  apply P.
Qed.
Lemma zfact_large : forall n, (13 <= n)%nat -> 2147483646 < zfact n.
Proof.
  intros n H. induction H as [|n H IH]; [vm_compute; reflexivity|]. cbn [zfact].
  assert (zfact n * 1 <= zfact n * Z.of_nat (S n)) by (apply Z.mul_le_mono_nonneg_l; lia). lia.
Qed.
Lemma order_missed : forall (f : Z -> list nat) n, (13 <= n)%nat ->
  exists o, Permutation o (seq 0 n) /\ forall x, eng_state x -> f x <> o.
Proof.
  intros f n Hn. assert (N0 : exists k : nat, Z.of_nat k = 2147483646) by (exists (Z.to_nat 2147483646); apply Z2Nat.id; lia).
  destruct N0 as [k Hk]. set (hit := map (fun i => f (Z.of_nat i + 1)) (seq 0 k)).
  destruct (Forall_Exists_dec (fun o => In o hit) (fun o => in_dec (list_eq_dec Nat.eq_dec) o hit) (orders n)) as [A|A].
  - exfalso. assert (L : (length (orders n) <= length hit)%nat).
    { apply NoDup_incl_length; [apply orders_nodup|]. intros o Ho. rewrite Forall_forall in A. apply A. exact Ho. }
    unfold hit in L. rewrite map_length, seq_length in L. pose proof (orders_length n). pose proof (zfact_large n Hn). lia.
  - apply Exists_exists in A. destruct A as [o [Ho A]]. exists o. split; [apply orders_perm; exact Ho|]. intros x Hx E. apply A.
    unfold hit. apply in_map_iff. exists (Z.to_nat (x - 1)). unfold eng_state in Hx. rewrite in_seq. split; [|lia].
    rewrite Z2Nat.id by lia. replace (x - 1 + 1) with x by ring. exact E.
Qed.

(** ** Draws for a given order *)
Lemma shuffle_last : forall k i l r, shuffle_from i (S k) l r =
  let '(l1, r1) := shuffle_from i k l r in let '(j, r2) := next_int (S (i + k)) r1 in (swap (i + k) j l1, r2).
Proof.
  induction k as [|k IH]; intros i l r.
  - cbn [shuffle_from]. rewrite Nat.add_0_r. reflexivity.
  - replace (i + S k)%nat with (S i + k)%nat by lia. change (shuffle_from i (S (S k)) l r) with
      (let '(j, r) := next_int (S i) r in shuffle_from (S i) (S k) (swap i j l) r).
    change (shuffle_from i (S k) l r) with (let '(j, r) := next_int (S i) r in shuffle_from (S i) k (swap i j l) r).
    destruct (next_int (S i) r) as [j r1]. apply IH.
Qed.
Lemma shuffle_rng : forall k i l r, snd (shuffle_from i k l r) = mkIrng (ir_src r) (ir_pos r + k).
Proof.
  induction k as [|k IH]; intros i l r; cbn [shuffle_from]; [rewrite Nat.add_0_r; destruct r; reflexivity|].
  unfold next_int. rewrite IH. cbn [ir_src ir_pos]. f_equal. lia.
Qed.
Lemma nth_swap : forall l i j k, (i < length l)%nat -> (j < length l)%nat ->
  nth k (swap i j l) O = if (k =? j)%nat then nth i l O else if (k =? i)%nat then nth j l O else nth k l O.
Proof.
  intros l i j k Hi Hj. unfold swap. destruct (Nat.eqb_spec k j) as [->|H1].
  - apply nth_set_nth_eq. rewrite set_nth_length. exact Hj.
  - rewrite nth_set_nth_neq by auto. destruct (Nat.eqb_spec k i) as [->|H2]; [apply nth_set_nth_eq; exact Hi|apply nth_set_nth_neq; auto].
Qed.
Lemma swap_length : forall l i j, length (swap i j l) = length l.
Proof. intros. unfold swap. rewrite !set_nth_length. reflexivity. Qed.
Lemma swap_swap : forall l i j, (i < length l)%nat -> (j < length l)%nat -> swap i j (swap i j l) = l.
Proof.
  intros l i j Hi Hj. apply (nth_ext _ _ O O); [rewrite !swap_length; reflexivity|]. intros k _.
  rewrite !nth_swap by (rewrite ?swap_length; auto). destruct (Nat.eqb_spec k j) as [->|H1].
  - rewrite Nat.eqb_refl. destruct (Nat.eqb_spec i j) as [->|]; reflexivity.
  - destruct (Nat.eqb_spec k i) as [->|H2]; [|reflexivity]. rewrite Nat.eqb_refl. reflexivity.
Qed.
Lemma swap_app : forall i j l z, (i < length l)%nat -> (j < length l)%nat -> swap i j (l ++ z) = swap i j l ++ z.
Proof.
  intros i j l z Hi Hj. apply (nth_ext _ _ O O); [rewrite app_length, !swap_length, app_length; reflexivity|]. intros k _.
  rewrite nth_swap by (rewrite app_length; lia). rewrite !(app_nth1 l z) by assumption.
  destruct (Nat.lt_ge_cases k (length l)) as [L|L].
  - rewrite (app_nth1 (swap i j l)) by (rewrite swap_length; exact L). rewrite nth_swap by assumption. rewrite app_nth1 by exact L. reflexivity.
  - rewrite (app_nth2 (swap i j l)) by (rewrite swap_length; exact L). rewrite swap_length, (app_nth2 l) by exact L.
    destruct (Nat.eqb_spec k j); [lia|]. destruct (Nat.eqb_spec k i); [lia|]. reflexivity.
Qed.
Lemma split_last : forall (l : list nat) m, length l = S m -> l = firstn m l ++ [nth m l O].
Proof.
  intros l m H. rewrite <- (firstn_skipn m l) at 1. f_equal. destruct (skipn m l) as [|a t] eqn:E.
  - assert (length (skipn m l) = 1%nat) by (rewrite skipn_length; lia). rewrite E in H0. discriminate.
  - assert (length (skipn m l) = 1%nat) by (rewrite skipn_length; lia). rewrite E in H0. destruct t; [|discriminate].
    f_equal. rewrite <- (firstn_skipn m l), E, app_nth2 by (rewrite firstn_length; lia). rewrite firstn_length, Nat.min_l by lia. rewrite Nat.sub_diag. reflexivity.
Qed.
Lemma skip_one : forall n (l : list nat), (n < length l)%nat -> skipn n l = nth n l O :: skipn (S n) l.
Proof.
  induction n as [|n IH]; intros [|b l] Hl; cbn [length] in Hl; try lia; [reflexivity|].
  change (skipn n l = nth n l O :: skipn (S n) l). apply IH. lia.
Qed.
Lemma draws_for : forall m l t, (S m <= length l)%nat -> Permutation t (firstn (S m) l) ->
  exists js, forall src, (forall k, (k < m)%nat -> src k = nth k js O) -> fst (shuffle_from 1 m l (mkIrng src 0)) = t ++ skipn (S m) l.
Proof.
  induction m as [|m IH]; intros l t Hl P.
  - exists []. intros src _. destruct l as [|a l]; [cbn in Hl; lia|]. cbn [firstn] in P. symmetry in P. apply Permutation_length_1_inv in P. subst t. reflexivity.
  - assert (Lt : length t = S (S m)) by (rewrite (Permutation_length P), firstn_length; lia).
    set (a := nth (S m) l O).
    assert (Fl : firstn (S (S m)) l = firstn (S m) l ++ [a]).
    { pose proof (split_last (firstn (S (S m)) l) (S m) ltac:(rewrite firstn_length; lia)) as Q.
      rewrite firstn_firstn, Nat.min_l in Q by lia. rewrite Q. f_equal. f_equal. unfold a.
      rewrite <- (firstn_skipn (S (S m)) l) at 2. rewrite app_nth1 by (rewrite firstn_length; lia). reflexivity. }
    assert (Ha : In a t) by (apply (Permutation_in _ (Permutation_sym P)); rewrite Fl; apply in_or_app; right; left; reflexivity).
    destruct (In_nth t a O Ha) as [j [Hj Ej]].
    set (t' := swap (S m) j t).
    assert (Lt' : length t' = S (S m)) by (unfold t'; rewrite swap_length; exact Lt).
    pose proof (split_last t' (S m) Lt') as S1.
    assert (E1 : nth (S m) t' O = a).
    { unfold t'. rewrite nth_swap by lia. destruct (Nat.eqb_spec (S m) j) as [<-|]; [exact Ej|]. rewrite Nat.eqb_refl. exact Ej. }
    rewrite E1 in S1.
    assert (P0 : Permutation (firstn (S m) t') (firstn (S m) l)).
    { apply Permutation_app_inv_r with [a]. rewrite <- S1, <- Fl, <- P. apply swap_perm; lia. }
    destruct (IH l (firstn (S m) t') ltac:(lia) P0) as [js Hjs].
    exists (firstn m (js ++ repeat O m) ++ [j]). intros src Hsrc.
    assert (Lj : length (firstn m (js ++ repeat O m)) = m) by (rewrite firstn_length, app_length, repeat_length; lia).
    assert (A : fst (shuffle_from 1 m l (mkIrng src 0)) = firstn (S m) t' ++ skipn (S m) l).
    { apply Hjs. intros k Hk. rewrite Hsrc by lia. rewrite app_nth1 by lia.
      assert (X : nth k (firstn m (js ++ repeat O m)) O = nth k (js ++ repeat O m) O).
      { rewrite <- (firstn_skipn m (js ++ repeat O m)) at 2. rewrite app_nth1 by lia. reflexivity. }
      rewrite X. destruct (Nat.lt_ge_cases k (length js)) as [L|L]; [apply app_nth1; exact L|].
      rewrite app_nth2 by exact L. rewrite nth_repeat. symmetry. apply nth_overflow. exact L. }
    rewrite shuffle_last. pose proof (shuffle_rng m 1 l (mkIrng src 0)) as R. destruct (shuffle_from 1 m l (mkIrng src 0)) as [l1 r1].
    cbn [fst snd] in A, R. subst l1 r1. unfold next_int. cbn [ir_src ir_pos Nat.add fst]. rewrite Hsrc by lia.
    rewrite app_nth2 by lia. rewrite Lj, Nat.sub_diag. cbn [nth]. rewrite Nat.mod_small by lia.
    assert (Sk : skipn (S m) l = a :: skipn (S (S m)) l).
    { apply skip_one. lia. }
    rewrite Sk. replace (firstn (S m) t' ++ a :: skipn (S (S m)) l) with (t' ++ skipn (S (S m)) l) by (rewrite S1 at 1; rewrite <- app_assoc; reflexivity).
    rewrite swap_app by lia. unfold t'. rewrite swap_swap by lia. reflexivity.
Qed.
