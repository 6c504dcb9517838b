(** Xoshiro128Plus: the step loses nothing. *)
From Coq Require Import ZArith NArith List Bool Lia.
From Verif Require Import Base BaseProofs ModelAvx2 SpecAvx2 ModelRandom ProofsRandom ProofsRandomVec.
Import ListNotations.
Open Scope N_scope.

Lemma mask_bits : forall a i, N.testbit (N.land a mask64) i = N.testbit a i && (i <? 64).
Proof.
  intros a i. rewrite N.land_spec. f_equal. unfold mask64. destruct (N.ltb_spec i 64).
  - apply N.ones_spec_low. exact H.
  - apply N.ones_spec_high. exact H.
Qed.
Lemma small_high : forall a i, small a -> 64 <= i -> N.testbit a i = false.
Proof.
  intros a i H Hi. unfold small in H. replace i with (i - 64 + 64) by lia. rewrite <- N.shiftr_spec', H. apply N.bits_0.
Qed.

(** a ^ (a << 23) *)
Definition up (a : N) : N := N.lxor (shl64 23 a) a.
Lemma up_bits : forall a i, i < 64 -> N.testbit (up a) i = xorb (if i <? 23 then false else N.testbit a (i - 23)) (N.testbit a i).
Proof.
  intros a i Hi. unfold up, shl64. rewrite N.lxor_spec, mask_bits. replace (i <? 64) with true by (symmetry; apply N.ltb_lt; exact Hi).
  rewrite andb_true_r. f_equal. destruct (N.ltb_spec i 23).
  - apply N.shiftl_spec_low. exact H.
  - apply N.shiftl_spec_high'. exact H.
Qed.
Lemma up_small : forall a, small a -> small (up a).
Proof. intros a H. apply small_lxor; [apply small_mask|exact H]. Qed.
Lemma up_inj : forall a b, small a -> small b -> up a = up b -> a = b.
Proof.
  intros a b A B E. apply N.bits_inj. intros i. destruct (N.lt_ge_cases i 64) as [Hi|Hi].
  2:{ rewrite !small_high by auto. reflexivity. }
  revert Hi. induction i as [i IH] using (well_founded_induction N.lt_wf_0). intros Hi.
  pose proof (up_bits a i Hi) as Ua. pose proof (up_bits b i Hi) as Ub. rewrite E, Ub in Ua. destruct (N.ltb_spec i 23).
  - rewrite !xorb_false_l in Ua. auto.
  - rewrite (IH (i - 23)) in Ua by lia. destruct (N.testbit b (i - 23)), (N.testbit a i), (N.testbit b i); cbn in Ua; congruence.
Qed.

(** a ^ (a >> 18) *)
Lemma down_inj : forall a b, small a -> small b -> N.lxor a (N.shiftr a 18) = N.lxor b (N.shiftr b 18) -> a = b.
Proof.
  intros a b A B E. apply N.bits_inj. intros i. destruct (N.lt_ge_cases i 64) as [Hi|Hi].
  2:{ rewrite !small_high by auto. reflexivity. }
  remember (64 - i) as j eqn:Ej. revert i Hi Ej. induction j as [j IH] using (well_founded_induction N.lt_wf_0). intros i Hi Ej.
  assert (Bi : N.testbit (N.lxor a (N.shiftr a 18)) i = N.testbit (N.lxor b (N.shiftr b 18)) i) by (rewrite E; reflexivity).
  rewrite !N.lxor_spec, !N.shiftr_spec' in Bi.
  assert (H18 : N.testbit a (i + 18) = N.testbit b (i + 18)).
  { destruct (N.lt_ge_cases (i + 18) 64) as [Hi'|Hi']; [|rewrite !small_high by auto; reflexivity]. apply (IH (64 - (i + 18))); lia. }
  rewrite H18 in Bi. destruct (N.testbit b (i + 18)), (N.testbit a i), (N.testbit b i); cbn in Bi; congruence.
Qed.

(** One lane. *)
Definition xo_lane (p : N * N) : N * N :=
  let '(a, b) := p in (b, N.lxor (N.lxor (up a) b) (N.lxor (N.shiftr (up a) 18) (N.shiftr b 5))).
Definition small2 (p : N * N) : Prop := small (fst p) /\ small (snd p).
Lemma xo_lane_small : forall p, small2 p -> small2 (xo_lane p).
Proof.
  intros [a b] [A B]. split; cbn [xo_lane fst snd] in *; [exact B|].
  apply small_lxor; apply small_lxor; [apply up_small; exact A|exact B|apply small_shiftr, up_small; exact A|apply small_shiftr; exact B].
Qed.
Lemma xo_lane_inj : forall p q, small2 p -> small2 q -> xo_lane p = xo_lane q -> p = q.
Proof.
  intros [a b] [c d] [A B] [C D] E. cbn [fst snd] in *. unfold xo_lane in E. apply pair_equal_spec in E. destruct E as [Ed E]. subst d. f_equal.
  apply up_inj; auto. apply down_inj; auto using up_small.
  assert (X : forall u, N.lxor u (N.shiftr u 18) = N.lxor (N.lxor (N.lxor u b) (N.lxor (N.shiftr u 18) (N.shiftr b 5))) (N.lxor b (N.shiftr b 5))).
  { intros u. apply N.bits_inj. intros i. rewrite !N.lxor_spec. destruct (N.testbit u i), (N.testbit b i), (N.testbit (N.shiftr u 18) i), (N.testbit (N.shiftr b 5) i); reflexivity. }
  rewrite (X (up a)), (X (up c)), E. reflexivity.
Qed.

Lemma xo_iter_inj : forall k p q, small2 p -> small2 q -> Nat.iter k xo_lane p = Nat.iter k xo_lane q -> p = q.
Proof.
  induction k as [|k IH]; intros p q P Q E; [exact E|]. apply IH; auto. apply xo_lane_inj; [| |exact E].
  - clear -P. induction k as [|k IH]; [exact P|]. apply xo_lane_small. exact IH.
  - clear -Q. induction k as [|k IH]; [exact Q|]. apply xo_lane_small. exact IH.
Qed.
Lemma xo_iter_zero : forall k, Nat.iter k xo_lane (0, 0) = (0, 0).
Proof. induction k as [|k IH]; [reflexivity|]. cbn [Nat.iter nat_rect]. unfold Nat.iter in IH. rewrite IH. reflexivity. Qed.

(** The vector holds two lanes. *)
Definition lanes2 (p q : N * N) : xs_state := ([fst p; fst q], [snd p; snd q]).
Lemma xo_next_lanes : forall p q, snd (xo_next (lanes2 p q)) = lanes2 (xo_lane p) (xo_lane q).
Proof. intros [a b] [c d]. reflexivity. Qed.
Lemma xo_after_lanes : forall k p q, xo_after (lanes2 p q) k = lanes2 (Nat.iter k xo_lane p) (Nat.iter k xo_lane q).
Proof.
  induction k as [|k IH]; intros p q; [reflexivity|]. cbn [xo_after]. rewrite xo_next_lanes, IH.
  assert (C : forall r, Nat.iter k xo_lane (xo_lane r) = Nat.iter (S k) xo_lane r).
  { intros r. clear. induction k as [|k IH]; [reflexivity|]. change (xo_lane (Nat.iter k xo_lane (xo_lane r)) = xo_lane (Nat.iter (S k) xo_lane r)). rewrite IH. reflexivity. }
  rewrite !C. reflexivity.
Qed.
Lemma xo_after_add : forall j k st, xo_after st (j + k) = xo_after (xo_after st j) k.
Proof. induction j as [|j IH]; intros k st; cbn [xo_after Nat.add]; auto. Qed.
