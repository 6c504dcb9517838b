(** The engine below the class draws, the initial automata and the seeds. *)
From Coq Require Import ZArith List Bool QArith Lia ZifyBool.
From Verif Require Import Base ModelFeedback ModelEngine SpecLearning ProofsFeedback ProofsEngine ProofsEngineDraw.
Import ListNotations.
Open Scope Z_scope.

(** ** Class draws *)
Lemma uni_after_add : forall n a b x, uni_after n (a + b) x = uni_after n b (uni_after n a x).
Proof.
  intros n a b x. unfold uni_after. rewrite Nat.add_comm. induction b as [|b IH]; [reflexivity|].
  cbn [Nat.add Nat.iter nat_rect]. unfold Nat.iter in IH. rewrite IH. reflexivity.
Qed.
Lemma uni_value_shift : forall n x p k, uni_value n x (p + k) = uni_value n (uni_after n p x) k.
Proof. intros n x p k. unfold uni_value. rewrite uni_after_add. reflexivity. Qed.
Lemma draw_class_uni : forall n x p, 1 <= Z.of_nat n <= 2147483645 -> eng_state x ->
  draw_class n (mkRng (rng_src (uni_rng n x)) p) = (Z.to_nat (uni_value (Z.of_nat n) x p), mkRng (rng_src (uni_rng n x)) (S p)).
Proof.
  intros n x p Hn Hx. pose proof (uni_value_range (Z.of_nat n) Hn x p Hx) as R.
  unfold draw_class, next_u. cbn [rng_src rng_pos uni_rng Qnum Qden]. f_equal.
  assert (E : Z.pos (Pos.of_nat n) = Z.of_nat n) by (rewrite <- positive_nat_Z, Nat2Pos.id; lia).
  rewrite E, Z.div_mul by lia. f_equal. lia.
Qed.
Lemma class_other : forall n x p label, 2 <= Z.of_nat n <= 2147483645 -> eng_state x ->
  exists fuel c r, Z.of_nat fuel <= 2147483646 /\ draw_other fuel n label (mkRng (rng_src (uni_rng n x)) p) = Some (c, r) /\
    rng_src r = rng_src (uni_rng n x).
Proof.
  intros n x p label Hn Hx.
  assert (T : exists c, 0 <= c < Z.of_nat n /\ Z.to_nat c <> label).
  { destruct (Nat.eq_dec label 0) as [->|]; [exists 1; lia|exists 0; lia]. }
  destruct T as [c [Hc Hne]].
  destruct (uni_all (Z.of_nat n) ltac:(lia) (uni_after (Z.of_nat n) p x) c) as [j [Hj V]]; [apply uni_after_closed; [lia|exact Hx]|exact Hc|].
  destruct (draw_other_ends j n label (mkRng (rng_src (uni_rng n x)) p)) as [[d r] E].
  { unfold advance. cbn [rng_src rng_pos]. rewrite draw_class_uni by (auto; lia). cbn [fst]. rewrite uni_value_shift, V. exact Hne. }
  exists (S j), d, r. unfold NN in Hj. split; [lia|]. split; [exact E|].
  clear -E. revert E. generalize (S j). intros fuel. revert p. induction fuel as [|fuel IH]; intros p E; [discriminate|].
  cbn [draw_other] in E. unfold draw_class, next_u in E. cbn [rng_src rng_pos] in E.
  match type of E with (if ?b then _ else _) = _ => destruct b end; [apply (IH _ E)|]. apply f_equal with (f := fun o => match o with Some (_, r) => rng_src r | None => rng_src (uni_rng n x) end) in E. cbn [rng_src] in E. symmetry. exact E.
Qed.

(** ** Positive draws *)
Lemma canon_draw : forall x p, eng_state x -> (0 < draw (mkRng (rng_src (canon_rng x)) p) 0 < 1)%Q.
Proof.
  intros x p Hx. unfold draw. cbn [rng_src rng_pos canon_rng]. rewrite Nat.add_0_r.
  replace (2 * p + 2)%nat with (S (2 * p + 1)) by lia. apply canon_pos. apply eng_after_closed. exact Hx.
Qed.

(** ** Two parts that start from the same state *)
Definition accepted2 (x : Z) (k : nat) : Prop := forall i, (1 <= i <= k)%nat -> eng_after i x <= 2147483644.
Lemma uni2_result : forall x, eng_state x -> x <= 2147483644 -> uni_result 2 x = Some (if x <=? 1073741822 then 0 else 1).
Proof.
  intros x Hx Hu. apply (uni_result_iff 2 ltac:(lia)); [exact Hx|]. change (uni_scaling 2) with 1073741822. unfold eng_state in Hx.
  destruct (Z.leb_spec x 1073741822); lia.
Qed.
Lemma uni2_step : forall x, eng_state x -> eng x <= 2147483644 -> uni_draw 2 x = (eng x, Some (if eng x <=? 1073741822 then 0 else 1)).
Proof.
  intros x Hx Hu. pose proof (uni2_result (eng x) (eng_closed x Hx) Hu) as R.
  destruct (uni_draw_first 2 1 x _ Hx ltac:(unfold NN; lia) R) as [j [b [Hj [E F]]]].
  assert (J : j = 1%nat) by (clear - Hj; lia). subst j. change (eng_after 1 x) with (eng x) in *. rewrite E. f_equal. congruence.
Qed.
Lemma uni2_follow : forall k x, eng_state x -> accepted2 x k -> uni_after 2 k x = eng_after k x.
Proof.
  induction k as [|k IH]; intros x Hx A; [reflexivity|].
  change (fst (uni_draw 2 (uni_after 2 k x)) = eng (eng_after k x)). rewrite IH by (auto; intros i Hi; apply A; lia).
  rewrite uni2_step; [reflexivity|apply eng_after_closed; exact Hx|]. apply (A (S k)). lia.
Qed.
Lemma uni2_value : forall k x, eng_state x -> accepted2 x (S k) -> uni_value 2 x k = if eng_after (S k) x <=? 1073741822 then 0 else 1.
Proof.
  intros k x Hx A. unfold uni_value. rewrite uni2_follow by (auto; intros i Hi; apply A; lia).
  rewrite uni2_step; [reflexivity|apply eng_after_closed; exact Hx|]. apply (A (S k)). lia.
Qed.
Lemma canon_half : forall x j, eng_state x ->
  ((1073741822 # 2147483646) <= draw (canon_rng x) j)%Q <-> 1073741822 < eng_after (2 * j + 2) x.
Proof.
  intros x j Hx. unfold draw. cbn [rng_src rng_pos canon_rng]. cbn [Nat.add].
  pose proof (eng_after_closed (2 * j + 1) x Hx) as A. pose proof (eng_after_closed (2 * j + 2) x Hx) as B.
  unfold eng_state in *. unfold canon, Qle. cbn [Qnum Qden].
  generalize dependent (eng_after (2 * j + 1) x). generalize dependent (eng_after (2 * j + 2) x). intros b B a A.
  change (Z.pos (2147483646 * 2147483646)) with (2147483646 * 2147483646). lia.
Qed.

(** ** Neighbouring seeds *)
Lemma eng_linear : forall k x y, eng_state x -> eng_state y -> eng_state (x + y) -> eng_after k (x + y) = (eng_after k x + eng_after k y) mod eng_mod.
Proof. intros k x y Hx Hy Hs. rewrite !eng_after_pow by assumption. rewrite Z.mul_add_distr_l. apply Zplus_mod. Qed.
Lemma eng_seed_small : forall s, eng_state s -> eng_seed s = s.
Proof.
  intros s Hs. unfold eng_state in Hs. unfold eng_seed. rewrite (Z.mod_small s) by lia. rewrite Z.mod_small by (unfold eng_mod; lia).
  destruct (Z.eqb_spec s 0); lia.
Qed.
Lemma eng_seed_state : forall s, eng_state (eng_seed s).
Proof.
  intros s. unfold eng_seed, eng_state. pose proof (Z.mod_pos_bound (s mod 2 ^ 64) eng_mod ltac:(reflexivity)) as B. unfold eng_mod in *.
  destruct (Z.eqb_spec ((s mod 2 ^ 64) mod 2147483647) 0); lia.
Qed.
Lemma first_low : forall s, 1 <= s <= 63886 -> uni_value 2 (eng_seed s) 0 = 0.
Proof.
  intros s Hs. assert (X : eng_state s) by (unfold eng_state; lia). rewrite eng_seed_small by exact X.
  assert (E : eng s = 16807 * s) by (unfold eng, eng_mult, eng_mod; apply Z.mod_small; lia).
  rewrite uni2_value; [|exact X|].
  - change (eng_after 1 s) with (eng s). rewrite E. destruct (Z.leb_spec (16807 * s) 1073741822); lia.
  - intros i Hi. assert (i = 1%nat) by lia. subst i. change (eng_after 1 s) with (eng s). lia.
Qed.
Lemma draw_init : forall x k, Qle_bool (draw (init_rng x) k) (1 # 2) = (uni_value 2 x k <=? 0).
Proof.
  intros x k. unfold draw. cbn [rng_src rng_pos init_rng]. change (0 + k)%nat with k. generalize (uni_value 2 x k). intros v. unfold Qle_bool, inject_Z. cbn [Qnum Qden]. destruct (Z.leb_spec (v * 2) (1 * 1)); destruct (Z.leb_spec v 0); lia.
Qed.
