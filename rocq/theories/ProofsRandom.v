(** Lemmas about the random generators of ModelRandom.v. *)
From Coq Require Import ZArith NArith List Bool QArith Lia Znumtheory ZifyBool.
From Verif Require Import Base BaseProofs ModelAvx2 SpecAvx2 ModelRandom.
Import ListNotations.
Open Scope Z_scope.

(** ** Wyhash64: states *)

Lemma wy_state_shift : forall k x, 0 <= x < 2 ^ 64 -> wy_state x k = wrap64 (x + Z.of_nat k * wy_step).
Proof.
  induction k as [|k IH]; intros x H.
  - cbn [wy_state]. unfold wrap64. replace (x + Z.of_nat 0 * wy_step) with x by lia. rewrite Z.mod_small; lia.
  - cbn [wy_state wy_next snd]. rewrite IH by (unfold wrap64; apply Z.mod_pos_bound; lia).
    unfold wrap64. rewrite Zplus_mod_idemp_l. f_equal. lia.
Qed.

Lemma wy_state_range : forall k x, 0 <= x < 2 ^ 64 -> 0 <= wy_state x k < 2 ^ 64.
Proof. intros. rewrite wy_state_shift by auto. unfold wrap64. apply Z.mod_pos_bound. lia. Qed.

Lemma wy_draw : forall x k, 0 <= x < 2 ^ 64 ->
  rng_src (wy_rng x) k = wy_value (wrap64 (x + (Z.of_nat k + 1) * wy_step)).
Proof.
  intros x k H. unfold wy_rng, wy_next. cbn [rng_src fst]. rewrite wy_state_shift by auto. f_equal.
  unfold wrap64. rewrite Zplus_mod_idemp_l. f_equal. lia.
Qed.

Definition wy_inv : Z := Eval vm_compute in
  (let '(u, _, _) := (fix eg (n : nat) (a b : Z) : Z * Z * Z :=
      match n with O => (1, 0, a) | S n => if b =? 0 then (1, 0, a) else
        let '(u, v, g) := eg n b (a mod b) in (v, u - (a / b) * v, g) end) 200%nat wy_step (2 ^ 64) in u mod 2 ^ 64).

Lemma wy_inv_ok : (wy_step * wy_inv) mod 2 ^ 64 = 1.
Proof. vm_compute. reflexivity. Qed.

(** ** Wyhash64: the mixing function *)

Lemma lxor_eq_0 : forall a b, Z.lxor a b = 0 <-> a = b.
Proof. intros. split; [apply Z.lxor_eq|intros ->; apply Z.lxor_nilpotent]. Qed.

Lemma mix_zero : forall k v, 0 < k < 2 ^ 64 -> Z.gcd k (2 ^ 64 + 1) = 1 -> 0 <= v < 2 ^ 64 ->
  wy_mix k v = 0 -> v = 0.
Proof.
  intros k v Hk Hg Hv H. unfold wy_mix, wrap64 in H.
  set (t := v * k) in *. assert (Ht : 0 <= t < 2 ^ 64 * 2 ^ 64) by (unfold t; nia).
  rewrite <- Z.land_ones in H by lia.
  assert (E : Z.lxor (Z.shiftr t 64) (Z.land t (Z.ones 64)) = 0).
  { rewrite <- H. apply Z.bits_inj'. intros n Hn. rewrite Z.land_spec, !Z.lxor_spec, Z.land_spec.
    destruct (Z.ltb_spec n 64).
    - rewrite Z.ones_spec_low by lia. rewrite !andb_true_r. reflexivity.
    - rewrite Z.ones_spec_high by lia. rewrite !andb_false_r, xorb_false_r.
      rewrite Z.shiftr_spec by lia. apply (Z.bits_above_log2 t); [lia|].
      destruct (Z.eq_dec t 0) as [->|]; [cbn; lia|]. assert (Z.log2 t < 128); [|lia].
      apply Z.log2_lt_pow2; [lia|]. replace (2 ^ 128) with (2 ^ 64 * 2 ^ 64) by reflexivity. lia. }
  apply Z.lxor_eq in E. rewrite Z.land_ones, Z.shiftr_div_pow2 in E by lia.
  assert (D : t = t mod 2 ^ 64 * (2 ^ 64 + 1)).
  { rewrite (Z.div_mod t (2 ^ 64)) at 1 by lia. rewrite E. ring. }
  assert (Div : (2 ^ 64 + 1 | k * v)) by (exists (t mod 2 ^ 64); rewrite <- D; unfold t; ring).
  apply Gauss in Div.
  - destruct Div as [q Hq]. nia.
  - apply Zgcd_1_rel_prime. rewrite Z.gcd_comm. exact Hg.
Qed.

Lemma mix_range : forall k v, 0 <= wy_mix k v < 2 ^ 64.
Proof. intros. unfold wy_mix, wrap64. apply Z.mod_pos_bound. lia. Qed.

(** ** Conversion to double *)

Lemma to_double_facts : forall m, 2 ^ 53 <= m < 2 ^ 64 ->
  let e := Z.log2 m - 52 in
  1 <= e <= 11 /\ 2 ^ 52 <= m / 2 ^ e < 2 ^ 53 /\ 2 ^ e = 2 * 2 ^ (e - 1).
Proof.
  intros m H e. unfold e.
  assert (L1 : 53 <= Z.log2 m) by (apply Z.log2_le_pow2; lia).
  assert (L2 : Z.log2 m < 64) by (apply Z.log2_lt_pow2; lia).
  pose proof (Z.log2_spec m ltac:(lia)) as [S1 S2].
  set (l := Z.log2 m) in *. clearbody l.
  split; [lia|]. split.
  - split.
    + apply Z.div_le_lower_bound; [apply Z.pow_pos_nonneg; lia|]. rewrite <- Z.pow_add_r by lia.
      replace (l - 52 + 52) with l by lia. exact S1.
    + apply Z.div_lt_upper_bound; [apply Z.pow_pos_nonneg; lia|]. rewrite <- Z.pow_add_r by lia.
      replace (l - 52 + 53) with (Z.succ l) by lia. exact S2.
  - replace (l - 52) with (Z.succ (l - 52 - 1)) at 1 by lia. rewrite Z.pow_succ_r by lia. reflexivity.
Qed.

Lemma to_double_range : forall m, 0 <= m < 2 ^ 64 -> 0 <= to_double m <= 2 ^ 64.
Proof.
  intros m H. unfold to_double. destruct (Z.ltb_spec m (2 ^ 53)); [lia|].
  destruct (to_double_facts m ltac:(lia)) as [E1 [E2 _]]. set (e := Z.log2 m - 52) in *.
  cbv zeta.
  assert (P : 0 < 2 ^ e) by (apply Z.pow_pos_nonneg; lia).
  assert (B : 2 ^ 53 * 2 ^ e <= 2 ^ 64).
  { rewrite <- Z.pow_add_r by lia. apply Z.pow_le_mono_r; lia. }
  set (q := m / 2 ^ e) in *. destruct (_ || _); nia.
Qed.

Lemma to_double_zero : forall m, 0 <= m < 2 ^ 64 -> to_double m = 0 -> m = 0.
Proof.
  intros m H. unfold to_double. destruct (Z.ltb_spec m (2 ^ 53)); [lia|].
  destruct (to_double_facts m ltac:(lia)) as [E1 [E2 _]]. set (e := Z.log2 m - 52) in *.
  cbv zeta. assert (P : 0 < 2 ^ e) by (apply Z.pow_pos_nonneg; lia).
  set (q := m / 2 ^ e) in *. destruct (_ || _); nia.
Qed.

(** Nearest: no multiple of the spacing [2^e] is closer. *)
Lemma to_double_nearest : forall m, 0 <= m < 2 ^ 64 ->
  Z.abs (to_double m - m) <= (if m <? 2 ^ 53 then 0 else 2 ^ (Z.log2 m - 53)).
Proof.
  intros m H. unfold to_double. destruct (Z.ltb_spec m (2 ^ 53)); [rewrite Z.sub_diag; cbn; lia|].
  destruct (to_double_facts m ltac:(lia)) as [E1 [E2 E3]]. set (e := Z.log2 m - 52) in *.
  replace (Z.log2 m - 53) with (e - 1) by (unfold e; lia). cbv zeta.
  assert (P : 0 < 2 ^ e) by (apply Z.pow_pos_nonneg; lia).
  pose proof (Z.div_mod m (2 ^ e) ltac:(lia)) as D. pose proof (Z.mod_pos_bound m (2 ^ e) P) as R.
  set (q := m / 2 ^ e) in *. set (r := m mod 2 ^ e) in *. set (h := 2 ^ (e - 1)) in *.
  destruct ((h <? r) || ((r =? h) && Z.odd q)) eqn:B.
  - assert (h <= r) by (destruct (Z.ltb_spec h r); [lia|cbn in B; apply andb_prop in B; lia]). lia.
  - assert (r <= h) by (destruct (Z.ltb_spec h r); [discriminate|lia]). lia.
Qed.

Lemma to_double_mono_one : forall m, 2 ^ 64 - 1024 <= m < 2 ^ 64 -> to_double m = 2 ^ 64.
Proof.
  intros m H. unfold to_double. destruct (Z.ltb_spec m (2 ^ 53)); [lia|].
  assert (L : Z.log2 m = 63) by (apply Z.log2_unique; lia). rewrite L. cbv zeta.
  change (63 - 52) with 11. change (11 - 1) with 10.
  assert (Q : m / 2 ^ 11 = 2 ^ 53 - 1).
  { symmetry. apply Z.div_unique with (r := m - (2 ^ 53 - 1) * 2 ^ 11); lia. }
  rewrite Z.mod_eq by lia. rewrite Q.
  destruct (Z.ltb_spec (2 ^ 10) (m - 2 ^ 11 * (2 ^ 53 - 1))); cbn [orb].
  - reflexivity.
  - destruct (Z.eqb_spec (m - 2 ^ 11 * (2 ^ 53 - 1)) (2 ^ 10)); [reflexivity|lia].
Qed.

Lemma wy_value_range : forall x, (0 <= wy_value x <= 1)%Q.
Proof.
  intros x. unfold wy_value. pose proof (to_double_range (wy_mix wy_k2 (wy_mix wy_k1 x)) (mix_range _ _)) as H.
  set (d := to_double _) in *. clearbody d. unfold Qle. cbn [Qnum Qden]. change (Zpos (2 ^ 64)) with (2 ^ 64). lia.
Qed.

Lemma wy_value_zero : forall x, 0 <= x < 2 ^ 64 -> ((wy_value x == 0)%Q <-> x = 0).
Proof.
  intros x Hx. split; intros H.
  - unfold wy_value, Qeq in H. cbn [Qnum Qden] in H. rewrite Z.mul_1_r, Z.mul_0_l in H.
    apply to_double_zero in H; [|apply mix_range].
    apply mix_zero in H; [|vm_compute; split; reflexivity|vm_compute; reflexivity|apply mix_range].
    apply mix_zero in H; [exact H|vm_compute; split; reflexivity|vm_compute; reflexivity|exact Hx].
  - subst. vm_compute. reflexivity.
Qed.

(** Each state is reached once in 2^64 steps. *)
Lemma wy_reach : forall x y, 0 <= x < 2 ^ 64 -> 0 <= y < 2 ^ 64 ->
  exists j, 0 <= j < 2 ^ 64 /\ wrap64 (x + j * wy_step) = y /\
    forall i, 0 <= i < 2 ^ 64 -> wrap64 (x + i * wy_step) = y -> i = j.
Proof.
  intros x y Hx Hy. exists (((y - x) * wy_inv) mod 2 ^ 64).
  assert (I := wy_inv_ok).
  split; [apply Z.mod_pos_bound; lia|]. split.
  - unfold wrap64. rewrite Z.add_mod, Z.mul_mod_idemp_l by lia. rewrite <- Z.add_mod by lia.
    replace (x + (y - x) * wy_inv * wy_step) with (x + (y - x) * (wy_step * wy_inv)) by ring.
    rewrite Z.add_mod, Z.mul_mod, I by lia. rewrite Z.mul_1_r, Z.mod_mod by lia. rewrite <- Z.add_mod by lia.
    replace (x + (y - x)) with y by ring. apply Z.mod_small. lia.
  - intros i Hi E. unfold wrap64 in E.
    rewrite <- (Z.mod_small i (2 ^ 64)) at 1 by lia.
    assert (K : ((y - x) * wy_inv) mod 2 ^ 64 = (i * (wy_step * wy_inv)) mod 2 ^ 64).
    { rewrite <- E. rewrite Z.mul_mod, Zminus_mod_idemp_l by lia. rewrite <- Z.mul_mod by lia. f_equal. ring. }
    rewrite K, Z.mul_mod, I, Z.mul_1_r, Z.mod_mod by lia. reflexivity.
Qed.
