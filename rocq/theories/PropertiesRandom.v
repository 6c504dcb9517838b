(** Properties of the random generators: C70 - C72. *)
From Coq Require Import ZArith NArith List Bool QArith Qabs Lia Lqa.
From Verif Require Import Base BaseProofs ModelAvx2 SpecAvx2 ModelRandom ProofsRandom ProofsRandomVec ProofsRandomXo.
Import ListNotations.
Open Scope Z_scope.

(** ** C70: Wyhash64 *)

(** Every draw lies in [0,1], both ends included. *)
Theorem C70_unit_interval : forall x k, (0 <= rng_src (wy_rng x) k <= 1)%Q.
Proof. intros. apply wy_value_range. Qed.

(** In each run of 2^64 draws exactly one is 0, whatever the seed. *)
Theorem C70_zero_once : forall x, 0 <= x < 2 ^ 64 ->
  exists j, 0 <= Z.of_nat j < 2 ^ 64 /\ (rng_src (wy_rng x) j == 0)%Q /\
    forall i, 0 <= Z.of_nat i < 2 ^ 64 -> (rng_src (wy_rng x) i == 0)%Q -> i = j.
Proof.
  intros x Hx. pose proof (Z.mod_pos_bound (x + wy_step) (2 ^ 64) ltac:(lia)) as B.
  destruct (wy_reach (wrap64 (x + wy_step)) 0 B ltac:(lia)) as [j [Hj [E U]]].
  assert (D : forall i, rng_src (wy_rng x) i = wy_value (wrap64 (wrap64 (x + wy_step) + Z.of_nat i * wy_step))).
  { intros i. rewrite wy_draw by auto. f_equal. unfold wrap64. rewrite Zplus_mod_idemp_l. f_equal. ring. }
  assert (W : forall z, 0 <= wrap64 z < 2 ^ 64) by (intros; apply Z.mod_pos_bound; lia).
  exists (Z.to_nat j). rewrite Z2Nat.id by lia. split; [exact Hj|]. split.
  - rewrite D, Z2Nat.id, E by lia. apply wy_value_zero; [lia|reflexivity].
  - intros i Hi E0. rewrite D in E0. apply (proj1 (wy_value_zero _ (W _))) in E0.
    rewrite <- (Nat2Z.id i). f_equal. apply U; auto.
Qed.

(** The stream repeats after 2^64 draws. *)
Theorem C70_period : forall x k m, 0 <= x < 2 ^ 64 -> Z.of_nat m = Z.of_nat k + 2 ^ 64 ->
  rng_src (wy_rng x) m = rng_src (wy_rng x) k.
Proof.
  intros x k m Hx E. rewrite !wy_draw by auto. f_equal. unfold wrap64. rewrite E.
  replace (x + (Z.of_nat k + 2 ^ 64 + 1) * wy_step) with (x + (Z.of_nat k + 1) * wy_step + wy_step * 2 ^ 64) by ring.
  apply Z.mod_add. lia.
Qed.

(** ... and within a period no two states are equal. *)
Theorem C70_states_distinct : forall x i j, 0 <= x < 2 ^ 64 -> Z.of_nat i < 2 ^ 64 -> Z.of_nat j < 2 ^ 64 ->
  wy_state x i = wy_state x j -> i = j.
Proof.
  intros x i j Hx Hi Hj E. rewrite !wy_state_shift in E by auto.
  pose proof (Z.mod_pos_bound (x + Z.of_nat j * wy_step) (2 ^ 64) ltac:(lia)) as B.
  destruct (wy_reach x (wrap64 (x + Z.of_nat j * wy_step)) Hx B) as [k [Hk [_ U]]].
  apply Nat2Z.inj. rewrite (U (Z.of_nat i)) by (auto; lia). symmetry. apply U; auto; lia.
Qed.

(** The draw is the mixed 64-bit word times 2^-64 up to the rounding of the
    conversion to double, at most 2^-54; words from 2^64-1024 on give 1. *)
Theorem C70_rounding : forall m, 0 <= m < 2 ^ 64 -> Z.abs (to_double m - m) <= 2 ^ 10.
Proof.
  intros m H. pose proof (to_double_nearest m H) as N. destruct (Z.ltb_spec m (2 ^ 53)); [lia|].
  assert (L : Z.log2 m < 64) by (apply Z.log2_lt_pow2; lia).
  assert (2 ^ (Z.log2 m - 53) <= 2 ^ 10) by (apply Z.pow_le_mono_r; lia). lia.
Qed.

(** Seeding joins the two 32-bit draws and drops 32 draws; different draws give
    different states for ever. *)
Theorem C70_seeding : forall hi lo, 0 <= hi < 2 ^ 32 -> 0 <= lo < 2 ^ 32 ->
  (forall k, rng_src (wy_rng (wy_seed hi lo)) k = rng_src (wy_rng (hi * 2 ^ 32 + lo)) (k + 32)) /\
  forall hi' lo' k, 0 <= hi' < 2 ^ 32 -> 0 <= lo' < 2 ^ 32 ->
    wy_state (wy_seed hi lo) k = wy_state (wy_seed hi' lo') k -> hi = hi' /\ lo = lo'.
Proof.
  assert (J : forall hi lo, 0 <= hi < 2 ^ 32 -> 0 <= lo < 2 ^ 32 -> Z.lor (Z.shiftl hi 32) lo = hi * 2 ^ 32 + lo).
  { intros hi lo Hh Hl. rewrite Z.shiftl_mul_pow2 by lia. symmetry. rewrite <- Z.lxor_lor.
    - apply Z.add_nocarry_lxor. apply Z.bits_inj'. intros n Hn. rewrite Z.land_spec, Z.bits_0, <- Z.shiftl_mul_pow2 by lia.
      destruct (Z.ltb_spec n 32); [rewrite Z.shiftl_spec_low by lia; reflexivity|].
      rewrite (Z.bits_above_log2 lo n); [apply andb_false_r|lia|].
      destruct (Z.eq_dec lo 0) as [->|]; [cbn; lia|]. apply Z.log2_lt_pow2; [lia|]. apply Z.lt_le_trans with (2 ^ 32); [lia|]. apply Z.pow_le_mono_r; lia.
    - apply Z.bits_inj'. intros n Hn. rewrite Z.land_spec, Z.bits_0, <- Z.shiftl_mul_pow2 by lia.
      destruct (Z.ltb_spec n 32); [rewrite Z.shiftl_spec_low by lia; reflexivity|].
      rewrite (Z.bits_above_log2 lo n); [apply andb_false_r|lia|].
      destruct (Z.eq_dec lo 0) as [->|]; [cbn; lia|]. apply Z.log2_lt_pow2; [lia|]. apply Z.lt_le_trans with (2 ^ 32); [lia|]. apply Z.pow_le_mono_r; lia. }
  intros hi lo Hh Hl. unfold wy_seed. split.
  - intros k. rewrite J by auto. assert (R : 0 <= hi * 2 ^ 32 + lo < 2 ^ 64) by lia.
    rewrite wy_draw by (apply wy_state_range; exact R). rewrite wy_draw by exact R. rewrite wy_state_shift by exact R.
    f_equal. unfold wrap64. rewrite Zplus_mod_idemp_l. f_equal. lia.
  - intros hi' lo' k Hh' Hl'. rewrite !J by auto. assert (R : 0 <= hi * 2 ^ 32 + lo < 2 ^ 64) by lia. assert (R' : 0 <= hi' * 2 ^ 32 + lo' < 2 ^ 64) by lia.
    rewrite !wy_state_shift by (auto; apply Z.mod_pos_bound; lia). unfold wrap64. rewrite !Zplus_mod_idemp_l. intros E.
    assert (D : (hi * 2 ^ 32 + lo - (hi' * 2 ^ 32 + lo')) mod 2 ^ 64 = 0).
    { replace (hi * 2 ^ 32 + lo - (hi' * 2 ^ 32 + lo')) with
        ((hi * 2 ^ 32 + lo + Z.of_nat 32 * wy_step + Z.of_nat k * wy_step) - (hi' * 2 ^ 32 + lo' + Z.of_nat 32 * wy_step + Z.of_nat k * wy_step)) by ring.
      rewrite Zminus_mod, E, Z.sub_diag. reflexivity. }
    apply Z.mod_divide in D; [|lia]. destruct D as [q D]. assert (q = 0) by lia. subst q. lia.
Qed.

Theorem C70_rounds_to_one : forall m, 2 ^ 64 - 1024 <= m < 2 ^ 64 -> to_double m = 2 ^ 64.
Proof. exact to_double_mono_one. Qed.

Example C70_example :
  (rng_src (wy_rng (2 ^ 64 - wy_step)) 0 == 0)%Q /\ ~ (rng_src (wy_rng (2 ^ 64 - wy_step)) 1 == 0)%Q /\
  (rng_src (wy_rng (wy_seed 4294967295 15)) 0 < 1)%Q.
Proof. vm_compute. repeat split; congruence. Qed.

(** ** C71: XorShift128plus4G *)

(** Half of the state is never used. *)
Theorem C71_part1_unused : forall p1 p1' p2 k, vr_src (xs_vrng (p1, p2)) k = vr_src (xs_vrng (p1', p2)) k.
Proof. intros. rewrite !xs_out_lanes. reflexivity. Qed.

(** Whatever the seed, the stream repeats after 51166430 vectors. *)
Theorem C71_repeats : forall st k, Forall (fun a => (a < 2 ^ 64)%N) (snd st) ->
  vr_src (xs_vrng (xs_seeded st)) (k + N.to_nat 51166430) = vr_src (xs_vrng (xs_seeded st)) k.
Proof.
  intros st k H. unfold xs_seeded. rewrite !xs_after_vrng.
  assert (P : forall j, (2 <= j)%nat -> vr_src (xs_vrng st) (j + N.to_nat xs_period) = vr_src (xs_vrng st) j).
  { intros j Hj. apply xs_vrng_period; auto. eapply Forall_impl; [|exact H]. intros a. apply small_lt. }
  unfold xs_period in P. revert P. generalize (N.to_nat 51166430). intros m P.
  replace (k + m + 32)%nat with (k + 32 + m)%nat by lia. apply P. lia.
Qed.

(** Different seeds can give the same stream: these two byte strings (all bytes
    in the range seed_internal draws from) differ in one lane. *)
Definition xs_seed_a : N := 0x2020202020202020.
Definition xs_seed_b : N := N.lxor xs_seed_a 0xbf95360bf90e5467.

Theorem C71_seeds_collide : exists a b, a <> b /\
  forall p1 p1' c d e k, vr_src (xs_vrng (xs_seeded (p1, [a; c; d; e]))) k = vr_src (xs_vrng (xs_seeded (p1', [b; c; d; e]))) k.
Proof.
  exists xs_seed_a, xs_seed_b. split; [vm_compute; discriminate|].
  intros. unfold xs_seeded. rewrite !xs_after_vrng, !xs_out_lanes. cbn [snd map].
  assert (E : Nat.iter 1 xs_lane xs_seed_a = Nat.iter 1 xs_lane xs_seed_b) by (vm_compute; reflexivity).
  assert (F : forall j, Nat.iter (j + 1) xs_lane xs_seed_a = Nat.iter (j + 1) xs_lane xs_seed_b).
  { intros j. rewrite !iter_plus, E. reflexivity. }
  assert (G : forall j, (1 <= j)%nat -> Nat.iter j xs_lane xs_seed_a = Nat.iter j xs_lane xs_seed_b).
  { intros j Hj. replace j with ((j - 1) + 1)%nat by lia. apply F. }
  rewrite !G by lia. reflexivity.
Qed.

(** The stream consists of vectors of 32 bytes, as the AVX2 theorems assume. *)
Theorem C71_vectors : forall st, length (snd st) = 4%nat -> vrng_ok (xs_vrng (xs_seeded st)).
Proof.
  intros st H. apply xs_vrng_ok. unfold xs_seeded. destruct st as [p1 p2]. rewrite xs_after_lanes, map_length. exact H.
Qed.

Example C71_example :
  let st := ([1; 2; 3; 4], [0x0506070809101112; 7; 8; 9])%N in
  vr_src (xs_vrng (xs_seeded st)) 0 <> vr_src (xs_vrng (xs_seeded st)) 1 /\
  length (vr_src (xs_vrng (xs_seeded st)) 0) = 32%nat.
Proof. vm_compute. split; [discriminate|reflexivity]. Qed.

(** The two colliding seeds are ones seed_internal can draw. *)
Example C71_collision_example :
  Forall (fun v => 5 <= v mod 256 <= 251) (lane_bytes xs_seed_a) /\ Forall (fun v => 5 <= v mod 256 <= 251) (lane_bytes xs_seed_b).
Proof. split; vm_compute; repeat (apply Forall_cons || apply Forall_nil); split; discriminate. Qed.

(** ** C72: Xoshiro128Plus *)

(** The two halves of every NEON vector are equal. *)
Theorem C72_equal_halves : forall seed64 k i, (i < 8)%nat ->
  let v := vr_src (xo_vrng (xo_seeded seed64)) k in
  length v = 16%nat /\ nth (i + 8) v 0 = nth i v 0.
Proof.
  intros seed64 k i Hi v. destruct (xo_halves seed64 k) as [h [L E]]. unfold v. rewrite E, app_length, L. split; [reflexivity|].
  rewrite app_nth2 by lia. rewrite app_nth1 by lia. f_equal. lia.
Qed.

(** Unlike the AVX2 generator the step loses nothing: different seeds give
    different states for ever, no state is all zeros, and seeding drops 32 vectors. *)
Theorem C72_reversible : forall st st' k, Forall (fun a => (a < 2 ^ 64)%N) (fst st ++ snd st ++ fst st' ++ snd st') ->
  length (fst st) = 2%nat -> length (snd st) = 2%nat -> length (fst st') = 2%nat -> length (snd st') = 2%nat ->
  xo_after st k = xo_after st' k -> st = st'.
Proof.
  intros [[|a [|c [|? ?]]] [|b [|d [|? ?]]]] [[|a' [|c' [|? ?]]] [|b' [|d' [|? ?]]]] k HF L1 L2 L3 L4 E; try discriminate.
  cbn [fst snd app] in HF.
  assert (S : Forall small [a; c; b; d; a'; c'; b'; d']) by (eapply Forall_impl; [|exact HF]; intros x Hx; apply small_lt; exact Hx).
  inversion_clear S as [|? ? S1 T1]. inversion_clear T1 as [|? ? S2 T2]. inversion_clear T2 as [|? ? S3 T3]. inversion_clear T3 as [|? ? S4 T4].
  inversion_clear T4 as [|? ? S5 T5]. inversion_clear T5 as [|? ? S6 T6]. inversion_clear T6 as [|? ? S7 T7]. inversion_clear T7 as [|? ? S8 T8].
  change (xo_after (lanes2 (a, b) (c, d)) k = xo_after (lanes2 (a', b') (c', d')) k) in E. rewrite !xo_after_lanes in E.
  assert (E1 : Nat.iter k xo_lane (a, b) = Nat.iter k xo_lane (a', b') /\ Nat.iter k xo_lane (c, d) = Nat.iter k xo_lane (c', d')).
  { unfold lanes2 in E. injection E as F1 F2 F3 F4. split; apply injective_projections; auto. }
  destruct E1 as [E1 E2]. apply xo_iter_inj in E1; [|split; auto|split; auto]. apply xo_iter_inj in E2; [|split; auto|split; auto].
  injection E1 as -> ->. injection E2 as -> ->. reflexivity.
Qed.
Lemma xo_seeded_after : forall s j k, xo_after (xo_after (xo_init s) j) k = xo_after (xo_init s) (j + k).
Proof. intros. symmetry. apply xo_after_add. Qed.
Lemma xo_seed_inj : forall s s' j k, (s < 2 ^ 64)%N -> (s' < 2 ^ 64)%N ->
  xo_after (xo_after (xo_init s) j) k = xo_after (xo_after (xo_init s') j) k -> s = s'.
Proof.
  intros s s' j k H H' E. rewrite !xo_seeded_after in E. generalize dependent (j + k)%nat. intros m E.
  assert (X : xo_init s = xo_init s').
  { apply (C72_reversible (xo_init s) (xo_init s') m); try reflexivity; [|exact E].
    unfold xo_init. cbn [fst snd app]. repeat (constructor; [first [assumption|reflexivity]|]). constructor. }
  unfold xo_init in X. congruence.
Qed.
Theorem C72_seeds_apart : forall s s' k, (s < 2 ^ 64)%N -> (s' < 2 ^ 64)%N -> xo_after (xo_seeded s) k = xo_after (xo_seeded s') k -> s = s'.
Proof. intros s s' k. unfold xo_seeded. exact (xo_seed_inj s s' 32 k). Qed.
Lemma xo_zero_after : forall m, xo_after ([0; 0], [0; 0])%N m = ([0; 0], [0; 0])%N.
Proof. intros m. change ([0; 0], [0; 0])%N with (lanes2 (0, 0) (0, 0))%N. rewrite xo_after_lanes, xo_iter_zero. reflexivity. Qed.
Lemma xo_seed_zero : forall s j k, (s < 2 ^ 64)%N -> xo_after (xo_after (xo_init s) j) k <> ([0; 0], [0; 0])%N.
Proof.
  intros s j k H E. rewrite !xo_seeded_after in E. generalize dependent (j + k)%nat. intros m E.
  assert (X : xo_init s = ([0; 0], [0; 0])%N).
  { apply (C72_reversible (xo_init s) ([0; 0], [0; 0])%N m); try reflexivity.
    - unfold xo_init. cbn [fst snd app]. repeat (constructor; [first [assumption|reflexivity]|]). constructor.
    - rewrite xo_zero_after. exact E. }
  unfold xo_init in X. discriminate X.
Qed.
Theorem C72_never_zero : forall s k, (s < 2 ^ 64)%N -> xo_after (xo_seeded s) k <> ([0; 0], [0; 0])%N.
Proof. intros s k. unfold xo_seeded. exact (xo_seed_zero s 32 k). Qed.
Theorem C72_seeding : forall s k, vr_src (xo_vrng (xo_seeded s)) k = vr_src (xo_vrng (xo_init s)) (k + 32).
Proof. intros s k. unfold xo_vrng, xo_seeded. cbn [vr_src]. rewrite Nat.add_comm, xo_after_add. reflexivity. Qed.

Example C72_example : vr_src (xo_vrng (xo_seeded 12345)) 0 <> vr_src (xo_vrng (xo_seeded 12345)) 1 /\
  nth 0 (vr_src (xo_vrng (xo_seeded 12345)) 0) 0 <> nth 1 (vr_src (xo_vrng (xo_seeded 12345)) 0) 0.
Proof. vm_compute. split; discriminate. Qed.

Example C72_apart_example : xo_after (xo_seeded 1) 3 <> xo_after (xo_seeded 2) 3 /\ vr_src (xo_vrng (xo_seeded 1)) 0 <> vr_src (xo_vrng (xo_init 1)) 0.
Proof. split; vm_compute; discriminate. Qed.
Example C70_seeding_example : rng_src (wy_rng (wy_seed 7 9)) 0 = rng_src (wy_rng (7 * 2 ^ 32 + 9)) 32 /\ wy_state (wy_seed 7 9) 5 <> wy_state (wy_seed 9 7) 5.
Proof. split; [vm_compute; reflexivity|vm_compute; discriminate]. Qed.

Print Assumptions C70_unit_interval.
Print Assumptions C70_zero_once.
Print Assumptions C70_period.
Print Assumptions C70_states_distinct.
Print Assumptions C70_rounding.
Print Assumptions C70_rounds_to_one.
Print Assumptions C70_seeding.
Print Assumptions C71_part1_unused.
Print Assumptions C71_repeats.
Print Assumptions C71_seeds_collide.
Print Assumptions C71_vectors.
Print Assumptions C72_equal_halves.
Print Assumptions C72_reversible.
Print Assumptions C72_seeds_apart.
Print Assumptions C72_never_zero.
Print Assumptions C72_seeding.
