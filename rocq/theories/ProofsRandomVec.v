(** The vector generators: linear algebra over GF(2) for XorShift128plus4G, and
    the equal halves of Xoshiro128Plus. *)
From Coq Require Import ZArith NArith List Bool Lia.
From Verif Require Import Base BaseProofs ModelAvx2 SpecAvx2 ModelRandom.
Import ListNotations.
Open Scope N_scope.

(** ** Linear functions on 64-bit words *)

Definition linear (f : N -> N) : Prop := f 0 = 0 /\ forall a b, f (N.lxor a b) = N.lxor (f a) (f b).
Definition small (a : N) : Prop := N.shiftr a 64 = 0.

Lemma small_lxor : forall a b, small a -> small b -> small (N.lxor a b).
Proof. unfold small. intros a b A B. rewrite N.shiftr_lxor, A, B. reflexivity. Qed.

Lemma small_shiftr : forall a k, small a -> small (N.shiftr a k).
Proof. unfold small. intros a k A. rewrite N.shiftr_shiftr, N.add_comm, <- N.shiftr_shiftr, A. apply N.shiftr_0_l. Qed.

Lemma small_mask : forall a, small (N.land a mask64).
Proof.
  intros a. unfold small. apply N.bits_inj_0. intros n. rewrite N.shiftr_spec', N.land_spec.
  unfold mask64. rewrite N.ones_spec_high by lia. apply andb_false_r.
Qed.

Lemma small_lt : forall a, a < 2 ^ 64 -> small a.
Proof. intros a H. unfold small. rewrite N.shiftr_div_pow2. apply N.div_small. exact H. Qed.

(** Matrix given by its columns, applied to a vector. *)
Fixpoint app_cols (cols : list N) (v : N) : N :=
  match cols with
  | [] => 0
  | c :: t => N.lxor (if N.odd v then c else 0) (app_cols t (N.div2 v))
  end.

Lemma odd_lxor : forall a b, N.odd (N.lxor a b) = xorb (N.odd a) (N.odd b).
Proof. intros. rewrite <- !N.bit0_odd. apply N.lxor_spec. Qed.

Lemma div2_lxor : forall a b, N.div2 (N.lxor a b) = N.lxor (N.div2 a) (N.div2 b).
Proof. intros. rewrite !N.div2_spec. apply N.shiftr_lxor. Qed.

Lemma lxor_swap : forall a b c d, N.lxor (N.lxor a b) (N.lxor c d) = N.lxor (N.lxor a c) (N.lxor b d).
Proof. intros. apply N.bits_inj. intros n. rewrite !N.lxor_spec. destruct (N.testbit a n), (N.testbit b n), (N.testbit c n), (N.testbit d n); reflexivity. Qed.

Lemma app_cols_linear : forall cols, linear (app_cols cols).
Proof.
  induction cols as [|c t [Z0 IH]]; [split; reflexivity|split].
  - cbn [app_cols]. change (N.odd 0) with false. change (N.div2 0) with 0. rewrite Z0. reflexivity.
  - intros a b. cbn [app_cols]. rewrite odd_lxor, div2_lxor, IH, lxor_swap. f_equal.
    destruct (N.odd a), (N.odd b); cbn [xorb]; rewrite ?N.lxor_0_l, ?N.lxor_0_r, ?N.lxor_nilpotent; reflexivity.
Qed.

Lemma split_bit : forall v, v = N.lxor (if N.odd v then 1 else 0) (N.double (N.div2 v)).
Proof.
  intros v. apply N.bits_inj. intros n. rewrite N.lxor_spec.
  destruct (N.eq_dec n 0) as [->|Hn].
  - rewrite N.bit0_odd, N.double_spec, N.testbit_even_0.
    destruct (N.odd v); reflexivity.
  - replace n with (N.succ (N.pred n)) by lia. rewrite N.double_spec, N.testbit_even_succ by lia.
    rewrite N.div2_spec, N.shiftr_spec' .
    replace (N.pred n + 1) with (N.succ (N.pred n)) by lia.
    destruct (N.odd v).
    + rewrite (N.bits_above_log2 1); [symmetry; apply xorb_false_l|cbn; lia].
    + rewrite N.bits_0. symmetry; apply xorb_false_l.
Qed.

Definition cols_of (f : N -> N) (n : nat) : list N := map (fun i => f (N.shiftl 1 (N.of_nat i))) (seq 0 n).

Lemma linear_double : forall f, linear f -> linear (fun v => f (N.double v)).
Proof.
  intros f [Z0 L]. split; auto. intros a b. rewrite <- L. f_equal.
  rewrite !N.double_spec.
  apply N.bits_inj. intros n. rewrite N.lxor_spec. destruct (N.eq_dec n 0) as [->|].
  - rewrite !N.testbit_even_0. reflexivity.
  - replace n with (N.succ (N.pred n)) by lia. rewrite !N.testbit_even_succ by lia. rewrite N.lxor_spec. reflexivity.
Qed.

Lemma cols_of_ok : forall n f v, linear f -> N.shiftr v (N.of_nat n) = 0 -> f v = app_cols (cols_of f n) v.
Proof.
  induction n as [|n IH]; intros f v Lf Hv.
  - change (N.of_nat 0) with 0 in Hv. rewrite N.shiftr_0_r in Hv. subst. destruct Lf; auto.
  - unfold cols_of. cbn [seq map app_cols]. rewrite <- seq_shift, map_map.
    pose proof (IH (fun v => f (N.double v)) (N.div2 v) (linear_double f Lf)) as E.
    rewrite (split_bit v) at 1. destruct Lf as [Z0 L]. rewrite L. f_equal.
    + destruct (N.odd v); auto.
    + rewrite E.
      * f_equal. unfold cols_of. apply map_ext. intros i. f_equal. rewrite Nat2N.inj_succ.
        rewrite N.shiftl_succ_r. reflexivity.
      * rewrite N.div2_spec, N.shiftr_shiftr. rewrite <- Hv. f_equal. lia.
Qed.

(** Products and powers. *)
Definition mul_cols (a b : list N) : list N := map (app_cols a) b.

Lemma mul_cols_ok : forall a b v, app_cols (mul_cols a b) v = app_cols a (app_cols b v).
Proof.
  intros a b. pose proof (app_cols_linear a) as [Z0 L].
  induction b as [|c t IH]; intros v; cbn [mul_cols map app_cols]; [auto|].
  rewrite L. f_equal; [destruct (N.odd v); auto|apply IH].
Qed.

Fixpoint pow_cols (p : positive) (a : list N) : list N :=
  match p with
  | xH => a
  | xO p => let s := pow_cols p a in mul_cols s s
  | xI p => let s := pow_cols p a in mul_cols a (mul_cols s s)
  end.

Lemma iter_small : forall f, (forall v, small v -> small (f v)) -> forall p v, small v -> small (Pos.iter f v p).
Proof. intros f H p v Hv. apply Pos.iter_invariant; auto. Qed.

Lemma pow_cols_ok : forall f a, (forall v, small v -> small (f v)) -> (forall v, small v -> f v = app_cols a v) ->
  forall p v, small v -> app_cols (pow_cols p a) v = Pos.iter f v p.
Proof.
  intros f a Hs Ha. induction p as [p IH|p IH|]; intros v Hv; cbn [pow_cols Pos.iter].
  - pose proof (iter_small f Hs p v Hv) as S1. pose proof (iter_small f Hs p _ S1) as S2.
    rewrite mul_cols_ok, mul_cols_ok, (IH v Hv), (IH _ S1). symmetry. apply Ha. exact S2.
  - rewrite mul_cols_ok, (IH v Hv). apply IH. apply iter_small; auto.
  - symmetry. auto.
Qed.

(** ** The lane function of XorShift128plus4G *)

Definition xs_lane (p : N) : N :=
  let s1 := N.lxor p (shl64 23 p) in N.lxor (N.lxor (N.lxor s1 p) (N.shiftr s1 18)) (N.shiftr p 5).

Lemma shl64_linear : forall k a b, shl64 k (N.lxor a b) = N.lxor (shl64 k a) (shl64 k b).
Proof.
  intros k a b. unfold shl64. apply N.bits_inj. intros n. rewrite N.lxor_spec, !N.land_spec, N.shiftl_lxor, N.lxor_spec.
  destruct (N.testbit mask64 n); rewrite ?andb_true_r, ?andb_false_r; reflexivity.
Qed.

Lemma xs_lane_linear : linear xs_lane.
Proof.
  split; [reflexivity|]. intros a b. unfold xs_lane. rewrite shl64_linear, !N.shiftr_lxor.
  apply N.bits_inj. intros n. rewrite !N.lxor_spec.
  repeat match goal with |- context [N.testbit ?x n] => destruct (N.testbit x n) end; reflexivity.
Qed.

Lemma xs_lane_small : forall v, small v -> small (xs_lane v).
Proof. 
  intros v H. unfold xs_lane. pose proof (small_mask (N.shiftl v 23)) as M. fold (shl64 23 v) in M.
  pose proof (small_lxor _ _ H M) as S1. exact (small_lxor _ _ (small_lxor _ _ (small_lxor _ _ S1 H) (small_shiftr _ 18 S1)) (small_shiftr _ 5 H)).
Qed.

Definition xs_period : N := 51166430.

Lemma xs_pow : pow_cols 51166432 (cols_of xs_lane 64) = pow_cols 2 (cols_of xs_lane 64).
Proof. vm_compute. reflexivity. Qed.

Lemma xs_lane_period : forall v, small v -> Pos.iter xs_lane v 51166432 = Pos.iter xs_lane v 2.
Proof.
  intros v Hv. assert (A : forall v, small v -> xs_lane v = app_cols (cols_of xs_lane 64) v).
  { intros w Hw. apply cols_of_ok; [apply xs_lane_linear|exact Hw]. }
  pose proof (pow_cols_ok xs_lane (cols_of xs_lane 64) xs_lane_small A) as P. clear A.
  etransitivity; [symmetry; exact (P 51166432%positive v Hv)|].
  etransitivity; [|exact (P 2%positive v Hv)].
  exact (f_equal (fun c => app_cols c v) xs_pow).
Qed.

Lemma iter_nat : forall (f : N -> N) p v, Pos.iter f v p = Nat.iter (Pos.to_nat p) f v.
Proof. intros. rewrite Pos2Nat.inj_iter. reflexivity. Qed.

Lemma iter_plus : forall (f : N -> N) a b v, Nat.iter (a + b) f v = Nat.iter a f (Nat.iter b f v).
Proof. induction a as [|a IH]; intros; simpl; [|rewrite IH]; reflexivity. Qed.

Lemma xs_iter_period : forall v k, small v -> (2 <= k)%nat ->
  Nat.iter (k + N.to_nat xs_period) xs_lane v = Nat.iter k xs_lane v.
Proof.
  intros v k Hv Hk. pose proof (xs_lane_period v Hv) as E. rewrite !iter_nat in E.
  replace 51166432%positive with (51166430 + 2)%positive in E by reflexivity.
  rewrite Pos2Nat.inj_add in E.
  unfold xs_period. rewrite positive_N_nat. change (Pos.to_nat 2) with 2%nat in E.
  generalize dependent (Pos.to_nat 51166430). intros m E.
  replace (k + m)%nat with ((k - 2) + (m + 2))%nat by lia.
  rewrite !iter_plus in *. rewrite E. rewrite <- iter_plus. f_equal. lia.
Qed.

(** ** Vectors *)

Definition small4 (v : list N) : Prop := length v = 4%nat /\ Forall small v.

Lemma map2_same_map : forall (f : N -> N -> N) (g h : N -> N) l, map2 f (map g l) (map h l) = map (fun x => f (g x) (h x)) l.
Proof. induction l as [|x l IH]; [reflexivity|]. cbn [map map2]. rewrite IH. reflexivity. Qed.

Lemma xs_next_lanes : forall p1 p2, xs_next (p1, p2) =
  (map (fun a => add64 (xs_lane a) a) p2, (p2, map xs_lane p2)).
Proof.
  intros p1 p2. unfold xs_next.
  assert (I : p2 = map (fun a : N => a) p2) by (symmetry; apply map_id).
  assert (E : map2 N.lxor (map2 N.lxor (map2 N.lxor (map2 N.lxor p2 (map (shl64 23) p2)) p2)
      (map (fun a : N => N.shiftr a 18) (map2 N.lxor p2 (map (shl64 23) p2)))) (map (fun a : N => N.shiftr a 5) p2) = map xs_lane p2).
  { assert (J : map2 N.lxor p2 (map (shl64 23) p2) = map (fun a => N.lxor a (shl64 23 a)) p2).
    { rewrite I at 1. apply map2_same_map. }
    rewrite J. rewrite I at 2. rewrite map2_same_map, map_map, map2_same_map, map2_same_map. reflexivity. }
  rewrite E. f_equal. rewrite I at 2. apply map2_same_map.
Qed.

Lemma xs_after_lanes : forall k p1 p2, snd (xs_after (p1, p2) k) = map (Nat.iter k xs_lane) p2.
Proof.
  induction k as [|k IH]; intros p1 p2; cbn [xs_after].
  - symmetry. apply map_id.
  - rewrite xs_next_lanes. cbn [snd]. rewrite IH, map_map. apply map_ext. intros a.
    change (xs_lane a) with (Nat.iter 1 xs_lane a). rewrite <- iter_plus. f_equal. lia.
Qed.

Lemma xs_out_lanes : forall k st, vr_src (xs_vrng st) k =
  vector_bytes (map (fun a => add64 (Nat.iter (S k) xs_lane a) (Nat.iter k xs_lane a)) (snd st)).
Proof.
  intros k [p1 p2]. unfold xs_vrng. cbn [vr_src snd]. pose proof (xs_after_lanes k p1 p2) as E.
  destruct (xs_after (p1, p2) k) as [q1 q2]. cbn [snd] in E. subst q2. rewrite xs_next_lanes. cbn [fst].
  rewrite map_map. reflexivity.
Qed.

Lemma xs_vrng_period : forall st k, Forall small (snd st) -> (2 <= k)%nat ->
  vr_src (xs_vrng st) (k + N.to_nat xs_period) = vr_src (xs_vrng st) k.
Proof.
  intros st k Hs Hk. rewrite !xs_out_lanes. f_equal. apply map_ext_in. intros a Ha.
  pose proof (proj1 (Forall_forall _ _) Hs a Ha) as Sa.
  change (S (k + N.to_nat xs_period)) with (S k + N.to_nat xs_period)%nat.
  rewrite !xs_iter_period by (auto; lia). reflexivity.
Qed.

Lemma xs_after_vrng : forall j st k, vr_src (xs_vrng (xs_after st j)) k = vr_src (xs_vrng st) (k + j).
Proof.
  intros j [p1 p2] k. rewrite !xs_out_lanes, xs_after_lanes. cbn [snd]. rewrite map_map. f_equal. apply map_ext. intros a.
  rewrite <- !iter_plus. reflexivity.
Qed.

Lemma xs_vrng_ok : forall st, length (snd st) = 4%nat -> vrng_ok (xs_vrng st).
Proof.
  intros st H k. rewrite xs_out_lanes. destruct (snd st) as [|a [|b [|c [|d [|? ?]]]]]; try discriminate.
  reflexivity.
Qed.

(** ** Xoshiro128Plus *)

Definition twins (v : list N) : Prop := exists a, v = [a; a].

Lemma xo_next_twins : forall s0 s1, twins s0 -> twins s1 ->
  twins (fst (xo_next (s0, s1))) /\ twins (fst (snd (xo_next (s0, s1)))) /\ twins (snd (snd (xo_next (s0, s1)))).
Proof.
  intros s0 s1 [a ->] [b ->]. unfold xo_next. cbn [map map2 fst snd]. repeat split; eexists; reflexivity.
Qed.

Lemma xo_after_twins : forall k s0 s1, twins s0 -> twins s1 ->
  twins (fst (xo_after (s0, s1) k)) /\ twins (snd (xo_after (s0, s1) k)).
Proof.
  induction k as [|k IH]; intros s0 s1 A B; cbn [xo_after]; [auto|].
  destruct (xo_next_twins s0 s1 A B) as [_ [C D]]. destruct (snd (xo_next (s0, s1))) as [t0 t1]. apply IH; auto.
Qed.

Lemma xo_halves : forall seed64 k, exists half, length half = 8%nat /\ vr_src (xo_vrng (xo_seeded seed64)) k = half ++ half.
Proof.
  intros seed64 k. unfold xo_vrng, xo_seeded. cbn [vr_src].
  destruct (xo_after_twins 32 [seed64; seed64] [0x73A2C175221D6A27; 0x73A2C175221D6A27]) as [A B]; try (eexists; reflexivity).
  fold (xo_init seed64) in *. destruct (xo_after (xo_init seed64) 32) as [s0 s1].
  destruct (xo_after_twins k s0 s1 A B) as [C D]. destruct (xo_after (s0, s1) k) as [t0 t1].
  destruct (xo_next_twins t0 t1 C D) as [[a E] _]. rewrite E. exists (lane_bytes a). split; [reflexivity|].
  unfold vector_bytes. cbn [map concat]. rewrite app_nil_r. reflexivity.
Qed.
