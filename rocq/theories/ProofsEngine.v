(** The engine runs through all its states. *)
From Coq Require Import ZArith Znumtheory Zpow_facts List Bool QArith Lia.
From Verif Require Import Base ModelEngine.
Import ListNotations.
Open Scope Z_scope.

Definition NN : Z := 2147483646.

Lemma pow_mod_P : forall e, 0 <= e -> eng_mult ^ e mod eng_mod = Zpow_mod eng_mult e eng_mod.
Proof. intros e H. symmetry. apply Zpow_mod_correct. discriminate. Qed.
Lemma pow_NN : eng_mult ^ NN mod eng_mod = 1.
Proof. rewrite pow_mod_P by (unfold NN; lia). vm_compute. reflexivity. Qed.

(** Exponents whose power is 1. *)
Definition unit_exp (e : Z) : Prop := 0 <= e /\ eng_mult ^ e mod eng_mod = 1.
Lemma unit_mul : forall e k, unit_exp e -> 0 <= k -> unit_exp (e * k).
Proof.
  intros e k [He E] Hk. split; [apply Z.mul_nonneg_nonneg; auto|]. rewrite Z.pow_mul_r by auto.
  rewrite Zpower_mod by reflexivity. rewrite E. rewrite Z.pow_1_l by auto. reflexivity.
Qed.
Lemma unit_rem : forall e f, unit_exp e -> unit_exp f -> 0 < f -> unit_exp (e mod f).
Proof.
  intros e f [He E] [Hf F] H. pose proof (Z.mod_pos_bound e f H). split; [lia|].
  assert (Q0 : 0 <= e / f) by (apply Z.div_pos; lia).
  pose proof (unit_mul f (e / f) (conj Hf F) Q0) as [M1 M2].
  rewrite (Z.div_mod e f) in E by lia. rewrite Z.pow_add_r in E by lia.
  rewrite Zmult_mod, M2, Z.mul_1_l, Zmod_mod in E. exact E.
Qed.
Lemma unit_gcd : forall f e, unit_exp e -> unit_exp f -> unit_exp (Z.gcd e f).
Proof.
  intros f. induction f as [f IH] using (well_founded_induction (Z.lt_wf 0)). intros e E F.
  destruct (Z.eq_dec f 0) as [->|Hf].
  - rewrite Z.gcd_0_r. destruct E as [E0 E1]. rewrite Z.abs_eq by auto. split; auto.
  - assert (0 < f) by (destruct F; lia). rewrite Z.gcd_comm, <- Z.gcd_mod by auto. rewrite Z.gcd_comm.
    pose proof (Z.mod_pos_bound e f ltac:(lia)). apply IH; auto. apply unit_rem; auto.
Qed.

Lemma prime_check : forall p, 1 < p -> forallb (fun k => Z.gcd (Z.of_nat k) p =? 1) (seq 1 (Z.to_nat p - 1)) = true -> prime p.
Proof.
  intros p Hp H. apply prime_intro; [exact Hp|]. intros n Hn. apply Zgcd_1_rel_prime.
  rewrite forallb_forall in H. specialize (H (Z.to_nat n)). rewrite in_seq in H. specialize (H ltac:(lia)).
  apply Z.eqb_eq in H. rewrite Z2Nat.id in H by lia. exact H.
Qed.
Lemma prime_factor : forall c, 1 < c -> (c | NN) -> exists p, In p [2; 3; 7; 11; 31; 151; 331] /\ (p | c).
Proof.
  intros c Hc D.
  assert (P : Forall prime [2; 3; 7; 11; 31; 151; 331]).
  { repeat (apply Forall_cons; [apply prime_check; [lia|vm_compute; reflexivity]|]). apply Forall_nil. }
  destruct (Exists_dec (fun p => (p | c)) [2; 3; 7; 11; 31; 151; 331] (fun p => Zdivide_dec p c)) as [X|X].
  - apply Exists_exists in X. exact X.
  - exfalso. apply Forall_Exists_neg in X.
    assert (R : Forall (fun p => rel_prime c p) [2; 3; 7; 11; 31; 151; 331]).
    { rewrite Forall_forall in *. intros p Hp. apply rel_prime_sym, prime_rel_prime; auto. }
    assert (G : rel_prime c NN).
    { change NN with (2 * (3 * (3 * (7 * (11 * (31 * (151 * 331))))))). rewrite Forall_forall in R. cbn [In] in R.
      repeat (apply rel_prime_mult; [apply R; auto 12|]). apply R. auto 12. }
    destruct G as [_ _ G]. specialize (G c (Z.divide_refl c) D). apply Z.divide_1_r in G. lia.
Qed.

Lemma order : forall j, 0 < j < NN -> eng_mult ^ j mod eng_mod <> 1.
Proof.
  intros j Hj E.
  assert (U : unit_exp (Z.gcd j NN)) by (apply unit_gcd; split; [lia|exact E|unfold NN; lia|exact pow_NN]).
  set (g := Z.gcd j NN) in *.
  assert (Gj : (g | j)) by apply Z.gcd_divide_l. assert (Gn : (g | NN)) by apply Z.gcd_divide_r.
  assert (g0 : 0 < g). { assert (0 <= g) by apply Z.gcd_nonneg. assert (g <> 0); [|lia]. intros e. rewrite e in Gj. apply Z.divide_0_l in Gj. lia. }
  assert (gj : g <= j) by (apply Z.divide_pos_le; [lia|exact Gj]).
  destruct Gn as [c Hc].
  assert (c1 : 1 < c). { destruct (Z_lt_le_dec 1 c); auto. assert (c * g <= 1 * g) by (apply Z.mul_le_mono_nonneg_r; lia). lia. }
  destruct (prime_factor c c1) as [p [Hp [d Hd]]]. { exists g. lia. }
  assert (p0 : 0 < p). { cbn [In] in Hp. lia. }
  assert (d0 : 0 <= d). { destruct (Z_lt_le_dec d 0); [|auto]. assert (d * p <= 0) by (apply Z.mul_nonpos_nonneg; lia). lia. }
  assert (V : unit_exp (g * d)) by (apply unit_mul; auto).
  assert (X : g * d = NN / p). { rewrite Hc, Hd. replace (d * p * g) with (g * d * p) by ring. rewrite Z.div_mul by lia. reflexivity. }
  rewrite X in V. destruct V as [_ V]. rewrite pow_mod_P in V by (apply Z.div_pos; unfold NN; lia).
  cbn [In] in Hp.
  repeat (destruct Hp as [<-|Hp]; [revert V; vm_compute; discriminate|]). exact Hp.
Qed.

Lemma pow_shift : forall e, 0 <= e -> eng_mult ^ (e + NN) mod eng_mod = eng_mult ^ e mod eng_mod.
Proof.
  intros e He. rewrite Z.pow_add_r by (unfold NN; lia). rewrite Zmult_mod, pow_NN, Z.mul_1_r. apply Zmod_mod.
Qed.
Lemma pow_inj : forall i j, 0 <= i < NN -> 0 <= j < NN -> eng_mult ^ i mod eng_mod = eng_mult ^ j mod eng_mod -> i = j.
Proof.
  assert (W : forall i j, 0 <= i < j -> j < NN -> eng_mult ^ i mod eng_mod = eng_mult ^ j mod eng_mod -> False).
  { intros i j Hij Hj E. apply (order (j - i) ltac:(lia)).
    assert (X : eng_mult ^ (i + (NN - i)) mod eng_mod = eng_mult ^ (j + (NN - i)) mod eng_mod).
    { rewrite !Z.pow_add_r by lia. rewrite (Zmult_mod (eng_mult ^ i)), (Zmult_mod (eng_mult ^ j)), E. reflexivity. }
    replace (i + (NN - i)) with NN in X by ring. replace (j + (NN - i)) with (j - i + NN) in X by ring.
    rewrite pow_NN, pow_shift in X by lia. symmetry. exact X. }
  intros i j Hi Hj E. destruct (Z.lt_trichotomy i j) as [L|[L|L]]; auto; exfalso; [apply (W i j)|apply (W j i)]; auto; lia.
Qed.
Lemma pow_range : forall i, 0 <= i <= NN -> eng_state (eng_mult ^ i mod eng_mod).
Proof.
  intros i Hi. pose proof (Z.mod_pos_bound (eng_mult ^ i) eng_mod ltac:(reflexivity)) as B.
  assert (eng_mult ^ i mod eng_mod <> 0).
  { intros Z0. pose proof pow_NN as P. replace NN with (i + (NN - i)) in P by ring.
    rewrite Z.pow_add_r in P by lia. rewrite Zmult_mod, Z0 in P. discriminate P. }
  unfold eng_state. unfold eng_mod in *. lia.
Qed.
Lemma nodup_map_in : forall {A B : Type} (f : A -> B) l, (forall x y, In x l -> In y l -> f x = f y -> x = y) -> NoDup l -> NoDup (map f l).
Proof.
  intros A B f l. induction l as [|a l IH]; intros H N; [constructor|]. inversion_clear N as [|? ? Na Nl]. cbn [map]. constructor.
  - rewrite in_map_iff. intros [b [E Hb]]. apply Na. rewrite <- (H b a); auto; [right; exact Hb|left; reflexivity].
  - apply IH; auto. intros x y Hx Hy. apply H; right; auto.
Qed.
(** Every state is a power. *)
Lemma pow_all : forall t, eng_state t -> exists e, 0 <= e < NN /\ eng_mult ^ e mod eng_mod = t.
Proof.
  intros t Ht. assert (N0 : exists n : nat, Z.of_nat n = NN) by (exists (Z.to_nat NN); apply Z2Nat.id; unfold NN; lia).
  destruct N0 as [n Hn].
  assert (I : incl (map (fun k => Z.of_nat k + 1) (seq 0 n)) (map (fun k => eng_mult ^ Z.of_nat k mod eng_mod) (seq 0 n))).
  { apply NoDup_length_incl.
    - apply nodup_map_in; [|apply seq_NoDup]. intros x y Hx Hy E. rewrite in_seq in *. apply pow_inj in E; lia.
    - rewrite !map_length. lia.
    - intros v Hv. apply in_map_iff in Hv. destruct Hv as [k [<- Hk]]. rewrite in_seq in Hk.
      assert (R : eng_state (eng_mult ^ Z.of_nat k mod eng_mod)) by (apply pow_range; lia). unfold eng_state, NN in *.
      apply in_map_iff. exists (Z.to_nat (eng_mult ^ Z.of_nat k mod eng_mod - 1)). split; [lia|]. apply in_seq. lia. }
  specialize (I t). rewrite !in_map_iff in I. destruct I as [k [E Hk]].
  - exists (Z.to_nat (t - 1)). unfold eng_state, NN in *. rewrite in_seq. split; lia.
  - exists (Z.of_nat k). rewrite in_seq in Hk. split; [lia|exact E].
Qed.

Lemma eng_after_pow : forall k x, eng_state x -> eng_after k x = (eng_mult ^ Z.of_nat k * x) mod eng_mod.
Proof.
  intros k x Hx. induction k as [|k IH].
  - unfold eng_state in Hx. cbn [eng_after Nat.iter nat_rect]. change (Z.of_nat 0) with 0. rewrite Z.pow_0_r, Z.mul_1_l. symmetry. apply Z.mod_small. unfold eng_mod. lia.
  - change (eng_after (S k) x) with (eng (eng_after k x)). rewrite IH. unfold eng. rewrite Nat2Z.inj_succ, Z.pow_succ_r by lia.
    rewrite Zmult_mod_idemp_r. f_equal. ring.
Qed.
Lemma eng_after_exp : forall k x e, eng_state x -> 0 <= e -> x = eng_mult ^ e mod eng_mod -> eng_after k x = eng_mult ^ (Z.of_nat k + e) mod eng_mod.
Proof. intros k x e Hx He ->. rewrite eng_after_pow by exact Hx. rewrite Zmult_mod_idemp_r, Z.pow_add_r by lia. reflexivity. Qed.
Lemma eng_reach : forall x t, eng_state x -> eng_state t -> exists k, (1 <= Z.of_nat k <= NN) /\ eng_after k x = t.
Proof.
  intros x t Hx Ht. destruct (pow_all x Hx) as [s [Hs Es]]. destruct (pow_all t Ht) as [u [Hu Eu]].
  destruct (Z_lt_le_dec s u) as [L|L].
  - exists (Z.to_nat (u - s)). split; [lia|]. rewrite (eng_after_exp _ x s) by (auto; lia).
    rewrite Z2Nat.id by lia. replace (u - s + s) with u by ring. exact Eu.
  - exists (Z.to_nat (u - s + NN)). split; [lia|]. rewrite (eng_after_exp _ x s) by (auto; lia).
    rewrite Z2Nat.id by lia. replace (u - s + NN + s) with (u + NN) by ring. rewrite pow_shift by lia. exact Eu.
Qed.
Lemma eng_closed : forall x, eng_state x -> eng_state (eng x).
Proof.
  intros x Hx. destruct (pow_all x Hx) as [s [Hs Es]]. change (eng x) with (eng_after 1 x).
  rewrite (eng_after_exp 1 x s) by (auto; lia). apply pow_range. change (Z.of_nat 1) with 1. lia.
Qed.
Lemma eng_after_closed : forall k x, eng_state x -> eng_state (eng_after k x).
Proof. intros k x Hx. induction k as [|k IH]; [exact Hx|]. apply eng_closed. exact IH. Qed.
Lemma eng_inj : forall x y, eng_state x -> eng_state y -> eng x = eng y -> x = y.
Proof.
  intros x y Hx Hy E. destruct (pow_all x Hx) as [s [Hs Es]]. destruct (pow_all y Hy) as [u [Hu Eu]].
  change (eng_after 1 x = eng_after 1 y) in E. rewrite (eng_after_exp 1 x s), (eng_after_exp 1 y u) in E by (auto; lia).
  change (Z.of_nat 1) with 1 in E.
  assert (W : forall e, 0 <= e < NN -> eng_mult ^ ((1 + e) mod NN) mod eng_mod = eng_mult ^ (1 + e) mod eng_mod).
  { intros e He. destruct (Z.eq_dec (1 + e) NN) as [->|Hne].
    - rewrite Z_mod_same_full. rewrite pow_NN. reflexivity.
    - rewrite (Z.mod_small (1 + e) NN) by lia. reflexivity. }
  rewrite <- (W s), <- (W u) in E by auto.
  apply pow_inj in E; try (apply Z.mod_pos_bound; reflexivity).
  assert (N1 : 1 < NN) by reflexivity. assert (s = u). { destruct (Z.eq_dec (1 + s) NN), (Z.eq_dec (1 + u) NN); try lia.
    - rewrite e, Z_mod_same_full, Z.mod_small in E by lia. lia.
    - rewrite e, Z_mod_same_full, Z.mod_small in E by lia. lia.
    - rewrite !Z.mod_small in E by lia. lia. }
  congruence.
Qed.
Lemma eng_after_inj : forall k x y, eng_state x -> eng_state y -> eng_after k x = eng_after k y -> x = y.
Proof.
  induction k as [|k IH]; intros x y Hx Hy E; [exact E|]. apply IH; auto. apply eng_inj; auto using eng_after_closed.
Qed.
