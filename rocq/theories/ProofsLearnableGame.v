(** Learning one conjunction per clause with three kinds of step: lower every
    automaton of a clause, raise those of the true literals, move one weight. *)
From Coq Require Import ZArith List Bool Lia ZifyBool.
From Verif Require Import Base BaseProofs Spec SpecLearning ModelAvx2 SpecAvx2.
Import ListNotations.
Open Scope Z_scope.

Section Game.
  Variable St : Type.
  Variable leads : St -> St -> Prop.
  Hypothesis leads_refl : forall s, leads s s.
  Hypothesis leads_trans : forall a b c, leads a b -> leads b c -> leads a c.
  Variables n ncls ncl : nat.
  Variable ok : St -> Prop.
  Variable lit : St -> nat -> nat -> Z.
  Variable wt : St -> nat -> nat -> Z.
  Hypothesis lit8 : forall s k i, ok s -> is_int8 (lit s k i).
  Hypothesis wt16 : forall s k d, ok s -> is_int16 (wt s k d).

  Definition only (k : nat) (s s' : St) : Prop :=
    ok s' /\ forall j, j <> k -> (forall i, lit s' j i = lit s j i) /\ (forall d, wt s' j d = wt s j d).
  Lemma only_refl : forall k s, ok s -> only k s s.
  Proof. intros k s H. split; auto. Qed.
  Lemma only_trans : forall k a b c, only k a b -> only k b c -> only k a c.
  Proof.
    intros k a b c [_ H1] [H2 H3]. split; [exact H2|]. intros j N. destruct (H1 j N) as [A B]. destruct (H3 j N) as [C D].
    split; [intros i; now rewrite C, A|intros d; now rewrite D, B].
  Qed.

  Hypothesis down : forall s k i, ok s -> (k < ncl)%nat -> (i < 2 * n)%nat -> 0 <= lit s k i ->
    exists s', leads s s' /\ only k s s' /\ (forall d, wt s' k d = wt s k d) /\ forall j, (j < 2 * n)%nat -> lit s' k j = down8 (lit s k j).
  Hypothesis up : forall s k c x, ok s -> (k < ncl)%nat -> (c < ncls)%nat -> length x = n -> binary x ->
    (forall j, (j < 2 * n)%nat -> lit_true n x j = false -> lit s k j < 0) ->
    exists s', leads s s' /\ only k s s' /\ (forall d, d <> c -> wt s' k d = wt s k d) /\
      wt s' k c = wrap16 (wt s k c + (if wt s k c >=? 0 then 1 else -1)) /\
      forall j, (j < 2 * n)%nat -> lit s' k j = if lit_true n x j then up8 (lit s k j) else lit s k j.
  Hypothesis nudge : forall s k d (more : bool), ok s -> (k < ncl)%nat -> (d < ncls)%nat -> (forall j, (j < 2 * n)%nat -> lit s k j < 0) ->
    exists s', leads s s' /\ only k s s' /\ (forall e, e <> d -> wt s' k e = wt s k e) /\ wt s' k d = wrap16 (wt s k d + if more then 1 else -1).

  Lemma game_forget : forall m s k, ok s -> (k < ncl)%nat -> (forall j, (j < 2 * n)%nat -> lit s k j < Z.of_nat m) ->
    exists s', leads s s' /\ only k s s' /\ (forall d, wt s' k d = wt s k d) /\ forall j, (j < 2 * n)%nat -> lit s' k j < 0.
  Proof.
    induction m as [|m IH]; intros s k OK Hk H.
    - exists s. split; [apply leads_refl|]. split; [now apply only_refl|]. split; [reflexivity|]. intros j Hj. specialize (H j Hj). lia.
    - destruct (existsb (fun j => 0 <=? lit s k j) (seq 0 (2 * n))) eqn:E.
      + apply existsb_exists in E. destruct E as [i [I1 I2]]. apply in_seq in I1. apply Z.leb_le in I2.
        destruct (down s k i OK Hk ltac:(lia) I2) as [s1 [R1 [F1 [W1 D1]]]].
        destruct (IH s1 k (proj1 F1) Hk) as [s2 [R2 [F2 [W2 D2]]]].
        * intros j Hj. rewrite D1 by auto. specialize (H j Hj). unfold down8. lia.
        * exists s2. split; [eapply leads_trans; eauto|]. split; [eapply only_trans; eauto|]. split; [intros d; now rewrite W2, W1|exact D2].
      + exists s. split; [apply leads_refl|]. split; [now apply only_refl|]. split; [reflexivity|]. intros j Hj.
        destruct (Z.lt_ge_cases (lit s k j) 0) as [L|L]; [exact L|]. exfalso.
        assert (X : existsb (fun j => 0 <=? lit s k j) (seq 0 (2 * n)) = true); [|congruence].
        apply existsb_exists. exists j. split; [apply in_seq; lia|now apply Z.leb_le].
  Qed.
  Lemma game_empty : forall s k, ok s -> (k < ncl)%nat ->
    exists s', leads s s' /\ only k s s' /\ (forall d, wt s' k d = wt s k d) /\ forall j, (j < 2 * n)%nat -> lit s' k j < 0.
  Proof. intros s k OK Hk. apply (game_forget 128); auto. intros j _. pose proof (lit8 s k j OK) as V. unfold is_int8 in V. lia. Qed.

  Lemma game_weigh_by : forall m s k d v, ok s -> (k < ncl)%nat -> (d < ncls)%nat -> is_int16 v -> Z.abs (v - wt s k d) = Z.of_nat m ->
    exists s', leads s s' /\ only k s s' /\ (forall e, e <> d -> wt s' k e = wt s k e) /\ wt s' k d = v.
  Proof.
    induction m as [|m IH]; intros s k d v OK Hk Hd Hv E.
    - exists s. split; [apply leads_refl|]. split; [now apply only_refl|]. split; [reflexivity|lia].
    - destruct (game_empty s k OK Hk) as [s0 [R0 [F0 [W0 D0]]]].
      destruct (nudge s0 k d (wt s k d <? v) (proj1 F0) Hk Hd D0) as [s1 [R1 [F1 [W1 V1]]]].
      pose proof (wt16 s k d OK) as IW. rewrite W0 in V1.
      rewrite wrap16_small in V1 by (unfold is_int16 in *; destruct (wt s k d <? v) eqn:L; lia).
      destruct (IH s1 k d v (proj1 F1) Hk Hd Hv) as [s2 [R2 [F2 [W2 V2]]]].
      + rewrite V1. destruct (wt s k d <? v) eqn:L; lia.
      + exists s2. split; [eapply leads_trans; [exact R0|eapply leads_trans; eauto]|]. split; [eapply only_trans; [exact F0|eapply only_trans; eauto]|]. split; [|exact V2].
        intros e He. rewrite W2, W1, W0; auto.
  Qed.
  Lemma game_weigh : forall m s k (W : nat -> Z), ok s -> (k < ncl)%nat -> (m <= ncls)%nat -> (forall d, is_int16 (W d)) ->
    exists s', leads s s' /\ only k s s' /\ forall d, (d < m)%nat -> wt s' k d = W d.
  Proof.
    induction m as [|m IH]; intros s k W OK Hk Hm HW.
    - exists s. split; [apply leads_refl|]. split; [now apply only_refl|]. intros; lia.
    - destruct (IH s k W OK Hk ltac:(lia) HW) as [s1 [R1 [F1 V1]]].
      destruct (game_weigh_by (Z.to_nat (Z.abs (W m - wt s1 k m))) s1 k m (W m)) as [s2 [R2 [F2 [W2 V2]]]]; auto; [apply F1|lia|].
      exists s2. split; [eapply leads_trans; eauto|]. split; [eapply only_trans; eauto|]. intros d Hd.
      destruct (Nat.eq_dec d m) as [->|N]; [exact V2|]. rewrite W2 by auto. apply V1. lia.
  Qed.

  Lemma game_memorise : forall t s k c x, ok s -> (k < ncl)%nat -> (c < ncls)%nat -> length x = n -> binary x ->
    0 <= wt s k c -> wt s k c + Z.of_nat t <= 32767 ->
    (forall j, (j < 2 * n)%nat -> lit_true n x j = false -> lit s k j < 0) ->
    exists s', leads s s' /\ only k s s' /\ (forall d, d <> c -> wt s' k d = wt s k d) /\ wt s' k c = wt s k c + Z.of_nat t /\
      forall j, (j < 2 * n)%nat -> if lit_true n x j then Z.min 127 (lit s k j + Z.of_nat t) <= lit s' k j else lit s' k j < 0.
  Proof.
    induction t as [|t IH]; intros s k c x OK Hk Hc Hx Hb W0 W1 HN.
    - exists s. split; [apply leads_refl|]. split; [now apply only_refl|]. split; [reflexivity|]. split; [lia|].
      intros j Hj. destruct (lit_true n x j) eqn:E; [lia|auto].
    - destruct (up s k c x OK Hk Hc Hx Hb HN) as [s1 [R1 [F1 [V1 [V2 D1]]]]].
      replace (wt s k c >=? 0) with true in V2 by lia. rewrite wrap16_small in V2 by (unfold is_int16; lia).
      destruct (IH s1 k c x (proj1 F1) Hk Hc Hx Hb) as [s2 [R2 [F2 [V3 [V4 D2]]]]]; [lia|lia| |].
      + intros j Hj E. rewrite D1, E by auto. auto.
      + exists s2. split; [eapply leads_trans; eauto|]. split; [eapply only_trans; eauto|]. split; [intros d Hd; rewrite V3, V1; auto|]. split; [lia|].
        intros j Hj. specialize (D2 j Hj). rewrite D1 in D2 by auto. destruct (lit_true n x j); [|exact D2]. unfold up8 in D2. lia.
  Qed.

  Lemma game_clause : forall s k c x, ok s -> (k < ncl)%nat -> (c < ncls)%nat -> length x = n -> binary x ->
    exists s', leads s s' /\ only k s s' /\ (forall d, (d < ncls)%nat -> wt s' k d = if Nat.eqb d c then 128 else 0) /\
      forall j, (j < 2 * n)%nat -> (0 <= lit s' k j <-> lit_true n x j = true).
  Proof.
    intros s k c x OK Hk Hc Hx Hb.
    destruct (game_weigh ncls s k (fun _ => 0) OK Hk (le_n _)) as [s1 [R1 [F1 V1]]]; [intros d; unfold is_int16; lia|].
    destruct (game_empty s1 k (proj1 F1) Hk) as [s2 [R2 [F2 [V2 D2]]]].
    destruct (game_memorise 128 s2 k c x (proj1 F2) Hk Hc Hx Hb) as [s3 [R3 [F3 [V3 [V4 D3]]]]].
    - rewrite V2, V1 by auto. lia.
    - rewrite V2, V1 by auto. lia.
    - intros j Hj _. auto.
    - exists s3. split; [eapply leads_trans; [exact R1|eapply leads_trans; eauto]|]. split; [eapply only_trans; [exact F1|eapply only_trans; eauto]|]. split.
      + intros d Hd. destruct (Nat.eqb d c) eqn:E.
        * apply Nat.eqb_eq in E. subst d. rewrite V4, V2, V1 by auto. reflexivity.
        * apply Nat.eqb_neq in E. rewrite V3, V2, V1 by auto. reflexivity.
      + intros j Hj. specialize (D3 j Hj). pose proof (lit8 s2 k j (proj1 F2)) as V. unfold is_int8 in V. destruct (lit_true n x j); split; intros; try reflexivity; try discriminate; lia.
  Qed.

  Theorem game_learn : forall (use : nat -> bool) (pt : nat -> list Z) (c : nat -> nat) m s, ok s -> (m <= ncl)%nat ->
    (forall k, (k < m)%nat -> use k = true -> length (pt k) = n /\ binary (pt k) /\ (c k < ncls)%nat) ->
    exists s', leads s s' /\ ok s' /\ forall k, (k < m)%nat ->
      (forall d, (d < ncls)%nat -> wt s' k d = if use k && Nat.eqb d (c k) then 128 else 0) /\
      (use k = true -> forall j, (j < 2 * n)%nat -> (0 <= lit s' k j <-> lit_true n (pt k) j = true)).
  Proof.
    intros use pt c. induction m as [|m IH]; intros s OK Hm H.
    - exists s. split; [apply leads_refl|]. split; [exact OK|]. intros; lia.
    - destruct (IH s OK ltac:(lia)) as [s1 [R1 [OK1 D1]]]; [intros k Hk; apply H; lia|].
      assert (X : exists s', leads s1 s' /\ only m s1 s' /\ (forall d, (d < ncls)%nat -> wt s' m d = if use m && Nat.eqb d (c m) then 128 else 0) /\
        (use m = true -> forall j, (j < 2 * n)%nat -> (0 <= lit s' m j <-> lit_true n (pt m) j = true))).
      { destruct (use m) eqn:E.
        - destruct (H m ltac:(lia) E) as [H1 [H2 H3]]. destruct (game_clause s1 m (c m) (pt m) OK1 ltac:(lia) H3 H1 H2) as [s2 [A [B [C D]]]]. exists s2. auto.
        - destruct (game_weigh ncls s1 m (fun _ => 0) OK1 ltac:(lia) (le_n _)) as [s2 [A [B C]]]; [intros d; unfold is_int16; lia|].
          exists s2. split; [exact A|]. split; [exact B|]. split; [exact C|discriminate]. }
      destruct X as [s2 [R2 [[F2 F3] [W2 I2]]]]. exists s2. split; [eapply leads_trans; eauto|]. split; [exact F2|]. intros k Hk.
      destruct (Nat.eq_dec k m) as [->|N]; [auto|]. destruct (D1 k ltac:(lia)) as [E1 E2]. destruct (F3 k N) as [E3 E4]. split.
      + intros d Hd. rewrite E4. auto.
      + intros U j Hj. rewrite E3. auto.
  Qed.
End Game.
