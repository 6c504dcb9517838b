(** Draws from the engine: the loops end. *)
From Coq Require Import ZArith List Bool QArith Lia.
From Verif Require Import Base ModelEngine ProofsEngine.
Import ListNotations.
Open Scope Z_scope.

Fixpoint seek {S A : Type} (k : nat) (step : S -> S * option A) (s : S) : S * option A :=
  match k with
  | O => (s, None)
  | Datatypes.S k => match step s with (s, Some a) => (s, Some a) | (s, None) => seek k step s end
  end.
Definition walk {S A : Type} (step : S -> S * option A) (k : nat) (s : S) : S := Nat.iter k (fun s => fst (step s)) s.
Lemma iter_in : forall {A : Type} (f : A -> A) k a, Nat.iter (S k) f a = Nat.iter k f (f a).
Proof. intros A f k a. induction k as [|k IH]; [reflexivity|]. change (f (Nat.iter (S k) f a) = f (Nat.iter k f (f a))). rewrite IH. reflexivity. Qed.

Lemma seek_add : forall {S A : Type} (step : S -> S * option A) a b s,
  seek (a + b) step s = match seek a step s with (s, Some r) => (s, Some r) | (s, None) => seek b step s end.
Proof.
  intros S A step. induction a as [|a IH]; intros b s; [reflexivity|]. cbn [seek Nat.add]. destruct (step s) as [s1 [r|]]; [reflexivity|]. apply IH.
Qed.
Lemma search_seek : forall {S A : Type} (step : S -> S * option A) p s, search p step s = seek (Pos.to_nat p) step s.
Proof.
  intros S A step. induction p as [p IH|p IH|]; intros s.
  - rewrite Pos2Nat.inj_xI. cbn [search seek]. destruct (step s) as [s1 [r|]]; [reflexivity|].
    replace (2 * Pos.to_nat p)%nat with (Pos.to_nat p + Pos.to_nat p)%nat by lia. rewrite seek_add, IH. destruct (seek _ step s1) as [s2 [r|]]; auto.
  - rewrite Pos2Nat.inj_xO. cbn [search].
    replace (2 * Pos.to_nat p)%nat with (Pos.to_nat p + Pos.to_nat p)%nat by lia. rewrite seek_add, IH. destruct (seek _ step s) as [s2 [r|]]; auto.
  - change (Pos.to_nat 1) with 1%nat. cbn [search seek]. destruct (step s) as [s1 [r|]]; reflexivity.
Qed.
Lemma seek_first : forall {S A : Type} (step : S -> S * option A) k m s a, (k < m)%nat -> snd (step (walk step k s)) = Some a ->
  exists j b, (j <= k)%nat /\ seek m step s = (walk step (Datatypes.S j) s, Some b) /\ snd (step (walk step j s)) = Some b /\
    forall i, (i < j)%nat -> snd (step (walk step i s)) = None.
Proof.
  intros S A step. induction k as [|k IH]; intros m s a Hm E; (destruct m as [|m]; [lia|]); cbn [seek].
  - cbn [walk Nat.iter nat_rect] in E. destruct (step s) as [s1 o] eqn:E1. cbn [snd] in E. subst o. exists O, a. split; [lia|].
    split; [|split]. + cbn. rewrite E1. reflexivity. + cbn. rewrite E1. reflexivity. + intros i Hi. lia.
  - destruct (step s) as [s1 [b|]] eqn:E1.
    + exists O, b. split; [lia|]. split; [|split]. * cbn. rewrite E1. reflexivity. * cbn. rewrite E1. reflexivity. * intros i Hi. lia.
    + unfold walk in E. rewrite iter_in, E1 in E. cbn [fst] in E. destruct (IH m s1 a ltac:(lia) E) as [j [b [Hj [F1 [F2 F3]]]]].
      exists (Datatypes.S j), b. split; [lia|]. unfold walk. rewrite (iter_in _ (Datatypes.S j)), E1. cbn [fst]. split; [exact F1|]. split.
      * rewrite (iter_in _ j), E1. exact F2.
      * intros i Hi. destruct i as [|i]; [cbn; rewrite E1; reflexivity|]. rewrite iter_in, E1. apply F3. lia.
Qed.

Lemma all_states_NN : Z.of_nat (Pos.to_nat all_states) = NN.
Proof. rewrite positive_nat_Z. reflexivity. Qed.
Lemma walk_uni : forall n k x, walk (uni_step n) k x = eng_after k x.
Proof. reflexivity. Qed.

Section Uni.
  Variable n : Z.
  Hypothesis Hn : 1 <= n <= 2147483645.

  Lemma scaling_pos : 1 <= uni_scaling n.
  Proof. unfold uni_scaling. apply Z.div_le_lower_bound; lia. Qed.
  Lemma uni_result_iff : forall x c, eng_state x -> uni_result n x = Some c <->
    0 <= c < n /\ c * uni_scaling n < x <= (c + 1) * uni_scaling n.
  Proof.
    intros x c Hx. pose proof scaling_pos as Hs. unfold uni_result, eng_state in *. set (q := uni_scaling n) in *.
    destruct (Z.ltb_spec (x - 1) (n * q)) as [L|L].
    - pose proof (Z.div_mod (x - 1) q ltac:(lia)) as D. pose proof (Z.mod_pos_bound (x - 1) q ltac:(lia)) as B.
      assert (Q0 : 0 <= (x - 1) / q) by (apply Z.div_pos; lia). assert (Q1 : (x - 1) / q < n) by (apply Z.div_lt_upper_bound; lia).
      split.
      + intros E. injection E as <-. set (w := (x - 1) / q) in *. rewrite Z.mul_add_distr_r, Z.mul_1_l, (Z.mul_comm w q). lia.
      + intros [Hc Hi]. f_equal. symmetry. apply Z.div_unique with (x - 1 - q * c); [|ring]. left.
        rewrite Z.mul_add_distr_r in Hi. rewrite (Z.mul_comm q c). lia.
    - split; [discriminate|]. intros [Hc Hi]. exfalso.
      assert ((c + 1) * q <= n * q) by (apply Z.mul_le_mono_nonneg_r; lia). lia.
  Qed.
  Lemma uni_result_one : uni_result n 1 = Some 0.
  Proof. apply uni_result_iff; [unfold eng_state; lia|]. pose proof scaling_pos. lia. Qed.
  Lemma uni_target : forall c, 0 <= c < n -> eng_state (c * uni_scaling n + 1) /\ uni_result n (c * uni_scaling n + 1) = Some c.
  Proof.
    intros c Hc. pose proof scaling_pos as Hs.
    assert (U : n * uni_scaling n <= 2147483645) by (unfold uni_scaling; apply Z.mul_div_le; lia).
    assert (c * uni_scaling n <= (n - 1) * uni_scaling n) by (apply Z.mul_le_mono_nonneg_r; lia).
    assert (0 <= c * uni_scaling n) by (apply Z.mul_nonneg_nonneg; lia).
    rewrite Z.mul_sub_distr_r in H. assert (S : eng_state (c * uni_scaling n + 1)) by (unfold eng_state; lia). split; [exact S|].
    apply uni_result_iff; [exact S|]. rewrite Z.mul_add_distr_r. lia.
  Qed.

  Lemma uni_draw_first : forall k x c, eng_state x -> (1 <= Z.of_nat k <= NN) -> uni_result n (eng_after k x) = Some c ->
    exists j b, (1 <= j <= k)%nat /\ uni_draw n x = (eng_after j x, Some b) /\ uni_result n (eng_after j x) = Some b.
  Proof.
    intros k x c Hx Hk E. unfold uni_draw. rewrite search_seek. pose proof all_states_NN as A.
    destruct k as [|k]; [lia|].
    destruct (seek_first (uni_step n) k (Pos.to_nat all_states) x c) as [j [b [Hj [F1 [F2 F3]]]]]; [lia|exact E|].
    exists (S j), b. split; [lia|]. split; [exact F1|exact F2].
  Qed.
  Lemma uni_draw_total : forall x, eng_state x -> exists j b, (1 <= Z.of_nat j <= NN) /\ uni_draw n x = (eng_after j x, Some b) /\ 0 <= b < n /\
    uni_result n (eng_after j x) = Some b.
  Proof.
    intros x Hx. destruct (eng_reach x 1 Hx ltac:(unfold eng_state; lia)) as [k [Hk Ek]].
    destruct (uni_draw_first k x 0 Hx Hk ltac:(rewrite Ek; apply uni_result_one)) as [j [b [Hj [E F]]]].
    exists j, b. split; [lia|]. split; [exact E|]. split; [|exact F]. apply (uni_result_iff (eng_after j x) b) in F; [|apply eng_after_closed; exact Hx]. apply F.
  Qed.
  Lemma uni_after_closed : forall k x, eng_state x -> eng_state (uni_after n k x).
  Proof.
    intros k x Hx. induction k as [|k IH]; [exact Hx|]. change (eng_state (fst (uni_draw n (uni_after n k x)))).
    destruct (uni_draw_total _ IH) as [j [b [_ [E _]]]]. rewrite E. cbn [fst]. apply eng_after_closed. exact IH.
  Qed.
  Lemma uni_value_range : forall x k, eng_state x -> 0 <= uni_value n x k < n.
  Proof.
    intros x k Hx. unfold uni_value. destruct (uni_draw_total _ (uni_after_closed k x Hx)) as [j [b [_ [E [R _]]]]]. rewrite E. exact R.
  Qed.
  Lemma eng_after_add : forall a b x, eng_after (a + b) x = eng_after b (eng_after a x).
  Proof.
    intros a b x. unfold eng_after. rewrite Nat.add_comm. induction b as [|b IH]; [reflexivity|]. cbn [Nat.add Nat.iter nat_rect].
    unfold Nat.iter in IH. rewrite IH. reflexivity.
  Qed.
  Lemma uni_after_S : forall k x, uni_after n (S k) x = uni_after n k (fst (uni_draw n x)).
  Proof. intros k x. exact (iter_in (fun x => fst (uni_draw n x)) k x). Qed.
  Lemma uni_value_0 : forall x y b, uni_draw n x = (y, Some b) -> uni_value n x 0 = b.
  Proof. intros x y b E. unfold uni_value. change (uni_after n 0 x) with x. rewrite E. reflexivity. Qed.
  Lemma uni_value_S : forall x y o j, uni_draw n x = (y, o) -> uni_value n x (S j) = uni_value n y j.
  Proof. intros x y o j E. unfold uni_value. rewrite uni_after_S, E. reflexivity. Qed.
  (** A class the engine passes by is drawn. *)
  Lemma uni_reach : forall k x c, eng_state x -> (1 <= Z.of_nat k <= NN) -> uni_result n (eng_after k x) = Some c ->
    exists j, (j < k)%nat /\ uni_value n x j = c.
  Proof.
    intros k. induction k as [k IH] using (well_founded_induction Wf_nat.lt_wf). intros x c Hx Hk E.
    destruct (uni_draw_first k x c Hx Hk E) as [i [b [Hi [F1 F2]]]].
    destruct (Nat.eq_dec i k) as [->|Hne].
    - exists O. split; [lia|]. rewrite (uni_value_0 _ _ _ F1). congruence.
    - destruct (IH (k - i)%nat ltac:(lia) (eng_after i x) c) as [j [Hj V]].
      + apply eng_after_closed. exact Hx.
      + lia.
      + rewrite <- eng_after_add. replace (i + (k - i))%nat with k by lia. exact E.
      + exists (S j). split; [lia|]. rewrite (uni_value_S _ _ _ j F1). exact V.
  Qed.
  Lemma uni_all : forall x c, eng_state x -> 0 <= c < n -> exists j, Z.of_nat j < NN /\ uni_value n x j = c.
  Proof.
    intros x c Hx Hc. destruct (uni_target c Hc) as [T1 T2]. destruct (eng_reach x _ Hx T1) as [k [Hk Ek]].
    destruct (uni_reach k x c Hx Hk ltac:(rewrite Ek; exact T2)) as [j [Hj V]]. exists j. split; [lia|exact V].
  Qed.
  (** The redraw loop. *)
  Lemma walk_other : forall pos k x, walk (other_step n pos) k x = uni_after n k x.
  Proof.
    intros pos k x. unfold walk, uni_after. induction k as [|k IH]; [reflexivity|]. cbn [Nat.iter nat_rect]. unfold Nat.iter in IH. rewrite IH.
    unfold other_step. destruct (uni_draw n _). reflexivity.
  Qed.
  Lemma other_ends : forall x pos, eng_state x -> 2 <= n -> exists x' c, uni_other n pos x = (x', Some c) /\ eng_state x' /\ 0 <= c < n /\ c <> pos /\
    exists j, uni_value n x j = c /\ x' = uni_after n (S j) x /\ forall i, (i < j)%nat -> uni_value n x i = pos.
  Proof.
    intros x pos Hx H2.
    assert (T : exists c, 0 <= c < n /\ c <> pos) by (destruct (Z.eq_dec pos 0) as [->|]; [exists 1; lia|exists 0; lia]).
    destruct T as [t [Ht Hne]]. destruct (uni_all x t Hx Ht) as [k [Hk Ek]].
    assert (V : forall i, snd (other_step n pos (uni_after n i x)) = if uni_value n x i =? pos then None else Some (uni_value n x i)).
    { intros i. unfold other_step, uni_value. destruct (uni_draw_total _ (uni_after_closed i x Hx)) as [a [b [_ [E _]]]]. rewrite E. reflexivity. }
    unfold uni_other. rewrite search_seek. pose proof all_states_NN as A.
    destruct (seek_first (other_step n pos) k (Pos.to_nat all_states) x t) as [j [b [Hj [F1 [F2 F3]]]]]; [lia| |].
    { rewrite walk_other, V, Ek. destruct (Z.eqb_spec t pos); [contradiction|reflexivity]. }
    rewrite walk_other in F1, F2. rewrite V in F2.
    exists (uni_after n (S j) x), b. split; [exact F1|]. split; [apply uni_after_closed; exact Hx|].
    destruct (Z.eqb_spec (uni_value n x j) pos) as [|Hp]; [discriminate|]. injection F2 as <-.
    split; [apply uni_value_range; exact Hx|]. split; [exact Hp|]. exists j. split; [reflexivity|]. split; [reflexivity|].
    intros i Hi. specialize (F3 i Hi). rewrite walk_other, V in F3. destruct (Z.eqb_spec (uni_value n x i) pos); [auto|discriminate].
  Qed.
End Uni.

(** generate_canonical. *)
Lemma canon_pos : forall x, eng_state x -> (0 < canon x (eng x) < 1)%Q.
Proof.
  intros x Hx. pose proof (eng_closed x Hx) as He.
  assert (X : x - 1 + (eng x - 1) * 2147483646 > 0).
  { unfold eng_state in *. destruct (Z.eq_dec x 1) as [->|]; [|lia]. change (eng 1) with 16807. lia. }
  unfold eng_state in *. unfold canon, Qlt. cbn [Qnum Qden]. split; lia.
Qed.
