(** What the feedback of the sparse block does to the automata. *)
From Coq Require Import ZArith Arith List Bool QArith Lia ZifyBool Sorted Permutation.
From Verif Require Import Base BaseProofs Spec ModelDense ModelRuleSet ModelLayout ModelFeedback ModelExecutor
  ModelSparse SpecSparse ProofsSparse ProofsSparseSort ProofsSparseInv.
Import ListNotations.
Open Scope Z_scope.

(** ** Generators *)

Definition later (r r' : rng) : Prop := rng_src r' = rng_src r /\ (rng_pos r <= rng_pos r')%nat.
Lemma later_refl : forall r, later r r.
Proof. intros r. split; auto. Qed.
Lemma later_trans : forall a b c, later a b -> later b c -> later a c.
Proof. intros a b c [A1 A2] [B1 B2]. split; [congruence|lia]. Qed.
Lemma draw_le_later : forall r p, later r (snd (draw_le r p)) /\ drawn r p (fst (draw_le r p)).
Proof.
  intros r p. unfold draw_le, next_u. cbn [fst snd]. split; [split; cbn [rng_src rng_pos]; auto|]. exists O. now rewrite Nat.add_0_r.
Qed.
Lemma drawn_later : forall r r' p d, later r r' -> drawn r' p d -> drawn r p d.
Proof.
  intros r r' p d [L1 L2] [j E]. exists (rng_pos r' - rng_pos r + j)%nat. rewrite <- E, L1. do 2 f_equal. lia.
Qed.
Lemma step_up_later : forall boost r r' p v v', later r r' -> step_up boost r' p v v' -> step_up boost r p v v'.
Proof. unfold step_up. intros boost r r' p v v' L H. pose proof (drawn_later r r' p) as D. specialize (D true L) as D1. specialize (D false L) as D2. tauto. Qed.
Lemma step_down_later : forall r r' p v v', later r r' -> step_down r' p v v' -> step_down r p v v'.
Proof. unfold step_down. intros r r' p v v' L H. pose proof (drawn_later r r' p) as D. specialize (D true L) as D1. specialize (D false L) as D2. tauto. Qed.

Lemma wrap8_small' : forall z, is_int8 z -> wrap8 z = z.
Proof. intros z H. apply wrap8_small. exact H. Qed.

(** ** One literal of Type Ia *)

Lemma index_of_Some : forall lit row k, index_of lit row = Some k -> (k < length row)%nat /\ nth k row O = lit.
Proof.
  intros lit row. induction row as [|a row IH]; intros k H; cbn [index_of] in H; [discriminate|].
  destruct (Nat.eqb_spec a lit) as [E|E].
  - injection H as <-. cbn [length nth]. split; [lia|auto].
  - destruct (index_of lit row) as [j|]; [|discriminate]. injection H as <-. destruct (IH j eq_refl). cbn [length nth]. split; [lia|auto].
Qed.
Lemma index_of_None : forall lit row, index_of lit row = None -> ~ In lit row.
Proof.
  intros lit row. induction row as [|a row IH]; intros H; cbn [index_of] in H; [easy|].
  destruct (Nat.eqb_spec a lit) as [E|E]; [discriminate|]. destruct (index_of lit row); [discriminate|]. intros [C|C]; auto. now apply IH.
Qed.

Definition int8s (l : list Z) : Prop := Forall is_int8 l.
Lemma int8s_nth : forall l k, int8s l -> is_int8 (nth k l 0).
Proof.
  intros l k H. destruct (lt_dec k (length l)).
  - unfold int8s in H. rewrite Forall_forall in H. apply H. now apply nth_In.
  - rewrite nth_overflow by lia. unfold is_int8. lia.
Qed.

(** What one literal of the example does to the states [sts] of [row]. *)
Definition touched (step : Z -> Z -> Prop) (row : list nat) (sts sts' : list Z) (lit : nat) : Prop :=
  forall k, (k < length row)%nat ->
    (nth k row O = lit -> step (nth k sts 0) (nth k sts' 0)) /\ (nth k row O <> lit -> nth k sts' 0 = nth k sts 0).

Lemma touched_none : forall (step : Z -> Z -> Prop) row sts lit, ~ In lit row -> touched step row sts sts lit.
Proof. intros step row sts lit H k Hk. split; auto. intros E. exfalso. apply H. rewrite <- E. now apply nth_In. Qed.

Lemma touched_set : forall (step : Z -> Z -> Prop) row sts lit k v, NoDup row -> index_of lit row = Some k -> length sts = length row ->
  step (nth k sts 0) v -> touched step row sts (set_nth k v sts) lit.
Proof.
  intros step row sts lit k v N H HL HS j Hj. destruct (index_of_Some _ _ _ H) as [K1 K2]. destruct (Nat.eq_dec j k) as [E|E].
  - subst j. rewrite nth_set_nth_eq by lia. split; auto. congruence.
  - rewrite nth_set_nth_neq by lia. split; auto. intros E'. exfalso. apply E. apply (proj1 (NoDup_nth row O) N); auto; congruence.
Qed.
Lemma touched_same : forall (step : Z -> Z -> Prop) row sts lit k, NoDup row -> index_of lit row = Some k ->
  step (nth k sts 0) (nth k sts 0) -> touched step row sts sts lit.
Proof.
  intros step row sts lit k N H HS j Hj. destruct (index_of_Some _ _ _ H) as [K1 K2]. destruct (Nat.eq_dec j k) as [E|E].
  - subst j. auto.
  - split; auto. intros E'. exfalso. apply E. apply (proj1 (NoDup_nth row O) N); auto; congruence.
Qed.

Lemma t1a_lit_step : forall boost dynamic alsize si sm prow nrow f lit, NoDup prow -> NoDup nrow ->
  length (f_pst f) = length prow -> length (f_nst f) = length nrow -> int8s (f_pst f) -> int8s (f_nst f) ->
  let f' := t1a_lit boost dynamic alsize si sm prow nrow f lit in
  later (f_rng f) (f_rng f') /\ length (f_pst f') = length prow /\ length (f_nst f') = length nrow /\ int8s (f_pst f') /\ int8s (f_nst f') /\
  touched (step_up boost (f_rng f) sm) prow (f_pst f) (f_pst f') lit /\
  touched (step_down (f_rng f) si) nrow (f_nst f) (f_nst f') lit.
Proof.
  intros boost dynamic alsize si sm prow nrow f lit NP NN LP LN IP IN f'. unfold f', t1a_lit. clear f'.
  set (g := match index_of lit prow with Some k => _ | None => _ end).
  assert (G : later (f_rng f) (f_rng g) /\ length (f_pst g) = length prow /\ int8s (f_pst g) /\ f_nst g = f_nst f /\
              touched (step_up boost (f_rng f) sm) prow (f_pst f) (f_pst g) lit).
  { unfold g. destruct (index_of lit prow) as [k|] eqn:K.
    - cbv zeta. pose proof (int8s_nth (f_pst f) k IP) as V. unfold is_int8 in V. destruct (index_of_Some _ _ _ K) as [K1 K2].
      destruct (Z.ltb_spec (nth k (f_pst f) 0) 127) as [A|A].
      + assert (W : wrap8 (nth k (f_pst f) 0 + 1) = nth k (f_pst f) 0 + 1) by (apply wrap8_small'; unfold is_int8; lia).
        destruct boost eqn:BO.
        * cbn [f_rng f_pst f_nst]. split; [apply later_refl|]. rewrite set_nth_length. split; auto.
          split; [apply Forall_set_nth; auto; apply wrap8_range|]. split; auto. apply touched_set; auto. rewrite W. right. auto.
        * destruct (draw_le_later (f_rng f) sm) as [D1 D2]. destruct (draw_le (f_rng f) sm) as [d r]. cbn [fst snd] in D1, D2. cbn [f_rng f_pst f_nst].
          split; auto. destruct d; rewrite ?set_nth_length.
          -- split; auto. split; [apply Forall_set_nth; auto; apply wrap8_range|]. split; auto. apply touched_set; auto. rewrite W. right. auto.
          -- split; auto. split; auto. split; auto. apply touched_same with k; auto. left. auto.
      + split; [apply later_refl|]. split; auto. split; auto. split; auto. apply touched_same with k; auto. left. auto.
    - destruct (update_al dynamic alsize (f_al f) (f_repl f) lit) as [al repl]. cbn [f_rng f_pst f_nst]. split; [apply later_refl|].
      split; auto. split; auto. split; auto. apply touched_none. now apply index_of_None. }
  clearbody g. destruct G as [G1 [G2 [G3 [G4 G5]]]]. rewrite <- G4 in LN, IN |- *. cbv zeta.
  destruct (index_of lit nrow) as [k|] eqn:K.
  - pose proof (int8s_nth (f_nst g) k IN) as V. unfold is_int8 in V. destruct (index_of_Some _ _ _ K) as [K1 K2].
    destruct (nth k (f_nst g) 0 >? -127) eqn:A.
    + assert (W : wrap8 (nth k (f_nst g) 0 - 1) = nth k (f_nst g) 0 - 1) by (apply wrap8_small'; unfold is_int8; lia).
      destruct (draw_le_later (f_rng g) si) as [D1 D2]. destruct (draw_le (f_rng g) si) as [d r]. cbn [fst snd] in D1, D2. cbn [f_rng f_pst f_nst].
      split; [eapply later_trans; eauto|]. split; auto. apply (drawn_later (f_rng f)) in D2; auto. destruct d; rewrite ?set_nth_length.
      * split; auto. split; auto. split; [apply Forall_set_nth; auto; apply wrap8_range|]. split; auto. apply touched_set; auto. rewrite W. right. split; auto. split; [lia|auto].
      * split; auto. split; auto. split; auto. split; auto. apply touched_same with k; auto. left. auto.
    + split; auto. split; auto. split; auto. split; auto. split; auto. split; auto. apply touched_same with k; auto. left. split; auto. left. lia.
  - split; auto. split; auto. split; auto. split; auto. split; auto. split; auto. apply touched_none. now apply index_of_None.
Qed.

(** All literals of the example. *)
Definition moved_if (sel : nat -> bool) (step : Z -> Z -> Prop) (row : list nat) (sts sts' : list Z) : Prop :=
  forall k, (k < length row)%nat ->
    if sel (nth k row O) then step (nth k sts 0) (nth k sts' 0) else nth k sts' 0 = nth k sts 0.

Lemma t1a_lits : forall boost dynamic alsize si sm prow nrow lits f, NoDup prow -> NoDup nrow -> NoDup lits ->
  length (f_pst f) = length prow -> length (f_nst f) = length nrow -> int8s (f_pst f) -> int8s (f_nst f) ->
  let f' := fold_left (t1a_lit boost dynamic alsize si sm prow nrow) lits f in
  later (f_rng f) (f_rng f') /\ length (f_pst f') = length prow /\ length (f_nst f') = length nrow /\ int8s (f_pst f') /\ int8s (f_nst f') /\
  moved_if (fun l => memb l lits) (step_up boost (f_rng f) sm) prow (f_pst f) (f_pst f') /\
  moved_if (fun l => memb l lits) (step_down (f_rng f) si) nrow (f_nst f) (f_nst f').
Proof.
  intros boost dynamic alsize si sm prow nrow lits. induction lits as [|lit lits IH]; intros f NP NN NL LP LN IP IN f'.
  - unfold f'. cbn [fold_left]. split; [apply later_refl|]. do 4 (split; auto). split; intros k Hk; reflexivity.
  - inversion NL as [|? ? N1 N2]; subst. unfold f'. cbn [fold_left].
    destruct (t1a_lit_step boost dynamic alsize si sm prow nrow f lit NP NN LP LN IP IN) as [A1 [A2 [A3 [A4 [A5 [A6 A7]]]]]].
    set (g := t1a_lit boost dynamic alsize si sm prow nrow f lit) in *. clearbody g.
    destruct (IH g NP NN N2 A2 A3 A4 A5) as [B1 [B2 [B3 [B4 [B5 [B6 B7]]]]]].
    set (h := fold_left _ lits g) in *. clearbody h.
    split; [eapply later_trans; eauto|]. do 4 (split; auto).
    apply memb_not_In in N1. split; intros k Hk.
    + specialize (B6 k Hk). destruct (A6 k Hk) as [T1 T2]. cbn [memb existsb]. fold (memb (nth k prow 0%nat) lits).
      destruct (Nat.eqb_spec (nth k prow O) lit) as [E|E]; cbn [orb].
      * rewrite E, N1 in B6. rewrite B6. auto.
      * rewrite (T2 E) in B6. destruct (memb (nth k prow 0%nat) lits); auto. eapply step_up_later; eauto.
    + specialize (B7 k Hk). destruct (A7 k Hk) as [T1 T2]. cbn [memb existsb]. fold (memb (nth k nrow 0%nat) lits).
      destruct (Nat.eqb_spec (nth k nrow O) lit) as [E|E]; cbn [orb].
      * rewrite E, N1 in B7. rewrite B7. auto.
      * rewrite (T2 E) in B7. destruct (memb (nth k nrow 0%nat) lits); auto. eapply step_down_later; eauto.
Qed.

Lemma moved_cons : forall (sel : nat -> bool) (step : Z -> Z -> Prop) a row v sts v' sts', (if sel a then step v v' else v' = v) -> moved_if sel step row sts sts' ->
  moved_if sel step (a :: row) (v :: sts) (v' :: sts').
Proof. intros sel step a row v sts v' sts' H M [|k] Hk; cbn [nth length] in *; auto. apply M. lia. Qed.

Lemma absent_down_step : forall si lits row sts r, length sts = length row -> int8s sts ->
  let '(sts', r') := absent_down si lits row sts r in
  later r r' /\ length sts' = length row /\ moved_if (fun l => negb (memb l lits)) (step_down r si) row sts sts'.
Proof.
  intros si lits row. induction row as [|a row IH]; intros [|v sts] r HL HI; cbn [length] in HL; try lia; cbn [absent_down].
  - split; [apply later_refl|]. split; auto. intros k Hk. cbn [length] in Hk. lia.
  - inversion HI as [|? ? V HI']; subst. unfold is_int8 in V.
    match goal with |- context [if memb a lits then ?x else ?y] => set (q := if memb a lits then x else y) end.
    assert (Q : later r (snd q) /\ (if negb (memb a lits) then step_down r si v (fst q) else fst q = v)).
    { unfold q. destruct (memb a lits); cbn [negb fst snd]; [split; [apply later_refl|auto]|].
      destruct (v >? -127) eqn:A; cbn [fst snd].
      - destruct (draw_le_later r si) as [D1 D2]. destruct (draw_le r si) as [d r1]. cbn [fst snd] in *. split; auto. destruct d.
        + right. rewrite wrap8_small' by (unfold is_int8; lia). split; auto. split; [lia|auto].
        + left. auto.
      - split; [apply later_refl|]. left. split; auto. left. lia. }
    clearbody q. destruct q as [v' r1]. cbn [fst snd] in Q. destruct Q as [Q1 Q2].
    specialize (IH sts r1 ltac:(lia) HI'). destruct (absent_down si lits row sts r1) as [t r2]. destruct IH as [I1 [I2 I3]].
    split; [eapply later_trans; eauto|]. split; [cbn [length]; lia|]. apply moved_cons; auto.
    intros k Hk. specialize (I3 k Hk). destruct (negb (memb (nth k row 0%nat) lits)); auto. eapply step_down_later; eauto.
Qed.

Lemma absent_up_step : forall boost sm lits row sts r, length sts = length row -> int8s sts ->
  let '(sts', r') := absent_up boost sm lits row sts r in
  later r r' /\ length sts' = length row /\ moved_if (fun l => negb (memb l lits)) (step_up boost r sm) row sts sts'.
Proof.
  intros boost sm lits row. induction row as [|a row IH]; intros [|v sts] r HL HI; cbn [length] in HL; try lia; cbn [absent_up].
  - split; [apply later_refl|]. split; auto. intros k Hk. cbn [length] in Hk. lia.
  - inversion HI as [|? ? V HI']; subst. unfold is_int8 in V.
    match goal with |- context [if memb a lits then ?x else ?y] => set (q := if memb a lits then x else y) end.
    assert (Q : later r (snd q) /\ (if negb (memb a lits) then step_up boost r sm v (fst q) else fst q = v)).
    { unfold q. destruct (memb a lits); cbn [negb fst snd]; [split; [apply later_refl|auto]|].
      destruct (Z.ltb_spec v 127) as [A|A]; cbn [fst snd].
      - destruct boost eqn:BO; cbn [fst snd].
        + split; [apply later_refl|]. right. rewrite wrap8_small' by (unfold is_int8; lia). auto.
        + destruct (draw_le_later r sm) as [D1 D2]. destruct (draw_le r sm) as [d r1]. cbn [fst snd] in *. split; auto. destruct d.
          * right. rewrite wrap8_small' by (unfold is_int8; lia). auto.
          * left. auto.
      - split; [apply later_refl|]. left. auto. }
    clearbody q. destruct q as [v' r1]. cbn [fst snd] in Q. destruct Q as [Q1 Q2].
    specialize (IH sts r1 ltac:(lia) HI'). destruct (absent_up boost sm lits row sts r1) as [t r2]. destruct IH as [I1 [I2 I3]].
    split; [eapply later_trans; eauto|]. split; [cbn [length]; lia|]. apply moved_cons; auto.
    intros k Hk. specialize (I3 k Hk). destruct (negb (memb (nth k row 0%nat) lits)); auto. eapply step_up_later; eauto.
Qed.

(** ** Type Ia *)

Lemma sp_t1a_step : forall boost dynamic alsize si sm lits prow nrow f, NoDup prow -> NoDup nrow -> NoDup lits ->
  length (f_pst f) = length prow -> length (f_nst f) = length nrow -> int8s (f_pst f) -> int8s (f_nst f) ->
  let f' := sp_t1a boost dynamic alsize si sm lits prow nrow f in
  length (f_pst f') = length prow /\ length (f_nst f') = length nrow /\
  (forall k, (k < length prow)%nat ->
     if memb (nth k prow O) lits then step_up boost (f_rng f) sm (nth k (f_pst f) 0) (nth k (f_pst f') 0)
     else step_down (f_rng f) si (nth k (f_pst f) 0) (nth k (f_pst f') 0)) /\
  (forall k, (k < length nrow)%nat ->
     if memb (nth k nrow O) lits then step_down (f_rng f) si (nth k (f_nst f) 0) (nth k (f_nst f') 0)
     else step_up boost (f_rng f) sm (nth k (f_nst f) 0) (nth k (f_nst f') 0)).
Proof.
  intros boost dynamic alsize si sm lits prow nrow f NP NN NL LP LN IP IN f'. unfold f', sp_t1a. clear f'.
  destruct (t1a_lits boost dynamic alsize si sm prow nrow lits f NP NN NL LP LN IP IN) as [B1 [B2 [B3 [B4 [B5 [B6 B7]]]]]].
  cbv zeta in *. set (g := fold_left _ lits f) in *. clearbody g.
  pose proof (absent_down_step si lits prow (f_pst g) (f_rng g) B2 B4) as D. destruct (absent_down si lits prow (f_pst g) (f_rng g)) as [pst r1].
  destruct D as [D1 [D2 D3]].
  pose proof (absent_up_step boost sm lits nrow (f_nst g) r1 B3 B5) as U. destruct (absent_up boost sm lits nrow (f_nst g) r1) as [nst r2].
  destruct U as [U1 [U2 U3]]. cbn [f_pst f_nst f_rng]. split; auto. split; auto. split; intros k Hk.
  - specialize (B6 k Hk). specialize (D3 k Hk). cbv beta in *. destruct (memb (nth k prow 0%nat) lits); cbn [negb] in D3.
    + rewrite D3. auto.
    + rewrite B6 in D3. eapply step_down_later; eauto.
  - specialize (B7 k Hk). specialize (U3 k Hk). cbv beta in *. destruct (memb (nth k nrow 0%nat) lits); cbn [negb] in U3.
    + rewrite U3. auto.
    + rewrite B7 in U3. eapply step_up_later; [|exact U3]. eapply later_trans; eauto.
Qed.

Lemma sp_t1b_step : forall si sts r, int8s sts ->
  let '(sts', r') := sp_t1b_row si sts r in
  later r r' /\ length sts' = length sts /\ forall k, (k < length sts)%nat -> step_down r si (nth k sts 0) (nth k sts' 0).
Proof.
  intros si sts. induction sts as [|v sts IH]; intros r HI; cbn [sp_t1b_row].
  - split; [apply later_refl|]. split; auto. intros k Hk. cbn [length] in Hk. lia.
  - inversion HI as [|? ? V HI']; subst. unfold is_int8 in V.
    destruct (draw_le_later r si) as [D1 D2]. destruct (draw_le r si) as [d r1]. cbn [fst snd] in *.
    specialize (IH r1 HI'). destruct (sp_t1b_row si sts r1) as [t r2]. destruct IH as [I1 [I2 I3]].
    split; [eapply later_trans; eauto|]. split; [cbn [length]; lia|]. intros [|k] Hk; cbn [nth length] in *.
    + destruct d; cbn [andb]; [|left; auto]. destruct (v >? -127) eqn:A.
      * right. rewrite wrap8_small' by (unfold is_int8; lia). split; auto. split; [lia|auto].
      * left. split; auto. left. lia.
    + eapply step_down_later; [exact D1|]. apply I3. lia.
Qed.

(** ** Association view *)

Lemma has_nth : forall row sts l v, length sts = length row -> (has row sts l v <-> exists k, (k < length row)%nat /\ nth k row O = l /\ nth k sts 0 = v).
Proof.
  intros row sts l v HL. unfold has. split.
  - intros H. apply (In_nth _ _ (O, 0)) in H. destruct H as [k [K1 K2]]. rewrite combine_length in K1. rewrite combine_nth in K2 by auto.
    injection K2 as K2 K3. exists k. split; [lia|auto].
  - intros [k [K1 [K2 K3]]]. rewrite <- K2, <- K3, <- combine_nth by auto. apply nth_In. rewrite combine_length. lia.
Qed.

Lemma has_In : forall row sts l v, has row sts l v -> In l row.
Proof. intros row sts l v H. eapply in_combine_l. exact H. Qed.
Lemma In_has : forall row sts l, length sts = length row -> In l row -> exists v, has row sts l v.
Proof.
  intros row sts l HL H. destruct (In_nth _ _ O H) as [k [K1 K2]]. exists (nth k sts 0). apply has_nth; auto. exists k. auto.
Qed.

(** Pruning keeps what is at or above the threshold. *)
Lemma prune_kept : forall thr row sts l v, NoDup row -> length sts = length row -> has row sts l v ->
  kept thr (fst (prune_clause thr row sts)) (snd (prune_clause thr row sts)) l v.
Proof.
  intros thr row sts l v N HL H. rewrite prune_clause_eq by auto. cbn [fst snd]. unfold kept, has. rewrite combine_map.
  destruct (Z.lt_ge_cases v thr) as [A|A].
  - destruct (in_dec Nat.eq_dec l (map fst (prune_pairs thr (combine row sts)))) as [I|I]; [|right; auto].
    left. apply in_map_iff in I. destruct I as [[l' u] [E I]]. cbn [fst] in E. subst l'.
    replace v with u; auto. pose proof (subseq_In _ _ _ (prune_pairs_subseq thr (combine row sts)) _ I) as J.
    apply has_nth in J; auto. apply has_nth in H; auto. destruct J as [j [J1 [J2 J3]]]. destruct H as [k [K1 [K2 K3]]].
    assert (j = k) by (apply (proj1 (NoDup_nth row O) N); auto; congruence). congruence.
  - left. pose proof (prune_pairs_keeps thr (combine row sts)) as K.
    assert (F : In (l, v) (filter (fun p => thr <=? snd p) (prune_pairs thr (combine row sts)))).
    { rewrite K. apply filter_In. split; auto. cbn [snd]. lia. }
    apply filter_In in F. apply F.
Qed.

Lemma prune_subset : forall thr row sts l, length sts = length row -> In l (fst (prune_clause thr row sts)) -> In l row.
Proof.
  intros thr row sts l HL H. rewrite prune_clause_eq in H by auto. cbn [fst] in H.
  apply in_map_iff in H. destruct H as [[l' u] [E I]]. cbn [fst] in E. subst l'.
  apply (subseq_In _ _ _ (prune_pairs_subseq thr (combine row sts))) in I. eapply has_In. exact I.
Qed.

(** ** Reading a stored clause back *)

Lemma store_rows : forall b k s c al repl w r, length (sp_rows b) = (2 * sp_ncl b)%nat -> length (sp_states b) = (2 * sp_ncl b)%nat -> (k < sp_ncl b)%nat ->
  let b' := sp_store b k s c al repl w r in
  prow_of b' k = r_prow s /\ psts_of b' k = r_psts s /\ nrow_of b' k = r_nrow s /\ nsts_of b' k = r_nsts s.
Proof.
  intros b k s c al repl w r H1 H2 Hk b'. unfold b', prow_of, psts_of, nrow_of, nsts_of, sp_store. cbn [sp_rows sp_states sp_ncl].
  rewrite !(nth_set_nth_neq _ (k + sp_ncl b) k) by lia. rewrite !nth_set_nth_eq by (rewrite ?set_nth_length; lia). auto.
Qed.

Lemma store_weights : forall b k s c al repl w r, (k < length (sp_weights b))%nat -> (c < length (nth k (sp_weights b) []))%nat ->
  let b' := sp_store b k s c al repl w r in
  forall i d, nth d (nth i (sp_weights b') []) 0 = if ((i =? k) && (d =? c))%nat then w else nth d (nth i (sp_weights b) []) 0.
Proof.
  intros b k s c al repl w r Hk Hc b' i d. unfold b', sp_store. cbn [sp_weights].
  destruct (Nat.eqb_spec i k) as [E|E]; cbn [andb].
  - subst. rewrite nth_set_nth_eq by auto. destruct (Nat.eqb_spec d c) as [F|F].
    + subst. now rewrite nth_set_nth_eq.
    + rewrite nth_set_nth_neq by auto. reflexivity.
  - rewrite nth_set_nth_neq by auto. reflexivity.
Qed.

Lemma set_nth_id : forall A i (d : A) l, set_nth i (nth i l d) l = l.
Proof. intros A i d l. revert i. induction l as [|a l IH]; intros [|i]; cbn [set_nth nth]; auto. now rewrite IH. Qed.

Lemma sign_ge : forall w, (if w >=? 0 then 1 else -1) = wsign w.
Proof. intros w. unfold wsign. destruct (Z.geb_spec w 0), (Z.leb_spec 0 w); lia. Qed.

(** Type Ia: the clause output is 1 and the weight asks for more of it. *)
Theorem sp_type1a : forall boost dynamic lits k c t n b, sp_inv n b -> (k < sp_ncl b)%nat -> increasing lits ->
  nth k (sp_outputs b) 0 = 1 -> 0 < t * wsign (nth c (nth k (sp_weights b) []) 0) ->
  let b' := sp_clause_update boost dynamic lits k c t b in
  (forall l v, has (prow_of b k) (psts_of b k) l v -> exists v', kept (sp_thr b) (prow_of b' k) (psts_of b' k) l v' /\
     (In l lits -> step_up boost (sp_fast b) (sp_sm b) v v') /\ (~ In l lits -> step_down (sp_fast b) (sp_si b) v v')) /\
  (forall l v, has (nrow_of b k) (nsts_of b k) l v -> exists v', kept (sp_thr b) (nrow_of b' k) (nsts_of b' k) l v' /\
     (In l lits -> step_down (sp_fast b) (sp_si b) v v') /\ (~ In l lits -> step_up boost (sp_fast b) (sp_sm b) v v')) /\
  (forall l, In l (prow_of b' k) -> In l (prow_of b k)) /\ (forall l, In l (nrow_of b' k) -> In l (nrow_of b k)).
Proof.
  intros boost dynamic lits k c t n b I Hk HL HO HT b'.
  assert (RP : row_inv n (sp_csize b) (prow_of b k) (psts_of b k)) by (apply (si_row n b I); lia).
  assert (RN : row_inv n (sp_csize b) (nrow_of b k) (nsts_of b k)) by (apply (si_row n b I); lia).
  destruct RP as [P1 P2 P3 P4 P5]. destruct RN as [N1 N2 N3 N4 N5]. apply increasing_NoDup in P1. apply increasing_NoDup in N1.
  unfold b', sp_clause_update. cbv zeta. cbn [r_prow r_psts r_nrow r_nsts]. rewrite !sign_ge.
  replace (t * wsign (nth c (nth k (sp_weights b) []) 0) >? 0) with true by lia. rewrite HO, Z.eqb_refl.
  destruct (sp_t1a_step boost dynamic (sp_alsize b) (sp_si b) (sp_sm b) lits (prow_of b k) (nrow_of b k)
    (mkF (psts_of b k) (nsts_of b k) (nth c (sp_al b) []) (nth c (sp_repl b) O) (sp_fast b)) P1 N1 (increasing_NoDup _ HL) P3 N3 P5 N5)
    as [T1 [T2 [T3 T4]]].
  cbv zeta in *. cbn [f_rng f_pst f_nst] in T3, T4. set (g := sp_t1a _ _ _ _ _ _ _ _ _) in *. clearbody g.
  destruct (store_rows b k (prune_rows (sp_thr b) (mkR (prow_of b k) (f_pst g) (nrow_of b k) (f_nst g))) c (f_al g) (f_repl g)
    (wrap16 (nth c (nth k (sp_weights b) []) 0 + wsign (nth c (nth k (sp_weights b) []) 0))) (f_rng g) (si_rows n b I) (si_states n b I) Hk) as [S1 [S2 [S3 S4]]].
  cbv zeta in *. rewrite S1, S2, S3, S4. clear S1 S2 S3 S4. unfold prune_rows. cbn [r_prow r_psts r_nrow r_nsts].
  pose proof (prune_kept (sp_thr b) (prow_of b k) (f_pst g)) as KP. pose proof (prune_kept (sp_thr b) (nrow_of b k) (f_nst g)) as KN.
  pose proof (prune_subset (sp_thr b) (prow_of b k) (f_pst g)) as SP. pose proof (prune_subset (sp_thr b) (nrow_of b k) (f_nst g)) as SN.
  destruct (prune_clause (sp_thr b) (prow_of b k) (f_pst g)) as [p ps]. destruct (prune_clause (sp_thr b) (nrow_of b k) (f_nst g)) as [q qs].
  cbn [fst snd r_prow r_psts r_nrow r_nsts] in *.
  split; [|split; [|split; auto]].
  - intros l v H. apply has_nth in H; auto. destruct H as [j [J1 [J2 J3]]]. exists (nth j (f_pst g) 0). split.
    + apply KP; auto. apply has_nth; auto. exists j. auto.
    + specialize (T3 j J1). rewrite J2, J3 in T3. destruct (memb l lits) eqn:M.
      * apply memb_In in M. tauto.
      * apply memb_not_In in M. tauto.
  - intros l v H. apply has_nth in H; auto. destruct H as [j [J1 [J2 J3]]]. exists (nth j (f_nst g) 0). split.
    + apply KN; auto. apply has_nth; auto. exists j. auto.
    + specialize (T4 j J1). rewrite J2, J3 in T4. destruct (memb l lits) eqn:M.
      * apply memb_In in M. tauto.
      * apply memb_not_In in M. tauto.
Qed.

(** Type Ib: the clause output is 0 and the weight asks for more of it. *)
Theorem sp_type1b : forall boost dynamic lits k c t n b, sp_inv n b -> (k < sp_ncl b)%nat ->
  nth k (sp_outputs b) 0 = 0 -> 0 < t * wsign (nth c (nth k (sp_weights b) []) 0) ->
  let b' := sp_clause_update boost dynamic lits k c t b in
  (forall l v, has (prow_of b k) (psts_of b k) l v -> exists v', kept (sp_thr b) (prow_of b' k) (psts_of b' k) l v' /\
     step_down (sp_fast b) (sp_si b) v v') /\
  (forall l v, has (nrow_of b k) (nsts_of b k) l v -> exists v', kept (sp_thr b) (nrow_of b' k) (nsts_of b' k) l v' /\
     step_down (sp_fast b) (sp_si b) v v') /\
  (forall l, In l (prow_of b' k) -> In l (prow_of b k)) /\ (forall l, In l (nrow_of b' k) -> In l (nrow_of b k)) /\
  sp_al b' = sp_al b.
Proof.
  intros boost dynamic lits k c t n b I Hk HO HT b'.
  assert (RP : row_inv n (sp_csize b) (prow_of b k) (psts_of b k)) by (apply (si_row n b I); lia).
  assert (RN : row_inv n (sp_csize b) (nrow_of b k) (nsts_of b k)) by (apply (si_row n b I); lia).
  destruct RP as [P1 P2 P3 P4 P5]. destruct RN as [N1 N2 N3 N4 N5]. apply increasing_NoDup in P1. apply increasing_NoDup in N1.
  unfold b', sp_clause_update. cbv zeta. cbn [r_prow r_psts r_nrow r_nsts]. rewrite !sign_ge.
  replace (t * wsign (nth c (nth k (sp_weights b) []) 0) >? 0) with true by lia. rewrite HO. cbn [Z.eqb].
  pose proof (sp_t1b_step (sp_si b) (psts_of b k) (sp_fast b) P5) as T1. destruct (sp_t1b_row (sp_si b) (psts_of b k) (sp_fast b)) as [ps1 r1].
  pose proof (sp_t1b_step (sp_si b) (nsts_of b k) r1 N5) as T2. destruct (sp_t1b_row (sp_si b) (nsts_of b k) r1) as [ns1 r2].
  destruct T1 as [T1 [T1' T1'']]. destruct T2 as [T2 [T2' T2'']].
  destruct (store_rows b k (prune_rows (sp_thr b) (mkR (prow_of b k) ps1 (nrow_of b k) ns1)) c (nth c (sp_al b) []) (nth c (sp_repl b) O)
    (nth c (nth k (sp_weights b) []) 0) r2 (si_rows n b I) (si_states n b I) Hk) as [S1 [S2 [S3 S4]]].
  cbv zeta in *. rewrite S1, S2, S3, S4. clear S1 S2 S3 S4. unfold prune_rows. cbn [r_prow r_psts r_nrow r_nsts].
  pose proof (prune_kept (sp_thr b) (prow_of b k) ps1) as KP. pose proof (prune_kept (sp_thr b) (nrow_of b k) ns1) as KN.
  pose proof (prune_subset (sp_thr b) (prow_of b k) ps1) as SP. pose proof (prune_subset (sp_thr b) (nrow_of b k) ns1) as SN.
  destruct (prune_clause (sp_thr b) (prow_of b k) ps1) as [p ps]. destruct (prune_clause (sp_thr b) (nrow_of b k) ns1) as [q qs].
  cbn [fst snd r_prow r_psts r_nrow r_nsts] in *.
  split; [|split; [|split; [|split]]].
  - intros l v H. apply has_nth in H; auto. destruct H as [j [J1 [J2 J3]]]. exists (nth j ps1 0). split.
    + apply KP; auto; [lia|]. apply has_nth; [lia|]. exists j. auto.
    + rewrite <- J3. apply T1''. lia.
  - intros l v H. apply has_nth in H; auto. destruct H as [j [J1 [J2 J3]]]. exists (nth j ns1 0). split.
    + apply KN; auto; [lia|]. apply has_nth; [lia|]. exists j. auto.
    + rewrite <- J3. eapply step_down_later; [exact T1|]. apply T2''. lia.
  - intros l. apply SP. lia.
  - intros l. apply SN. lia.
  - unfold sp_store. cbn [sp_al]. apply set_nth_id.
Qed.

(** ** Type II *)

Lemma sort_has : forall row sts l v, NoDup row -> length sts = length row ->
  (has (fst (sort_clause row sts)) (snd (sort_clause row sts)) l v <-> has row sts l v) /\
  (In l (fst (sort_clause row sts)) <-> In l row) /\ length (fst (sort_clause row sts)) = length row.
Proof.
  intros row sts l v N HL. pose proof (sort_clause_spec row sts HL N) as S. destruct (sort_clause row sts) as [row' sts']. cbn [fst snd].
  destruct S as [S1 [S2 S3]]. unfold has.
  assert (P : Permutation row' row).
  { apply (Permutation_map fst) in S2. rewrite !combine_fst in S2 by lia. exact S2. }
  split; [split; intros H|split; [split; intros H|]].
  - eapply Permutation_in; eauto.
  - eapply Permutation_in; [symmetry; exact S2|auto].
  - eapply Permutation_in; eauto.
  - eapply Permutation_in; [symmetry; exact P|auto].
  - now apply Permutation_length.
Qed.

(** Adding automata: what was there stays; what is new is an active literal of
    the right kind in state threshold + 5; what is missing found no room. *)
Record added (csize : nat) (nv : Z) (want : nat -> bool) (al : list nat) (row : list nat) (sts : list Z) (row' : list nat) (sts' : list Z) : Prop := {
  ad_len0 : length sts = length row;
  ad_len : length sts' = length row';
  ad_old : forall l v, has row sts l v -> has row' sts' l v;
  ad_new : forall l v, has row' sts' l v -> has row sts l v \/ (In l al /\ want l = true /\ ~ In l row /\ v = nv);
  ad_full : forall l, In l al -> want l = true -> In l row' \/ (csize <= length row')%nat
}.

Lemma added_refl : forall csize nv want row sts, length sts = length row -> added csize nv want [] row sts row sts.
Proof. intros. constructor; auto. intros l []. Qed.

Lemma combine_snoc : forall A B (l : list A) (m : list B) a b, length l = length m -> combine (l ++ [a]) (m ++ [b]) = combine l m ++ [(a, b)].
Proof. intros A B l. induction l as [|x l IH]; intros [|y m] a b H; cbn [length app combine] in *; try lia; auto. f_equal. apply IH. lia. Qed.

Lemma has_snoc : forall row sts a z l v, length sts = length row ->
  (has (row ++ [a]) (sts ++ [z]) l v <-> has row sts l v \/ (l = a /\ v = z)).
Proof.
  intros row sts a z l v HL. unfold has. rewrite combine_snoc by lia. rewrite in_app_iff. cbn [In]. split.
  - intros [H|[H|[]]]; auto. injection H; auto.
  - intros [H|[-> ->]]; auto.
Qed.

Lemma added_skip : forall csize nv want al row sts row' sts' a, added csize nv want al row sts row' sts' ->
  want a = false \/ In a row' \/ (csize <= length row')%nat -> added csize nv want (al ++ [a]) row sts row' sts'.
Proof.
  intros csize nv want al row sts row' sts' a [A0 A1 A2 A3 A4] H. constructor; auto.
  - intros l v K. destruct (A3 l v K) as [K'|[K1 K2]]; auto. right. split; auto. apply in_or_app. auto.
  - intros l K W. apply in_app_or in K. destruct K as [K|[K|[]]]; auto. subst. destruct H as [H|[H|H]]; auto. congruence.
Qed.

Lemma added_push : forall csize nv want al row sts row' sts' a, added csize nv want al row sts row' sts' ->
  want a = true -> ~ In a row' -> added csize nv want (al ++ [a]) row sts (row' ++ [a]) (sts' ++ [nv]).
Proof.
  intros csize nv want al row sts row' sts' a [A0 A1 A2 A3 A4] W N. constructor; auto.
  - rewrite !app_length. cbn [length]. lia.
  - intros l v H. apply has_snoc; auto.
  - intros l v H. apply has_snoc in H; auto. destruct H as [H|[-> ->]].
    + destruct (A3 l v H) as [K'|[K1 K2]]; auto. right. split; auto. apply in_or_app. auto.
    + right. split; [apply in_or_app; right; now left|]. split; auto. split; auto. intros K.
      destruct (In_has row sts a A0 K) as [v H]. apply N. eapply has_In. eauto.
  - intros l K W'. apply in_app_or in K. destruct K as [K|[K|[]]].
    + destruct (A4 l K W'); [left; apply in_or_app; auto|]. right. rewrite app_length. lia.
    + subst. left. apply in_or_app. right. now left.
Qed.

Lemma t2_add_step : forall csize thr lits al s0 s a, let nv := wrap8 (thr + 5) in
  added csize nv (fun l => negb (memb l lits)) al (r_prow s0) (r_psts s0) (r_prow s) (r_psts s) ->
  added csize nv (fun l => memb l lits) al (r_nrow s0) (r_nsts s0) (r_nrow s) (r_nsts s) ->
  let s' := t2_add csize thr lits s a in
  added csize nv (fun l => negb (memb l lits)) (al ++ [a]) (r_prow s0) (r_psts s0) (r_prow s') (r_psts s') /\
  added csize nv (fun l => memb l lits) (al ++ [a]) (r_nrow s0) (r_nsts s0) (r_nrow s') (r_nsts s').
Proof.
  intros csize thr lits al s0 s a nv A B s'. unfold s', t2_add. destruct (memb a lits) eqn:M.
  - assert (A' : added csize nv (fun l => negb (memb l lits)) (al ++ [a]) (r_prow s0) (r_psts s0) (r_prow s) (r_psts s)).
    { apply added_skip; auto. left. now rewrite M. }
    destruct (memb a (r_nrow s)) eqn:R.
    + apply memb_In in R. split; auto. apply added_skip; auto.
    + apply memb_not_In in R. destruct (Nat.ltb_spec (length (r_nrow s)) csize) as [C|C]; cbn [r_prow r_psts r_nrow r_nsts]; split; auto.
      * apply added_push; auto.
      * apply added_skip; auto.
  - assert (B' : added csize nv (fun l => memb l lits) (al ++ [a]) (r_nrow s0) (r_nsts s0) (r_nrow s) (r_nsts s)).
    { apply added_skip; auto. }
    destruct (memb a (r_prow s)) eqn:R.
    + apply memb_In in R. split; auto. apply added_skip; auto.
    + apply memb_not_In in R. destruct (Nat.ltb_spec (length (r_prow s)) csize) as [C|C]; cbn [r_prow r_psts r_nrow r_nsts]; split; auto.
      * apply added_push; auto. now rewrite M.
      * apply added_skip; auto.
Qed.

Lemma t2_add_fold : forall csize thr lits al done s0 s, let nv := wrap8 (thr + 5) in
  added csize nv (fun l => negb (memb l lits)) done (r_prow s0) (r_psts s0) (r_prow s) (r_psts s) ->
  added csize nv (fun l => memb l lits) done (r_nrow s0) (r_nsts s0) (r_nrow s) (r_nsts s) ->
  let s' := fold_left (t2_add csize thr lits) al s in
  added csize nv (fun l => negb (memb l lits)) (done ++ al) (r_prow s0) (r_psts s0) (r_prow s') (r_psts s') /\
  added csize nv (fun l => memb l lits) (done ++ al) (r_nrow s0) (r_nsts s0) (r_nrow s') (r_nsts s').
Proof.
  intros csize thr lits al. induction al as [|a al IH]; intros done s0 s nv A B s'.
  - unfold s'. cbn [fold_left]. rewrite app_nil_r. auto.
  - unfold s'. cbn [fold_left]. destruct (t2_add_step csize thr lits done s0 s a A B) as [A' B'].
    destruct (IH (done ++ [a]) s0 _ A' B') as [A'' B'']. rewrite <- app_assoc in A'', B''. auto.
Qed.

Lemma has_map2 : forall (f : nat -> Z -> Z) row sts l v, has row sts l v -> has row (map2 f row sts) l (f l v).
Proof.
  intros f row. unfold has. induction row as [|a row IH]; intros [|x sts] l v H; cbn [combine map2 In] in *; try easy.
  destruct H as [H|H]; [injection H as -> ->; auto|right; auto].
Qed.
Lemma map2_length : forall (f : nat -> Z -> Z) row sts, length sts = length row -> length (map2 f row sts) = length row.
Proof. intros f row. induction row as [|a row IH]; intros [|x sts] H; cbn [length map2] in *; try lia. rewrite IH; lia. Qed.
Lemma has_fun : forall row sts l u v, NoDup row -> length sts = length row -> has row sts l u -> has row sts l v -> u = v.
Proof.
  intros row sts l u v N HL H1 H2. apply has_nth in H1; auto. apply has_nth in H2; auto. destruct H1 as [i [I1 [I2 I3]]]. destruct H2 as [j [J1 [J2 J3]]].
  assert (i = j) by (apply (proj1 (NoDup_nth row O) N); auto; congruence). congruence.
Qed.

(** The clause fires although the weight asks for less of it. *)
Theorem sp_type2 : forall boost dynamic lits k c t n b, sp_inv n b -> (k < sp_ncl b)%nat ->
  nth k (sp_outputs b) 0 = 1 -> t * wsign (nth c (nth k (sp_weights b) []) 0) < 0 ->
  let b' := sp_clause_update boost dynamic lits k c t b in
  let al := nth c (sp_al b) [] in
  (forall l v, has (prow_of b k) (psts_of b k) l v ->
     has (prow_of b' k) (psts_of b' k) l (if negb (memb l lits) && (v <? 0) then v + 1 else v)) /\
  (forall l v, has (nrow_of b k) (nsts_of b k) l v ->
     has (nrow_of b' k) (nsts_of b' k) l (if memb l lits && (v <? 0) then v + 1 else v)) /\
  (forall l, In l (prow_of b' k) -> In l (prow_of b k) \/
     (In l al /\ ~ In l lits /\ has (prow_of b' k) (psts_of b' k) l (wrap8 (sp_thr b + 5)))) /\
  (forall l, In l (nrow_of b' k) -> In l (nrow_of b k) \/
     (In l al /\ In l lits /\ has (nrow_of b' k) (nsts_of b' k) l (wrap8 (sp_thr b + 5)))) /\
  (forall l, In l al -> ~ In l lits -> In l (prow_of b' k) \/ length (prow_of b' k) = sp_csize b) /\
  (forall l, In l al -> In l lits -> In l (nrow_of b' k) \/ length (nrow_of b' k) = sp_csize b).
Proof.
  intros boost dynamic lits k c t n b I Hk HO HT b' al.
  assert (RP : row_inv n (sp_csize b) (prow_of b k) (psts_of b k)) by (apply (si_row n b I); lia).
  assert (RN : row_inv n (sp_csize b) (nrow_of b k) (nsts_of b k)) by (apply (si_row n b I); lia).
  assert (RO : rows_ok n (sp_csize b) (mkR (prow_of b k) (psts_of b k) (nrow_of b k) (nsts_of b k))) by (split; auto).
  destruct RP as [P1 P2 P3 P4 P5]. destruct RN as [N1 N2 N3 N4 N5]. apply increasing_NoDup in P1. apply increasing_NoDup in N1.
  pose proof (sp_inv_al n b c I) as AL.
  unfold b', sp_clause_update. cbv zeta. cbn [r_prow r_psts r_nrow r_nsts]. rewrite !sign_ge.
  replace (t * wsign (nth c (nth k (sp_weights b) []) 0) >? 0) with false by lia.
  replace (t * wsign (nth c (nth k (sp_weights b) []) 0) <? 0) with true by lia. rewrite HO, Z.eqb_refl. cbn [andb]. fold al.
  pose proof (sp_t2_pre n (sp_csize b) (sp_thr b) al lits _ RO (ao_lit _ _ _ _ AL)) as [[Q1 Q2 Q3 Q4 Q5] [M1 M2 M3 M4 M5]].
  destruct (store_rows b k (sort_rows (sp_t2 (sp_csize b) (sp_thr b) al lits (mkR (prow_of b k) (psts_of b k) (nrow_of b k) (nsts_of b k)))) c al (nth c (sp_repl b) O)
    (wrap16 (nth c (nth k (sp_weights b) []) 0 - wsign (nth c (nth k (sp_weights b) []) 0))) (sp_fast b) (si_rows n b I) (si_states n b I) Hk) as [S1 [S2 [S3 S4]]].
  cbv zeta in *. rewrite S1, S2, S3, S4. clear S1 S2 S3 S4.
  set (s := sp_t2 _ _ _ _ _) in *.
  assert (AD : added (sp_csize b) (wrap8 (sp_thr b + 5)) (fun l => negb (memb l lits)) al (prow_of b k) (t2_pos lits (prow_of b k) (psts_of b k)) (r_prow s) (r_psts s) /\
               added (sp_csize b) (wrap8 (sp_thr b + 5)) (fun l => memb l lits) al (nrow_of b k) (t2_neg lits (nrow_of b k) (nsts_of b k)) (r_nrow s) (r_nsts s)).
  { unfold s, sp_t2. cbn [r_prow r_psts r_nrow r_nsts].
    set (s0 := mkR (prow_of b k) (t2_pos lits (prow_of b k) (psts_of b k)) (nrow_of b k) (t2_neg lits (nrow_of b k) (nsts_of b k))).
    apply (t2_add_fold (sp_csize b) (sp_thr b) lits al [] s0 s0); apply added_refl; cbn [s0 r_prow r_psts r_nrow r_nsts]; apply map2_length; auto. }
  clearbody s. destruct AD as [[A0 A1 A2 A3 A4] [B0 B1 B2 B3 B4]].
  assert (SP : forall l v, (has (fst (sort_clause (r_prow s) (r_psts s))) (snd (sort_clause (r_prow s) (r_psts s))) l v <-> has (r_prow s) (r_psts s) l v) /\
    (In l (fst (sort_clause (r_prow s) (r_psts s))) <-> In l (r_prow s)) /\ length (fst (sort_clause (r_prow s) (r_psts s))) = length (r_prow s)) by (intros; apply sort_has; auto).
  assert (SN : forall l v, (has (fst (sort_clause (r_nrow s) (r_nsts s))) (snd (sort_clause (r_nrow s) (r_nsts s))) l v <-> has (r_nrow s) (r_nsts s) l v) /\
    (In l (fst (sort_clause (r_nrow s) (r_nsts s))) <-> In l (r_nrow s)) /\ length (fst (sort_clause (r_nrow s) (r_nsts s))) = length (r_nrow s)) by (intros; apply sort_has; auto).
  unfold sort_rows. destruct (sort_clause (r_prow s) (r_psts s)) as [p ps]. destruct (sort_clause (r_nrow s) (r_nsts s)) as [q qs].
  cbn [fst snd r_prow r_psts r_nrow r_nsts] in *.
  assert (V8 : forall v, is_int8 v -> v < 0 -> wrap8 (v + 1) = v + 1) by (intros v H H'; apply wrap8_small'; unfold is_int8 in *; lia).
  assert (IS : forall row sts l v, Forall is_int8 sts -> has row sts l v -> is_int8 v).
  { intros row sts l v F H. rewrite Forall_forall in F. apply F. eapply in_combine_r. exact H. }
  split; [|split; [|split; [|split; [|split]]]].
  - intros l v H. apply SP. apply A2. unfold t2_pos.
    pose proof (has_map2 (fun ta v => if negb (memb ta lits) && (v <? 0) then wrap8 (v + 1) else v) _ _ l v H) as K. cbv beta in K.
    destruct (negb (memb l lits) && (v <? 0)) eqn:E; auto. rewrite V8 in K; auto; [eapply IS; [exact P5|exact H]|lia].
  - intros l v H. apply SN. apply B2. unfold t2_neg.
    pose proof (has_map2 (fun ta v => if memb ta lits && (v <? 0) then wrap8 (v + 1) else v) _ _ l v H) as K. cbv beta in K.
    destruct (memb l lits && (v <? 0)) eqn:E; auto. rewrite V8 in K; auto; [eapply IS; [exact N5|exact H]|lia].
  - intros l H. apply (SP l 0) in H. destruct (In_has _ _ _ A1 H) as [v K]. destruct (A3 l v K) as [K'|[K1 [K2 [K3 K4]]]].
    + left. eapply has_In. exact K'.
    + right. split; auto. split; [apply memb_not_In; destruct (memb l lits); auto; discriminate|]. subst v. apply SP. exact K.
  - intros l H. apply (SN l 0) in H. destruct (In_has _ _ _ B1 H) as [v K]. destruct (B3 l v K) as [K'|[K1 [K2 [K3 K4]]]].
    + left. eapply has_In. exact K'.
    + right. split; auto. split; [now apply memb_In|]. subst v. apply SN. exact K.
  - intros l H W. apply memb_not_In in W. destruct (A4 l H) as [K|K]; [now rewrite W|left; apply (SP l 0); auto|]. right. destruct (SP l 0) as [_ [_ E]]. lia.
  - intros l H W. apply memb_In in W. destruct (B4 l H W) as [K|K]; [left; apply (SN l 0); auto|]. right. destruct (SN l 0) as [_ [_ E]]. lia.
Qed.

(** ** Weights, other clauses *)

Lemma sp_update_shape : forall boost dynamic lits k c t b, let b' := sp_clause_update boost dynamic lits k c t b in
  b' = b \/ exists s al repl r, b' = sp_store b k s c al repl
    (if nth k (sp_outputs b) 0 =? 1 then wrap16 (nth c (nth k (sp_weights b) []) 0 + (if t * wsign (nth c (nth k (sp_weights b) []) 0) >? 0 then 1 else -1) * wsign (nth c (nth k (sp_weights b) []) 0))
     else nth c (nth k (sp_weights b) []) 0) r.
Proof.
  intros boost dynamic lits k c t b b'. unfold b', sp_clause_update. cbv zeta. rewrite !sign_ge. cbn [r_prow r_psts r_nrow r_nsts].
  destruct (t * wsign (nth c (nth k (sp_weights b) []) 0) >? 0).
  - destruct (nth k (sp_outputs b) 0 =? 1) eqn:O.
    + right. eexists _, _, _, _. rewrite Z.mul_1_l. reflexivity.
    + destruct (nth k (sp_outputs b) 0 =? 0); [|now left].
      destruct (sp_t1b_row _ _ _) as [ps r]. destruct (sp_t1b_row _ _ _) as [ns r2]. right. eexists _, _, _, _. reflexivity.
  - destruct (_ <? 0); cbn [andb]; [|now left]. destruct (nth k (sp_outputs b) 0 =? 1) eqn:O; [|now left].
    right. eexists _, _, _, _. f_equal. 
Qed.

(** The weight of the clause for the class moves by the target, wrapping, when
    the clause fires; all other weights stay. *)
Theorem sp_weight_step : forall boost dynamic lits k c t n ncls b, sp_good n ncls b -> (k < sp_ncl b)%nat -> (c < ncls)%nat -> t = 1 \/ t = -1 ->
  let b' := sp_clause_update boost dynamic lits k c t b in
  forall i d, nth d (nth i (sp_weights b') []) 0 =
    if ((i =? k) && (d =? c))%nat && (nth k (sp_outputs b) 0 =? 1) then wrap16 (nth c (nth k (sp_weights b) []) 0 + t) else nth d (nth i (sp_weights b) []) 0.
Proof.
  intros boost dynamic lits k c t n ncls b [I [N [W1 W2]]] Hk Hc Ht b' i d. unfold b'.
  assert (LW : length (nth k (sp_weights b) []) = ncls).
  { unfold rows_of in W2. rewrite Forall_forall in W2. apply W2. apply nth_In. lia. }
  assert (Step : forall s al repl r w, nth d (nth i (sp_weights (sp_store b k s c al repl w r)) []) 0 =
    if ((i =? k) && (d =? c))%nat then w else nth d (nth i (sp_weights b) []) 0) by (intros; apply store_weights; lia).
  unfold sp_clause_update. cbv zeta. rewrite !sign_ge. cbn [r_prow r_psts r_nrow r_nsts]. unfold wsign.
  set (w := nth c (nth k (sp_weights b) []) 0) in *. set (o := nth k (sp_outputs b) 0).
  assert (Same : forall x, (if ((i =? k) && (d =? c))%nat then w else nth d (nth i (sp_weights b) []) 0) = x -> nth d (nth i (sp_weights b) []) 0 = x).
  { intros x E. destruct (Nat.eqb_spec i k) as [E1|E1]; cbn [andb] in E; auto. destruct (Nat.eqb_spec d c) as [E2|E2]; auto. subst i d. exact E. }
  destruct (Z.leb_spec 0 w) as [S|S].
  - destruct Ht; subst t.
    + replace (1 * 1 >? 0) with true by lia. destruct (o =? 1) eqn:O.
      * rewrite Step. now rewrite andb_true_r.
      * rewrite andb_false_r. destruct (o =? 0); auto. destruct (sp_t1b_row _ _ _) as [ps r]. destruct (sp_t1b_row _ _ _) as [ns r2]. rewrite Step.
        symmetry. apply Same. reflexivity.
    + replace (-1 * 1 >? 0) with false by lia. replace (-1 * 1 <? 0) with true by lia. cbn [andb]. destruct (o =? 1) eqn:O.
      * rewrite Step. now rewrite andb_true_r.
      * rewrite andb_false_r. reflexivity.
  - destruct Ht; subst t.
    + replace (1 * -1 >? 0) with false by lia. replace (1 * -1 <? 0) with true by lia. cbn [andb]. destruct (o =? 1) eqn:O.
      * rewrite Step. rewrite andb_true_r. replace (w - -1) with (w + 1) by lia. reflexivity.
      * rewrite andb_false_r. reflexivity.
    + replace (-1 * -1 >? 0) with true by lia. destruct (o =? 1) eqn:O.
      * rewrite Step. now rewrite andb_true_r.
      * rewrite andb_false_r. destruct (o =? 0); auto. destruct (sp_t1b_row _ _ _) as [ps r]. destruct (sp_t1b_row _ _ _) as [ns r2]. rewrite Step.
        symmetry. apply Same. reflexivity.
Qed.

(** What an update of clause [k] cannot touch. *)
Definition untouched (j : nat) (b b' : sblock) : Prop :=
  prow_of b' j = prow_of b j /\ psts_of b' j = psts_of b j /\ nrow_of b' j = nrow_of b j /\ nsts_of b' j = nsts_of b j /\
  nth j (sp_weights b') [] = nth j (sp_weights b) [].

Lemma sp_store_other : forall b k s c al repl w r j, (k < sp_ncl b)%nat -> (j < sp_ncl b)%nat -> j <> k -> untouched j b (sp_store b k s c al repl w r).
Proof.
  intros b k s c al repl w r j Hk Hj Hne. unfold untouched, prow_of, psts_of, nrow_of, nsts_of, sp_store. cbn [sp_rows sp_states sp_ncl sp_weights].
  rewrite !(nth_set_nth_neq _ k) by lia. rewrite !(nth_set_nth_neq _ (k + sp_ncl b)) by lia. rewrite !(nth_set_nth_neq _ k) by lia. auto.
Qed.

Lemma untouched_refl : forall j b, untouched j b b.
Proof. intros. repeat split. Qed.
Lemma untouched_trans : forall j a b c, untouched j a b -> untouched j b c -> untouched j a c.
Proof. unfold untouched. intros j a b c [A1 [A2 [A3 [A4 A5]]]] [B1 [B2 [B3 [B4 B5]]]]. repeat split; congruence. Qed.

Theorem sp_update_other : forall boost dynamic lits k c t b j, (k < sp_ncl b)%nat -> (j < sp_ncl b)%nat -> j <> k ->
  untouched j b (sp_clause_update boost dynamic lits k c t b).
Proof.
  intros boost dynamic lits k c t b j Hk Hj Hne. destruct (sp_update_shape boost dynamic lits k c t b) as [E|[s [al [repl [r E]]]]]; rewrite E;
  [apply untouched_refl|now apply sp_store_other].
Qed.

Definition frame (b b' : sblock) : Prop :=
  sp_outputs b' = sp_outputs b /\ sp_counts b' = sp_counts b /\ sp_budget b' = sp_budget b /\ sp_ncl b' = sp_ncl b /\ sp_thr b' = sp_thr b.
Lemma sp_update_frame : forall boost dynamic lits k c t b, frame b (sp_clause_update boost dynamic lits k c t b).
Proof.
  intros boost dynamic lits k c t b. destruct (sp_update_shape boost dynamic lits k c t b) as [E|[s [al [repl [r E]]]]]; rewrite E; repeat split.
Qed.

(** ** Over the literal budget *)

Definition quiet (k : nat) (b b' : sblock) : Prop :=
  no_rise (prow_of b k) (psts_of b k) (prow_of b' k) (psts_of b' k) /\
  no_rise (nrow_of b k) (nsts_of b k) (nrow_of b' k) (nsts_of b' k) /\
  nth k (sp_weights b') [] = nth k (sp_weights b) [].

Lemma no_rise_refl : forall row sts, no_rise row sts row sts.
Proof. intros row sts l v H. exists v. split; auto. lia. Qed.
Lemma no_rise_trans : forall a b c d e f, no_rise a b c d -> no_rise c d e f -> no_rise a b e f.
Proof. intros a b c d e f H1 H2 l v H. destruct (H2 l v H) as [u [U1 U2]]. destruct (H1 l u U1) as [x [X1 X2]]. exists x. split; auto. lia. Qed.
Lemma quiet_refl : forall k b, quiet k b b.
Proof. intros. split; [|split]; auto using no_rise_refl. Qed.
Lemma quiet_trans : forall k a b c, quiet k a b -> quiet k b c -> quiet k a c.
Proof. intros k a b c [A1 [A2 A3]] [B1 [B2 B3]]. split; [|split]; [eapply no_rise_trans; eauto|eapply no_rise_trans; eauto|congruence]. Qed.
Lemma untouched_quiet : forall k a b, untouched k a b -> quiet k a b.
Proof. intros k a b [A1 [A2 [A3 [A4 A5]]]]. unfold quiet. rewrite A1, A2, A3, A4. split; [|split]; auto using no_rise_refl. Qed.

Lemma step_down_le : forall r p v v', step_down r p v v' -> v' <= v.
Proof. unfold step_down. intros r p v v' [[H _]|[H _]]; lia. Qed.

Lemma sp_silent_update : forall boost dynamic lits k c t n b, sp_inv n b -> (k < sp_ncl b)%nat -> nth k (sp_outputs b) 0 = 0 ->
  let b' := sp_clause_update boost dynamic lits k c t b in quiet k b b' /\ sp_al b' = sp_al b.
Proof.
  intros boost dynamic lits k c t n b I Hk HO b'.
  destruct (Z.lt_ge_cases 0 (t * wsign (nth c (nth k (sp_weights b) []) 0))) as [T|T].
  - destruct (sp_type1b boost dynamic lits k c t n b I Hk HO T) as [P [Q [P' [Q' A]]]]. fold b' in P, Q, P', Q', A.
    assert (RI : row_inv n (sp_csize b) (prow_of b k) (psts_of b k)) by (apply (si_row n b I); lia).
    assert (RJ : row_inv n (sp_csize b) (nrow_of b k) (nsts_of b k)) by (apply (si_row n b I); lia).
    assert (NP : NoDup (prow_of b' k) /\ length (psts_of b' k) = length (prow_of b' k) /\ NoDup (nrow_of b' k) /\ length (nsts_of b' k) = length (nrow_of b' k)).
    { unfold b', sp_clause_update. cbv zeta. cbn [r_prow r_psts r_nrow r_nsts]. rewrite !sign_ge.
      replace (t * wsign (nth c (nth k (sp_weights b) []) 0) >? 0) with true by lia. rewrite HO. cbn [Z.eqb].
      pose proof (sp_t1b_row_ok (sp_si b) (psts_of b k) (sp_fast b) (ri_int _ _ _ _ RI)) as T1. destruct (sp_t1b_row (sp_si b) (psts_of b k) (sp_fast b)) as [ps1 r1].
      pose proof (sp_t1b_row_ok (sp_si b) (nsts_of b k) r1 (ri_int _ _ _ _ RJ)) as T2. destruct (sp_t1b_row (sp_si b) (nsts_of b k) r1) as [ns1 r2].
      destruct T1 as [T1 T1']. destruct T2 as [T2 T2'].
      assert (RO : rows_ok n (sp_csize b) (prune_rows (sp_thr b) (mkR (prow_of b k) ps1 (nrow_of b k) ns1))).
      { apply prune_rows_ok. split; cbn [r_prow r_psts r_nrow r_nsts]; eapply pre_row_states; eauto. }
      destruct (store_rows b k (prune_rows (sp_thr b) (mkR (prow_of b k) ps1 (nrow_of b k) ns1)) c (nth c (sp_al b) []) (nth c (sp_repl b) O)
        (nth c (nth k (sp_weights b) []) 0) r2 (si_rows n b I) (si_states n b I) Hk) as [S1 [S2 [S3 S4]]].
      cbv zeta in *. rewrite S1, S2, S3, S4. destruct RO as [O1 O2].
      split; [apply increasing_NoDup, (ri_inc _ _ _ _ O1)|]. split; [apply (ri_len _ _ _ _ O1)|].
      split; [apply increasing_NoDup, (ri_inc _ _ _ _ O2)|apply (ri_len _ _ _ _ O2)]. }
    destruct NP as [NP1 [NP2 [NP3 NP4]]]. split; auto. split; [|split].
    + intros l v' H. pose proof (P' l (has_In _ _ _ _ H)) as L. destruct (In_has _ _ l (ri_len _ _ _ _ RI) L) as [v HV]. exists v. split; auto.
      destruct (P l v HV) as [u [U1 U2]]. destruct U1 as [U1|[_ U1]]; [|exfalso; apply U1; eapply has_In; eauto].
      rewrite (has_fun _ _ l v' u NP1 NP2 H U1). eapply step_down_le; eauto.
    + intros l v' H. pose proof (Q' l (has_In _ _ _ _ H)) as L. destruct (In_has _ _ l (ri_len _ _ _ _ RJ) L) as [v HV]. exists v. split; auto.
      destruct (Q l v HV) as [u [U1 U2]]. destruct U1 as [U1|[_ U1]]; [|exfalso; apply U1; eapply has_In; eauto].
      rewrite (has_fun _ _ l v' u NP3 NP4 H U1). eapply step_down_le; eauto.
    + destruct (sp_update_shape boost dynamic lits k c t b) as [E|[s [al [repl [r E]]]]]; unfold b'; rewrite E; auto.
      rewrite HO. cbn [Z.eqb]. unfold sp_store. cbn [sp_weights]. rewrite set_nth_id. destruct (lt_dec k (length (sp_weights b))).
      * now rewrite nth_set_nth_eq.
      * rewrite set_nth_out by lia. reflexivity.
  - assert (E : b' = b).
    { unfold b', sp_clause_update. cbv zeta. rewrite !sign_ge. replace (t * wsign (nth c (nth k (sp_weights b) []) 0) >? 0) with false by lia.
      rewrite HO. cbn [Z.eqb]. now rewrite andb_false_r. }
    rewrite E. split; auto using quiet_refl.
Qed.

Lemma quiet_with_fast : forall k b outs r b', quiet k (sp_with_fast b outs r) b' -> quiet k b b'.
Proof. intros k b outs r b' H. exact H. Qed.

Lemma sp_budget_clause : forall boost dynamic lits pc pp nc np k n b, sp_inv n b -> (k < sp_ncl b)%nat -> length (sp_outputs b) = sp_ncl b ->
  sp_budget b < nth k (sp_counts b) 0 -> Forall (fun l => (l < n)%nat) lits ->
  quiet k b (sp_update_clause true boost dynamic lits pc pp nc np b k).
Proof.
  intros boost dynamic lits pc pp nc np k n b I Hk HO HB HL. unfold sp_update_clause. cbn [andb].
  replace (nth k (sp_counts b) 0 >? sp_budget b) with true by lia. destruct (draw_lt (sp_fast b) pp) as [d r]. cbv zeta.
  set (b0 := sp_with_fast b (set_nth k 0 (sp_outputs b)) r).
  assert (O0 : nth k (sp_outputs b0) 0 = 0) by (unfold b0; cbn [sp_with_fast sp_outputs]; rewrite nth_set_nth_eq by lia; reflexivity).
  assert (I0 : sp_inv n b0) by (unfold b0; apply sp_with_fast_inv; auto).
  set (b1 := if d then sp_clause_update boost dynamic lits k pc 1 b0 else b0).
  assert (K : quiet k b b1 /\ sp_inv n b1 /\ sp_ncl b1 = sp_ncl b /\ nth k (sp_outputs b1) 0 = 0).
  { unfold b1. destruct d.
    - destruct (sp_silent_update boost dynamic lits k pc 1 n b0 I0 Hk O0) as [Q _]. destruct (sp_update_frame boost dynamic lits k pc 1 b0) as [F1 [_ [_ [F4 _]]]].
      split; [exact Q|]. split; [apply sp_clause_update_inv; auto|]. split; [exact F4|]. rewrite F1. exact O0.
    - split; [apply (quiet_refl k b)|]. auto. }
  clearbody b1. destruct K as [K1 [K2 [K3 K4]]]. destruct (draw_lt (sp_fast b1) np) as [d2 r2]. destruct d2; [|exact K1].
  eapply quiet_trans; [exact K1|]. destruct (sp_silent_update boost dynamic lits k nc (-1) n (sp_with_fast b1 (sp_outputs b1) r2)) as [Q _]; auto.
  - apply sp_with_fast_inv; auto.
  - cbn [sp_with_fast sp_ncl]. lia.
Qed.

Lemma sp_update_clause_other : forall bo boost dynamic lits pc pp nc np b k j, (k < sp_ncl b)%nat -> (j < sp_ncl b)%nat -> j <> k ->
  let b' := sp_update_clause bo boost dynamic lits pc pp nc np b k in
  untouched j b b' /\ sp_counts b' = sp_counts b /\ sp_budget b' = sp_budget b /\ length (sp_outputs b') = length (sp_outputs b).
Proof.
  intros bo boost dynamic lits pc pp nc np b k j Hk Hj Hne b'. unfold b', sp_update_clause. clear b'.
  destruct (draw_lt (sp_fast b) pp) as [d r]. cbv zeta.
  match goal with |- context [sp_with_fast b ?o r] => set (outs := o); assert (LO : length outs = length (sp_outputs b)) by (unfold outs; destruct (bo && _); rewrite ?set_nth_length; auto) end.
  clearbody outs. set (b0 := sp_with_fast b outs r).
  set (b1 := if d then sp_clause_update boost dynamic lits k pc 1 b0 else b0).
  assert (K : untouched j b b1 /\ sp_counts b1 = sp_counts b /\ sp_budget b1 = sp_budget b /\ length (sp_outputs b1) = length (sp_outputs b) /\ sp_ncl b1 = sp_ncl b).
  { unfold b1. destruct d.
    - destruct (sp_update_frame boost dynamic lits k pc 1 b0) as [F1 [F2 [F3 [F4 _]]]].
      split; [exact (sp_update_other boost dynamic lits k pc 1 b0 j Hk Hj Hne)|]. rewrite F1, F2, F3, F4. auto.
    - split; [apply (untouched_refl j b)|]. auto. }
  clearbody b1. destruct K as [K1 [K2 [K3 [K4 K5]]]]. destruct (draw_lt (sp_fast b1) np) as [d2 r2]. destruct d2; [|auto].
  set (b2 := sp_with_fast b1 (sp_outputs b1) r2). destruct (sp_update_frame boost dynamic lits k nc (-1) b2) as [F1 [F2 [F3 [F4 _]]]].
  split; [eapply untouched_trans; [exact K1|]; apply (sp_update_other boost dynamic lits k nc (-1) b2 j); auto; cbn [b2 sp_with_fast sp_ncl]; lia|].
  rewrite F1, F2, F3. auto.
Qed.

(** Training step on an example: a clause including more literals than the
    budget keeps its weights and no automaton of it goes up. *)
Theorem sp_over_budget : forall boost dynamic lits pc pp nc np n b, sp_inv n b -> Forall (fun l => (l < n)%nat) lits ->
  let b' := sp_train_update true boost dynamic lits pc pp nc np (fst (sp_train_ex true lits b)) in
  forall k, (k < sp_ncl b)%nat ->
    sp_budget b < Z.of_nat (length (sp_included (prow_of b k) (psts_of b k)) + length (sp_included (nrow_of b k) (nsts_of b k))) ->
    quiet k b b'.
Proof.
  intros boost dynamic lits pc pp nc np n b I HL b' k Hk HB.
  set (b1 := fst (sp_train_ex true lits b)) in *.
  assert (I1 : sp_inv n b1) by (apply sp_train_ex_inv; auto).
  assert (L1 : length (sp_outputs b1) = sp_ncl b1) by (unfold b1; cbn [fst sp_train_ex sp_count_votes sp_train_output sp_with_outputs sp_outputs sp_ncl]; now rewrite !map_length, seq_length).
  assert (C1 : nth k (sp_counts b1) 0 = Z.of_nat (length (sp_included (prow_of b k) (psts_of b k)) + length (sp_included (nrow_of b k) (nsts_of b k)))).
  { unfold b1. cbn [fst sp_train_ex sp_count_votes sp_train_output sp_with_outputs sp_counts].
    rewrite map_map, ProofsEval.nth_map_seq by auto. apply sp_counts_included.
    - apply (ri_len n (sp_csize b)). apply (si_row n b I). lia.
    - apply (ri_len n (sp_csize b)). apply (si_row n b I). lia. }
  assert (Q1 : quiet k b b1) by (apply (quiet_refl k b)).
  assert (B1 : sp_budget b1 < nth k (sp_counts b1) 0) by (rewrite C1; exact HB).
  assert (N1 : sp_ncl b1 = sp_ncl b) by reflexivity.
  unfold b', sp_train_update. rewrite N1. clearbody b1.
  assert (G : forall m a c, (a + m = sp_ncl b)%nat -> sp_inv n c -> sp_ncl c = sp_ncl b -> length (sp_outputs c) = sp_ncl c ->
    sp_budget c < nth k (sp_counts c) 0 -> quiet k b c ->
    quiet k b (fold_left (sp_update_clause true boost dynamic lits pc pp nc np) (seq a m) c)).
  { induction m as [|m IH]; intros a c Ham Ic Nc Lc Bc Qc; cbn [seq fold_left]; auto.
    destruct (sp_update_clause_inv true boost dynamic lits pc pp nc np a n c Ic) as [V1 V2]; auto; [lia|].
    assert (Nv : sp_ncl (sp_update_clause true boost dynamic lits pc pp nc np c a) = sp_ncl b) by (destruct V2 as [V2 _]; congruence).
    destruct (Nat.eq_dec a k) as [E|E].
    - subst a. pose proof (sp_budget_clause boost dynamic lits pc pp nc np k n c Ic ltac:(lia) Lc Bc HL) as Q.
      (* the other clauses leave it alone *)
      assert (R : forall m a d, (k < a)%nat -> (a + m = sp_ncl b)%nat -> sp_inv n d -> sp_ncl d = sp_ncl b ->
        untouched k d (fold_left (sp_update_clause true boost dynamic lits pc pp nc np) (seq a m) d)).
      { clear - HL. induction m as [|m IH]; intros a d Ha Ham Id Nd; cbn [seq fold_left]; [apply untouched_refl|].
        destruct (sp_update_clause_inv true boost dynamic lits pc pp nc np a n d Id) as [V1 V2]; auto; [lia|].
        eapply untouched_trans; [|apply IH; auto; try lia; destruct V2 as [V2 _]; congruence].
        apply sp_update_clause_other; lia. }
      eapply quiet_trans; [exact Qc|]. eapply quiet_trans; [exact Q|]. apply untouched_quiet. apply R; auto; lia.
    - destruct (sp_update_clause_other true boost dynamic lits pc pp nc np c a k) as [O1 [O2 [O3 O4]]]; auto; try lia.
      apply IH; [lia|exact V1|exact Nv|rewrite O4, Lc; congruence|rewrite O2, O3; auto|].
      eapply quiet_trans; [exact Qc|]. apply untouched_quiet. exact O1. }
  apply G; auto.
Qed.

(** ** Active literals *)

Lemma t1a_lit_al : forall boost dynamic alsize si sm prow nrow f lit,
  let f' := t1a_lit boost dynamic alsize si sm prow nrow f lit in
  (f_al f', f_repl f') = if memb lit prow then (f_al f, f_repl f) else update_al dynamic alsize (f_al f) (f_repl f) lit.
Proof.
  intros boost dynamic alsize si sm prow nrow f lit f'. unfold f', t1a_lit. clear f'.
  set (g := match index_of lit prow with Some k => _ | None => _ end).
  assert (G : (f_al g, f_repl g) = if memb lit prow then (f_al f, f_repl f) else update_al dynamic alsize (f_al f) (f_repl f) lit).
  { unfold g. destruct (index_of lit prow) as [k|] eqn:K.
    - destruct (index_of_Some _ _ _ K) as [K1 K2]. replace (memb lit prow) with true by (symmetry; apply memb_In; rewrite <- K2; now apply nth_In).
      cbv zeta. destruct (_ <? 127); auto; destruct boost; auto; destruct (draw_le _ _); auto.
    - apply index_of_None in K. apply memb_not_In in K. rewrite K. destruct (update_al _ _ _ _ _); auto. }
  clearbody g. cbv zeta. destruct (index_of lit nrow); auto; destruct (_ >? -127); auto; destruct (draw_le _ _); auto.
Qed.

Lemma update_al_In : forall dynamic alsize al repl lit x, In x (fst (update_al dynamic alsize al repl lit)) -> In x al \/ x = lit.
Proof.
  intros dynamic alsize al repl lit x. unfold update_al. destruct (_ <? _)%nat.
  - destruct (memb lit al); cbn [fst]; auto. intros H. apply in_app_or in H. destruct H as [H|[H|[]]]; auto.
  - destruct dynamic; auto. destruct (memb lit al); auto. cbn [fst]. intros H. apply set_nth_In_inv in H. tauto.
Qed.
Lemma update_al_static : forall alsize al repl lit, let al' := fst (update_al false alsize al repl lit) in
  (exists new, al' = al ++ new) /\ (In lit al' \/ (alsize <= length al')%nat).
Proof.
  intros alsize al repl lit al'. unfold al', update_al. destruct (Nat.ltb_spec (length al) alsize) as [A|A].
  - destruct (memb lit al) eqn:M; cbn [fst].
    + split; [exists []; now rewrite app_nil_r|left; now apply memb_In].
    + split; [exists [lit]; auto|left; apply in_or_app; right; now left].
  - cbn [fst]. split; [exists []; now rewrite app_nil_r|auto].
Qed.

Lemma t1a_fold_al : forall boost dynamic alsize si sm prow nrow lits f,
  let f' := fold_left (t1a_lit boost dynamic alsize si sm prow nrow) lits f in
  (forall l, In l (f_al f') -> In l (f_al f) \/ (In l lits /\ ~ In l prow)) /\
  (dynamic = false -> (exists new, f_al f' = f_al f ++ new) /\
     forall l, In l lits -> ~ In l prow -> In l (f_al f') \/ (alsize <= length (f_al f'))%nat).
Proof.
  intros boost dynamic alsize si sm prow nrow lits. induction lits as [|lit lits IH]; intros f f'; unfold f'; cbn [fold_left].
  - split; auto. intros _. split; [exists []; now rewrite app_nil_r|]. intros l [].
  - pose proof (t1a_lit_al boost dynamic alsize si sm prow nrow f lit) as A. cbv zeta in A.
    set (g := t1a_lit boost dynamic alsize si sm prow nrow f lit) in *. clearbody g.
    destruct (IH g) as [I1 I2]. cbv zeta in I1, I2. set (h := fold_left _ lits g) in *. clearbody h. split.
    + intros l Hl. destruct (I1 l Hl) as [H|[H1 H2]]; [|right; split; auto; now right].
      destruct (memb lit prow) eqn:M.
      * injection A as A1 A2. rewrite A1 in H. auto.
      * apply memb_not_In in M. pose proof (update_al_In dynamic alsize (f_al f) (f_repl f) lit l) as U. rewrite <- A in U. cbn [fst] in U.
        destruct (U H) as [H'|H']; auto. subst. right. split; auto. now left.
    + intros D. subst dynamic. destruct (I2 eq_refl) as [[new E] I3]. destruct (memb lit prow) eqn:M.
      * injection A as A1 A2. rewrite <- A1. split; [exists new; auto|]. intros l [H|H] N; [|auto]. subst l. apply memb_In in M. contradiction.
      * pose proof (update_al_static alsize (f_al f) (f_repl f) lit) as [[new0 E0] U]. rewrite <- A in E0, U. cbn [fst] in E0, U.
        split; [exists (new0 ++ new); rewrite E, E0, app_assoc; auto|]. intros l [H|H] N; [|auto]. subst l. rewrite E, app_length.
        destruct U as [U|U]; [left; apply in_or_app; auto|right; lia].
Qed.

Theorem sp_type1a_al : forall boost dynamic lits k c t b, nth k (sp_outputs b) 0 = 1 -> 0 < t * wsign (nth c (nth k (sp_weights b) []) 0) ->
  (c < length (sp_al b))%nat ->
  let al := nth c (sp_al b) [] in let al' := nth c (sp_al (sp_clause_update boost dynamic lits k c t b)) [] in
  (forall l, In l al' -> In l al \/ (In l lits /\ ~ In l (prow_of b k))) /\
  (dynamic = false -> (exists new, al' = al ++ new) /\ forall l, In l lits -> ~ In l (prow_of b k) -> In l al' \/ (sp_alsize b <= length al')%nat).
Proof.
  intros boost dynamic lits k c t b HO HT Hc al al'. unfold al', sp_clause_update. cbv zeta. rewrite !sign_ge. cbn [r_prow r_psts r_nrow r_nsts].
  replace (t * wsign (nth c (nth k (sp_weights b) []) 0) >? 0) with true by lia. rewrite HO, Z.eqb_refl.
  unfold sp_store. cbn [sp_al]. rewrite nth_set_nth_eq by auto. unfold sp_t1a.
  pose proof (t1a_fold_al boost dynamic (sp_alsize b) (sp_si b) (sp_sm b) (prow_of b k) (nrow_of b k) lits (mkF (psts_of b k) (nsts_of b k) (nth c (sp_al b) []) (nth c (sp_repl b) O) (sp_fast b))) as F.
  cbv zeta in F. set (g := fold_left _ lits _) in *. clearbody g. cbn [f_al] in F.
  destruct (absent_down _ _ _ _ _) as [ps r]. destruct (absent_up _ _ _ _ _ _) as [ns r2]. cbn [f_al]. exact F.
Qed.
