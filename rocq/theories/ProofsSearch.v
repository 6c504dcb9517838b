(** Proofs about ModelSearch.v. *)
From Coq Require Import ZArith List Bool QArith Qround Lia ZifyBool.
From Verif Require Import Base Spec ModelMachine ProofsMachine ModelTrainer SpecTraining ProofsTrainer ModelSearch SpecSearch.
Import ListNotations.
Open Scope Z_scope.

Lemma bind_ok : forall A B (r : res A) (f : A -> res B) b, bind_res r f = Ok b -> exists a, r = Ok a /\ f a = Ok b.
Proof. intros A B [a|e] f b H; [eauto|discriminate]. Qed.

(** ** Suggestions *)

Lemma suggest_int_spec : forall low high step a v, suggest_int low high step a = Ok v ->
  1 <= step /\ low <= v <= high /\ exists k, 0 <= k /\ v = low + k * step.
Proof.
  intros low high step a v. unfold suggest_int. destruct (step <? 1) eqn:E1; [discriminate|]. destruct (high <? low) eqn:E2; [discriminate|].
  cbn [orb]. intros H. inversion H; clear H. set (q := (high - low) / step). set (k := a mod (q + 1)).
  assert (S : 1 <= step) by lia. assert (Q0 : 0 <= q) by (apply Z.div_pos; lia).
  assert (K : 0 <= k < q + 1) by (apply Z.mod_pos_bound; lia).
  assert (Q1 : step * q <= high - low) by (apply Z.mul_div_le; lia).
  split; [lia|]. split; [nia|]. exists k. split; [lia|ring].
Qed.
Lemma suggest_int_ok : forall low high step a, low <= high -> 1 <= step -> exists v, suggest_int low high step a = Ok v.
Proof.
  intros low high step a H1 H2. unfold suggest_int. destruct (step <? 1) eqn:E1; [lia|]. destruct (high <? low) eqn:E2; [lia|]. cbn [orb]. eauto.
Qed.
Lemma suggest_int_any : forall low high step k, 1 <= step -> 0 <= k -> low + k * step <= high ->
  suggest_int low high step k = Ok (low + k * step).
Proof.
  intros low high step k H1 H2 H3. unfold suggest_int. destruct (step <? 1) eqn:E1; [lia|].
  assert (0 <= k * step) by nia. destruct (high <? low) eqn:E2; [lia|]. cbn [orb].
  assert (k <= (high - low) / step) by (apply Z.div_le_lower_bound; nia).
  rewrite Z.mod_small by lia. f_equal. ring.
Qed.

Lemma suggest_float_spec : forall low high step a v, suggest_float low high step a = Ok v ->
  (0 < step)%Q /\ (low <= v <= high)%Q /\ exists k, 0 <= k /\ (v == low + inject_Z k * step)%Q.
Proof.
  intros low high step a v. unfold suggest_float. destruct (Qle_bool step 0) eqn:E1; [discriminate|].
  destruct (Qle_bool low high) eqn:E2; [|discriminate]. cbn [orb negb]. intros H. assert (V : forall q, Ok q = Ok v -> q = v) by (intros ? W; now injection W). apply V in H. clear V. subst v.
  assert (S : (0 < step)%Q).
  { apply Qnot_le_lt. intros L. apply Qle_bool_iff in L. congruence. }
  apply Qle_bool_iff in E2. set (q := Qfloor ((high - low) / step)). set (k := a mod (q + 1)).
  assert (D : (0 <= (high - low) / step)%Q).
  { apply Qle_shift_div_l; [auto|]. rewrite Qmult_0_l. apply (Qplus_le_l _ _ low). ring_simplify. exact E2. }
  assert (Q0 : 0 <= q).
  { unfold q. change 0 with (Qfloor 0). apply Qfloor_resp_le. exact D. }
  assert (K : 0 <= k < q + 1) by (apply Z.mod_pos_bound; lia).
  assert (K1 : (inject_Z k <= (high - low) / step)%Q).
  { apply Qle_trans with (inject_Z q); [rewrite <- Zle_Qle; lia|apply Qfloor_le]. }
  assert (K2 : (step * inject_Z k <= high - low)%Q).
  { apply Qle_trans with (step * ((high - low) / step))%Q.
    - apply Qmult_le_l; auto.
    - rewrite Qmult_div_r; [apply Qle_refl|]. intros Z. rewrite Z in S. exact (Qlt_irrefl 0 S). }
  assert (K3 : (0 <= step * inject_Z k)%Q).
  { apply Qmult_le_0_compat; [apply Qlt_le_weak; auto|]. change 0%Q with (inject_Z 0). rewrite <- Zle_Qle. lia. }
  split; [auto|]. split; [split|].
  - apply Qle_trans with (low + 0)%Q; [rewrite Qplus_0_r; apply Qle_refl|]. apply Qplus_le_r. exact K3.
  - apply Qle_trans with (low + (high - low))%Q; [apply Qplus_le_r; exact K2|].
    assert (Z : (low + (high - low) == high)%Q) by ring. rewrite Z. apply Qle_refl.
  - exists k. split; [lia|]. clearbody k. rewrite (Qmult_comm step). apply Qeq_refl.
Qed.
Lemma suggest_float_ok : forall low high step a, (low <= high)%Q -> (0 < step)%Q -> exists v, suggest_float low high step a = Ok v.
Proof.
  intros low high step a H1 H2. unfold suggest_float. destruct (Qle_bool step 0) eqn:E1.
  - apply Qle_bool_iff in E1. exfalso. apply (Qlt_not_le _ _ H2 E1).
  - apply Qle_bool_iff in H1. rewrite H1. cbn [orb negb]. eauto.
Qed.

Lemma choose_int_value : forall sp a v, int_form sp -> choose_int sp a = Ok v -> int_value sp v.
Proof.
  intros [f|z| |l] a v F H; cbn [choose_int int_form int_value] in *; try contradiction.
  - now inversion H.
  - destruct l as [|lo [|hi [|st [|? ?]]]]; try contradiction; apply suggest_int_spec in H; destruct H as [_ [H1 H2]]; auto.
Qed.
Lemma choose_int_any : forall sp v, match sp with VTup [_; _; st] => 1 <= st | _ => True end ->
  int_value sp v -> exists a, choose_int sp a = Ok v.
Proof.
  intros [f|z| |l] v S F; cbn [choose_int int_value] in *; try contradiction.
  - subst. exists 0. reflexivity.
  - destruct l as [|lo [|hi [|st [|? ?]]]]; try contradiction.
    + exists (v - lo). replace v with (lo + (v - lo) * 1) at 2 by ring. apply suggest_int_any; lia.
    + destruct F as [F1 [k [K1 K2]]]. exists k. rewrite K2. apply suggest_int_any; auto; lia.
Qed.
Lemma choose_s_value : forall sp a v, s_form sp -> choose_s sp a = Ok v ->
  exists f, v = SFloat f /\ s_value (1 # 10) sp f.
Proof.
  intros [f|z| |l] a v F H; cbn [choose_s s_form s_value] in *; try contradiction; try discriminate.
  - inversion H. eauto.
  - destruct l as [|lo [|hi [|st [|? ?]]]]; try contradiction;
      destruct (suggest_float _ _ _ _) as [q|e] eqn:E; try discriminate; apply suggest_float_spec in E;
      destruct E as [_ [E1 [k [E2 E3]]]]; inversion H; exists (Fin q); (split; [auto|]); exists k, q; intuition auto.
Qed.

(** ** Best trials *)

Lemma maximal : forall A (R : A -> A -> bool) (l : list A),
  (forall a b c, In a l -> In b l -> In c l -> R a b = true -> R b c = true -> R a c = true) ->
  (forall a, In a l -> R a a = false) -> l <> [] ->
  exists t, In t l /\ forall u, In u l -> R u t = false.
Proof.
  intros A R l. induction l as [|a l IH]; intros T I N; [congruence|]. destruct l as [|b l].
  - exists a. split; [left; auto|]. intros u [<-|[]]. apply I. left; auto.
  - destruct IH as [t [T1 T2]].
    + intros x y z Hx Hy Hz. apply T; right; auto.
    + intros x Hx. apply I. right; auto.
    + discriminate.
    + destruct (R a t) eqn:E.
      * exists a. split; [left; auto|]. intros u [<-|Hu]; [apply I; left; auto|].
        destruct (R u a) eqn:E'; [|auto]. rewrite <- (T2 u Hu). symmetry. apply (T u a t); auto; [right; auto|left; auto|right; auto].
      * exists t. split; [right; auto|]. intros u [<-|Hu]; auto.
Qed.

(** All trials of a search have the same kind of value. *)
Definition uniform (mini : bool) (l : list told) : Prop :=
  Forall (fun t => if mini then exists b, snd (td_value t) = Some b else snd (td_value t) = None) l.

Lemma fl_leb_trans : forall a b c, fl_leb a b = true -> fl_leb b c = true -> fl_leb a c = true.
Proof.
  intros [| |p|] [| |q|] [| |r|]; cbn; auto; try discriminate. rewrite !Qle_bool_iff. apply Qle_trans.
Qed.
Lemma fl_ltb_leb : forall a b, fl_ltb a b = true -> fl_leb a b = true.
Proof.
  intros a b H. apply fl_leb_iff. left. now apply fl_ltb_iff.
Qed.

Lemma dominates_trans : forall mini l a b c, uniform mini l -> In a l -> In b l -> In c l ->
  dominates a b = true -> dominates b c = true -> dominates a c = true.
Proof.
  intros mini l a b c U Ha Hb Hc. unfold uniform in U. rewrite Forall_forall in U.
  pose proof (U a Ha) as Ua. pose proof (U b Hb) as Ub. pose proof (U c Hc) as Uc. clear U. cbv beta in Ua, Ub, Uc.
  unfold dominates. destruct mini.
  - destruct Ua as [x ->]. destruct Ub as [y ->]. destruct Uc as [z ->].
    rewrite !andb_true_iff, !orb_true_iff. intros [[A1 A2] A3] [[B1 B2] B3].
    assert (C1 : fl_leb (fst (td_value c)) (fst (td_value a)) = true) by (eapply fl_leb_trans; eauto).
    split; [split; [auto|lia]|]. destruct A3 as [A3|A3]; [left|destruct B3 as [B3|B3]; [left|right; lia]].
    + apply fl_ltb_iff. apply fl_ltb_iff in A3. apply fl_leb_iff in B1. eapply fl_le_lt_trans; eauto.
    + apply fl_ltb_iff. apply fl_ltb_iff in B3. apply fl_leb_iff in A1. eapply fl_lt_le_trans; eauto.
  - rewrite ?Ua, ?Ub, ?Uc. rewrite !fl_ltb_iff. intros A B. eapply fl_lt_trans; eauto.
Qed.
Lemma dominates_irrefl : forall a, dominates a a = false.
Proof.
  intros a. unfold dominates. assert (L : fl_ltb (fst (td_value a)) (fst (td_value a)) = false).
  { apply fl_ltb_false. apply fl_lt_irrefl. }
  rewrite L. destruct (snd (td_value a)) as [b|]; auto. rewrite Z.ltb_irrefl. cbn [orb]. apply andb_false_r.
Qed.
Lemma best_exists : forall mini l, uniform mini l -> filter complete l <> [] -> best_trials l <> [].
Proof.
  intros mini l U N. unfold best_trials. set (c := filter complete l) in *.
  assert (U' : uniform mini c).
  { unfold uniform in *. rewrite Forall_forall in *. intros t Ht. apply U. apply filter_In in Ht. tauto. }
  destruct (maximal told dominates c) as [t [T1 T2]].
  - intros a b d Ha Hb Hd. eapply dominates_trans; eauto.
  - intros a _. apply dominates_irrefl.
  - auto.
  - intros E. assert (I : In t []) by (rewrite <- E; apply filter_In; split; [auto|];
      apply negb_true_iff; apply not_true_iff_false; intros X; apply existsb_exists in X; destruct X as [u [X1 X2]]; rewrite T2 in X2; auto; discriminate).
    destruct I.
Qed.
Lemma best_spec : forall l t, In t (best_trials l) -> In t l /\ complete t = true /\
  forall u, In u l -> complete u = true -> dominates u t = false.
Proof.
  intros l t H. unfold best_trials in H. apply filter_In in H. destruct H as [H1 H2]. pose proof H1 as H3. apply filter_In in H3.
  destruct H3 as [H3 H4]. split; [auto|]. split; [auto|]. intros u Hu Cu. apply negb_true_iff in H2.
  destruct (dominates u t) eqn:E; auto. rewrite <- H2. symmetry. apply existsb_exists. exists u. split; [apply filter_In; auto|auto].
Qed.
