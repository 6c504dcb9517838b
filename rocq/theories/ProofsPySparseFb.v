(** Pruning and the three kinds of feedback of the python sparse state. *)
From Coq Require Import ZArith List Bool QArith Lia Permutation ZifyBool.
From Verif Require Import Base BaseProofs Spec SpecLearning ModelInference ModelDense ModelFeedback ModelExecutor ModelSparse ModelPy ModelPySparse SpecPySparse
  ProofsLearning ProofsSparse ProofsPySparse.
Import ListNotations.
Open Scope Z_scope.

(** ** Pruning *)

Lemma remove_first_skip : forall v a t, Forall (fun x => x <> v) a -> remove_first v (a ++ v :: t) = a ++ t.
Proof.
  intros v a t H. induction H as [|x a Hx H IH]; cbn [app remove_first].
  - rewrite Z.eqb_refl. reflexivity.
  - replace (x =? v) with false by lia. rewrite IH. reflexivity.
Qed.
Lemma pop_at_app : forall A (a : list A) x t, pop_at (length a) (a ++ x :: t) = a ++ t.
Proof.
  intros A a x t. unfold pop_at. induction a as [|y a IH]; cbn [length app firstn skipn]; auto.
  f_equal. exact IH.
Qed.
Definition kept (p : nat * Z) : bool := -20 <=? snd p.
Lemma prune_gen : forall copy rix kix kst, length rix = length copy -> length kix = length kst -> Forall (fun v => -20 <= v) kst ->
  let '(ix, st) := ps_prune copy (length kst) (kix ++ rix) (kst ++ copy) in
  length ix = length st /\ combine ix st = combine kix kst ++ filter kept (combine rix copy).
Proof.
  induction copy as [|v t IH]; intros [|l rix] kix kst HR HK HF; try discriminate HR; cbn [ps_prune].
  - cbn [combine filter]. rewrite !app_nil_r. split; auto.
  - cbn [length] in HR. cbn [combine filter]. unfold kept at 1. cbn [snd]. destruct (v <? 0 - 20) eqn:E.
    + rewrite remove_first_skip by (eapply Forall_impl; [|exact HF]; intros x Hx; cbn in Hx; lia).
      replace (pop_at (length kst) (kix ++ l :: rix)) with (kix ++ rix) by (rewrite <- HK; symmetry; apply pop_at_app). replace (-20 <=? v) with false by lia. apply IH; auto.
    + replace (-20 <=? v) with true by lia.
      specialize (IH rix (kix ++ [l]) (kst ++ [v])). rewrite !app_length in IH. cbn [length] in IH.
      rewrite <- !app_assoc in IH. cbn [app] in IH. replace (length kst + 1)%nat with (S (length kst)) in IH by lia.
      destruct (ps_prune t (S (length kst)) (kix ++ l :: rix) (kst ++ v :: t)) as [ix st].
      destruct IH as [I1 I2]; [lia|lia|apply Forall_app; split; auto; constructor; auto; lia|].
      split; auto. rewrite I2.
      assert (C : combine (kix ++ [l]) (kst ++ [v]) = combine kix kst ++ [(l, v)]).
      { clear - HK. revert kst HK. induction kix as [|a kix IHk]; intros [|b kst] HK; try discriminate; cbn [app combine]; auto.
        f_equal. apply IHk. cbn in HK. lia. }
      rewrite C, <- app_assoc. reflexivity.
Qed.
Lemma prune_spec : forall ix st, length ix = length st ->
  let '(ix', st') := ps_prune st 0 ix st in length ix' = length st' /\ combine ix' st' = filter kept (combine ix st).
Proof. intros ix st H. apply (prune_gen st ix [] []); auto. Qed.

Lemma combine_split_eq : forall A B (a : list A) (b : list B), length a = length b -> map fst (combine a b) = a /\ map snd (combine a b) = b.
Proof.
  intros A B a. induction a as [|x a IH]; intros [|y b] H; try discriminate; cbn; auto. destruct (IH b) as [I1 I2]; [cbn in H; lia|]. rewrite I1, I2. auto.
Qed.
Lemma NoDup_map_filter : forall A B (f : A -> B) p l, NoDup (map f l) -> NoDup (map f (filter p l)).
Proof.
  intros A B f p l. induction l as [|x l IH]; intros H; cbn [map filter]; auto. inversion H; subst. destruct (p x); auto.
  cbn [map]. constructor; auto. intros I. apply H2. apply in_map_iff in I. destruct I as [y [E I]]. apply filter_In in I. apply in_map_iff. exists y. tauto.
Qed.
Lemma prune_side_ok : forall n ix st, side_ok n ix st ->
  let '(ix', st') := ps_prune st 0 ix st in side_ok n ix' st' /\ Forall (fun v => -20 <= v) st'.
Proof.
  intros n ix st [HL [ND HF]]. pose proof (prune_spec ix st HL) as P. destruct (ps_prune st 0 ix st) as [ix' st']. destruct P as [P1 P2].
  destruct (combine_split_eq _ _ ix' st' P1) as [M1 M2]. destruct (combine_split_eq _ _ ix st HL) as [K1 K2].
  split; [split; [auto|split]|].
  - rewrite <- M1, P2. apply NoDup_map_filter. rewrite K1. auto.
  - rewrite <- M1, P2. apply Forall_forall. intros l I. apply in_map_iff in I. destruct I as [[l0 v] [E I]]. apply filter_In in I. destruct I as [I _].
    apply in_combine_l in I. cbn in E. subst l0. eapply Forall_forall in HF; eauto.
  - rewrite <- M2, P2. apply Forall_forall. intros z I. apply in_map_iff in I. destruct I as [[l0 v] [E I]]. apply filter_In in I. destruct I as [_ I].
    unfold kept in I. cbn [snd] in *. lia.
Qed.

(** ** Type 1b *)

Lemma fall_spec : forall p st r, let '(st', r') := ps_fall p st r in
  length st' = length st /\ r' = advance (length st) r /\
  forall i, (i < length st)%nat -> nth i st' 0 = nth i st 0 - (if Qle_bool (draw r i) p then 1 else 0).
Proof.
  intros p st. induction st as [|v st IH]; intros r; cbn [ps_fall].
  - split; auto. split; [symmetry; apply advance_0|]. cbn [length]. lia.
  - rewrite draw_le_eq. specialize (IH (advance 1 r)). destruct (ps_fall p st (advance 1 r)) as [t r2]. destruct IH as [L [R C]].
    cbn [length]. split; [lia|]. split; [rewrite R, advance_advance; reflexivity|].
    intros [|i] Hi; cbn [nth].
    + destruct (Qle_bool _ _); lia.
    + rewrite C by lia. rewrite draw_advance. reflexivity.
Qed.

(** ** Type 2 *)

Lemma t2_up_spec : forall want lits ix st, length ix = length st -> length (ps_t2_up want lits ix st) = length st /\
  forall i, (i < length st)%nat -> nth i (ps_t2_up want lits ix st) 0 =
    nth i st 0 + (if Bool.eqb (memb (nth i ix O) lits) want && (nth i st 0 <=? 0) then 1 else 0).
Proof.
  intros want lits ix. induction ix as [|l ix IH]; intros [|v st] H; try discriminate; cbn [ps_t2_up length].
  - split; auto. lia.
  - destruct (IH st) as [L C]; [cbn in H; lia|]. split; [lia|]. intros [|i] Hi; cbn [nth].
    + destruct (_ && _); lia.
    + apply C. lia.
Qed.
Lemma memb_app1 : forall l a x, memb l (a ++ [x]) = memb l a || (l =? x)%nat.
Proof. intros. unfold memb. rewrite existsb_app. cbn [existsb]. rewrite orb_false_r. reflexivity. Qed.
Lemma t2_add_spec : forall want lits al ix st, NoDup al ->
  let new := filter (fun l => negb (memb l ix) && Bool.eqb (memb l lits) want) al in
  fold_left (ps_t2_add want lits) al (ix, st) = (ix ++ new, st ++ repeat 0 (length new)).
Proof.
  intros want lits al. induction al as [|a al IH]; intros ix st ND; cbn [fold_left filter].
  - cbn [length repeat]. rewrite !app_nil_r. reflexivity.
  - inversion ND as [|? ? NI ND']; subst. unfold ps_t2_add at 2. cbn [fst snd].
    destruct (negb (memb a ix) && Bool.eqb (memb a lits) want).
    + rewrite IH by auto. cbv zeta.
      assert (E : filter (fun l => negb (memb l (ix ++ [a])) && Bool.eqb (memb l lits) want) al = filter (fun l => negb (memb l ix) && Bool.eqb (memb l lits) want) al).
      { apply filter_ext_in. intros x Hx. rewrite memb_app1. replace (x =? a)%nat with false; [rewrite orb_false_r; reflexivity|].
        symmetry. apply Nat.eqb_neq. intros ->. contradiction. }
      rewrite E. cbn [length repeat]. rewrite <- !app_assoc. reflexivity.
    + apply IH. auto.
Qed.

(** ** Type 1a *)

Lemma where_ok : forall ix lit, NoDup ix -> In lit ix -> exists i, ps_where ix lit = Ok i /\ nth_error ix i = Some lit.
Proof.
  intros ix lit ND I. unfold ps_where. destruct (In_nth_error _ _ I) as [i Hi].
  assert (HL : (i < length ix)%nat) by (apply nth_error_Some; congruence).
  assert (E : filter (fun j => (nth j ix O =? lit)%nat) (seq 0 (length ix)) = [i]).
  { assert (U : forall j, In j (filter (fun j => (nth j ix O =? lit)%nat) (seq 0 (length ix))) <-> j = i).
    { intros j. rewrite filter_In, in_seq. split.
      - intros [H1 H2]. apply Nat.eqb_eq in H2. apply (proj1 (NoDup_nth_error ix) ND); [lia|]. rewrite Hi. rewrite (nth_error_nth' ix O) by lia. congruence.
      - intros ->. split; [lia|]. apply Nat.eqb_eq. apply nth_error_nth. auto. }
    assert (D : NoDup (filter (fun j => (nth j ix O =? lit)%nat) (seq 0 (length ix)))) by (apply NoDup_filter, seq_NoDup).
    destruct (filter _ _) as [|a [|b t]].
    - exfalso. apply (proj2 (U i)). reflexivity.
    - f_equal. apply U. left; auto.
    - exfalso. inversion D; subst. apply H1. left. transitivity i; [apply U; right; left; auto|symmetry; apply U; left; auto]. }
  rewrite E. exists i. auto.
Qed.
Lemma update_al_see : forall al l, (length al <= 7)%nat -> ps_update_al al l = see al l.
Proof.
  intros al l H. unfold ps_update_al, see, last7. rewrite app_length. cbn [length].
  destruct (length al <? 7)%nat eqn:E; destruct (memb l al); auto.
  - replace (length al + 1 - 7)%nat with O by lia. reflexivity.
  - replace (length al + 1 - 7)%nat with 1%nat by lia. destruct al as [|a al]; [cbn in E; lia|reflexivity].
Qed.
Lemma NoDup_app_r : forall A (a b : list A), NoDup (a ++ b) -> NoDup b.
Proof. intros A a b. induction a as [|x a IH]; cbn [app]; auto. intros H. inversion H; auto. Qed.
Lemma see_ok : forall n al l, active_ok n al -> (l < n)%nat -> active_ok n (see al l).
Proof.
  intros n al l [ND [HL HF]] Hl. unfold see. destruct (memb l al) eqn:M; [split; auto|]. apply memb_not_In in M.
  assert (D : NoDup (al ++ [l])).
  { apply Permutation_NoDup with (l := l :: al); [apply Permutation_cons_append|constructor; auto]. }
  unfold last7. set (m := (length (al ++ [l]) - 7)%nat).
  pose proof (firstn_skipn m (al ++ [l])) as FS. split; [|split].
  - apply NoDup_app_r with (a := firstn m (al ++ [l])). rewrite FS. auto.
  - rewrite skipn_length. unfold m. lia.
  - assert (F : Forall (fun x => (x < n)%nat) (al ++ [l])) by (apply Forall_app; auto). rewrite <- FS in F. apply Forall_app in F. tauto.
Qed.

Lemma touch_spec : forall p d ix st al lit r, NoDup ix -> length ix = length st -> (length al <= 7)%nat ->
  exists st', ps_touch p d ix st al lit r =
    Ok (st', if memb lit ix then al else see al lit, advance (if memb lit ix then 1 else 0) r) /\
    length st' = length st /\
    forall i, (i < length st)%nat -> nth i st' 0 = nth i st 0 + (if (nth i ix O =? lit)%nat && Qle_bool (draw r 0) p then d else 0).
Proof.
  intros p d ix st al lit r ND HL HA. unfold ps_touch. destruct (memb lit ix) eqn:M.
  - rewrite draw_le_eq. apply memb_In in M. destruct (where_ok ix lit ND M) as [i0 [W Hi0]].
    assert (H0 : (i0 < length ix)%nat) by (apply nth_error_Some; congruence).
    destruct (Qle_bool (draw r 0) p).
    + rewrite W. cbn [rbind]. eexists. split; [reflexivity|]. split; [apply set_nth_length|]. intros i Hi.
      destruct (Nat.eq_dec i i0) as [->|NE].
      * rewrite nth_set_nth_eq by lia. rewrite (nth_error_nth _ _ O Hi0), Nat.eqb_refl. reflexivity.
      * rewrite nth_set_nth_neq by auto. replace (nth i ix O =? lit)%nat with false; [cbn [andb]; lia|]. symmetry. apply Nat.eqb_neq. intros E. apply NE.
        apply (proj1 (NoDup_nth_error ix) ND); [lia|]. rewrite Hi0, (nth_error_nth' ix O) by lia. congruence.
    + eexists. split; [reflexivity|]. split; auto. intros i Hi. rewrite andb_false_r. lia.
  - rewrite update_al_see by auto. rewrite advance_0. eexists. split; [reflexivity|]. split; auto. intros i Hi.
    replace (nth i ix O =? lit)%nat with false; [cbn [andb]; lia|]. symmetry. apply Nat.eqb_neq. intros E. apply memb_not_In in M. apply M. rewrite <- E. apply nth_In. lia.
Qed.

Lemma see_len : forall al l, (length al <= 7)%nat -> (length (see al l) <= 7)%nat.
Proof. intros al l H. unfold see, last7. destruct (memb l al); auto. rewrite skipn_length. lia. Qed.
Lemma used_cons : forall pix nix l lits j, used pix nix (l :: lits) (S j) = ((if memb l pix then 1 else 0) + (if memb l nix then 1 else 0) + used pix nix lits j)%nat.
Proof. intros. unfold used. cbn [firstn filter]. destruct (memb l pix); destruct (memb l nix); cbn [length]; lia. Qed.

(** The loop over the literals of the example. *)
Lemma t1a_loop_spec : forall si sm pix nix lits ps ns ap an r, NoDup pix -> NoDup nix -> length pix = length ps -> length nix = length ns -> NoDup lits ->
  (length ap <= 7)%nat -> (length an <= 7)%nat ->
  exists ps' ns', rfold (ps_t1a_lit si sm pix nix) lits (ps, ns, ap, an, r) =
    Ok (ps', ns', seen pix lits ap, seen nix lits an, advance (used pix nix lits (length lits)) r) /\
    length ps' = length ps /\ length ns' = length ns /\
    (forall i, (i < length ps)%nat -> ~ In (nth i pix O) lits -> nth i ps' 0 = nth i ps 0) /\
    (forall i, (i < length ns)%nat -> ~ In (nth i nix O) lits -> nth i ns' 0 = nth i ns 0) /\
    (forall i j, (i < length ps)%nat -> nth_error lits j = Some (nth i pix O) ->
       nth i ps' 0 = nth i ps 0 + (if Qle_bool (draw r (used pix nix lits j)) sm then 1 else 0)) /\
    (forall i j, (i < length ns)%nat -> nth_error lits j = Some (nth i nix O) ->
       nth i ns' 0 = nth i ns 0 - (if Qle_bool (draw r (used pix nix lits j + (if memb (nth i nix O) pix then 1 else 0))) si then 1 else 0)).
Proof.
  intros si sm pix nix lits. induction lits as [|l lits IH]; intros ps ns ap an r NP NN LP LN ND HP HN; cbn [rfold].
  - exists ps, ns. unfold seen, used. cbn [firstn filter length fold_left Nat.add]. rewrite advance_0.
    split; auto. split; auto. split; auto. split; auto. split; auto. split; intros i [|j] _ E; discriminate E.
  - inversion ND as [|? ? NI ND']; subst. unfold ps_t1a_lit at 1.
    destruct (touch_spec sm 1 pix ps ap l r NP LP HP) as [p1 [E1 [L1 C1]]]. rewrite E1. cbn [rbind].
    set (r1 := advance (if memb l pix then 1 else 0) r).
    destruct (touch_spec si (-1) nix ns an l r1 NN LN HN) as [n1 [E2 [L2 C2]]]. rewrite E2. cbn [rbind].
    set (r2 := advance (if memb l nix then 1 else 0) r1).
    destruct (IH p1 n1 (if memb l pix then ap else see ap l) (if memb l nix then an else see an l) r2) as [ps' [ns' [E [A1 [A2 [A3 [A4 [A5 A6]]]]]]]]; auto; try lia.
    { destruct (memb l pix); auto. apply see_len; auto. }
    { destruct (memb l nix); auto. apply see_len; auto. }
    assert (R2 : r2 = advance ((if memb l pix then 1 else 0) + (if memb l nix then 1 else 0)) r) by (unfold r2, r1; rewrite advance_advance; reflexivity).
    exists ps', ns'. rewrite E. split; [|split; [lia|split; [lia|split; [|split; [|split]]]]].
    + f_equal. f_equal; [f_equal; [f_equal|]|].
      * unfold seen. cbn [filter]. destruct (memb l pix); reflexivity.
      * unfold seen. cbn [filter]. destruct (memb l nix); reflexivity.
      * cbn [length]. rewrite used_cons, R2, advance_advance. reflexivity.
    + intros i Hi NJ. rewrite A3 by (try lia; intros X; apply NJ; right; auto). rewrite C1 by auto.
      replace (nth i pix O =? l)%nat with false; [cbn [andb]; lia|]. symmetry. apply Nat.eqb_neq. intros X. apply NJ. left; auto.
    + intros i Hi NJ. rewrite A4 by (try lia; intros X; apply NJ; right; auto). rewrite C2 by auto.
      replace (nth i nix O =? l)%nat with false; [cbn [andb]; lia|]. symmetry. apply Nat.eqb_neq. intros X. apply NJ. left; auto.
    + intros i [|j] Hi Hj; cbn [nth_error] in Hj.
      * inversion Hj as [Hl]. rewrite A3 by (try lia; congruence). rewrite C1 by auto. rewrite <- Hl, Nat.eqb_refl.
        unfold used. cbn [firstn filter length Nat.add andb]. reflexivity.
      * rewrite (A5 i j) by (auto; lia). rewrite C1 by auto. replace (nth i pix O =? l)%nat with false; cbn [andb].
        -- rewrite used_cons, R2, draw_advance. lia.
        -- symmetry. apply Nat.eqb_neq. intros X. apply NI. rewrite <- X. eapply nth_error_In; eauto.
    + intros i [|j] Hi Hj; cbn [nth_error] in Hj.
      * inversion Hj as [Hl]. rewrite A4 by (try lia; congruence). rewrite C2 by auto. rewrite <- Hl, Nat.eqb_refl. cbn [andb].
        unfold r1. rewrite draw_advance. unfold used. cbn [firstn filter length Nat.add]. rewrite Nat.add_0_r. destruct (Qle_bool (draw r (if memb l pix then 1%nat else 0%nat)) si); ring.
      * rewrite (A6 i j) by (auto; lia). rewrite C2 by auto. replace (nth i nix O =? l)%nat with false; cbn [andb].
        -- rewrite used_cons, R2, draw_advance, Nat.add_assoc. lia.
        -- symmetry. apply Nat.eqb_neq. intros X. apply NI. rewrite <- X. eapply nth_error_In; eauto.
Qed.

Lemma drift_spec : forall p d lits ix st r, length ix = length st ->
  let '(st', r') := ps_drift p d lits ix st r in
  length st' = length st /\ r' = advance (outside lits ix (length ix)) r /\
  forall i, (i < length st)%nat -> nth i st' 0 = nth i st 0 +
    (if memb (nth i ix O) lits then 0 else if Qle_bool (draw r (outside lits ix i)) p then d else 0).
Proof.
  intros p d lits ix. induction ix as [|l ix IH]; intros [|v st] r H; try discriminate; cbn [ps_drift].
  - split; auto. split; [symmetry; apply advance_0|]. cbn [length]. lia.
  - assert (H' : length ix = length st) by (cbn in H; lia).
    destruct (memb l lits) eqn:M.
    + specialize (IH st r H'). destruct (ps_drift p d lits ix st r) as [t r1]. destruct IH as [L [R C]]. unfold outside in *.
      cbn [length firstn filter]. rewrite M. cbn [negb]. split; [lia|]. split; auto.
      intros [|i] Hi; cbn [nth firstn filter]; rewrite ?M; [lia|]. cbn [negb]. apply C. lia.
    + rewrite draw_le_eq. specialize (IH st (advance 1 r) H'). destruct (ps_drift p d lits ix st (advance 1 r)) as [t r1]. destruct IH as [L [R C]]. unfold outside in *.
      cbn [length firstn filter]. rewrite M. cbn [negb length]. split; [lia|]. split; [rewrite R, advance_advance; reflexivity|].
      intros [|i] Hi; cbn [nth firstn filter]; rewrite ?M; cbn [negb length].
      * destruct (Qle_bool _ _); lia.
      * rewrite C by lia. rewrite draw_advance. reflexivity.
Qed.

Theorem t1a_spec : forall n s lits q ap an r, side_ok n (r_prow q) (r_psts q) -> side_ok n (r_nrow q) (r_nsts q) -> NoDup lits ->
  (length ap <= 7)%nat -> (length an <= 7)%nat ->
  let pix := r_prow q in let nix := r_nrow q in
  let u := used pix nix lits (length lits) in
  exists q', ps_t1a s lits q ap an r =
    Ok (q', seen pix lits ap, seen nix lits an, advance (u + outside lits pix (length pix) + outside lits nix (length nix)) r) /\
    r_prow q' = pix /\ r_nrow q' = nix /\ length (r_psts q') = length pix /\ length (r_nsts q') = length nix /\
    (forall i j, (i < length pix)%nat -> nth_error lits j = Some (nth i pix O) ->
       nth i (r_psts q') 0 = nth i (r_psts q) 0 + (if Qle_bool (draw r (used pix nix lits j)) ((s - 1) / s) then 1 else 0)) /\
    (forall i, (i < length pix)%nat -> ~ In (nth i pix O) lits ->
       nth i (r_psts q') 0 = nth i (r_psts q) 0 - (if Qle_bool (draw r (u + outside lits pix i)) (1 / s) then 1 else 0)) /\
    (forall i j, (i < length nix)%nat -> nth_error lits j = Some (nth i nix O) ->
       nth i (r_nsts q') 0 = nth i (r_nsts q) 0 -
         (if Qle_bool (draw r (used pix nix lits j + (if memb (nth i nix O) pix then 1 else 0))) (1 / s) then 1 else 0)) /\
    (forall i, (i < length nix)%nat -> ~ In (nth i nix O) lits ->
       nth i (r_nsts q') 0 = nth i (r_nsts q) 0 +
         (if Qle_bool (draw r (u + outside lits pix (length pix) + outside lits nix i)) ((s - 1) / s) then 1 else 0)).
Proof.
  intros n s lits q ap an r [LP [NP _]] [LN [NN _]] ND HP HN pix nix u. unfold ps_t1a.
  destruct (t1a_loop_spec (1 / s) ((s - 1) / s) pix nix lits (r_psts q) (r_nsts q) ap an r NP NN LP LN ND HP HN)
    as [ps [ns [E [L1 [L2 [U1 [U2 [T1 T2]]]]]]]].
  fold pix nix. rewrite E. cbn [rbind].
  pose proof (drift_spec (1 / s) (-1) lits pix ps (advance u r) ltac:(unfold pix; lia)) as D1. unfold u in D1 at 1.
  destruct (ps_drift _ (-1) lits pix ps _) as [ps' r1]. destruct D1 as [M1 [R1 C1]].
  pose proof (drift_spec ((s - 1) / s) 1 lits nix ns r1 ltac:(unfold nix; lia)) as D2.
  destruct (ps_drift _ 1 lits nix ns r1) as [ns' r2]. destruct D2 as [M2 [R2 C2]].
  assert (R1' : r1 = advance (u + outside lits pix (length pix)) r) by (rewrite R1, advance_advance; reflexivity).
  exists (mkR pix ps' nix ns'). cbn [r_prow r_psts r_nrow r_nsts].
  split; [f_equal; f_equal; rewrite R2, R1', advance_advance; reflexivity|].
  split; auto. split; auto. split; [unfold pix; lia|]. split; [unfold nix; lia|].
  split; [|split; [|split]].
  - intros i j Hi Hj. rewrite C1 by (unfold pix in *; lia). rewrite (T1 i j) by (auto; unfold pix in *; lia).
    rewrite (proj2 (memb_In (nth i pix O) lits)) by (eapply nth_error_In; eauto). lia.
  - intros i Hi NI. rewrite C1 by (unfold pix in *; lia). rewrite (U1 i) by (auto; unfold pix in *; lia).
    rewrite (proj2 (memb_not_In (nth i pix O) lits)) by auto. rewrite draw_advance. destruct (Qle_bool _ _); lia.
  - intros i j Hi Hj. rewrite C2 by (unfold nix in *; lia). rewrite (T2 i j) by (auto; unfold nix in *; lia).
    rewrite (proj2 (memb_In (nth i nix O) lits)) by (eapply nth_error_In; eauto). lia.
  - intros i Hi NI. rewrite C2 by (unfold nix in *; lia). rewrite (U2 i) by (auto; unfold nix in *; lia).
    rewrite (proj2 (memb_not_In (nth i nix O) lits)) by auto. rewrite R1', draw_advance. reflexivity.
Qed.
