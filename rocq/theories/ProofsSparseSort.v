(** Pruning and sorting of sparse clause vectors. *)
From Coq Require Import ZArith Arith List Bool Lia ZifyBool Sorted Permutation.
From Verif Require Import Base BaseProofs Spec ModelRuleSet ModelLayout ModelSparse SpecSparse.
Import ListNotations.
Open Scope Z_scope.

(** ** Pruning *)

(** prune_clause on literal/state pairs: the pair after an erased one is kept
    without being looked at. *)
Fixpoint prune_pairs (thr : Z) (l : list (nat * Z)) : list (nat * Z) :=
  match l with
  | [] => []
  | p :: t => if snd p <? thr then match t with [] => [] | q :: u => q :: prune_pairs thr u end
              else p :: prune_pairs thr t
  end.

Lemma erase_app : forall A (pre : list A) x post, erase (length pre) (pre ++ x :: post) = pre ++ post.
Proof.
  intros A pre x post. unfold erase. rewrite firstn_app, Nat.sub_diag, firstn_all. cbn [firstn]. rewrite app_nil_r. f_equal.
  induction pre as [|a pre IH]; [reflexivity|]. exact IH.
Qed.

Lemma prune_loop_eq : forall thr fuel pr ps l, length ps = length pr -> (length l <= fuel)%nat ->
  prune_loop thr fuel (length pr) (pr ++ map fst l) (ps ++ map snd l)
  = (pr ++ map fst (prune_pairs thr l), ps ++ map snd (prune_pairs thr l)).
Proof.
  intros thr fuel. induction fuel as [|f IH]; intros pr ps l HL HF.
  - destruct l; cbn [length] in HF; [|lia]. reflexivity.
  - destruct l as [|[x v] t]; cbn [prune_loop].
    + cbn [map prune_pairs]. rewrite app_nil_r. replace (length pr <? length pr)%nat with false by lia. rewrite app_nil_r. reflexivity.
    + cbn [map fst snd prune_pairs length] in *.
      replace (length pr <? length (pr ++ x :: map fst t))%nat with true by (rewrite app_length; cbn [length]; lia).
      rewrite (app_nth2 ps) by lia. rewrite <- HL at 1. rewrite Nat.sub_diag. cbn [nth].
      destruct (v <? thr).
      * rewrite erase_app. rewrite <- HL at 2. rewrite erase_app.
        destruct t as [|[y w] u].
        -- cbn [map]. rewrite !app_nil_r. destruct f; cbn [prune_loop]; [reflexivity|].
           replace (S (length pr) <? length pr)%nat with false by lia. reflexivity.
        -- cbn [map fst snd]. specialize (IH (pr ++ [y]) (ps ++ [w]) u). rewrite !app_length in IH. cbn [length] in IH, HF.
           rewrite <- !app_assoc in IH. cbn [app] in IH. rewrite Nat.add_1_r in IH. rewrite Nat.add_1_r in IH. apply IH; lia.
      * specialize (IH (pr ++ [x]) (ps ++ [v]) t). rewrite !app_length in IH. cbn [length map fst snd] in *.
        rewrite <- !app_assoc in IH. cbn [app] in IH. rewrite !Nat.add_1_r in IH. apply IH; lia.
Qed.

Lemma combine_fst : forall A B (l : list A) (m : list B), length l = length m -> map fst (combine l m) = l.
Proof. intros A B l. induction l as [|a l IH]; intros [|b m] H; cbn [length combine map fst] in *; try lia; auto. f_equal. apply IH. lia. Qed.
Lemma combine_snd : forall A B (l : list A) (m : list B), length l = length m -> map snd (combine l m) = m.
Proof. intros A B l. induction l as [|a l IH]; intros [|b m] H; cbn [length combine map snd] in *; try lia; auto. f_equal. apply IH. lia. Qed.
Lemma combine_map : forall A B (l : list (A * B)), combine (map fst l) (map snd l) = l.
Proof. intros A B l. induction l as [|[a b] l IH]; cbn [map combine fst snd]; congruence. Qed.

Lemma prune_clause_eq : forall thr row sts, length sts = length row ->
  prune_clause thr row sts = (map fst (prune_pairs thr (combine row sts)), map snd (prune_pairs thr (combine row sts))).
Proof.
  intros thr row sts H. unfold prune_clause.
  pose proof (prune_loop_eq thr (length row) [] [] (combine row sts)) as P. cbn [app length] in P.
  rewrite combine_fst, combine_snd in P by lia. apply P; auto. rewrite combine_length. lia.
Qed.

(** Order-preserving selection. *)
Inductive subseq {A} : list A -> list A -> Prop :=
| sub_nil : subseq [] []
| sub_keep : forall x l m, subseq l m -> subseq (x :: l) (x :: m)
| sub_drop : forall x l m, subseq l m -> subseq l (x :: m).

Lemma subseq_In : forall A (l m : list A), subseq l m -> forall x, In x l -> In x m.
Proof. intros A l m H. induction H; intros y Hy; auto; [destruct Hy; [left|right]; auto|right; auto]. Qed.
Lemma subseq_length : forall A (l m : list A), subseq l m -> (length l <= length m)%nat.
Proof. intros A l m H. induction H; cbn [length]; lia. Qed.
Lemma subseq_Forall : forall A (P : A -> Prop) l m, subseq l m -> Forall P m -> Forall P l.
Proof. intros A P l m H F. rewrite Forall_forall in *. intros x Hx. apply F. eapply subseq_In; eauto. Qed.
Lemma subseq_sorted : forall A (R : A -> A -> Prop) l m, subseq l m -> StronglySorted R m -> StronglySorted R l.
Proof.
  intros A R l m H. induction H; intros S; [constructor| |]; inversion S as [|? ? S1 S2]; subst; auto.
  constructor; auto. eapply subseq_Forall; eauto.
Qed.
Lemma subseq_map : forall A B (f : A -> B) l m, subseq l m -> subseq (map f l) (map f m).
Proof. intros A B f l m H. induction H; cbn [map]; constructor; auto. Qed.

Lemma list_ind2 : forall A (P : list A -> Prop), P [] -> (forall x, P [x]) -> (forall x y l, P l -> P (y :: l) -> P (x :: y :: l)) -> forall l, P l.
Proof.
  intros A P H0 H1 H2 l. assert (P l /\ forall x, P (x :: l)) as [K _]; [|exact K].
  induction l as [|a l [I1 I2]]; split; auto.
Qed.

Lemma prune_pairs_subseq : forall thr l, subseq (prune_pairs thr l) l.
Proof.
  intros thr l. induction l as [|p|p q l H1 H2] using list_ind2.
  - constructor.
  - cbn [prune_pairs]. destruct (snd p <? thr); repeat constructor.
  - cbn [prune_pairs] in *. destruct (snd p <? thr); [repeat constructor; auto|constructor; exact H2].
Qed.

(** Every automaton at or above the threshold is kept, in order. *)
Lemma prune_pairs_keeps : forall thr l,
  filter (fun p : nat * Z => thr <=? snd p) (prune_pairs thr l) = filter (fun p => thr <=? snd p) l.
Proof.
  intros thr l. induction l as [|p|p q l H1 H2] using list_ind2; auto.
  - cbn [prune_pairs]. destruct (Z.ltb_spec (snd p) thr); auto. cbn [filter]. replace (thr <=? snd p) with false by lia. reflexivity.
  - cbn [prune_pairs] in *. destruct (Z.ltb_spec (snd p) thr).
    + cbn [filter]. replace (thr <=? snd p) with false by lia. rewrite H1. reflexivity.
    + cbn [filter] in *. replace (thr <=? snd p) with true by lia. f_equal. exact H2.
Qed.

Definition below (thr : Z) (l : list (nat * Z)) : nat := length (filter (fun p : nat * Z => snd p <? thr) l).

(** At most half of the automata below the threshold remain. *)
Lemma prune_pairs_halves : forall thr l, (2 * below thr (prune_pairs thr l) <= below thr l)%nat.
Proof.
  intros thr l. unfold below. induction l as [|p|p q l H1 H2] using list_ind2; auto.
  - cbn [prune_pairs]. destruct (snd p <? thr) eqn:E; cbn [filter]; rewrite E; cbn [length]; lia.
  - cbn [prune_pairs] in *. destruct (snd p <? thr) eqn:E.
    + cbn [filter] in *. rewrite E. cbn [length]. destruct (snd q <? thr); cbn [length]; lia.
    + cbn [filter] in *. rewrite E. exact H2.
Qed.

(** No two neighbours below the threshold: exactly the automata below it go. *)
Lemma prune_pairs_exact : forall thr l,
  (forall i, (S i < length l)%nat -> thr <= snd (nth i l (O, 0)) \/ thr <= snd (nth (S i) l (O, 0))) ->
  prune_pairs thr l = filter (fun p => thr <=? snd p) l.
Proof.
  intros thr l. induction l as [|p|p q l H1 H2] using list_ind2; intros H; auto.
  - cbn [prune_pairs filter]. destruct (Z.ltb_spec (snd p) thr); [replace (thr <=? snd p) with false by lia|replace (thr <=? snd p) with true by lia]; reflexivity.
  - cbn [prune_pairs filter] in *. destruct (Z.ltb_spec (snd p) thr).
    + replace (thr <=? snd p) with false by lia. pose proof (H O ltac:(cbn [length]; lia)) as HH. cbn [nth] in HH.
      replace (thr <=? snd q) with true by lia. f_equal. apply H1. intros i Hi. apply (H (S (S i))). cbn [length]. lia.
    + replace (thr <=? snd p) with true by lia. f_equal. apply H2. intros i Hi. apply (H (S i)). cbn [length] in *. lia.
Qed.

(** ** Sorting *)

Definition dp : nat * Z := (O, 0).
Definition key (l : list (nat * Z)) (p : nat) : nat := fst (nth p l dp).

Lemma swap_at_length : forall A (d : A) j l, length (swap_at d j l) = length l.
Proof. intros. unfold swap_at. now rewrite !set_nth_length. Qed.

Lemma swap_at_map : forall A B (f : A -> B) d j l, swap_at (f d) j (map f l) = map f (swap_at d j l).
Proof.
  intros A B f d j l. unfold swap_at. rewrite !map_nth.
  assert (K : forall i x m, set_nth i (f x) (map f m) = map f (set_nth i x m)).
  { intros i x m. revert i. induction m as [|y m IH]; intros [|i]; cbn [set_nth map]; auto. now rewrite IH. }
  now rewrite !K.
Qed.

Lemma swap_at_perm : forall A (d : A) j l, (S j < length l)%nat -> Permutation (swap_at d j l) l.
Proof.
  intros A d j. unfold swap_at. induction j as [|j IH]; intros [|a [|b l]] H; cbn [length] in H; try lia.
  - cbn [nth set_nth]. apply perm_swap.
  - specialize (IH (b :: l) ltac:(cbn [length]; lia)). cbn [nth set_nth] in *. constructor. exact IH.
Qed.

Lemma swap_nth : forall l j p, (S j < length l)%nat ->
  key (swap_at dp j l) p = if (p =? j)%nat then key l (S j) else if (p =? S j)%nat then key l j else key l p.
Proof.
  intros l j p H. unfold key, swap_at.
  destruct (Nat.eqb_spec p j) as [E|E].
  - subst. rewrite nth_set_nth_eq by (rewrite set_nth_length; lia). reflexivity.
  - rewrite nth_set_nth_neq by lia. destruct (Nat.eqb_spec p (S j)) as [F|F].
    + subst. rewrite nth_set_nth_eq by lia. reflexivity.
    + rewrite nth_set_nth_neq by lia. reflexivity.
Qed.

(** One comparison on pairs. *)
Definition pstep (j : nat) (s : list (nat * Z) * bool) : list (nat * Z) * bool :=
  let '(l, sw) := s in if (key l (S j) <? key l j)%nat then (swap_at dp j l, true) else s.
Definition unpair (s : list (nat * Z) * bool) : list nat * list Z * bool := (map fst (fst s), map snd (fst s), snd s).

Lemma bubble_step_pairs : forall j s, bubble_step j (unpair s) = unpair (pstep j s).
Proof.
  intros j [l sw]. unfold unpair, bubble_step, pstep, key. cbn [fst snd].
  change O with (fst dp) at 1 2. rewrite !(map_nth fst l dp).
  destruct (fst (nth (S j) l dp) <? fst (nth j l dp))%nat; [|reflexivity]. cbn [fst snd].
  change O with (fst dp). change 0 with (snd dp). rewrite !swap_at_map. reflexivity.
Qed.

Lemma pass_pairs : forall m s, for_loop m bubble_step (unpair s) = unpair (for_loop m pstep s).
Proof. intros m s. induction m as [|m IH]; cbn [for_loop]; auto. now rewrite IH, bubble_step_pairs. Qed.

(** What a pass over the first [m] comparisons does. *)
Lemma pass_spec : forall m l sw, (m < length l)%nat ->
  let '(l', sw') := for_loop m pstep (l, sw) in
  Permutation l' l /\ (forall p, (m < p)%nat -> key l' p = key l p) /\ (forall p, (p <= m)%nat -> (key l' p <= key l' m)%nat) /\
  (forall p, (p <= m)%nat -> exists p', (p' <= m)%nat /\ key l' p = key l p') /\
  (sw = true -> sw' = true) /\ (sw' = false -> l' = l /\ forall j, (j < m)%nat -> (key l j <= key l (S j))%nat).
Proof.
  intros m. induction m as [|m IH]; intros l sw Hm; cbn [for_loop].
  - split; [reflexivity|]. split; [auto|]. split; [intros p Hp; replace p with O by lia; auto|].
    split; [intros p Hp; exists p; auto|]. split; [auto|]. intros _. split; [auto|]. intros j Hj. lia.
  - specialize (IH l sw ltac:(lia)). destruct (for_loop m pstep (l, sw)) as [l1 sw1].
    destruct IH as [H1 [H2 [H3 [H4 [H5 H6]]]]]. unfold pstep.
    assert (L1 : length l1 = length l) by (apply Permutation_length; auto).
    destruct (Nat.ltb_spec (key l1 (S m)) (key l1 m)) as [C|C].
    + split; [etransitivity; [apply swap_at_perm; lia|auto]|].
      assert (SN : forall p, key (swap_at dp m l1) p = if (p =? m)%nat then key l1 (S m) else if (p =? S m)%nat then key l1 m else key l1 p) by (intros; apply swap_nth; lia).
      split; [|split; [|split; [|split]]].
      * intros p Hp. rewrite SN. destruct (Nat.eqb_spec p m); [lia|]. destruct (Nat.eqb_spec p (S m)); [lia|]. apply H2. lia.
      * intros p Hp. rewrite !SN. rewrite (proj2 (Nat.eqb_neq (S m) m)) by lia. rewrite Nat.eqb_refl.
        destruct (Nat.eqb_spec p m); [lia|]. destruct (Nat.eqb_spec p (S m)); [lia|]. apply H3. lia.
      * intros p Hp. rewrite SN. destruct (Nat.eqb_spec p m).
        -- exists (S m). split; [lia|apply H2; lia].
        -- destruct (Nat.eqb_spec p (S m)); [destruct (H4 m ltac:(lia)) as [q [Q1 Q2]]|destruct (H4 p ltac:(lia)) as [q [Q1 Q2]]]; exists q; split; auto; lia.
      * auto.
      * discriminate.
    + split; [auto|]. split; [|split; [|split; [|split]]].
      * intros p Hp. apply H2. lia.
      * intros p Hp. destruct (Nat.eq_dec p (S m)) as [E|E]; [subst; auto|]. specialize (H3 p ltac:(lia)). lia.
      * intros p Hp. destruct (Nat.eq_dec p (S m)) as [E|E].
        -- subst. exists (S m). split; [lia|apply H2; lia].
        -- destruct (H4 p ltac:(lia)) as [q [Q1 Q2]]. exists q. split; auto.
      * auto.
      * intros E. destruct (H6 E) as [E1 E2]. split; auto. intros j Hj. destruct (Nat.eq_dec j m) as [F|F].
        -- subst. exact C.
        -- apply E2. lia.
Qed.

Definition sorted_from (l : list (nat * Z)) (q0 : nat) : Prop :=
  forall p q, (p < q)%nat -> (q < length l)%nat -> (q0 <= q)%nat -> (key l p <= key l q)%nat.

Lemma pass_extends : forall i l sw, (i < length l)%nat -> sorted_from l (length l - i) ->
  sorted_from (fst (for_loop (length l - i - 1) pstep (l, sw))) (length l - S i).
Proof.
  intros i l sw Hi HS. pose proof (pass_spec (length l - i - 1) l sw ltac:(lia)) as P.
  destruct (for_loop (length l - i - 1) pstep (l, sw)) as [l' sw']. cbn [fst]. destruct P as [P1 [P2 [P3 [P4 _]]]].
  assert (L : length l' = length l) by (apply Permutation_length; auto).
  intros p q Hpq Hq Hq0. rewrite L in Hq. set (m := (length l - i - 1)%nat) in *.
  destruct (Nat.eq_dec q m) as [E|E]; [subst; apply P3; lia|].
  rewrite (P2 q) by lia. destruct (Nat.le_gt_cases p m) as [F|F].
  - destruct (P4 p F) as [p' [F1 F2]]. rewrite F2. apply HS; lia.
  - rewrite (P2 p) by lia. apply HS; lia.
Qed.

Fixpoint pbubble (fuel i : nat) (s : list (nat * Z) * bool) : list (nat * Z) * bool :=
  match fuel with
  | O => s
  | S f => let s := for_loop (length (fst s) - i - 1) pstep s in if negb (snd s) then s else pbubble f (S i) s
  end.
Lemma bubble_pairs : forall fuel i s, bubble_loop fuel i (unpair s) = unpair (pbubble fuel i s).
Proof.
  intros fuel. induction fuel as [|f IH]; intros i s; cbn [bubble_loop pbubble]; auto.
  replace (length (fst (fst (unpair s)))) with (length (fst s)) by (unfold unpair; cbn [fst]; now rewrite map_length).
  rewrite pass_pairs. destruct (for_loop _ pstep s) as [l' [|]].
  - cbn [unpair snd fst negb]. apply IH.
  - reflexivity.
Qed.

Lemma pbubble_true : forall fuel i l, (i + fuel = length l)%nat -> sorted_from l (length l - i) ->
  Permutation (fst (pbubble fuel i (l, true))) l /\ sorted_from (fst (pbubble fuel i (l, true))) 0.
Proof.
  intros fuel. induction fuel as [|f IH]; intros i l HL HS; cbn [pbubble].
  - cbn [fst]. split; [reflexivity|]. replace (length l - i)%nat with O in HS by lia. exact HS.
  - cbn [fst]. pose proof (pass_spec (length l - i - 1) l true ltac:(lia)) as P. pose proof (pass_extends i l true ltac:(lia) HS) as Q.
    destruct (for_loop (length l - i - 1) pstep (l, true)) as [l' sw']. destruct P as [P1 [_ [_ [_ [P5 _]]]]].
    rewrite P5 by auto. cbn [snd fst negb] in *. assert (L : length l' = length l) by (apply Permutation_length; auto).
    destruct (IH (S i) l') as [R1 R2]; [lia|rewrite L; exact Q|]. split; auto. etransitivity; eauto.
Qed.

Lemma pbubble_sorts : forall l, l <> [] ->
  Permutation (fst (pbubble (length l) 0 (l, false))) l /\ sorted_from (fst (pbubble (length l) 0 (l, false))) 0.
Proof.
  intros l Hl. destruct (length l) as [|n] eqn:EL; [apply length_zero_iff_nil in EL; easy|]. cbn [pbubble fst]. rewrite EL.
  replace (S n - 0 - 1)%nat with n by lia.
  pose proof (pass_spec n l false ltac:(lia)) as P. pose proof (pass_extends 0 l false ltac:(lia)) as Q. rewrite EL in Q.
  replace (S n - 0 - 1)%nat with n in Q by lia. replace (S n - 0)%nat with (S n) in Q by lia.
  destruct (for_loop n pstep (l, false)) as [l' sw']. destruct P as [P1 [_ [_ [_ [_ P6]]]]]. cbn [snd fst] in *.
  assert (L : length l' = S n) by (rewrite <- EL; apply Permutation_length; auto).
  destruct sw'; cbn [negb].
  - destruct (pbubble_true n 1 l') as [R1 R2]; [lia| |split; auto; etransitivity; eauto].
    rewrite L. apply Q. intros p q H1 H2 H3. lia.
  - cbn [fst]. split; auto. destruct (P6 eq_refl) as [-> P7]. intros p q Hpq Hq _. rewrite EL in Hq.
    induction Hpq as [|q Hpq IH]; [apply P7; lia|]. specialize (IH ltac:(lia)). specialize (P7 q ltac:(lia)). lia.
Qed.

Lemma sorted_nodup_increasing : forall l, sorted_from l 0 -> NoDup (map fst l) -> increasing (map fst l).
Proof.
  intros l. induction l as [|a l IH]; intros S N; cbn [map] in *; [constructor|]. inversion N as [|? ? N1 N2]; subst.
  constructor.
  - apply IH; auto. intros p q H1 H2 _. apply (S (Datatypes.S p) (Datatypes.S q)); cbn [length]; lia.
  - apply Forall_forall. intros x Hx. destruct (In_nth _ _ O Hx) as [q [Q1 Q2]]. rewrite map_length in Q1.
    change O with (fst dp) in Q2. rewrite map_nth in Q2.
    specialize (S O (Datatypes.S q) ltac:(lia) ltac:(cbn [length]; lia) ltac:(lia)). unfold key in S. cbn [nth] in S.
    assert (x <> fst a) by (intros C; apply N1; now rewrite <- C). lia.
Qed.

(** sort_clauses_and_states: the same pairs, in increasing literal order. *)
Theorem sort_clause_spec : forall row sts, length sts = length row -> NoDup row ->
  let '(row', sts') := sort_clause row sts in
  length sts' = length row' /\ Permutation (combine row' sts') (combine row sts) /\ increasing row'.
Proof.
  intros row sts HL HN.
  assert (K : exists l, sort_clause row sts = (map fst l, map snd l) /\ Permutation l (combine row sts) /\ (sorted_from l 0)).
  { assert (U : (row, sts, false) = unpair (combine row sts, false)).
    { unfold unpair. cbn [fst snd]. now rewrite combine_fst, combine_snd by lia. }
    unfold sort_clause. destruct (Nat.eqb_spec (length row) 1) as [E|E].
    - exists (combine row sts). rewrite combine_fst, combine_snd by lia. split; auto. split; auto.
      intros p q H1 H2 _. rewrite combine_length in H2. lia.
    - destruct (Nat.eqb_spec (length row) 2) as [F|F].
      + destruct row as [|a [|b [|c row]]]; cbn [length] in F; try lia. destruct sts as [|x [|y [|z sts]]]; cbn [length] in HL; try lia.
        cbn [nth]. destruct (Nat.ltb_spec b a).
        * exists [(b, y); (a, x)]. split; [reflexivity|]. split; [apply perm_swap|].
          intros [|p] [|[|q]] H1 H2 _; cbn [length] in H2; try lia. unfold key. cbn [nth fst]. lia.
        * exists [(a, x); (b, y)]. split; [reflexivity|]. split; [reflexivity|].
          intros [|p] [|[|q]] H1 H2 _; cbn [length] in H2; try lia. unfold key. cbn [nth fst]. lia.
      + rewrite U, bubble_pairs. destruct row as [|a row].
        * destruct sts; cbn [length] in HL; [|lia]. exists []. split; [reflexivity|]. split; [reflexivity|]. intros p q H1 H2. cbn [length] in H2. lia.
        * set (l := combine (a :: row) sts). assert (LL : length l = length (a :: row)) by (unfold l; rewrite combine_length; lia).
          rewrite <- LL. exists (fst (pbubble (length l) 0 (l, false))). split; [reflexivity|].
          apply pbubble_sorts. intros C. rewrite C in LL. cbn [length] in LL. lia. }
  destruct K as [l [E [P S]]]. rewrite E. rewrite !map_length, combine_map. split; auto. split; auto.
  apply sorted_nodup_increasing; auto. apply (Permutation_map fst) in P. rewrite combine_fst in P by lia.
  eapply Permutation_NoDup; [symmetry; exact P|auto].
Qed.
