(** Clause outputs and votes of the scalar machine on the heap. *)
From Coq Require Import ZArith List Bool QArith Lia ZifyBool.
From Verif Require Import Base ModelHeap ModelDense ModelFeedback ModelTMHeap SpecHeap ProofsHeap ProofsTMHeap.
Import ListNotations.
Open Scope Z_scope.

(** What does not depend on the memory: sizes and pointers of an object. *)
Record wf_obj (bo : bool) (i : ids) (s : hstate) (nlit ncl ncls : nat) : Prop := {
  wo_fits : fits nlit ncl ncls;
  wo_ncl : hs_ncl s = Z.of_nat ncl;
  wo_nlit : hs_nlit s = Z.of_nat nlit;
  wo_lmem : hs_lmem s = Z.of_nat nlit;
  wo_ncls : hs_ncls s = Z.of_nat ncls;
  wo_wmem : hs_wmem s = Z.of_nat ncls;
  wo_distinct : NoDup (owned bo i);
  wo_pc : hs_clauses s = start (i_clauses i);
  wo_po : hs_outputs s = start (i_outputs i);
  wo_pv : hs_votes s = start (i_votes i);
  wo_pw : hs_weights s = start (i_weights i);
  wo_pl : bo = true -> hs_counts s = start (i_counts i)
}.
Lemma is_block_obj : forall bo ct i h s b, is_block bo ct i h s b ->
  wf_obj bo i s (b_nlit b) (length (b_clauses b)) (b_ncls b).
Proof.
  intros bo ct i h s b H. destruct H. constructor; auto; try tauto.
Qed.

Definition clen (n : nat) (c : clause) : Prop := length (cl_pos c) = n /\ length (cl_neg c) = n.

Lemma flat_len : forall n cs, Forall (clen n) cs -> length (flat_clauses cs) = (length cs * (n * 2))%nat.
Proof.
  intros n cs F. induction F as [|c cs [A B] F IH]; [reflexivity|].
  unfold flat_clauses in *. cbn [map concat length]. rewrite !app_length, IH, A, B. lia.
Qed.
Lemma flat_app : forall a b, flat_clauses (a ++ b) = flat_clauses a ++ flat_clauses b.
Proof. intros. unfold flat_clauses. now rewrite map_app, concat_app. Qed.
Lemma flat_mid : forall a c b,
  flat_clauses (a ++ c :: b) = row_in (flat_clauses a) (flat_clauses b) (cl_pos c) (cl_neg c).
Proof.
  intros. rewrite flat_app. unfold row_in, flat_clauses. cbn [map concat]. now rewrite <- app_assoc.
Qed.

Section Loops.
  Variables (ic io il : nat) (pre post : list Z) (oa ob : list Z) (outs lits : ptr) (ck : Z).
  Hypothesis Nco : ic <> io.
  Hypothesis Nlo : il <> io.
  Hypothesis Pouts : outs = start io.
  Hypothesis Plits : lits = start il.
  Hypothesis Ck : ck = Z.of_nat (length oa).

  Definition run (pd : nat) : ptr := Some (mkAddr ic (Z.of_nat (length pre) + Z.of_nat pd)).

  Lemma run_step : forall h p q k, holds h ic (row_in pre post p q) -> (k < length p + length q)%nat ->
    padd (run k) 1 h = Some (run (S k), h).
  Proof.
    intros. unfold run. replace (Z.of_nat (length pre) + Z.of_nat (S k)) with (Z.of_nat (length pre) + Z.of_nat k + 1) by lia.
    eapply padd_ok; [exact H|]. unfold row_in. rewrite map_length, !app_length. lia.
  Qed.
  Lemma load_run_pos : forall h pd p pr q, holds h ic (row_in pre post (pd ++ p :: pr) q) ->
    load (run (length pd)) h = Some (p, h).
  Proof.
    intros. eapply load_mid; [apply at_pos; exact H|]. rewrite app_length. lia.
  Qed.
  Lemma load_run_neg : forall h p qd q qr, holds h ic (row_in pre post p (qd ++ q :: qr)) ->
    load (run (length p + length qd)) h = Some (q, h).
  Proof.
    intros. eapply load_mid; [apply at_neg; exact H|]. rewrite !app_length. lia.
  Qed.

  Lemma set_zero : forall h x, holds h io (oa ++ x :: ob) ->
    exists h', store_at outs ck 0 h = Some (tt, h') /\ holds h' io (oa ++ 0 :: ob) /\ only [io] h h'.
  Proof. intros. subst. eapply store_at_mid; eauto. Qed.

  (** A test "if the automaton includes the literal and the literal has value v:
      output 0, break". *)
  Definition test (a : Z) (v : Z) (k : Z) : M bool :=
    if a >=? 0 then
      l <- load_at lits k ;;
      if l =? v then store_at outs ck 0 ;;; ret true else ret false
    else ret false.
  Lemma test_ok : forall a v ld l ls rest h x,
    cells h il (map Some (ld ++ l :: ls) ++ rest) -> holds h io (oa ++ x :: ob) ->
    exists h', test a v (Z.of_nat (length ld)) h = Some ((a >=? 0) && (l =? v), h') /\
      holds h' io (oa ++ (if (a >=? 0) && (l =? v) then 0 else x) :: ob) /\ only [io] h h' /\
      ((a >=? 0) && (l =? v) = false -> h' = h).
  Proof.
    intros a v ld l ls rest h x C H. unfold test. destruct (a >=? 0); cbn [andb].
    - rewrite Plits. erewrite bind_some by (eapply lit_load; eauto).
      destruct (l =? v).
      + destruct (set_zero h x H) as (h' & E & H' & U). exists h'.
        split; [erewrite bind_some by exact E; reflexivity|]. split; [auto|]. split; [auto|discriminate].
      + exists h. split; [reflexivity|]. split; [auto|]. split; [apply only_refl|auto].
    - exists h. split; [reflexivity|]. split; [auto|]. split; [apply only_refl|auto].
  Qed.

  Lemma set_loop : forall bo ps pd qd qs ld ls rest pc nc h,
    length pd = length ld -> length qd = length ld -> length ps = length ls -> length qs = length ls ->
    holds h ic (row_in pre post (pd ++ ps) (qd ++ qs)) ->
    holds h io (oa ++ 1 :: ob) ->
    cells h il (map Some (ld ++ ls) ++ rest) ->
    exists o p1 p2 pc' nc' h',
      set_output_loop bo ps qs ls pc nc = (o, pc' + nc') /\
      mfor (length ps) (Z.of_nat (length ld)) (h_set_body bo outs lits ck)
        (run (length ld), run (length (pd ++ ps) + length ld), pc, nc) h = Some ((p1, p2, pc', nc'), h') /\
      holds h' io (oa ++ o :: ob) /\ only [io] h h'.
  Proof.
    intros bo ps. induction ps as [|p pr IH]; intros pd qd qs ld ls rest pc nc h L1 L2 L3 L4 H HO C.
    - destruct ls; [|discriminate]. exists 1. do 2 eexists. exists pc, nc, h.
      split; [reflexivity|]. split; [reflexivity|]. split; [auto|apply only_refl].
    - destruct ls as [|l ls]; [discriminate|]. destruct qs as [|q qr]; [discriminate|].
      cbn [set_output_loop length mfor].
      assert (LP : load (run (length ld)) h = Some (p, h)) by (rewrite <- L1; eapply load_run_pos; exact H).
      assert (LQ : load (run (length (pd ++ p :: pr) + length ld)) h = Some (q, h))
        by (rewrite <- L2; eapply load_run_neg; exact H).
      unfold h_set_body at 1. unfold bind at 1 2. rewrite LP.
      fold (test p 0 (Z.of_nat (length ld))).
      destruct (test_ok p 0 ld l ls rest h 1 C HO) as (h1 & E1 & H1 & U1 & Q1).
      unfold bind at 1. rewrite E1.
      destruct ((p >=? 0) && (l =? 0)) eqn:T1.
      + exists 0. do 2 eexists. exists pc, nc, h1. split; [reflexivity|]. split; [reflexivity|]. split; auto.
      + rewrite (Q1 eq_refl) in *. clear Q1 U1.
        unfold bind at 1.
        erewrite run_step by (first [exact H|rewrite !app_length; cbn [length]; lia]).
        unfold bind at 1. rewrite LQ. fold (test q 1 (Z.of_nat (length ld))).
        destruct (test_ok q 1 ld l ls rest h 1 C HO) as (h2 & E2 & H2 & U2 & Q2).
        unfold bind at 1. rewrite E2.
        destruct ((q >=? 0) && (l =? 1)) eqn:T2.
        * exists 0. do 2 eexists. do 2 eexists. exists h2. split; [reflexivity|]. split; [reflexivity|]. split; auto.
        * rewrite (Q2 eq_refl) in *. clear Q2 U2.
          unfold bind at 1.
          erewrite run_step by (first [exact H|rewrite !app_length; cbn [length]; lia]).
          cbv beta iota delta [ret fst snd].
          destruct (IH (pd ++ [p]) (qd ++ [q]) qr (ld ++ [l]) ls rest
                      (if (p >=? 0) && bo then pc + 1 else pc) (if (q >=? 0) && bo then nc + 1 else nc) h)
            as (o & p1 & p2 & pc' & nc' & h' & S1 & S2 & S3 & S4).
          -- rewrite !app_length. cbn [length]. lia.
          -- rewrite !app_length. cbn [length]. lia.
          -- cbn [length] in L3. lia.
          -- cbn [length] in L4. lia.
          -- rewrite <- !app_assoc. exact H.
          -- exact HO.
          -- rewrite <- app_assoc. exact C.
          -- exists o, p1, p2, pc', nc', h'. split; [exact S1|]. split; [|split; auto].
             rewrite <- app_assoc in S2. cbn [app] in S2.
             rewrite <- S2. rewrite (app_length ld [l]). cbn [length].
             replace (Z.of_nat (length ld + 1)) with (Z.of_nat (length ld) + 1) by lia.
             do 2 f_equal. unfold run. repeat (f_equal; try lia).
  Qed.

  Lemma eval_loop : forall ps pd qd qs ld ls rest (em : bool) h,
    length pd = length ld -> length qd = length ld -> length ps = length ls -> length qs = length ls ->
    holds h ic (row_in pre post (pd ++ ps) (qd ++ qs)) ->
    holds h io (oa ++ 1 :: ob) ->
    cells h il (map Some (ld ++ ls) ++ rest) ->
    exists o p1 p2 (em' : bool) h',
      eval_output_loop ps qs ls em = (if em' then 0 else o) /\
      mfor (length ps) (Z.of_nat (length ld)) (h_eval_body outs lits ck)
        (run (length ld), run (length (pd ++ ps) + length ld), em) h = Some ((p1, p2, em'), h') /\
      holds h' io (oa ++ o :: ob) /\ only [io] h h'.
  Proof.
    intros ps. induction ps as [|p pr IH]; intros pd qd qs ld ls rest em h L1 L2 L3 L4 H HO C.
    - destruct ls; [|discriminate]. exists 1. do 2 eexists. exists em, h.
      split; [reflexivity|]. split; [reflexivity|]. split; [auto|apply only_refl].
    - destruct ls as [|l ls]; [discriminate|]. destruct qs as [|q qr]; [discriminate|].
      cbn [eval_output_loop length mfor].
      assert (LP : load (run (length ld)) h = Some (p, h)) by (rewrite <- L1; eapply load_run_pos; exact H).
      assert (LQ : load (run (length (pd ++ p :: pr) + length ld)) h = Some (q, h))
        by (rewrite <- L2; eapply load_run_neg; exact H).
      unfold h_eval_body at 1. unfold bind at 1 2. rewrite LP.
      fold (test p 0 (Z.of_nat (length ld))).
      destruct (test_ok p 0 ld l ls rest h 1 C HO) as (h1 & E1 & H1 & U1 & Q1).
      unfold bind at 1. rewrite E1.
      destruct ((p >=? 0) && (l =? 0)) eqn:T1.
      + exists 0. do 2 eexists. exists (if p >=? 0 then false else em), h1.
        split; [destruct (p >=? 0); [reflexivity|discriminate]|]. split; [reflexivity|]. split; auto.
      + rewrite (Q1 eq_refl) in *. clear Q1 U1.
        unfold bind at 1.
        erewrite run_step by (first [exact H|rewrite !app_length; cbn [length]; lia]).
        unfold bind at 1. rewrite LQ. fold (test q 1 (Z.of_nat (length ld))).
        destruct (test_ok q 1 ld l ls rest h 1 C HO) as (h2 & E2 & H2 & U2 & Q2).
        unfold bind at 1. rewrite E2.
        destruct ((q >=? 0) && (l =? 1)) eqn:T2.
        * exists 0. do 2 eexists. eexists. exists h2.
          split; [|split; [reflexivity|]; split; auto].
          destruct (q >=? 0); [reflexivity|discriminate].
        * rewrite (Q2 eq_refl) in *. clear Q2 U2.
          unfold bind at 1.
          erewrite run_step by (first [exact H|rewrite !app_length; cbn [length]; lia]).
          cbv beta iota delta [ret fst snd].
          destruct (IH (pd ++ [p]) (qd ++ [q]) qr (ld ++ [l]) ls rest
                      (if q >=? 0 then false else if p >=? 0 then false else em) h)
            as (o & p1 & p2 & em' & h' & S1 & S2 & S3 & S4).
          -- rewrite !app_length. cbn [length]. lia.
          -- rewrite !app_length. cbn [length]. lia.
          -- cbn [length] in L3. lia.
          -- cbn [length] in L4. lia.
          -- rewrite <- !app_assoc. exact H.
          -- exact HO.
          -- rewrite <- app_assoc. exact C.
          -- exists o, p1, p2, em', h'. split; [exact S1|]. split; [|split; auto].
             rewrite <- app_assoc in S2. cbn [app] in S2.
             rewrite <- S2. rewrite (app_length ld [l]). cbn [length].
             replace (Z.of_nat (length ld + 1)) with (Z.of_nat (length ld) + 1) by lia.
             do 2 f_equal. unfold run. repeat (f_equal; try lia).
  Qed.
End Loops.
