(** The native inference object stays inside its memory. *)
From Coq Require Import ZArith List Bool Lia ZifyBool.
From Verif Require Import Base BaseProofs Spec ModelRuleSet ProofsRuleSet ModelInference ProofsInference ModelPredictor ProofsPredictor ProofsTopInference ModelSparseImp ProofsSparseImp ModelInferImp SpecInferImp.
Import ListNotations.
Open Scope Z_scope.

Definition inf_of (o : iobj) : inference :=
  mkInf (io_nlit o) (io_ncls o) (io_empty o) (io_rules o) (io_weights o) (io_active o) (io_votes o) (io_implit o) (io_example o).

Lemma iadd_ok : forall a b, Z.abs (a + b) <= 2147483647 -> iadd a b = Ret (a + b) /\ wrap32 (a + b) = a + b.
Proof.
  intros a b H. unfold iadd, int_max. split.
  - destruct ((-2147483648 <=? a + b) && (a + b <=? 2147483647)) eqn:E; [reflexivity|lia].
  - apply wrap32_small. unfold is_int32. lia.
Qed.

(** ** predict *)

Lemma negate_eq : forall n (f : Z -> Z) e m i neg rest, length e = n -> length neg = i -> length rest = m -> (i + m = n)%nat ->
  fold_ix m i (fun i ex => v <- ix ex i; set_ix (n + i) (f v) ex) (e ++ neg ++ rest) = Ret (e ++ neg ++ map f (skipn i e)).
Proof.
  intros n f e m. induction m as [|m IH]; intros i neg rest He Hn Hr Hs; cbn [fold_ix].
  - destruct rest; [|discriminate]. rewrite skipn_all2 by lia. reflexivity.
  - destruct rest as [|r rest]; [discriminate|]. rewrite (ix_nth _ 0) by (rewrite !app_length; lia). cbn [bindR].
    rewrite app_nth1 by lia. rewrite set_ix_ok by (rewrite !app_length; cbn [length]; lia). cbn [bindR].
    rewrite app_assoc. replace (n + i)%nat with (length (e ++ neg)) by (rewrite app_length; lia). rewrite set_mid.
    rewrite <- app_assoc. replace (neg ++ f (nth i e 0) :: rest) with ((neg ++ [f (nth i e 0)]) ++ rest) by (rewrite <- app_assoc; reflexivity).
    rewrite IH; [|exact He|rewrite app_length; cbn [length]; lia|cbn [length] in Hr; lia|lia].
    rewrite <- app_assoc. cbn [app]. repeat f_equal.
    assert (S : skipn i e = nth i e 0 :: skipn (Datatypes.S i) e).
    { assert (L : (i < length e)%nat) by lia. clear - L. revert i L. induction e as [|a e IH]; intros [|i] L; cbn [length] in L; try lia; auto.
      cbn [skipn nth]. apply IH. lia. }
    rewrite S. reflexivity.
Qed.

Lemma example_eq : forall n x ex, (n <= length x)%nat -> length ex = (2 * n)%nat ->
  (e <- io_copy n x ex; io_negate n e) = Ret (extend_example n x).
Proof.
  intros n x ex Hx He. unfold io_copy. destruct ((n <=? length x)%nat && (n <=? length ex)%nat) eqn:E; [|lia]. cbn [bindR].
  unfold io_negate. pose proof (negate_eq n (fun v => if v =? 0 then 1 else 0) (firstn n x) n 0 [] (skipn n ex)) as N.
  cbn [app] in N. rewrite N; [|rewrite firstn_length; lia|reflexivity|rewrite skipn_length; lia|lia]. reflexivity.
Qed.

Lemma match_eq : forall ex rule, Forall (fun l => (l < length ex)%nat) rule -> io_match ex rule = Ret (rule_active ex rule).
Proof.
  intros ex rule H. unfold io_match.
  rewrite (scan_list nat unit (fun l => if nth l ex 0 =? 0 then Some tt else None)).
  - cbn [bindR]. f_equal. clear H. induction rule as [|l t IH]; cbn [first_some rule_active]; auto.
    destruct (nth l ex 0 =? 0); auto.
  - intros k l Hk. cbn [plus]. rewrite (ix_some _ _ _ _ Hk). cbn [bindR]. rewrite Forall_forall in H. apply nth_error_In in Hk.
    rewrite (ix_nth _ 0) by (apply H; auto). cbn [bindR]. reflexivity.
Qed.

Lemma vote_eq : forall ws k row wrow vs pre prew, ix ws k = Ret row -> row = prew ++ wrow -> length prew = length pre ->
  length vs = length wrow -> (forall i, (i < length wrow)%nat -> Z.abs (nth i vs 0 + nth i wrow 0) <= 2147483647) ->
  fold_ix (length wrow) (length pre) (fun i votes => v <- ix votes i; row <- ix ws k; w <- ix row i; s <- iadd v w; set_ix i s votes) (pre ++ vs)
  = Ret (pre ++ add32 vs wrow).
Proof.
  intros ws k row wrow. induction wrow as [|w wrow IH]; intros vs pre prew Hk Hr Hp Hl Hb; destruct vs as [|v vs]; try discriminate.
  - reflexivity.
  - cbn [length fold_ix].
    pose proof (Hb O ltac:(cbn; lia)) as B0. cbn [nth] in B0. destruct (iadd_ok v w B0) as [A1 A2].
    assert (St : (v0 <- ix (pre ++ v :: vs) (length pre); row0 <- ix ws k; w0 <- ix row0 (length pre); s <- iadd v0 w0;
                  set_ix (length pre) s (pre ++ v :: vs)) = Ret (pre ++ v + w :: vs)).
    { rewrite (ix_nth _ 0) by (rewrite app_length; cbn [length]; lia). cbn [bindR].
      rewrite Hk. cbn [bindR]. rewrite (ix_nth _ 0) by (rewrite Hr, app_length; cbn [length]; lia). cbn [bindR].
      rewrite app_nth2, Nat.sub_diag by lia. rewrite Hr. rewrite app_nth2 by lia. rewrite Hp, Nat.sub_diag. cbn [nth].
      rewrite A1. cbn [bindR]. rewrite set_ix_ok by (rewrite app_length; cbn [length]; lia). rewrite set_mid. reflexivity. }
    rewrite St. cbn [bindR]. clear St.
    replace (pre ++ v + w :: vs) with ((pre ++ [v + w]) ++ vs) by (rewrite <- app_assoc; reflexivity).
    replace (Datatypes.S (length pre)) with (length (pre ++ [v + w])) by (rewrite app_length; cbn [length]; lia).
    rewrite (IH vs (pre ++ [v + w]) (prew ++ [w])); auto.
    + rewrite <- app_assoc. cbn [app]. unfold add32. cbn [map2]. rewrite A2. reflexivity.
    + rewrite Hr, <- app_assoc. reflexivity.
    + rewrite !app_length. cbn [length]. lia.
    + intros i Hi. apply (Hb (Datatypes.S i)). cbn [length]. lia.
Qed.

Lemma add32_len : forall a b, length a = length b -> length (add32 a b) = length b.
Proof. intros a. induction a as [|x a IH]; intros [|y b] H; try discriminate; cbn [add32 map2 length] in *; auto. Qed.
Lemma add32_nth : forall a b i, length a = length b -> (i < length b)%nat -> Z.abs (nth i a 0 + nth i b 0) <= 2147483647 ->
  nth i (add32 a b) 0 = nth i a 0 + nth i b 0.
Proof.
  intros a. induction a as [|x a IH]; intros [|y b] i H Hi Hb; cbn [length] in *; try lia; try discriminate.
  destruct i as [|i]; cbn [add32 map2 nth] in *; [now apply iadd_ok|]. apply IH; auto; lia.
Qed.

Definition absum (c : nat) (ws : list (list Z)) : Z := zsum (map (fun w => Z.abs (nth c w 0)) ws).
Lemma absum_cons : forall c w ws, absum c (w :: ws) = Z.abs (nth c w 0) + absum c ws.
Proof. reflexivity. Qed.
Lemma absum_pos : forall c ws, 0 <= absum c ws.
Proof. intros c ws. induction ws as [|w ws IH]; [reflexivity|]. rewrite absum_cons. lia. Qed.

Lemma clauses_eq : forall o ex r2 w2 r1 w1 act votes,
  io_rules o = r1 ++ r2 -> io_weights o = w1 ++ w2 -> length w1 = length r1 -> length w2 = length r2 ->
  Forall (Forall (fun l => (l < length ex)%nat)) r2 -> Forall (fun w => length w = io_ncls o) w2 -> length votes = io_ncls o ->
  (forall c, (c < io_ncls o)%nat -> Z.abs (nth c votes 0) + absum c w2 <= 2147483647) ->
  fold_ix (length r2) (length r1) (fun k s =>
    rule <- ix (io_rules o) k;
    b <- io_match ex rule;
    if b then votes <- io_vote (io_ncls o) (io_weights o) k (snd s); Ret (fst s ++ [k], votes) else Ret s) (act, votes)
  = Ret (inf_clause_loop ex (length r1) r2 w2 act votes).
Proof.
  intros o ex r2. induction r2 as [|r r2 IH]; intros w2 r1 w1 act votes Hr Hw L1 L2 Hin Hlen Hv Hb; [reflexivity|].
  destruct w2 as [|w w2]; [discriminate|]. cbn [length fold_ix inf_clause_loop hd tl].
  assert (Ir : ix (io_rules o) (length r1) = Ret r).
  { rewrite Hr. rewrite (ix_nth _ []) by (rewrite app_length; cbn [length]; lia). rewrite app_nth2, Nat.sub_diag by lia. reflexivity. }
  rewrite Ir. cbn [bindR]. rewrite match_eq by (apply Forall_inv in Hin; auto). cbn [bindR].
  pose proof (Forall_inv Hlen) as Lw. apply Forall_inv_tail in Hlen. apply Forall_inv_tail in Hin. cbv beta in Lw.
  assert (Hr' : io_rules o = (r1 ++ [r]) ++ r2) by (rewrite <- app_assoc; exact Hr).
  assert (Hw' : io_weights o = (w1 ++ [w]) ++ w2) by (rewrite <- app_assoc; exact Hw).
  assert (L1' : length (w1 ++ [w]) = length (r1 ++ [r])) by (rewrite !app_length; cbn [length]; lia).
  assert (L3 : length (r1 ++ [r]) = Datatypes.S (length r1)) by (rewrite app_length; cbn [length]; lia).
  destruct (rule_active ex r).
  - unfold io_vote. cbn [fst snd]. rewrite <- Lw.
    assert (Iw : ix (io_weights o) (length r1) = Ret w).
    { rewrite Hw, <- L1. rewrite (ix_nth _ []) by (rewrite app_length; cbn [length]; lia). rewrite app_nth2, Nat.sub_diag by lia. reflexivity. }
    pose proof (vote_eq (io_weights o) (length r1) w w votes [] [] Iw eq_refl eq_refl ltac:(lia)) as V. cbn [length app] in V.
    assert (Bd : forall i, (i < length w)%nat -> Z.abs (nth i votes 0 + nth i w 0) <= 2147483647).
    { intros i Hi. specialize (Hb i ltac:(lia)). rewrite absum_cons in Hb. pose proof (absum_pos i w2). lia. }
    rewrite V by exact Bd. cbn [bindR]. rewrite Lw. rewrite <- L3.
    apply (IH w2 (r1 ++ [r]) (w1 ++ [w])); auto.
    + rewrite add32_len; lia.
    + intros c Hc. specialize (Hb c Hc). rewrite absum_cons in Hb. rewrite add32_nth; [lia|lia|lia|]. apply Bd. lia.
  - cbn [bindR]. rewrite <- L3. apply (IH w2 (r1 ++ [r]) (w1 ++ [w])); auto.
    intros c Hc. specialize (Hb c Hc). rewrite absum_cons in Hb. lia.
Qed.

Lemma argmax_loop_eq : forall vs pre votes bk bv, votes = pre ++ vs ->
  (s <- fold_ix (length vs) (length pre) (fun i s => v <- ix votes i; Ret (if v >? snd s then (i, v) else s)) (bk, bv); Ret (fst s))
  = Ret (argmax_loop (length pre) bk bv vs).
Proof.
  intros vs. induction vs as [|v vs IH]; intros pre votes bk bv Hv; [reflexivity|]. cbn [length fold_ix argmax_loop].
  rewrite Hv at 1. rewrite (ix_nth _ 0) by (rewrite app_length; cbn [length]; lia). rewrite app_nth2, Nat.sub_diag by lia. cbn [nth bindR snd].
  assert (L : Datatypes.S (length pre) = length (pre ++ [v])) by (rewrite app_length; cbn [length]; lia).
  destruct (v >? bv); rewrite L; apply IH; rewrite Hv, <- app_assoc; reflexivity.
Qed.
Lemma argmax_eq : forall votes, votes <> [] -> io_argmax (length votes) votes = Ret (argmax votes).
Proof.
  intros votes H. destruct votes as [|v vs]; [congruence|]. unfold io_argmax, argmax. cbn [ix nth_error bindR length].
  unfold ix at 1. cbn [nth_error bindR]. replace (Datatypes.S (length vs) - 1)%nat with (length vs) by lia.
  apply (argmax_loop_eq vs [v] (v :: vs) O v eq_refl).
Qed.

(** Shape of the object during a proper history. *)
Record shape (fl : iflags) (nlit ncls nexp : nat) (fresh fset : bool) (nr : nat) (o : iobj) : Prop := {
  sh_nlit : io_nlit o = nlit;
  sh_ncls : io_ncls o = ncls;
  sh_nexp : io_nexp o = nexp;
  sh_nr : length (io_rules o) = nr;
  sh_rules : rules_ok nlit ncls (io_rules o) (io_weights o);
  sh_feat : features_ok nexp (io_features o);
  sh_fset : fset = true -> length (io_features o) = nexp;
  sh_active : fresh = true -> NoDup (io_active o) /\ Forall (fun k => (k < nr)%nat) (io_active o);
  sh_lit : if f_lit fl then length (io_implit o) = (2 * nlit)%nat else io_implit o = [];
  sh_imp : if f_feat fl then length (io_impfeat o) = nexp else io_impfeat o = [];
  sh_votes : length (io_votes o) = ncls;
  sh_ex : length (io_example o) = (2 * nlit)%nat
}.

Lemma new_shape : forall fl nlit ncls nexp junk o, io_new fl nlit ncls nexp junk = Ret o ->
  shape fl nlit ncls (Z.to_nat nexp) true false 0 o.
Proof.
  intros fl nlit ncls nexp junk o H. unfold io_new in H. destruct (_ >? _); [discriminate|]. destruct (_ && _); [discriminate|].
  inversion H; subst o. constructor; cbn; auto.
  - split; [constructor|]. split; [reflexivity|]. split; [constructor|]. intros; cbn; lia.
  - constructor.
  - discriminate.
  - intros _. split; constructor.
  - destruct (f_lit fl); auto. rewrite repeat_length. lia.
  - destruct (f_feat fl); auto. now rewrite repeat_length.
  - apply repeat_length.
  - rewrite app_length, firstn_length, repeat_length. lia.
Qed.

Lemma loop_active_sorted : forall ex rules ws k act votes,
  exists new, fst (inf_clause_loop ex k rules ws act votes) = act ++ new /\ NoDup new /\ Forall (fun j => (k <= j < k + length rules)%nat) new.
Proof.
  intros ex rules. induction rules as [|r rules IH]; intros ws k act votes; cbn [inf_clause_loop length].
  - exists []. rewrite app_nil_r. repeat split; constructor.
  - destruct (rule_active ex r).
    + destruct (IH (tl ws) (Datatypes.S k) (act ++ [k]) (add32 votes (hd [] ws))) as [new [E [N F]]]. exists (k :: new). rewrite E, <- app_assoc.
      split; [reflexivity|]. split.
      * constructor; auto. intros I. rewrite Forall_forall in F. apply F in I. lia.
      * constructor; [lia|]. eapply Forall_impl; [|exact F]. cbn. intros; lia.
    + destruct (IH (tl ws) (Datatypes.S k) act votes) as [new [E [N F]]]. exists new. split; [auto|]. split; [auto|].
      eapply Forall_impl; [|exact F]. cbn. intros; lia.
Qed.
Lemma loop_votes_length : forall ex ncls rules ws k act votes, length ws = length rules -> Forall (fun w => length w = ncls) ws ->
  length votes = ncls -> length (snd (inf_clause_loop ex k rules ws act votes)) = ncls.
Proof.
  intros ex ncls rules. induction rules as [|r rules IH]; intros ws k act votes L F V; cbn [inf_clause_loop]; auto.
  destruct ws as [|w ws]; [discriminate|]. cbn [hd tl]. pose proof (Forall_inv F) as Lw. apply Forall_inv_tail in F. cbv beta in Lw. cbn [length] in L.
  destruct (rule_active ex r); apply IH; auto. rewrite add32_len; lia.
Qed.

Lemma extend_len : forall n x, (n <= length x)%nat -> length (extend_example n x) = (2 * n)%nat.
Proof. intros n x H. unfold extend_example. rewrite app_length, map_length, firstn_length. lia. Qed.

Theorem predict_eq : forall fl nlit ncls nexp fresh fset nr o x, shape fl nlit ncls nexp fresh fset nr o ->
  (nlit <= length x)%nat -> (1 <= ncls)%nat ->
  exists o', io_predict x o = Ret (fst (inf_predict (inf_of o) x), o') /\ inf_of o' = snd (inf_predict (inf_of o) x) /\
    io_features o' = io_features o /\ io_impfeat o' = io_impfeat o /\ io_nexp o' = io_nexp o /\
    shape fl nlit ncls nexp true fset nr o'.
Proof.
  intros fl nlit ncls nexp fresh fset nr o x Sh Hx Hc. destruct Sh as [S1 S2 S3 S4 S5 S6 S7 S8 S9 S10 S11 S12].
  pose proof S5 as [R1 [R2 [R3 R4]]].
  unfold io_predict, inf_predict. cbn [inf_of inf_nlit inf_ncls inf_rules inf_weights inf_empty inf_imp].
  pose proof (example_eq (io_nlit o) x (io_example o) ltac:(lia) ltac:(lia)) as Ex.
  destruct (io_copy (io_nlit o) x (io_example o)) as [e1| |]; try discriminate Ex. cbn [bindR] in *. rewrite Ex. cbn [bindR].
  set (ex := extend_example (io_nlit o) x) in *. assert (Le : length ex = (2 * nlit)%nat) by (unfold ex; rewrite extend_len; lia).
  unfold io_clauses. rewrite S11.
  pose proof (clauses_eq o ex (io_rules o) (io_weights o) [] [] [] (repeat 0 ncls) eq_refl eq_refl eq_refl R2) as Cl.
  cbn [length] in Cl. rewrite Cl; clear Cl.
  2:{ eapply Forall_impl; [|exact R1]. intros r [_ K]. eapply Forall_impl; [|exact K]. cbn. intros; lia. }
  2:{ rewrite S2. exact R3. }
  2:{ rewrite repeat_length. lia. }
  2:{ intros c Hcc. rewrite S2 in Hcc. specialize (R4 c Hcc). fold (absum c (io_weights o)) in R4. rewrite nth_repeat. lia. }
  cbn [bindR]. rewrite S2.
  destruct (loop_active_sorted ex (io_rules o) (io_weights o) 0 [] (repeat 0 ncls)) as [new [N1 [N2 N3]]]. cbn [app] in N1.
  pose proof (loop_votes_length ex ncls (io_rules o) (io_weights o) 0 [] (repeat 0 ncls) R2 R3 (repeat_length _ _)) as V.
  destruct (inf_clause_loop ex 0 (io_rules o) (io_weights o) [] (repeat 0 ncls)) as [act votes]. cbn [fst snd] in *. subst new.
  assert (Sh' : shape fl nlit ncls nexp true fset nr (mkIO (io_nlit o) (io_ncls o) (io_nexp o) (io_empty o) (io_rules o) (io_features o) (io_weights o)
      act (io_implit o) (io_impfeat o) votes ex)).
  { constructor; cbn; auto. intros _. split; auto. eapply Forall_impl; [|exact N3]. cbn. intros; lia. }
  rewrite S2 in Sh'. destruct act as [|a act].
  - eexists. split; [reflexivity|]. cbn [fst snd]. split; [unfold inf_of; cbn; rewrite ?S2; reflexivity|]. cbn. split; [reflexivity|]. split; [reflexivity|]. split; [reflexivity|]. rewrite ?S2. exact Sh'.
  - assert (Av : io_argmax ncls votes = Ret (argmax votes)).
    { rewrite <- V. apply argmax_eq. intros Z. rewrite Z in V. cbn in V. lia. }
    rewrite Av. cbn [bindR]. eexists. split; [reflexivity|]. cbn [fst snd]. split; [unfold inf_of; cbn; rewrite ?S2; reflexivity|]. cbn. split; [reflexivity|]. split; [reflexivity|]. split; [reflexivity|]. rewrite ?S2. exact Sh'.
Qed.

(** ** Explanations *)

(** Sum over the active clauses, in the terms of the code. *)
Definition feature_total (excl : bool) (features : list (list nat)) (ws : list (list Z)) (y : nat) (active : list nat) (f : nat) : Z :=
  zsum (map (fun k => let w := nth y (nth k ws []) 0 in
                      if excl && (w <? 1) then 0 else if existsb (Nat.eqb f) (nth k features []) then w else 0) active).


Lemma set_nth_len : forall A k (x : A) l, length (set_nth k x l) = length l.
Proof. intros A k x l. revert k. induction l as [|a l IH]; intros [|k]; cbn [set_nth length]; auto. Qed.
Lemma set_nth_same : forall k (x : Z) l, (k < length l)%nat -> nth k (set_nth k x l) 0 = x.
Proof. intros k x l. revert k. induction l as [|a l IH]; intros [|k] H; cbn [set_nth length nth] in *; try lia; auto. apply IH. lia. Qed.
Lemma set_nth_other : forall k j (x : Z) l, j <> k -> nth j (set_nth k x l) 0 = nth j l 0.
Proof. intros k j x l. revert k j. induction l as [|a l IH]; intros [|k] [|j] H; cbn [set_nth nth]; auto; try congruence. Qed.

Lemma add_importance_len : forall r w imp, length (add_importance imp r w) = length imp.
Proof. intros r w. induction r as [|l r IH]; intros imp; cbn [add_importance]; auto. rewrite IH. apply set_nth_len. Qed.

Lemma add_eq : forall w r pre idx imp, idx = pre ++ r -> NoDup r -> Forall (fun l => (l < length imp)%nat) r ->
  (forall l, In l r -> Z.abs (nth l imp 0) + Z.abs w <= 2147483647) ->
  fold_ix (length r) (length pre) (fun j imp => l <- ix idx j; v <- ix imp l; s <- iadd v w; set_ix l s imp) imp
    = Ret (add_importance imp r w) /\
  forall f, nth f (add_importance imp r w) 0 = nth f imp 0 + (if existsb (Nat.eqb f) r then w else 0).
Proof.
  intros w r. induction r as [|l r IH]; intros pre idx imp Hi N F Hb.
  - cbn [length fold_ix add_importance existsb]. split; [reflexivity|]. intros f. lia.
  - cbn [length fold_ix add_importance existsb]. rewrite Hi at 1. rewrite (ix_nth _ O) by (rewrite app_length; cbn [length]; lia).
    rewrite app_nth2, Nat.sub_diag by lia. cbn [nth bindR]. pose proof (Forall_inv F) as Fl. cbv beta in Fl. rewrite (ix_nth _ 0) by auto. cbn [bindR].
    pose proof (Hb l (or_introl eq_refl)) as Bl. destruct (iadd_ok (nth l imp 0) w ltac:(lia)) as [A1 A2]. rewrite A1. cbn [bindR].
    rewrite set_ix_ok by auto. cbn [bindR]. rewrite A2. inversion N as [|? ? N1 N2]; subst.
    replace (Datatypes.S (length pre)) with (length (pre ++ [l])) by (rewrite app_length; cbn [length]; lia).
    destruct (IH (pre ++ [l]) (pre ++ l :: r) (set_nth l (nth l imp 0 + w) imp)) as [E1 E2].
    + rewrite <- app_assoc. reflexivity.
    + auto.
    + rewrite set_nth_len. apply Forall_inv_tail in F. auto.
    + intros l' Hl'. rewrite set_nth_other by (intros ->; contradiction). apply Hb. right; auto.
    + rewrite E1. split; [reflexivity|]. intros f. rewrite E2. destruct (Nat.eqb_spec f l) as [->|Nf].
      * rewrite set_nth_same by auto. cbn [orb]. assert (X : existsb (Nat.eqb l) r = false).
        { apply not_true_iff_false. intros X. apply existsb_exists in X. destruct X as [z [Z1 Z2]]. apply Nat.eqb_eq in Z2. subst z. contradiction. }
        rewrite X. lia.
      * rewrite set_nth_other by auto. cbn [orb]. reflexivity.
Qed.

(** What the active clauses still to come may add. *)
Definition coming (y : nat) (ws : list (list Z)) (act : list nat) : Z := zsum (map (fun k => Z.abs (nth y (nth k ws []) 0)) act).
Lemma coming_cons : forall y ws k act, coming y ws (k :: act) = Z.abs (nth y (nth k ws []) 0) + coming y ws act.
Proof. reflexivity. Qed.
Lemma zsum_subset : forall (f : nat -> Z) act n, (forall k, 0 <= f k) -> NoDup act -> Forall (fun k => (k < n)%nat) act ->
  zsum (map f act) <= zsum (map f (seq 0 n)).
Proof.
  intros f act n Pos. assert (G : forall l l', NoDup l -> incl l l' -> zsum (map f l) <= zsum (map f l')).
  { intros l. induction l as [|a l IH]; intros l' N I.
    - cbn [map zsum]. clear I. induction l' as [|b l' IH']; cbn [map zsum]; [lia|]. specialize (Pos b). lia.
    - inversion N; subst. destruct (in_split a l' (I a (or_introl eq_refl))) as [u [v ->]].
      assert (K : zsum (map f l) <= zsum (map f (u ++ v))).
      { apply IH; auto. intros z Hz. assert (In z (u ++ a :: v)) by (apply I; right; auto). rewrite in_app_iff in *. cbn [In] in *.
        destruct H as [H|[H|H]]; auto. subst. contradiction. }
      rewrite map_app, zsum_app in *. cbn [map zsum]. lia. }
  intros N F. apply G; auto. intros k Hk. rewrite Forall_forall in F. apply in_seq. specialize (F k Hk). lia.
Qed.
Lemma absum_seq : forall y ws, zsum (map (fun k => Z.abs (nth y (nth k ws []) 0)) (seq 0 (length ws))) = absum y ws.
Proof.
  intros y ws. unfold absum. f_equal. induction ws as [|w ws IH]; [reflexivity|]. cbn [length seq map nth]. f_equal.
  rewrite <- seq_shift, map_map. exact IH.
Qed.

Lemma explain_loop : forall fl nlit ncls nexp fset nr o y (fresh := true), shape fl nlit ncls nexp fresh fset nr o -> (y < ncls)%nat ->
  (f_feat fl = true -> fset = true /\ (nr <= nexp)%nat) ->
  forall act pre lit feat, io_active o = pre ++ act ->
  (if f_lit fl then length lit = (2 * nlit)%nat else lit = []) -> (if f_feat fl then length feat = nexp else feat = []) ->
  (forall l, Z.abs (nth l lit 0) + coming y (io_weights o) act <= 2147483647) ->
  (forall l, Z.abs (nth l feat 0) + coming y (io_weights o) act <= 2147483647) ->
  exists feat', fold_ix (length act) (length pre) (fun a s =>
         k <- ix (io_active o) a;
         row <- ix (io_weights o) k;
         w <- ix row y;
         if f_excl fl && (w <? 1) then Ret s
         else
           feat <- (if f_feat fl then f <- ix (io_features o) k; io_add f w (snd s) else Ret (snd s));
           lit <- (if f_lit fl then r <- ix (io_rules o) k; io_add r w (fst s) else Ret (fst s));
           Ret (lit, feat)) (lit, feat)
    = Ret (importance_loop (f_excl fl) (io_rules o) (io_weights o) y act lit, feat') /\
    length feat' = length feat /\
    (f_feat fl = true -> forall f, nth f feat' 0 = nth f feat 0 + feature_total (f_excl fl) (io_features o) (io_weights o) y act f).
Proof.
  intros fl nlit ncls nexp fset nr o y fresh Sh Hy Hf act. destruct Sh as [S1 S2 S3 S4 S5 S6 S7 S8 S9 S10 S11 S12].
  destruct (S8 eq_refl) as [_ Ha]. clear S8. destruct S5 as [R1 [R2 [R3 R4]]].
  induction act as [|k act IH]; intros pre lit feat Hp Ll Lf Bl Bf.
  - exists feat. cbn [length fold_ix importance_loop]. split; [reflexivity|]. split; [reflexivity|]. intros _ f. unfold feature_total. cbn [map zsum]. lia.
  - cbn [length fold_ix importance_loop].
    assert (Ia : ix (io_active o) (length pre) = Ret k).
    { rewrite Hp. rewrite (ix_nth _ O) by (rewrite app_length; cbn [length]; lia). rewrite app_nth2, Nat.sub_diag by lia. reflexivity. }
    assert (Hk : (k < nr)%nat).
    { rewrite Hp in Ha. rewrite Forall_forall in Ha. apply Ha. apply in_app_iff. right; left; auto. }
    rewrite Ia. cbn [bindR]. rewrite (ix_nth _ []) by lia. cbn [bindR].
    assert (Lw : length (nth k (io_weights o) []) = ncls).
    { rewrite Forall_forall in R3. apply R3. apply nth_In. lia. }
    rewrite (ix_nth _ 0) by lia. cbn [bindR]. set (w := nth y (nth k (io_weights o) []) 0) in *.
    assert (Hp' : io_active o = (pre ++ [k]) ++ act) by (rewrite <- app_assoc; exact Hp).
    assert (Lp : Datatypes.S (length pre) = length (pre ++ [k])) by (rewrite app_length; cbn [length]; lia).
    assert (Bl' : forall l, Z.abs (nth l lit 0) + Z.abs w + coming y (io_weights o) act <= 2147483647).
    { intros l. specialize (Bl l). rewrite coming_cons in Bl. fold w in Bl. lia. }
    assert (Bf' : forall l, Z.abs (nth l feat 0) + Z.abs w + coming y (io_weights o) act <= 2147483647).
    { intros l. specialize (Bf l). rewrite coming_cons in Bf. fold w in Bf. lia. }
    assert (C0 : 0 <= coming y (io_weights o) act).
    { unfold coming. clear. induction act; cbn [map zsum]; lia. }
    destruct (f_excl fl && (w <? 1)) eqn:Ee.
    + cbn [bindR]. rewrite Lp. destruct (IH (pre ++ [k]) lit feat Hp' Ll Lf) as [feat' [E1 [E2 E3]]].
      * intros l. specialize (Bl' l). lia.
      * intros l. specialize (Bf' l). lia.
      * exists feat'. split; [exact E1|]. split; [exact E2|]. intros Ff f. rewrite (E3 Ff f). unfold feature_total. cbn [map zsum]. fold w. rewrite Ee. lia.
    + cbn [fst snd].
      assert (Fe : exists fe, (if f_feat fl then f <- ix (io_features o) k; io_add f w feat else Ret feat) = Ret fe /\ length fe = length feat /\
        (forall l, Z.abs (nth l fe 0) <= Z.abs (nth l feat 0) + Z.abs w) /\
        (f_feat fl = true -> forall f, nth f fe 0 = nth f feat 0 + (if existsb (Nat.eqb f) (nth k (io_features o) []) then w else 0))).
      { destruct (f_feat fl) eqn:Ef.
        - destruct (Hf eq_refl) as [Hs Hn]. specialize (S7 Hs). rewrite (ix_nth _ []) by lia. cbn [bindR].
          assert (Fk : NoDup (nth k (io_features o) []) /\ Forall (fun l => (l < nexp)%nat) (nth k (io_features o) [])).
          { unfold features_ok in S6. rewrite Forall_forall in S6. apply S6. apply nth_In. lia. }
          destruct Fk as [F1 F2]. destruct (add_eq w (nth k (io_features o) []) [] (nth k (io_features o) []) feat eq_refl F1) as [A1 A2].
          + rewrite Lf. exact F2.
          + intros l _. specialize (Bf' l). lia.
          + exists (add_importance feat (nth k (io_features o) []) w). split; [exact A1|]. split; [apply add_importance_len|]. split; [|auto].
            intros l. rewrite A2. destruct (existsb _ _); lia.
        - exists feat. split; [reflexivity|]. split; [reflexivity|]. split; [intros; lia|discriminate]. }
      destruct Fe as [fe [F1 [F2 [F3 F4]]]]. rewrite F1. cbn [bindR].
      assert (Li : (if f_lit fl then r <- ix (io_rules o) k; io_add r w lit else Ret lit) = Ret (add_importance lit (nth k (io_rules o) []) w) /\
        forall l, Z.abs (nth l (add_importance lit (nth k (io_rules o) []) w) 0) <= Z.abs (nth l lit 0) + Z.abs w).
      { destruct (f_lit fl) eqn:El.
        - rewrite (ix_nth _ []) by lia. cbn [bindR].
          assert (Rk : NoDup (nth k (io_rules o) []) /\ Forall (fun l => (l < 2 * nlit)%nat) (nth k (io_rules o) [])).
          { rewrite Forall_forall in R1. apply R1. apply nth_In. lia. }
          destruct Rk as [K1 K2]. destruct (add_eq w (nth k (io_rules o) []) [] (nth k (io_rules o) []) lit eq_refl K1) as [A1 A2].
          + rewrite Ll. exact K2.
          + intros l _. specialize (Bl' l). lia.
          + split; [exact A1|]. intros l. rewrite A2. destruct (existsb _ _); lia.
        - subst lit. assert (E : add_importance [] (nth k (io_rules o) []) w = []).
          { clear. generalize (nth k (io_rules o) []). intros r. induction r as [|l r IH]; cbn [add_importance]; auto. destruct l; cbn [set_nth]; auto. }
          rewrite E. split; [reflexivity|]. intros l. lia. }
      destruct Li as [L1 L2]. rewrite L1. cbn [bindR]. rewrite Lp.
      destruct (IH (pre ++ [k]) (add_importance lit (nth k (io_rules o) []) w) fe Hp') as [feat' [E1 [E2 E3]]].
      * destruct (f_lit fl); [rewrite add_importance_len; auto|]. subst lit. clear. generalize (nth k (io_rules o) []).
        intros r. induction r as [|l r IH]; cbn [add_importance]; auto. destruct l; cbn [set_nth]; auto.
      * destruct (f_feat fl); [rewrite F2; auto|]. destruct feat; [destruct fe; [auto|discriminate]|discriminate].
      * intros l. specialize (L2 l). specialize (Bl' l). lia.
      * intros l. specialize (F3 l). specialize (Bf' l). lia.
      * exists feat'. split; [exact E1|]. split; [lia|]. intros Ff f. rewrite (E3 Ff f), (F4 Ff f). unfold feature_total. cbn [map zsum]. fold w. rewrite Ee. lia.
Qed.

Theorem explain_eq : forall fl nlit ncls nexp fset nr o y, shape fl nlit ncls nexp true fset nr o -> (y < ncls)%nat ->
  (f_feat fl = true -> fset = true /\ (nr <= nexp)%nat) ->
  exists o', io_explain fl y o = Ret o' /\ inf_of o' = inf_explain (f_excl fl) (inf_of o) y /\
    io_features o' = io_features o /\ io_nexp o' = io_nexp o /\
    (f_feat fl = true -> io_impfeat o' = map (feature_total (f_excl fl) (io_features o) (io_weights o) y (io_active o)) (seq 0 nexp)) /\
    shape fl nlit ncls nexp true fset nr o'.
Proof.
  intros fl nlit ncls nexp fset nr o y Sh Hy Hf. unfold io_explain, inf_explain. cbn [inf_of inf_rules inf_weights inf_active inf_imp].
  pose proof Sh as [S1 S2 S3 S4 S5 S6 S7 S8 S9 S10 S11 S12]. pose proof S5 as [R1 [R2 [R3 R4]]]. destruct (S8 eq_refl) as [Na Fa].
  assert (Cm : coming y (io_weights o) (io_active o) <= 2147483647).
  { unfold coming. eapply Z.le_trans; [apply (zsum_subset _ _ (length (io_weights o))); auto|].
    - intros; lia.
    - eapply Forall_impl; [|exact Fa]. cbn. intros; lia.
    - rewrite absum_seq. apply R4; auto. }
  set (lit := if f_lit fl then repeat 0 (length (io_implit o)) else io_implit o).
  set (feat := if f_feat fl then repeat 0 (length (io_impfeat o)) else io_impfeat o).
  assert (El : lit = repeat 0 (length (io_implit o))).
  { unfold lit. destruct (f_lit fl); auto. rewrite S9. reflexivity. }
  assert (Ef : feat = repeat 0 (length (io_impfeat o))).
  { unfold feat. destruct (f_feat fl); auto. rewrite S10. reflexivity. }
  destruct (explain_loop fl nlit ncls nexp fset nr o y Sh Hy Hf (io_active o) [] lit feat eq_refl) as [feat' [E1 [E2 E3]]].
  - rewrite El. destruct (f_lit fl); [rewrite repeat_length; auto|rewrite S9; reflexivity].
  - rewrite Ef. destruct (f_feat fl); [rewrite repeat_length; auto|rewrite S10; reflexivity].
  - intros l. rewrite El, nth_repeat. lia.
  - intros l. rewrite Ef, nth_repeat. lia.
  - cbn [length] in E1. rewrite E1. cbn [bindR fst snd]. eexists. split; [reflexivity|]. cbn. rewrite El. split; [reflexivity|]. split; [reflexivity|]. split; [reflexivity|].
    assert (Ll : forall act imp, length (importance_loop (f_excl fl) (io_rules o) (io_weights o) y act imp) = length imp).
    { intros act. induction act as [|k act IH]; intros imp; cbn [importance_loop]; auto. destruct (_ && _); rewrite IH; auto. apply add_importance_len. }
    split.
    + intros Ff. specialize (E3 Ff). rewrite Ff in S10. apply (nth_ext _ _ 0 0).
      * rewrite map_length, seq_length, E2, Ef, repeat_length. exact S10.
      * intros f Hfl. rewrite E3, Ef, nth_repeat. rewrite E2, Ef, repeat_length in Hfl.
        rewrite (nth_indep _ 0 (feature_total (f_excl fl) (io_features o) (io_weights o) y (io_active o) 0)) by (rewrite map_length, seq_length; lia).
        rewrite map_nth, seq_nth by lia. reflexivity.
    + constructor; cbn; auto.
      * specialize (Ll (io_active o) (repeat 0 (length (io_implit o)))). rewrite repeat_length in Ll. destruct (f_lit fl); [lia|].
        rewrite S9 in Ll at 2. apply length_zero_iff_nil. exact Ll.
      * rewrite Ef, repeat_length in E2. destruct (f_feat fl); [lia|]. rewrite S10 in E2. apply length_zero_iff_nil. exact E2.
Qed.

(** ** Histories *)

Theorem run_ok : forall fl nlit ncls nexp cs fresh fset nr o, shape fl nlit ncls nexp fresh fset nr o -> proper fl nlit ncls nexp fresh fset nr cs ->
  exists o' fresh' fset' nr', io_run fl cs o = Ret o' /\ shape fl nlit ncls nexp fresh' fset' nr' o'.
Proof.
  intros fl nlit ncls nexp cs. induction cs as [|c cs IH]; intros fresh fset nr o Sh P; [exists o, fresh, fset, nr; auto|].
  pose proof Sh as [S1 S2 S3 S4 S5 S6 S7 S8 S9 S10 S11 S12].
  destruct c as [r w|f|k|x|y]; cbn [io_run io_step proper] in *.
  - destruct P as [P1 P2]. eapply IH; [|exact P2]. constructor; cbn; auto. discriminate.
  - destruct P as [P1 P2]. unfold io_set_features. destruct (f_feat fl) eqn:Ef; cbn [negb andb] in *.
    + rewrite S3. destruct (Nat.eqb_spec (length f) nexp) as [E|E]; cbn [negb] in *.
      * eapply IH; [|exact P2]. constructor; cbn; rewrite ?Ef; auto.
      * rewrite orb_false_r in P2. eapply IH; eauto.
    + rewrite orb_false_r in P2. eapply IH; eauto.
  - eapply IH; [|exact P]. constructor; cbn; auto.
  - destruct P as [P1 [P2 P3]]. destruct (predict_eq _ _ _ _ _ _ _ _ x Sh P1 P2) as [o' [E [_ [_ [_ [_ Sh']]]]]]. rewrite E. cbn [bindR snd]. eapply IH; eauto.
  - destruct P as [-> [P1 [P2 P3]]]. destruct (explain_eq _ _ _ _ _ _ _ y Sh P1 P2) as [o' [E [_ [_ [_ [_ Sh']]]]]]. rewrite E. eapply IH; eauto.
Qed.

Lemma run_app : forall fl a b o, io_run fl (a ++ b) o = match io_run fl a o with Ret o' => io_run fl b o' | Throw => Throw | Wild => Wild end.
Proof. intros fl a b. induction a as [|c a IH]; intros o; cbn [app io_run]; auto. destruct (io_step fl c o); auto. Qed.

(** ** What a prediction and an explanation give *)

Lemma matching_filter : forall n x rules k, matching_from n x k rules = filter (fun j => conj_true n x (nth (j - k) rules [])) (seq k (length rules)).
Proof.
  intros n x rules. induction rules as [|r rules IH]; intros k; [reflexivity|]. cbn [matching_from length seq filter].
  rewrite Nat.sub_diag. cbn [nth]. rewrite IH.
  assert (E : filter (fun j => conj_true n x (nth (j - Datatypes.S k) rules [])) (seq (Datatypes.S k) (length rules))
            = filter (fun j => conj_true n x (nth (j - k) (r :: rules) [])) (seq (Datatypes.S k) (length rules))).
  { apply filter_ext_in. intros j Hj. apply in_seq in Hj. replace (j - k)%nat with (Datatypes.S (j - Datatypes.S k)) by lia. reflexivity. }
  rewrite E. destruct (conj_true n x r); reflexivity.
Qed.

Lemma votes_bound : forall n x c rules ws, Z.abs (rule_vote_total n x rules ws c) <= absum c ws.
Proof.
  intros n x c rules. induction rules as [|r rules IH]; intros [|w ws]; cbn [rule_vote_total]; try apply absum_pos.
  rewrite absum_cons. specialize (IH ws). destruct (conj_true n x r); lia.
Qed.

Lemma feature_total_spec : forall n x excl rules features ws y f,
  feature_total excl features ws y (filter (fun j => conj_true n x (nth (j - 0) rules [])) (seq 0 (length rules))) f
  = feature_contribution n x excl rules features ws y f.
Proof.
  intros. unfold feature_total, feature_contribution. generalize (seq 0 (length rules)). intros l.
  induction l as [|k l IH]; [reflexivity|]. cbn [filter map zsum]. rewrite Nat.sub_0_r. destruct (conj_true n x (nth k rules [])); cbn [andb].
  - cbn [map zsum]. rewrite IH. f_equal. cbv zeta. destruct excl; cbn [andb negb orb].
    + destruct (nth y (nth k ws []) 0 <? 1) eqn:E1, (1 <=? nth y (nth k ws []) 0) eqn:E2; try lia; destruct (existsb _ _); reflexivity.
    + rewrite andb_true_r. reflexivity.
  - rewrite IH. lia.
Qed.

Lemma literal_total_spec : forall n x excl rules ws y l, length ws = length rules ->
  feature_contribution n x excl rules rules ws y l = literal_contribution n x excl rules ws y l.
Proof.
  intros n x excl rules ws y l L. unfold feature_contribution. revert ws L. induction rules as [|r rules IH]; intros [|w ws] L; try discriminate; [reflexivity|].
  cbn [length seq map zsum literal_contribution nth]. rewrite <- seq_shift, map_map. rewrite <- (IH ws) by (cbn [length] in L; lia). reflexivity.
Qed.

Lemma loop_importance_nth : forall excl rules ws y n, Forall (fun r => NoDup r /\ Forall (fun l => (l < 2 * n)%nat) r) rules ->
  forall act imp, length imp = (2 * n)%nat -> Forall (fun k => (k < length rules)%nat) act ->
  (forall l, Z.abs (nth l imp 0) + coming y ws act <= 2147483647) ->
  forall l, nth l (importance_loop excl rules ws y act imp) 0 = nth l imp 0 + feature_total excl rules ws y act l.
Proof.
  intros excl rules ws y n Hr act. induction act as [|k act IH]; intros imp Li Ha Hb l.
  - cbn [importance_loop]. unfold feature_total. cbn [map zsum]. lia.
  - cbn [importance_loop]. set (w := nth y (nth k ws []) 0) in *. pose proof (Forall_inv Ha) as Hk. apply Forall_inv_tail in Ha. cbv beta in Hk.
    assert (C0 : 0 <= coming y ws act) by (unfold coming; clear; induction act; cbn [map zsum]; lia).
    assert (Hb' : forall l, Z.abs (nth l imp 0) + Z.abs w + coming y ws act <= 2147483647).
    { intros j. specialize (Hb j). rewrite coming_cons in Hb. fold w in Hb. lia. }
    unfold feature_total. cbn [map zsum]. fold w. destruct (excl && (w <? 1)) eqn:E.
    + rewrite IH; [unfold feature_total; lia|exact Li|exact Ha|]. intros j. specialize (Hb' j). lia.
    + rewrite Forall_forall in Hr. destruct (Hr (nth k rules []) ltac:(apply nth_In; auto)) as [N F].
      destruct (add_eq w (nth k rules []) [] (nth k rules []) imp eq_refl N) as [_ A].
      * rewrite Li. exact F.
      * intros j _. specialize (Hb' j). lia.
      * rewrite IH; [|rewrite add_importance_len; auto|exact Ha|].
        -- rewrite A. unfold feature_total. lia.
        -- intros j. rewrite A. specialize (Hb' j). destruct (existsb _ _); lia.
Qed.

Theorem predict_spec : forall fl nlit ncls nexp fresh fset nr o x, shape fl nlit ncls nexp fresh fset nr o ->
  length x = nlit -> (1 <= ncls)%nat ->
  exists y o', io_predict x o = Ret (y, o') /\ shape fl nlit ncls nexp true fset nr o' /\
    io_rules o' = io_rules o /\ io_weights o' = io_weights o /\ io_features o' = io_features o /\
    io_votes o' = map (rule_vote_total nlit x (io_rules o) (io_weights o)) (seq 0 ncls) /\
    io_active o' = filter (fun k => conj_true nlit x (nth k (io_rules o) [])) (seq 0 (length (io_rules o))) /\
    ((exists r, In r (io_rules o) /\ conj_true nlit x r = true) ->
       first_argmax (map (rule_vote_total nlit x (io_rules o) (io_weights o)) (seq 0 ncls)) y) /\
    ((forall r, In r (io_rules o) -> conj_true nlit x r = false) -> y = io_empty o).
Proof.
  intros fl nlit ncls nexp fresh fset nr o x Sh Hx Hc. pose proof Sh as [S1 S2 S3 S4 S5 S6 S7 S8 S9 S10 S11 S12]. destruct S5 as [R1 [R2 [R3 R4]]].
  destruct (predict_eq _ _ _ _ _ _ _ _ x Sh ltac:(lia) Hc) as [o' [E [V [F1 [F2 [F3 Sh']]]]]].
  set (s0 := mkInf nlit ncls (io_empty o) (io_rules o) (io_weights o) (io_active o) (io_votes o) (repeat 0 (2 * nlit)) (io_example o)).
  assert (W : inf_wf s0).
  { unfold inf_wf, s0. cbn. repeat split; auto.
    - unfold rules_in_range. eapply Forall_impl; [|exact R1]. cbn. intros r [_ K]. exact K.
    - rewrite repeat_length. lia. }
  assert (P1 : fst (inf_predict (inf_of o) x) = fst (inf_predict s0 x)).
  { unfold inf_predict, inf_of, s0. cbn. rewrite S1, S2. destruct (inf_clause_loop _ _ _ _ _ _) as [[|a act] vs]; reflexivity. }
  assert (P2 : inf_votes (snd (inf_predict (inf_of o) x)) = inf_votes (snd (inf_predict s0 x)) /\
               inf_active (snd (inf_predict (inf_of o) x)) = inf_active (snd (inf_predict s0 x)) /\
               inf_rules (snd (inf_predict (inf_of o) x)) = io_rules o /\ inf_weights (snd (inf_predict (inf_of o) x)) = io_weights o).
  { unfold inf_predict, inf_of, s0. cbn. rewrite S1, S2. destruct (inf_clause_loop _ _ _ _ _ _) as [[|a act] vs]; auto. }
  destruct P2 as [P2 [P3 [P4 P5]]]. rewrite <- V in P2, P3, P4, P5. cbn [inf_of inf_votes inf_active inf_rules inf_weights] in P2, P3, P4, P5.
  exists (fst (inf_predict s0 x)), o'. rewrite <- P1. split; [exact E|]. split; [exact Sh'|]. split; [exact P4|]. split; [exact P5|]. split; [exact F1|].
  assert (B : forall c, (c < inf_ncls s0)%nat -> is_int32 (rule_vote_total (inf_nlit s0) x (inf_rules s0) (inf_weights s0) c)).
  { intros c Hcc. cbn in Hcc |- *. pose proof (votes_bound nlit x c (io_rules o) (io_weights o)). specialize (R4 c Hcc). fold (absum c (io_weights o)) in R4.
    unfold is_int32. lia. }
  assert (Vt : io_votes o' = map (rule_vote_total nlit x (io_rules o) (io_weights o)) (seq 0 ncls)).
  { rewrite P2. apply (nth_ext _ _ 0 0).
    - rewrite map_length, seq_length. apply (inf_predict_votes_length s0 x W). auto.
    - intros c Hcc. rewrite (inf_predict_votes_length s0 x W ltac:(auto)) in Hcc. rewrite (inf_predict_votes s0 x c W ltac:(auto) Hcc).
      rewrite wrap32_small by (apply B; auto). cbn in Hcc |- *.
      rewrite (nth_indep _ 0 (rule_vote_total nlit x (io_rules o) (io_weights o) 0)) by (rewrite map_length, seq_length; lia).
      rewrite map_nth, seq_nth by lia. reflexivity. }
  assert (Ac : io_active o' = filter (fun k => conj_true nlit x (nth k (io_rules o) [])) (seq 0 (length (io_rules o)))).
  { rewrite P3. rewrite (inf_predict_active s0 x W) by auto. cbn. rewrite matching_filter. apply filter_ext. intros j. rewrite Nat.sub_0_r. reflexivity. }
  split; [exact Vt|]. split; [exact Ac|]. rewrite P1.
  assert (Fst : fst (inf_predict s0 x) = match io_active o' with [] => io_empty o | _ => argmax (io_votes o') end).
  { rewrite (inf_predict_fst s0 x W) by auto. rewrite P3, (inf_predict_active s0 x W) by auto. rewrite P2. reflexivity. }
  rewrite Fst. split.
  - intros [r [I T]]. destruct (In_nth _ _ [] I) as [k [Hk Hn]].
    destruct (io_active o') as [|a act] eqn:Ea.
    + exfalso. assert (X : In k []) by (rewrite Ac; apply filter_In; split; [apply in_seq; lia|rewrite Hn; auto]). destruct X.
    + rewrite Vt. apply argmax_spec. intros X. apply length_zero_iff_nil in X. rewrite map_length, seq_length in X. lia.
  - intros Nn. destruct (io_active o') as [|a act] eqn:Ea; [reflexivity|]. exfalso.
    assert (X : In a (a :: act)) by (left; auto). rewrite Ac in X. apply filter_In in X. destruct X as [X1 X2]. apply in_seq in X1.
    rewrite Nn in X2; [discriminate|]. apply nth_In. lia.
Qed.

Theorem explain_spec : forall fl nlit ncls nexp fresh fset nr o x t, shape fl nlit ncls nexp fresh fset nr o ->
  length x = nlit -> (t < ncls)%nat -> (f_feat fl = true -> fset = true /\ (nr <= nexp)%nat) ->
  exists y o1 o2, io_predict x o = Ret (y, o1) /\ io_explain fl t o1 = Ret o2 /\
    (f_lit fl = true -> io_implit o2 = map (literal_contribution nlit x (f_excl fl) (io_rules o) (io_weights o) t) (seq 0 (2 * nlit))) /\
    (f_feat fl = true -> io_impfeat o2 = map (feature_contribution nlit x (f_excl fl) (io_rules o) (io_features o) (io_weights o) t) (seq 0 nexp)).
Proof.
  intros fl nlit ncls nexp fresh fset nr o x t Sh Hx Ht Hf.
  destruct (predict_spec _ _ _ _ _ _ _ _ x Sh Hx ltac:(lia)) as [y [o1 [E [Sh1 [Er [Ew [Efe [Ev [Ea _]]]]]]]]].
  destruct (explain_eq _ _ _ _ _ _ _ t Sh1 Ht Hf) as [o2 [E2 [V2 [_ [_ [Fe Sh2]]]]]].
  exists y, o1, o2. split; [exact E|]. split; [exact E2|].
  assert (Fx : forall j, conj_true nlit x (nth (j - 0) (io_rules o) []) = conj_true nlit x (nth j (io_rules o) [])) by (intros j; rewrite Nat.sub_0_r; reflexivity).
  rewrite <- (filter_ext _ _ Fx) in Ea. split.
  - intros Fl. pose proof (f_equal inf_imp V2) as I. cbn in I. rewrite Er, Ew in I.
    pose proof Sh1 as [S1 S2 S3 S4 S5 S6 S7 S8 S9 S10 S11 S12]. rewrite Fl in S9. rewrite Er, Ew in S5. destruct S5 as [R1 [R2 [R3 R4]]].
    destruct (S8 eq_refl) as [Na Fa].
    assert (Cm : coming t (io_weights o) (io_active o1) <= 2147483647).
    { unfold coming. eapply Z.le_trans; [apply (zsum_subset _ _ (length (io_weights o))); auto|].
      - intros; lia.
      - eapply Forall_impl; [|exact Fa]. cbn. rewrite Er in S4. intros; lia.
      - rewrite absum_seq. apply R4; auto. }
    pose proof (loop_importance_nth (f_excl fl) (io_rules o) (io_weights o) t nlit R1 (io_active o1) (repeat 0 (length (io_implit o1)))) as K.
    rewrite I. apply (nth_ext _ _ 0 0).
    + rewrite map_length, seq_length. pose proof Sh2 as [_ _ _ _ _ _ _ _ Z _ _ _]. rewrite Fl in Z. rewrite <- I. exact Z.
    + intros l Hl. rewrite K.
      * rewrite nth_repeat. assert (Hl2 : (l < 2 * nlit)%nat).
        { pose proof Sh2 as [_ _ _ _ _ _ _ _ Z _ _ _]. rewrite Fl in Z. rewrite <- I in Hl. lia. }
        rewrite (nth_indep _ 0 (literal_contribution nlit x (f_excl fl) (io_rules o) (io_weights o) t 0)) by (rewrite map_length, seq_length; lia).
        rewrite map_nth, seq_nth by lia. rewrite Ea, feature_total_spec, literal_total_spec by auto. reflexivity.
      * rewrite repeat_length. lia.
      * eapply Forall_impl; [|exact Fa]. cbn. rewrite Er in S4. intros; lia.
      * intros j. rewrite nth_repeat. lia.
  - intros Ff. rewrite (Fe Ff), Efe, Ew, Ea. apply map_ext. intros f. apply feature_total_spec.
Qed.

(** ** Compiled rule sets *)

Theorem compiled_ok : forall n s rs, dense_wf n s -> compile_from_dense_state s = Ok rs -> Z.of_nat (length (ds_c s)) <= 65535 ->
  rules_ok n (ds_nclasses s) (rs_rules rs) (rs_weights rs).
Proof.
  intros n s rs Wf Cp Hn. pose proof (compiled_rules_nodup n s rs Wf Cp) as Nd.
  destruct (compile_spec n s Wf) as [rs' [C' [_ [_ [N1 [_ [L1 [R1 [I1 W1]]]]]]]]]. assert (rs' = rs) by congruence. subst rs'.
  assert (Ic : forall r, In r (rs_rules rs) -> exists row, In row (ds_c s) /\ included row = r).
  { intros r Hr. apply I1 in Hr. destruct Hr as [_ [i [row [w [E1 [_ [E2 _]]]]]]]. exists row. split; auto. eapply nth_error_In; eauto. }
  split; [|split; [auto|split; [exact R1|]]].
  - apply Forall_forall. intros r Hr. split; [rewrite Forall_forall in Nd; auto|].
    destruct (Ic r Hr) as [row [Hrow <-]]. apply Forall_forall. intros l Hl. unfold included in Hl. apply filter_In in Hl. destruct Hl as [Hl _]. apply in_seq in Hl.
    destruct Wf as [_ [_ [Wr _]]]. unfold rows_of in *. rewrite ?Forall_forall in *. specialize (Wr row Hrow). lia.
  - intros c Hc. fold (absum c (rs_weights rs)).
    assert (Ln : (length (rs_rules rs) <= length (ds_c s))%nat).
    { rewrite <- (map_length included (ds_c s)). apply NoDup_incl_length; auto. intros r Hr. destruct (Ic r Hr) as [row [Hrow <-]]. apply in_map. auto. }
    assert (B : forall k, (k < length (rs_weights rs))%nat -> Z.abs (nth c (nth k (rs_weights rs) []) 0) <= 32768).
    { intros k Hk. destruct (nth_error (rs_rules rs) k) as [r|] eqn:Er.
      - rewrite (W1 k r c Er). pose proof (wrap16_range (merged_weight (ds_c s) (ds_w s) r c)) as X. unfold is_int16 in X. lia.
      - apply nth_error_None in Er. lia. }
    assert (G : forall ws : list (list Z), (forall k, (k < length ws)%nat -> Z.abs (nth c (nth k ws []) 0) <= 32768) -> absum c ws <= 32768 * Z.of_nat (length ws)).
    { intros ws. induction ws as [|w ws IH]; intros Hb; [cbn; lia|]. rewrite absum_cons. cbn [length].
      specialize (IH ltac:(intros k Hk; apply (Hb (Datatypes.S k)); cbn [length]; lia)). pose proof (Hb O ltac:(cbn; lia)) as B0. cbn [nth] in B0. lia. }
    specialize (G _ B). lia.
Qed.
