(** Proofs about the python sparse state. *)
From Coq Require Import ZArith List Bool QArith Lia Permutation ZifyBool.
From Verif Require Import Base BaseProofs Spec ModelInference ModelDense ModelFeedback ModelExecutor ModelSparse ModelPy ModelPySparse SpecPySparse
  ProofsSparse ProofsAvx2Scalar ProofsFeedback ProofsHistory.
Import ListNotations.
Open Scope Z_scope.

(** ** The result monad *)

Lemma rmap_ok : forall A B (f : A -> res B) (g : A -> B) l, (forall a, In a l -> f a = Ok (g a)) -> rmap f l = Ok (map g l).
Proof.
  intros A B f g l. induction l as [|a l IH]; intros H; cbn [rmap map]; auto.
  rewrite (H a) by (left; auto). cbn [rbind]. rewrite IH by (intros; apply H; right; auto). reflexivity.
Qed.
Lemma rmap_raise : forall A B (f : A -> res B) x l, (forall a e, In a l -> f a = Raise e -> e = x) -> (exists a, In a l /\ f a = Raise x) -> rmap f l = Raise x.
Proof.
  intros A B f x l. induction l as [|a l IH]; intros H [a' [I E]]; [destruct I|]. cbn [rmap].
  destruct (f a) as [v|e] eqn:F; cbn [rbind].
  - destruct I as [->|I]; [congruence|]. rewrite IH; eauto. intros a0 e0 I0 E0. apply (H a0 e0); auto. right; auto.
  - rewrite (H a e); auto. left; auto.
Qed.
Lemma rfold_P : forall A S (P : S -> Prop) (f : S -> A -> res S) l s, P s ->
  (forall a s, In a l -> P s -> exists s', f s a = Ok s' /\ P s') -> exists s', rfold f l s = Ok s' /\ P s'.
Proof.
  intros A S P f l. induction l as [|a l IH]; intros s Hs H; cbn [rfold]; eauto.
  destruct (H a s) as [s1 [E1 P1]]; auto; [left; auto|]. rewrite E1. cbn [rbind]. apply IH; auto. intros; apply H; auto. right; auto.
Qed.

(** ** Outputs *)

Lemma on_pair : forall n ix st l v, side_ok n ix st -> In (l, v) (combine ix st) -> (0 < v <-> on ix st l).
Proof.
  intros n ix st l v [HL [ND _]] H. destruct (In_nth_error _ _ H) as [i Hi].
  assert (J : nth_error ix i = Some l /\ nth_error st i = Some v).
  { clear - Hi. revert st i Hi. induction ix as [|a ix IH]; intros [|z st] [|i] Hi; cbn in Hi; try discriminate.
    - inversion Hi; subst. auto.
    - apply IH in Hi. exact Hi. }
  destruct J as [J1 J2]. pose proof (nth_error_nth _ _ 0 J2) as J3. split.
  - intros V. exists i. rewrite J3. auto.
  - intros [j [K1 K2]]. assert (i = j); [|subst; lia].
    apply (proj1 (NoDup_nth_error ix) ND); [apply nth_error_Some; congruence|congruence].
Qed.
Lemma on_in : forall n ix st l, side_ok n ix st -> on ix st l -> exists v, In (l, v) (combine ix st) /\ 0 < v.
Proof.
  intros n ix st l [HL _] [i [Hi Hv]]. exists (nth i st 0). split; auto.
  assert (i < length ix)%nat by (apply nth_error_Some; congruence).
  pose proof (combine_nth ix st i O 0 HL) as C. rewrite (nth_error_nth _ _ O Hi) in C. rewrite <- C. apply nth_In. rewrite combine_length. lia.
Qed.
Lemma misses_spec : forall n lits ix st, side_ok n ix st -> (ps_misses lits ix st = false <-> forall l, on ix st l -> In l lits).
Proof.
  intros n lits ix st H. unfold ps_misses. split.
  - intros E l O. destruct (on_in n ix st l H O) as [v [I V]].
    destruct (memb l lits) eqn:M; [now apply memb_In|]. exfalso.
    assert (X : existsb (fun p : nat * Z => (snd p >? 0) && negb (memb (fst p) lits)) (combine ix st) = true).
    { apply existsb_exists. exists (l, v). cbn [fst snd]. rewrite M. split; auto. lia. }
    congruence.
  - intros A. destruct (existsb _ _) eqn:X; auto. apply existsb_exists in X. destruct X as [[l v] [I C]]. cbn [fst snd] in C.
    apply andb_prop in C. destruct C as [C1 C2]. assert (O : on ix st l) by (apply (on_pair n ix st l v H I); lia).
    apply A, memb_In in O. rewrite O in C2. discriminate.
Qed.
Lemma hits_spec : forall n lits ix st, side_ok n ix st -> (ps_hits lits ix st = false <-> forall l, on ix st l -> ~ In l lits).
Proof.
  intros n lits ix st H. unfold ps_hits. split.
  - intros E l O IL. destruct (on_in n ix st l H O) as [v [I V]].
    assert (X : existsb (fun p : nat * Z => (snd p >? 0) && memb (fst p) lits) (combine ix st) = true).
    { apply existsb_exists. exists (l, v). cbn [fst snd]. apply memb_In in IL. rewrite IL. split; auto. lia. }
    congruence.
  - intros A. destruct (existsb _ _) eqn:X; auto. apply existsb_exists in X. destruct X as [[l v] [I C]]. cbn [fst snd] in C.
    apply andb_prop in C. destruct C as [C1 C2]. assert (O : on ix st l) by (apply (on_pair n ix st l v H I); lia).
    apply A in O. apply memb_In in C2. contradiction.
Qed.

Definition conj_out (b : psblock) (lits : list nat) (k : nat) : Z :=
  if ps_misses lits (nth k (q_index b) []) (nth k (q_states b) [])
     || ps_hits lits (nth (k + q_ncl b) (q_index b) []) (nth (k + q_ncl b) (q_states b) []) then 0 else 1.

Lemma conj_out_spec : forall n ncls ncl b lits k, ps_shape n ncls ncl b -> (conj_out b lits k = 1 <-> clause_holds b k lits).
Proof.
  intros n ncls ncl b lits k H. unfold conj_out, clause_holds.
  rewrite <- (misses_spec n) by apply H. rewrite <- (hits_spec n) by apply H.
  destruct (ps_misses _ _ _); destruct (ps_hits _ _ _); cbn [orb]; split; intros X; try discriminate; try tauto; destruct X; discriminate.
Qed.
Lemma conj_out_01 : forall b lits k, conj_out b lits k = 0 \/ conj_out b lits k = 1.
Proof. intros. unfold conj_out. destruct (_ || _); auto. Qed.

Definition skipped (b : psblock) (k : nat) : bool := (length (nth k (q_states b) []) =? 0)%nat && (length (nth (k + q_ncls b) (q_states b) []) =? 0)%nat.
Definition train_out (b : psblock) (lits : list nat) (k : nat) : Z := if skipped b k then 1 else conj_out b lits k.

Lemma set_clause_ok : forall n ncls ncl b lits k, ps_shape n ncls ncl b -> (ncls <= ncl)%nat -> (k < ncl)%nat ->
  ps_set_clause lits b k = Ok (train_out b lits k).
Proof.
  intros n ncls ncl b lits k H HC HK. unfold ps_set_clause, train_out, skipped, item_at.
  rewrite (nth_error_nth' (q_states b) []) by (rewrite (pk_states _ _ _ _ H); lia). cbn [rbind].
  destruct (_ =? 0)%nat; cbn [rbind andb].
  - rewrite (nth_error_nth' (q_states b) []) by (rewrite (pk_states _ _ _ _ H), (pk_ncls _ _ _ _ H); lia). cbn [rbind].
    destruct (_ =? 0)%nat; reflexivity.
  - reflexivity.
Qed.
Lemma set_output_ok : forall n ncls ncl b lits, ps_shape n ncls ncl b -> (ncls <= ncl)%nat ->
  ps_set_output lits b = Ok (map (train_out b lits) (seq 0 ncl)).
Proof.
  intros n ncls ncl b lits H HC. unfold ps_set_output. rewrite (pk_ncl _ _ _ _ H). apply rmap_ok.
  intros k I. apply in_seq in I. eapply set_clause_ok; eauto. lia.
Qed.
Lemma set_output_raise : forall n ncls ncl b lits, ps_shape n ncls ncl b -> (0 < ncl < ncls)%nat -> nth (ncl - 1) (q_states b) [] = [] ->
  ps_set_output lits b = Raise IndexError.
Proof.
  intros n ncls ncl b lits H HC HE. unfold ps_set_output. rewrite (pk_ncl _ _ _ _ H). apply rmap_raise.
  - intros k e I. apply in_seq in I. unfold ps_set_clause, item_at.
    rewrite (nth_error_nth' (q_states b) []) by (rewrite (pk_states _ _ _ _ H); lia). cbn [rbind].
    destruct (_ =? 0)%nat; cbn [rbind]; [|discriminate]. destruct (nth_error _ _); cbn [rbind].
    + destruct (_ =? 0)%nat; discriminate.
    + intros E; congruence.
  - exists (ncl - 1)%nat. split; [apply in_seq; lia|]. unfold ps_set_clause, item_at.
    rewrite (nth_error_nth' (q_states b) []) by (rewrite (pk_states _ _ _ _ H); lia). cbn [rbind]. rewrite HE. cbn [length Nat.eqb].
    replace (nth_error (q_states b) _) with (@None (list Z)); [reflexivity|]. symmetry. apply nth_error_None.
    rewrite (pk_states _ _ _ _ H), (pk_ncls _ _ _ _ H). lia.
Qed.

(** Evaluation: rounds 0 .. m-1 of the loop. *)
Lemma eval_clause_conj : forall lits b outs k, (k < q_ncl b)%nat ->
  ps_eval_clause lits b outs k = Ok (if conj_out b lits k =? 0 then set_nth k 0 outs else outs).
Proof.
  intros lits b outs k H. unfold ps_eval_clause, conj_out. replace (k <? q_ncl b)%nat with true by lia. destruct (_ || _); reflexivity.
Qed.
Lemma eval_rounds : forall lits b m start outs, (start + m <= q_ncl b)%nat -> length outs = q_ncl b ->
  exists o, rfold (ps_eval_clause lits b) (seq start m) outs = Ok o /\ length o = q_ncl b /\
    forall k, (k < q_ncl b)%nat -> nth k o 0 = if (start <=? k)%nat && (k <? start + m)%nat && (conj_out b lits k =? 0) then 0 else nth k outs 0.
Proof.
  intros lits b m. induction m as [|m IH]; intros start outs HB HL; cbn [seq rfold].
  - exists outs. split; auto. split; auto. intros k Hk. replace ((start <=? k)%nat && (k <? start + 0)%nat) with false by lia. reflexivity.
  - rewrite eval_clause_conj by lia. cbn [rbind].
    set (o1 := if conj_out b lits start =? 0 then set_nth start 0 outs else outs).
    assert (L1 : length o1 = q_ncl b) by (unfold o1; destruct (_ =? _); rewrite ?set_nth_length; auto).
    destruct (IH (S start) o1) as [o [E [L C]]]; auto; [lia|]. exists o. split; auto. split; auto.
    intros k Hk. rewrite C by auto. unfold o1.
    destruct (Nat.eq_dec k start) as [->|NE].
    + replace ((S start <=? start)%nat) with false by lia. cbn [andb]. replace (start <=? start)%nat with true by lia.
      replace (start <? start + S m)%nat with true by lia. cbn [andb].
      destruct (_ =? _); [rewrite nth_set_nth_eq by lia|]; reflexivity.
    + replace (nth k (if conj_out b lits start =? 0 then set_nth start 0 outs else outs) 0) with (nth k outs 0)
        by (destruct (_ =? _); [rewrite nth_set_nth_neq by lia|]; reflexivity).
      replace (S start <=? k)%nat with (start <=? k)%nat by lia. replace (k <? S start + m)%nat with (k <? start + S m)%nat by lia. reflexivity.
Qed.
Lemma eval_output_ok : forall n ncls ncl b lits, ps_shape n ncls ncl b -> (ncls <= ncl)%nat ->
  exists o, ps_eval_output lits b = Ok o /\ length o = ncl /\
    forall k, (k < ncl)%nat -> nth k o 0 = if (k <? ncls)%nat then conj_out b lits k else 1.
Proof.
  intros n ncls ncl b lits H HC. unfold ps_eval_output. rewrite (pk_ncls _ _ _ _ H).
  destruct (eval_rounds lits b ncls 0 (repeat 1 (q_ncl b))) as [o [E [L C]]]; [rewrite (pk_ncl _ _ _ _ H); lia|apply repeat_length|].
  exists o. rewrite (pk_ncl _ _ _ _ H) in *. split; auto. split; auto. intros k Hk. rewrite C by auto.
  rewrite nth_repeat_lt by auto. cbn [Nat.leb andb Nat.add]. destruct (k <? ncls)%nat; cbn [andb]; auto.
  destruct (conj_out_01 b lits k) as [X|X]; rewrite X; reflexivity.
Qed.
Lemma eval_output_raise : forall b lits, (q_ncl b < q_ncls b)%nat -> ps_eval_output lits b = Raise IndexError.
Proof.
  intros b lits H. unfold ps_eval_output.
  replace (q_ncls b) with (q_ncl b + S (q_ncls b - q_ncl b - 1))%nat by lia. rewrite seq_app.
  assert (A : forall A S (f : S -> A -> res S) l1 l2 s, rfold f (l1 ++ l2) s = rbind (rfold f l1 s) (rfold f l2)).
  { intros A S f l1 l2. induction l1 as [|a l1 IH]; intros s; cbn [app rfold]; [reflexivity|]. destruct (f s a); cbn [rbind]; auto. }
  rewrite A. destruct (eval_rounds lits b (q_ncl b) 0 (repeat 1 (q_ncl b))) as [o [E _]]; [lia|apply repeat_length|].
  rewrite E. cbn [rbind seq rfold]. unfold ps_eval_clause at 1. rewrite Nat.add_0_l. replace (q_ncl b <? q_ncl b)%nat with false by lia. reflexivity.
Qed.
