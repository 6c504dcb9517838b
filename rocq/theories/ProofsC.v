(** The parser of ModelC.v reads back what the writers print. *)
From Coq Require Import String Ascii DecimalString Decimal DecimalNat DecimalFacts.
From Coq Require Import ZArith List Bool Lia.
From Verif Require Import Base BaseProofs ModelRuleSet ModelInference ModelC ModelWriters.
Import ListNotations.
Open Scope Z_scope.

Lemma expect_app : forall p t, expect p (p ++ t) = Some t.
Proof. induction p as [|a p IH]; intros t; cbn [expect app]; auto. rewrite Ascii.eqb_refl. apply IH. Qed.

Lemma tx_length_app : forall (a b : text), length (a ++ b) = (length a + length b)%nat.
Proof. intros. apply app_length. Qed.

(** *** Numbers *)

Definition no_digit (t : text) : Prop := match t with c :: _ => is_digit c = false | [] => True end.

Lemma span_digits_app : forall ds t, forallb is_digit ds = true -> no_digit t -> span_digits (ds ++ t) = (ds, t).
Proof.
  induction ds as [|c ds IH]; intros t Hd Ht; cbn [app].
  - destruct t as [|c t]; [reflexivity|]. cbn in *. now rewrite Ht.
  - cbn [forallb] in Hd. apply andb_prop in Hd. destruct Hd as [H1 H2].
    cbn [span_digits]. rewrite H1, (IH t H2 Ht). reflexivity.
Qed.

Lemma uint_digits : forall d, forallb is_digit (tx (NilEmpty.string_of_uint d)) = true.
Proof. induction d; cbn [NilEmpty.string_of_uint tx list_ascii_of_string forallb]; auto. Qed.

Lemma to_uint_norm : forall k, unorm (Nat.to_uint k) = Nat.to_uint k.
Proof. intros k. now rewrite <- Unsigned.to_of, Unsigned.of_to. Qed.

Lemma to_uint_nonnil : forall k, Nat.to_uint k <> Nil.
Proof. intros k H. rewrite <- to_uint_norm in H. now apply unorm_nonnil in H. Qed.

Lemma uint_beq_refl : forall d, uint_beq d d = true.
Proof. induction d; cbn; auto. Qed.

Lemma fmt_nat_digits : forall k, forallb is_digit (fmt_nat k) = true.
Proof.
  intros k. unfold fmt_nat. pose proof (to_uint_nonnil k) as H.
  destruct (Nat.to_uint k) eqn:Hd; try (now destruct H);
    unfold NilZero.string_of_uint; rewrite <- Hd; apply uint_digits.
Qed.

Lemma parse_fmt_nat : forall k t, no_digit t -> parse_nat (fmt_nat k ++ t) = Some (k, t).
Proof.
  intros k t Ht. unfold parse_nat. rewrite (span_digits_app _ t (fmt_nat_digits k) Ht).
  unfold fmt_nat, tx. rewrite string_of_list_ascii_of_string.
  rewrite NilZero.usu by apply to_uint_nonnil.
  rewrite to_uint_norm, uint_beq_refl, Unsigned.of_to. reflexivity.
Qed.

Lemma fmt_nat_first : forall k, exists c r, fmt_nat k = c :: r /\ is_digit c = true.
Proof.
  intros k. pose proof (fmt_nat_digits k) as H.
  destruct (fmt_nat k) as [|c r] eqn:He.
  - exfalso. pose proof (parse_fmt_nat k [] I) as P. rewrite He in P. cbn in P. discriminate.
  - exists c, r. cbn [forallb] in H. apply andb_prop in H. tauto.
Qed.

Lemma parse_fmt_int : forall w t, no_digit t -> parse_int (fmt_int w ++ t) = Some (w, t).
Proof.
  intros w t Ht. unfold fmt_int. destruct (w <? 0) eqn:Hw.
  - cbn [app parse_int]. rewrite Ascii.eqb_refl, parse_fmt_nat by auto.
    f_equal. f_equal. lia.
  - destruct (fmt_nat_first (Z.to_nat w)) as [c [r [He Hc]]].
    pose proof (parse_fmt_nat (Z.to_nat w) t Ht) as P. rewrite He in *.
    cbn [app parse_int] in *.
    destruct (Ascii.eqb c "-") eqn:Hm.
    + apply Ascii.eqb_eq in Hm. subst c. discriminate.
    + rewrite P. f_equal. f_equal. lia.
Qed.

(** *** Conditions *)

Definition cond_of (n ta : nat) : ccond := if (ta <? n)%nat then CPos ta else CZero (ta - n).

Lemma parse_fmt_cond : forall n ta t, parse_cond (fmt_cond n ta ++ t) = Some (cond_of n ta, t).
Proof.
  intros n ta t. unfold parse_cond, fmt_cond, cond_of.
  destruct (ta <? n)%nat; rewrite <- !app_assoc, expect_app, parse_fmt_nat by (cbn; auto).
  - now rewrite expect_app.
  - replace (expect (tx "] > 0") (tx "] == 0" ++ t)) with (@None text) by reflexivity.
    now rewrite expect_app.
Qed.

Lemma parse_fmt_conds : forall n tas fuel t, tas <> [] -> (length tas <= fuel)%nat ->
  expect (tx " && ") t = None ->
  parse_conds fuel (join (tx " && ") (map (fmt_cond n) tas) ++ t) = Some (map (cond_of n) tas, t).
Proof.
  intros n tas. induction tas as [|a tas IH]; intros fuel t Hne Hf Ht; [congruence|].
  destruct fuel as [|f]; [cbn in Hf; lia|].
  destruct tas as [|b tas].
  - cbn [map join parse_conds]. rewrite parse_fmt_cond, Ht. reflexivity.
  - change (join (tx " && ") (map (fmt_cond n) (a :: b :: tas)))
      with (fmt_cond n a ++ tx " && " ++ join (tx " && ") (map (fmt_cond n) (b :: tas))).
    cbn [parse_conds]. rewrite <- !app_assoc, parse_fmt_cond, expect_app.
    rewrite (IH f t); [reflexivity|discriminate| cbn in *; lia|auto].
Qed.

Lemma conds_text_length : forall n tas, (length tas <= length (join (tx " && ") (map (fmt_cond n) tas)))%nat.
Proof.
  intros n tas. induction tas as [|a tas IH]; [cbn; lia|].
  destruct tas as [|b tas].
  - cbn [map join length]. unfold fmt_cond. destruct (a <? n)%nat; rewrite !app_length; cbn; lia.
  - change (join (tx " && ") (map (fmt_cond n) (a :: b :: tas)))
      with (fmt_cond n a ++ tx " && " ++ join (tx " && ") (map (fmt_cond n) (b :: tas))).
    rewrite !app_length. cbn [length] in *. change (length (tx " && ")) with 4%nat. lia.
Qed.

(** *** Statements *)

(** [reads n t ss]: the characters [t] spell the statements [ss]. *)
Inductive reads (n : nat) : text -> list cstmt -> Prop :=
| R_nil : reads n [] []
| R_ws : forall c t ss, is_ws c = true -> reads n t ss -> reads n (c :: t) ss
| R_if : forall tas body bs t ss, tas <> [] -> reads n body bs -> reads n t ss ->
    reads n (fmt_if n tas ++ body ++ tx "}" ++ t) (SIf (map (cond_of n) tas) bs :: ss)
| R_add : forall k w t ss, reads n t ss ->
    reads n ((tx "votes[" ++ fmt_nat k ++ tx "] += " ++ fmt_int w ++ tx ";") ++ t) (SAdd k w :: ss).

Lemma reads_app : forall n t1 s1 t2 s2, reads n t1 s1 -> reads n t2 s2 -> reads n (t1 ++ t2) (s1 ++ s2).
Proof.
  intros n t1 s1 t2 s2 H1 H2. induction H1; cbn [app]; auto.
  - now apply R_ws.
  - rewrite <- !app_assoc. now apply R_if.
  - rewrite <- app_assoc. now apply R_add.
Qed.

Definition stops (t : text) : Prop := expect (tx "if(") t = None /\ expect (tx "votes[") t = None.

Lemma reads_parse : forall n t ss, reads n t ss -> forall fuel rest,
  (length (t ++ rest) < fuel)%nat -> stops (skip_ws rest) ->
  parse_stmts fuel (t ++ rest) = Some (ss, skip_ws rest).
Proof.
  intros n t ss H. induction H as [|c t ss Hc H IH|tas body bs t ss Hne Hb IHb H IH|k w t ss H IH];
    intros fuel rest Hf Hs; (destruct fuel as [|f]; [lia|]).
  - cbn [app parse_stmts]. destruct Hs as [-> ->]. reflexivity.
  - cbn [app]. cbn [parse_stmts skip_ws]. rewrite Hc.
    change (parse_stmts (S f) (t ++ rest) = Some (ss, skip_ws rest)).
    apply IH; auto. cbn [app length] in Hf. lia.
  - unfold fmt_if in *. rewrite <- !app_assoc in *. rewrite !app_length in Hf.
    cbn [parse_stmts].
    replace (skip_ws (tx "if(" ++ join (tx " && ") (map (fmt_cond n) tas) ++ tx "){" ++ body ++ tx "}" ++ t ++ rest))
      with (tx "if(" ++ join (tx " && ") (map (fmt_cond n) tas) ++ tx "){" ++ body ++ tx "}" ++ t ++ rest) by reflexivity.
    rewrite expect_app. pose proof (conds_text_length n tas).
    change (length (tx "if(")) with 3%nat in Hf. change (length (tx "}")) with 1%nat in Hf.
    rewrite parse_fmt_conds; [|auto|lia|reflexivity].
    rewrite expect_app. rewrite IHb; [|rewrite !app_length; change (length (tx "}")) with 1%nat; lia|split; reflexivity].
    change (skip_ws (tx "}" ++ t ++ rest)) with (tx "}" ++ t ++ rest).
    rewrite expect_app, IH; [reflexivity|rewrite app_length; lia|auto].
  - rewrite <- !app_assoc in *. rewrite !app_length in Hf.
    cbn [parse_stmts].
    replace (skip_ws (tx "votes[" ++ fmt_nat k ++ tx "] += " ++ fmt_int w ++ tx ";" ++ t ++ rest))
      with (tx "votes[" ++ fmt_nat k ++ tx "] += " ++ fmt_int w ++ tx ";" ++ t ++ rest) by reflexivity.
    replace (expect (tx "if(") (tx "votes[" ++ fmt_nat k ++ tx "] += " ++ fmt_int w ++ tx ";" ++ t ++ rest))
      with (@None text) by reflexivity.
    rewrite expect_app, parse_fmt_nat by reflexivity.
    rewrite expect_app, parse_fmt_int by reflexivity.
    rewrite expect_app. change (length (tx "votes[")) with 6%nat in Hf.
    rewrite IH; [reflexivity|rewrite app_length; lia|auto].
Qed.

Lemma reads_ws_only : forall n t, forallb is_ws t = true -> reads n t [].
Proof.
  intros n t. induction t as [|c t IH]; intros H; [constructor|].
  cbn [forallb] in H. apply andb_prop in H. destruct H. apply R_ws; auto.
Qed.

Lemma indent_ws : forall d, forallb is_ws (concat (repeat (tx "  ") d)) = true.
Proof. induction d; cbn; auto. Qed.

Fixpoint adds_from (k : nat) (ws : list Z) : list cstmt :=
  match ws with [] => [] | w :: r => SAdd k w :: adds_from (S k) r end.

Lemma reads_votes_from : forall n ws k, reads n (join (tx " ") (fmt_votes_from k ws)) (adds_from k ws).
Proof.
  intros n ws. induction ws as [|w ws IH]; intros k; [constructor|].
  specialize (IH (S k)). destruct ws as [|v ws].
  - cbn [fmt_votes_from join adds_from].
    rewrite <- (app_nil_r (tx "votes[" ++ _)). apply R_add. constructor.
  - change (join (tx " ") (fmt_votes_from k (w :: v :: ws))) with
      ((tx "votes[" ++ fmt_nat k ++ tx "] += " ++ fmt_int w ++ tx ";") ++
       tx " " ++ join (tx " ") (fmt_votes_from (S k) (v :: ws))).
    change (adds_from k (w :: v :: ws)) with (SAdd k w :: adds_from (S k) (v :: ws)).
    apply R_add. apply R_ws; [reflexivity|]. exact IH.
Qed.

Lemma reads_votes : forall n ws, reads n (fmt_votes ws) (adds_from 0 ws).
Proof. intros. apply reads_votes_from. Qed.

(** ** Execution *)

Lemma exec_if : forall x cs body v, run_stmt x (SIf cs body) v =
  if forallb (cond_true x) cs then run_stmts x body v else v.
Proof.
  intros. cbn [run_stmt]. destruct (forallb _ cs); auto.
  revert v. induction body as [|s r IH]; intros v; cbn [run_stmts]; auto.
Qed.

Lemma exec_all_app : forall x a b v, run_stmts x (a ++ b) v = run_stmts x b (run_stmts x a v).
Proof. induction a; intros; cbn [run_stmts app]; auto. Qed.

Lemma adds_length : forall x ws k v, length (run_stmts x (adds_from k ws) v) = length v.
Proof.
  intros x ws. induction ws as [|w ws IH]; intros k v; cbn [adds_from run_stmts]; auto.
  rewrite IH. cbn [run_stmt]. apply set_nth_length.
Qed.

Lemma adds_nth : forall x ws k v c, (k + length ws <= length v)%nat ->
  nth c (run_stmts x (adds_from k ws) v) 0 =
  if (k <=? c)%nat && (c <? k + length ws)%nat then wrap16 (nth c v 0 + nth (c - k) ws 0) else nth c v 0.
Proof.
  intros x ws. induction ws as [|w ws IH]; intros k v c Hl; cbn [adds_from run_stmts].
  - cbn [length]. destruct (k <=? c)%nat eqn:E; cbn [andb]; auto.
    destruct (c <? k + 0)%nat eqn:E2; auto. apply Nat.leb_le in E. apply Nat.ltb_lt in E2. lia.
  - cbn [length] in *. cbn [run_stmt]. rewrite IH by (rewrite set_nth_length; lia).
    destruct (Nat.eq_dec c k) as [->|Hk].
    + rewrite nth_set_nth_eq by lia. replace (S k <=? k)%nat with false by (symmetry; apply Nat.leb_gt; lia).
      cbn [andb]. rewrite Nat.leb_refl. replace (k <? k + S (length ws))%nat with true by (symmetry; apply Nat.ltb_lt; lia).
      cbn [andb]. now rewrite Nat.sub_diag.
    + rewrite nth_set_nth_neq by auto.
      destruct (k <=? c)%nat eqn:E1.
      * apply Nat.leb_le in E1. replace (S k <=? c)%nat with true by (symmetry; apply Nat.leb_le; lia).
        replace (S k + length ws)%nat with (k + S (length ws))%nat by lia. cbn [andb].
        destruct (c <? k + S (length ws))%nat; auto.
        replace (c - k)%nat with (S (c - S k)) by lia. reflexivity.
      * apply Nat.leb_gt in E1. replace (S k <=? c)%nat with false by (symmetry; apply Nat.leb_gt; lia). reflexivity.
Qed.

(** The whole weight row is added, as int16. *)
Lemma adds_row : forall x ws v c, length ws = length v -> (c < length v)%nat ->
  nth c (run_stmts x (adds_from 0 ws) v) 0 = wrap16 (nth c v 0 + nth c ws 0).
Proof.
  intros. rewrite adds_nth by lia. rewrite Nat.sub_0_r. cbn [Nat.leb andb].
  replace (c <? 0 + length ws)%nat with true by (symmetry; apply Nat.ltb_lt; lia). reflexivity.
Qed.

(** The final loop is the predictor's argmax. *)
Lemma find_output_loop : forall ncls votes i k, (i + k = ncls)%nat -> length votes = ncls -> (1 <= i)%nat ->
  forall bk,
  fst (fold_left (fun (st : nat * Z) i => if nth i votes 0 >? snd st then (i, nth i votes 0) else st)
                 (seq i k) (bk, nth bk votes 0))
  = argmax_loop i bk (nth bk votes 0) (skipn i votes).
Proof.
  intros ncls votes i k. revert i. induction k as [|k IH]; intros i Hk Hl Hi bk.
  - rewrite skipn_all2 by lia. reflexivity.
  - cbn [seq fold_left snd].
    assert (Hsk : skipn i votes = nth i votes 0 :: skipn (S i) votes).
    { clear - Hk Hl. assert (i < length votes)%nat by lia. clear Hk Hl. revert i H.
      induction votes as [|h t IHt]; intros [|i] H; cbn [length] in H; try lia; [reflexivity|].
      cbn [skipn nth]. rewrite IHt by lia. reflexivity. }
    rewrite Hsk. cbn [argmax_loop].
    destruct (nth i votes 0 >? nth bk votes 0); apply (IH (S i)); lia.
Qed.

Lemma find_output_argmax : forall ncls votes, length votes = ncls -> (1 <= ncls)%nat ->
  find_output ncls votes = argmax votes.
Proof.
  intros ncls votes Hl Hn. unfold find_output.
  rewrite (find_output_loop ncls votes 1 (ncls - 1)) by lia.
  destruct votes as [|v t]; [cbn in Hl; lia|]. reflexivity.
Qed.
