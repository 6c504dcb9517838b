(** The rule tree of TopographicalC: construction ends, every rule is placed
    once, and the nested program adds up the matching rules. *)
From Coq Require Import String Ascii.
From Coq Require Import ZArith List Bool Lia Permutation.
From Verif Require Import Base BaseProofs Spec ModelRuleSet ModelInference ModelPredictor ModelC ModelWriters
  ProofsRuleSet ProofsInference ProofsLayout ProofsEval ProofsC ProofsWriters.
Import ListNotations.
Open Scope Z_scope.

(** *** Sets as lists *)

Lemma mem_In : forall a l, mem a l = true <-> In a l.
Proof.
  intros a l. unfold mem. rewrite existsb_exists. split.
  - intros [b [H1 H2]]. apply Nat.eqb_eq in H2. now subst.
  - intros H. exists a. split; auto. apply Nat.eqb_refl.
Qed.

Lemma mem_not : forall a l, mem a l = false <-> ~ In a l.
Proof. intros a l. rewrite <- mem_In. destruct (mem a l); split; congruence. Qed.

Lemma set_diff_In : forall v a b, In v (set_diff a b) <-> In v a /\ ~ In v b.
Proof.
  intros v a b. unfold set_diff. rewrite filter_In, negb_true_iff, mem_not. tauto.
Qed.

Lemma subset_incl : forall a b, subset a b = true <-> incl a b.
Proof.
  intros a b. unfold subset, incl. rewrite forallb_forall.
  split; intros H v Hv; apply mem_In; auto.
Qed.

Lemma set_eqb_spec : forall a b, set_eqb a b = true <-> (incl a b /\ incl b a).
Proof. intros. unfold set_eqb. rewrite andb_true_iff, !subset_incl. tauto. Qed.

Lemma set_diff_nil : forall a b, set_diff a b = [] <-> incl a b.
Proof.
  intros a b. split; intros H.
  - intros v Hv. destruct (in_dec Nat.eq_dec v b) as [|Hn]; auto.
    assert (In v (set_diff a b)) by (apply set_diff_In; auto). rewrite H in *. contradiction.
  - destruct (set_diff a b) as [|v t] eqn:E; auto. exfalso.
    assert (K : In v (set_diff a b)) by (rewrite E; now left).
    apply set_diff_In in K. destruct K as [K1 K2]. apply K2. now apply H.
Qed.

Lemma choose_In : forall pick l a, choose pick l = Some a -> In a l.
Proof.
  intros pick l a H. destruct l as [|c l]; [discriminate|]. cbn [choose] in H.
  assert (E : a = nth (pick mod length (c :: l)) (c :: l) c) by congruence. rewrite E.
  apply nth_In. apply Nat.mod_upper_bound. discriminate.
Qed.

Lemma choose_none : forall pick l, choose pick l = None -> l = [].
Proof. intros pick [|c l] H; [auto|discriminate]. Qed.

Lemma max_attained : forall (l : list nat), l <> [] -> In (fold_right Nat.max O l) l.
Proof.
  induction l as [|a l IH]; intros H; [congruence|]. cbn [fold_right].
  destruct (Nat.max_dec a (fold_right Nat.max 0%nat l)) as [E|E]; rewrite E; [now left|].
  destruct l as [|b l]; [|right; apply IH; discriminate].
  left. cbn in *. lia.
Qed.

Lemma best_keys_incl : forall sets path rules ta, In ta (best_keys sets path rules) -> In ta (ta_keys sets path rules).
Proof. intros sets path rules ta H. unfold best_keys in H. apply filter_In in H. tauto. Qed.

Lemma best_keys_nil : forall sets path rules, best_keys sets path rules = [] -> ta_keys sets path rules = [].
Proof.
  intros sets path rules H.
  destruct (ta_keys sets path rules) as [|a l] eqn:E; auto. exfalso.
  pose proof (max_attained (map (fun t => length (ta_rules sets path rules t)) (a :: l))) as M.
  specialize (M ltac:(discriminate)). apply in_map_iff in M. destruct M as [t [M1 M2]].
  assert (In t (best_keys sets path rules)).
  { unfold best_keys. rewrite E. apply filter_In. split; auto. now apply Nat.eqb_eq. }
  rewrite H in *. contradiction.
Qed.

Lemma ta_keys_In : forall sets path rules ta, In ta (ta_keys sets path rules) <->
  exists k, In k rules /\ In ta (nth k sets []) /\ ~ In ta path.
Proof.
  intros. unfold ta_keys. rewrite nodup_In, in_concat. split.
  - intros [l [H1 H2]]. apply in_map_iff in H1. destruct H1 as [k [<- Hk]]. apply set_diff_In in H2.
    exists k. tauto.
  - intros [k [H1 H2]]. exists (set_diff (nth k sets []) path). split.
    + apply in_map_iff. exists k. auto.
    + now apply set_diff_In.
Qed.

Lemma ta_rules_In : forall sets path rules ta k, In k (ta_rules sets path rules ta) <->
  In k rules /\ In ta (nth k sets []) /\ ~ In ta path.
Proof. intros. unfold ta_rules. rewrite filter_In, mem_In, set_diff_In. tauto. Qed.

Definition eqs (sets : list (list nat)) (path rules : list nat) : list nat :=
  filter (fun k => set_eqb (nth k sets []) path) rules.

Lemma eqs_In : forall sets path rules k, In k (eqs sets path rules) <->
  In k rules /\ incl (nth k sets []) path /\ incl path (nth k sets []).
Proof. intros. unfold eqs. rewrite filter_In, set_eqb_spec. tauto. Qed.

(** The rules below a node contain the path to it. *)
Definition below (sets : list (list nat)) (path rules : list nat) : Prop :=
  forall k, In k rules -> incl path (nth k sets []).

Lemma below_child : forall sets path rules ta, below sets path rules ->
  below sets (ta :: path) (ta_rules sets path rules ta).
Proof.
  intros sets path rules ta H k Hk. apply ta_rules_In in Hk. destruct Hk as [K1 [K2 _]].
  intros v [<-|Hv]; auto. now apply (H k K1).
Qed.

Lemma below_rest : forall sets path rules it, below sets path rules -> below sets path (set_diff rules it).
Proof. intros sets path rules it H k Hk. apply set_diff_In in Hk. now apply H. Qed.

(** *** Which rules end up in the tree *)

Lemma subtree_covers : forall fuel pick sets wss path rules intree w w' ch it',
  below sets path rules ->
  subtree fuel pick sets wss path rules intree w = Some (w', ch, it') ->
  incl intree it' /\ incl rules it' /\ incl it' (intree ++ rules).
Proof.
  induction fuel as [|f IH]; intros pick sets wss path rules intree w w' ch it' Hb H; [discriminate|].
  cbn [subtree] in H. destruct rules as [|r0 rules0].
  { inversion H; subst. repeat split; try (intros v Hv; cbn in *; tauto); intros v Hv; rewrite app_nil_r; auto. }
  set (rules := r0 :: rules0) in *. clearbody rules. clear r0 rules0.
  fold (eqs sets path rules) in H.
  destruct (choose (pick path rules) (best_keys sets path rules)) as [ta|] eqn:Ec.
  - apply choose_In, best_keys_incl in Ec.
    destruct (subtree f pick sets wss (ta :: path) _ _ None) as [[[cw cch] it2]|] eqn:E2; [|discriminate].
    destruct (subtree f pick sets wss path (set_diff rules it2) it2 _) as [[[w3 ch3] it3]|] eqn:E3; [|discriminate].
    inversion H; subst; clear H.
    apply IH in E2; [|now apply below_child]. apply IH in E3; [|now apply below_rest].
    destruct E2 as [A1 [A2 A3]]. destruct E3 as [B1 [B2 B3]]. repeat split.
    + intros v Hv. apply B1, A1, in_or_app. now left.
    + intros v Hv. destruct (in_dec Nat.eq_dec v it2) as [Hi|Hi]; [now apply B1|].
      apply B2. now apply set_diff_In.
    + intros v Hv. apply B3, in_app_or in Hv. apply in_or_app. destruct Hv as [Hv|Hv].
      * apply A3, in_app_or in Hv. destruct Hv as [Hv|Hv].
        -- apply in_app_or in Hv. destruct Hv as [Hv|Hv]; [now left|]. apply eqs_In in Hv. tauto.
        -- apply ta_rules_In in Hv. tauto.
      * apply set_diff_In in Hv. tauto.
  - apply choose_none, best_keys_nil in Ec. inversion H; subst; clear H. repeat split.
    + intros v Hv. apply in_or_app. now left.
    + intros v Hv. apply in_or_app. right. apply eqs_In. split; auto. split; [|now apply Hb].
      intros l Hl. destruct (in_dec Nat.eq_dec l path) as [|Hn]; auto.
      exfalso. assert (K : In l (ta_keys sets path rules)) by (apply ta_keys_In; eauto).
      rewrite Ec in K. contradiction.
    + intros v Hv. apply in_app_or in Hv. apply in_or_app. destruct Hv as [Hv|Hv]; [now left|].
      apply eqs_In in Hv. tauto.
Qed.

(** *** Termination *)

Definition weight_of (sets : list (list nat)) (path : list nat) (k : nat) : nat :=
  S (length (set_diff (nth k sets []) path)).
Definition measure (sets : list (list nat)) (path rules : list nat) : nat :=
  fold_right (fun k a => weight_of sets path k + a)%nat O rules.

Lemma measure_filter : forall sets path rules f, (measure sets path (filter f rules) <= measure sets path rules)%nat.
Proof.
  intros. induction rules as [|k rules IH]; cbn [filter measure fold_right]; auto.
  unfold measure in *. destruct (f k); cbn [fold_right]; lia.
Qed.

Lemma measure_filter_lt : forall sets path rules f k, In k rules -> f k = false ->
  (measure sets path (filter f rules) < measure sets path rules)%nat.
Proof.
  intros sets path rules f k. induction rules as [|j rules IH]; intros Hk Hf; [contradiction|].
  pose proof (measure_filter sets path rules f) as M. unfold measure in *. cbn [filter fold_right].
  destruct Hk as [<-|Hk].
  - rewrite Hf. unfold weight_of at 2. lia.
  - specialize (IH Hk Hf). destruct (f j); cbn [fold_right]; lia.
Qed.

Lemma set_diff_nil_r : forall s, set_diff s [] = s.
Proof.
  induction s as [|v s IH]; [reflexivity|]. change (set_diff (v :: s) []) with (v :: set_diff s []). now rewrite IH.
Qed.

Lemma mem_cons : forall v ta path, mem v (ta :: path) = Nat.eqb v ta || mem v path.
Proof. reflexivity. Qed.

Lemma set_diff_cons : forall v s path, set_diff (v :: s) path = if mem v path then set_diff s path else v :: set_diff s path.
Proof. intros. unfold set_diff. cbn [filter]. now destruct (mem v path). Qed.

Lemma set_diff_cons_le : forall s ta path, (length (set_diff s (ta :: path)) <= length (set_diff s path))%nat.
Proof.
  intros s ta path. induction s as [|v s IH]; [cbn; lia|].
  rewrite !set_diff_cons, mem_cons. destruct (Nat.eqb v ta), (mem v path); cbn [orb length]; lia.
Qed.

Lemma set_diff_cons_lt : forall s ta path, In ta s -> ~ In ta path ->
  (length (set_diff s (ta :: path)) < length (set_diff s path))%nat.
Proof.
  intros s ta path. induction s as [|v s IH]; intros Hi Hp; [contradiction|].
  pose proof (set_diff_cons_le s ta path) as L.
  rewrite !set_diff_cons, mem_cons. destruct Hi as [->|Hi].
  - rewrite Nat.eqb_refl. apply mem_not in Hp. rewrite Hp. cbn [orb length]. lia.
  - specialize (IH Hi Hp). destruct (Nat.eqb v ta), (mem v path); cbn [orb length]; lia.
Qed.

Lemma measure_child : forall sets path rules ta k, In k (ta_rules sets path rules ta) ->
  (measure sets (ta :: path) (ta_rules sets path rules ta) < measure sets path rules)%nat.
Proof.
  intros sets path rules ta k Hk.
  apply Nat.lt_le_trans with (measure sets path (ta_rules sets path rules ta));
    [|apply measure_filter].
  assert (A : forall l, (forall j, In j l -> In ta (nth j sets []) /\ ~ In ta path) -> l <> [] ->
              (measure sets (ta :: path) l < measure sets path l)%nat).
  { induction l as [|j l IH]; intros Hl Hn; [congruence|]. unfold measure in *. cbn [fold_right].
    destruct (Hl j (or_introl eq_refl)) as [J1 J2].
    pose proof (set_diff_cons_lt (nth j sets []) ta path J1 J2). unfold weight_of in *.
    destruct l as [|i l]; [cbn [fold_right]; lia|].
    specialize (IH (fun j Hj => Hl j (or_intror Hj)) ltac:(discriminate)). lia. }
  apply A.
  - intros j Hj. apply ta_rules_In in Hj. tauto.
  - intros E. rewrite E in Hk. contradiction.
Qed.

Lemma subtree_total : forall fuel pick sets wss path rules intree w,
  below sets path rules -> (measure sets path rules < fuel)%nat ->
  exists r, subtree fuel pick sets wss path rules intree w = Some r.
Proof.
  induction fuel as [|f IH]; intros pick sets wss path rules intree w Hb Hm; [lia|].
  cbn [subtree]. destruct rules as [|r0 rules0]; [eauto|].
  set (rules := r0 :: rules0) in *. clearbody rules. clear r0 rules0.
  fold (eqs sets path rules).
  destruct (choose (pick path rules) (best_keys sets path rules)) as [ta|] eqn:Ec; [|eauto].
  apply choose_In, best_keys_incl, ta_keys_In in Ec. destruct Ec as [k [K1 [K2 K3]]].
  assert (Hk : In k (ta_rules sets path rules ta)) by (apply ta_rules_In; auto).
  pose proof (measure_child sets path rules ta k Hk) as M.
  destruct (IH pick sets wss (ta :: path) (ta_rules sets path rules ta) (intree ++ eqs sets path rules) None) as [[[cw cch] it2] E2];
    [now apply below_child|lia|]. rewrite E2.
  apply subtree_covers in E2; [|now apply below_child]. destruct E2 as [_ [A2 _]].
  destruct (IH pick sets wss path (set_diff rules it2) it2
              (node_weight sets wss path rules (pick path rules) w)) as [[[w3 ch3] it3] E3];
    [now apply below_rest| |rewrite E3; eauto].
  unfold set_diff.
  assert (measure sets path (filter (fun v => negb (mem v it2)) rules) < measure sets path rules)%nat; [|lia].
  apply measure_filter_lt with k; auto. apply negb_false_iff, mem_In. now apply A2.
Qed.

Lemma measure_top_aux : forall sets pre,
  measure (pre ++ sets) [] (seq (length pre) (length sets)) = fold_right (fun s a => S (length s) + a)%nat O sets.
Proof.
  induction sets as [|s sets IH]; intros pre; [reflexivity|].
  cbn [length seq fold_right]. unfold measure in *. cbn [fold_right].
  f_equal.
  - unfold weight_of. f_equal. rewrite app_nth2, Nat.sub_diag by lia. cbn [nth].
    now rewrite set_diff_nil_r.
  - specialize (IH (pre ++ [s])). rewrite app_length in IH. cbn [length] in IH.
    rewrite Nat.add_1_r in IH. rewrite <- app_assoc in IH. exact IH.
Qed.

Theorem generate_tree_total : forall pick rs, exists root, generate_tree pick rs = Some root.
Proof.
  intros pick rs. unfold generate_tree.
  destruct (subtree_total (tree_fuel (rule_sets rs)) pick (rule_sets rs) (rs_weights rs) []
              (seq 0 (length (rule_sets rs))) [] None) as [[[w ch] it] E].
  - intros k _ v [].
  - unfold tree_fuel. pose proof (measure_top_aux (rule_sets rs) []) as M. cbn [length app] in M.
    rewrite M. lia.
  - rewrite E. eauto.
Qed.

(** *** Value of a tree *)

Section NodeInd.
  Variable P : node -> Prop.
  Hypothesis Hnode : forall ta w ch, Forall P ch -> P (Node ta w ch).
  Fixpoint node_ind2 (t : node) : P t :=
    match t with
    | Node ta w ch => Hnode ta w ch
        ((fix all (l : list node) : Forall P l :=
            match l with [] => Forall_nil P | c :: r => Forall_cons c (node_ind2 c) (all r) end) ch)
    end.
End NodeInd.

Definition opt_lit (n : nat) (x : list Z) (ta : option nat) : bool :=
  match ta with Some a => lit_true n x a | None => true end.
Definition opt_weight (w : option (list Z)) (c : nat) : Z :=
  match w with Some ws => nth c ws 0 | None => 0 end.

(** What the nested program below a node adds to class [c]. *)
Fixpoint node_value (n : nat) (x : list Z) (t : node) (c : nat) : Z :=
  match t with
  | Node ta w ch =>
      if opt_lit n x ta
      then opt_weight w c +
           (fix sum (l : list node) : Z := match l with [] => 0 | t' :: r => node_value n x t' c + sum r end) ch
      else 0
  end.
Fixpoint nodes_value (n : nat) (x : list Z) (l : list node) (c : nat) : Z :=
  match l with [] => 0 | t :: r => node_value n x t c + nodes_value n x r c end.

Lemma node_value_eq : forall n x ta w ch c, node_value n x (Node ta w ch) c =
  if opt_lit n x ta then opt_weight w c + nodes_value n x ch c else 0.
Proof.
  intros. cbn [node_value]. destruct (opt_lit n x ta); auto. f_equal.
  induction ch as [|t r IH]; cbn [nodes_value]; auto. now rewrite IH.
Qed.

(** Statements of the export. *)
Fixpoint node_stmts (n : nat) (t : node) (conds : list nat) : list cstmt :=
  match t with
  | Node ta w ch =>
      let conds := match ta with Some a => conds ++ [a] | None => conds end in
      match w with
      | Some ws => [SIf (map (cond_of n) conds)
                      (adds_from 0 ws ++
                       (fix each (l : list node) := match l with [] => [] | t' :: r => node_stmts n t' [] ++ each r end) ch)]
      | None => (fix each (l : list node) := match l with [] => [] | t' :: r => node_stmts n t' conds ++ each r end) ch
      end
  end.
Fixpoint nodes_stmts (n : nat) (l : list node) (conds : list nat) : list cstmt :=
  match l with [] => [] | t :: r => node_stmts n t conds ++ nodes_stmts n r conds end.
Fixpoint export_nodes (n : nat) (l : list node) (d : nat) (conds : list nat) : text :=
  match l with [] => [] | t :: r => export_tree n t d conds ++ export_nodes n r d conds end.

Lemma node_stmts_eq : forall n ta w ch conds, node_stmts n (Node ta w ch) conds =
  let conds := match ta with Some a => conds ++ [a] | None => conds end in
  match w with
  | Some ws => [SIf (map (cond_of n) conds) (adds_from 0 ws ++ nodes_stmts n ch [])]
  | None => nodes_stmts n ch conds
  end.
Proof.
  intros. cbn [node_stmts]. destruct w as [ws|].
  - do 3 f_equal. induction ch as [|t r IH]; cbn [nodes_stmts]; auto. now rewrite IH.
  - induction ch as [|t r IH]; cbn [nodes_stmts]; auto. now rewrite IH.
Qed.

Lemma export_tree_eq : forall n ta w ch d conds, export_tree n (Node ta w ch) d conds =
  let conds := match ta with Some a => conds ++ [a] | None => conds end in
  match w with
  | Some ws => concat (repeat (tx "  ") d) ++ fmt_if n conds ++ [newline] ++ fmt_votes ws ++ [newline] ++
               export_nodes n ch (S d) [] ++
               match ta with Some _ => concat (repeat (tx "  ") (S d)) ++ tx "}" ++ [newline] | None => [] end
  | None => export_nodes n ch d conds
  end.
Proof.
  intros. cbn [export_tree]. destruct w as [ws|].
  - do 6 f_equal. clear. induction ch as [|t r IH]; cbn [export_nodes]; auto. now rewrite IH.
  - induction ch as [|t r IH]; cbn [export_nodes]; auto. now rewrite IH.
Qed.

(** Every node below the root has a literal in range, and its weights are
    rows. *)
Inductive node_ok (n ncls : nat) : node -> Prop :=
| node_ok_intro : forall a w ch, (a < 2 * n)%nat ->
    (forall ws, w = Some ws -> length ws = ncls) -> Forall (node_ok n ncls) ch -> node_ok n ncls (Node (Some a) w ch).

Lemma node_reads : forall n ncls t, node_ok n ncls t -> forall d conds,
  reads n (export_tree n t d conds) (node_stmts n t conds).
Proof.
  intros n ncls t. induction t as [ta w ch IH] using node_ind2. intros H d conds.
  inversion H as [a w0 ch0 Ha Hw Hch]; subst.
  assert (R : forall d conds, reads n (export_nodes n ch d conds) (nodes_stmts n ch conds)).
  { clear - IH Hch. induction ch as [|t r IHr]; intros d conds; [constructor|].
    inversion IH; subst. inversion Hch; subst. cbn [export_nodes nodes_stmts].
    apply reads_app; auto. }
  rewrite node_stmts_eq, export_tree_eq. cbv zeta. destruct w as [ws|]; [|apply R].
  change ([SIf (map (cond_of n) (conds ++ [a])) (adds_from 0 ws ++ nodes_stmts n ch [])])
    with ([] ++ [SIf (map (cond_of n) (conds ++ [a])) (adds_from 0 ws ++ nodes_stmts n ch [])]).
  apply reads_app; [apply reads_ws_only, indent_ws|].
  replace (fmt_if n (conds ++ [a]) ++ [newline] ++ fmt_votes ws ++ [newline] ++ export_nodes n ch (S d) [] ++
           concat (repeat (tx "  ") (S d)) ++ tx "}" ++ [newline])
    with (fmt_if n (conds ++ [a]) ++
          ([newline] ++ fmt_votes ws ++ [newline] ++ export_nodes n ch (S d) [] ++ concat (repeat (tx "  ") (S d))) ++
          tx "}" ++ [newline]) by (rewrite <- !app_assoc; reflexivity).
  apply R_if.
  - intros E. apply app_eq_nil in E. destruct E. discriminate.
  - change ([newline] ++ fmt_votes ws ++ [newline] ++ export_nodes n ch (S d) [] ++ concat (repeat (tx "  ") (S d)))
      with (newline :: fmt_votes ws ++ [newline] ++ export_nodes n ch (S d) [] ++ concat (repeat (tx "  ") (S d))).
    apply R_ws; [reflexivity|]. apply reads_app; [apply reads_votes|].
    change ([newline] ++ export_nodes n ch (S d) [] ++ concat (repeat (tx "  ") (S d)))
      with (newline :: export_nodes n ch (S d) [] ++ concat (repeat (tx "  ") (S d))).
    apply R_ws; [reflexivity|]. rewrite <- (app_nil_r (nodes_stmts n ch [])).
    apply reads_app; [apply R|]. apply reads_ws_only, indent_ws.
  - now apply reads_ws_only.
Qed.

Lemma nodes_reads : forall n ncls ch, Forall (node_ok n ncls) ch -> forall d conds,
  reads n (export_nodes n ch d conds) (nodes_stmts n ch conds).
Proof.
  intros n ncls ch H. induction H as [|t r Ht Hr IH]; intros d conds; [constructor|].
  cbn [export_nodes nodes_stmts]. apply reads_app; auto. now apply (node_reads n ncls).
Qed.

Lemma conj_true_app : forall n x a b, conj_true n x (a ++ b) = conj_true n x a && conj_true n x b.
Proof. intros. unfold conj_true. apply forallb_app. Qed.

Lemma node_effect : forall n ncls x t, bytes x -> length x = n -> node_ok n ncls t ->
  forall conds, Forall (fun a => (a < 2 * n)%nat) conds ->
  effect ncls x (node_stmts n t conds) (fun c => if conj_true n x conds then node_value n x t c else 0).
Proof.
  intros n ncls x t Hx Hl. induction t as [ta w ch IH] using node_ind2. intros H conds Hc.
  inversion H as [a w0 ch0 Ha Hw Hch]; subst w0 ch0 ta.
  assert (R : forall conds, Forall (fun a => (a < 2 * n)%nat) conds ->
     effect ncls x (nodes_stmts n ch conds) (fun c => if conj_true n x conds then nodes_value n x ch c else 0)).
  { clear - IH Hch. induction ch as [|t r IHr]; intros conds Hc.
    - cbn [nodes_stmts nodes_value]. eapply effect_ext; [|apply effect_nil]. intros. now destruct (conj_true n x conds).
    - inversion IH; subst. inversion Hch; subst. cbn [nodes_stmts nodes_value].
      eapply effect_ext; [|apply effect_app; [apply H1; auto|apply IHr; auto]].
      intros c _. cbv beta. destruct (conj_true n x conds); lia. }
  rewrite node_stmts_eq. cbv zeta.
  assert (Hc' : Forall (fun a => (a < 2 * n)%nat) (conds ++ [a])) by (apply Forall_app; auto).
  assert (Ec : conj_true n x (conds ++ [a]) = conj_true n x conds && lit_true n x a).
  { rewrite conj_true_app. f_equal. unfold conj_true. cbn [forallb]. now rewrite andb_true_r. }
  destruct w as [ws|].
  - eapply effect_ext; [|apply effect_if, effect_app; [apply effect_adds; auto|apply R; constructor]].
    intros c _. cbv beta. rewrite conds_conj by auto. rewrite node_value_eq, Ec. cbn [opt_lit opt_weight].
    change (conj_true n x []) with true. cbv iota.
    destruct (conj_true n x conds), (lit_true n x a); reflexivity.
  - eapply effect_ext; [|apply R; auto]. intros c _. cbv beta.
    rewrite node_value_eq, Ec. cbn [opt_lit opt_weight].
    destruct (conj_true n x conds), (lit_true n x a); reflexivity.
Qed.

Lemma nodes_effect : forall n ncls x ch, bytes x -> length x = n -> Forall (node_ok n ncls) ch ->
  effect ncls x (nodes_stmts n ch []) (nodes_value n x ch).
Proof.
  intros n ncls x ch Hx Hl H. induction H as [|t r Ht Hr IH]; [apply effect_nil|].
  cbn [nodes_stmts]. eapply effect_ext; [|apply effect_app; [apply (node_effect n ncls x t); auto|exact IH]].
  intros c _. reflexivity.
Qed.

(** *** The tree holds every rule exactly once *)

(** Sum over rules of the weight when the literals outside the path hold. *)
Definition rules_value (n : nat) (x : list Z) (sets : list (list nat)) (wss : list (list Z)) (path rules : list nat)
  (c : nat) : Z :=
  zsum (map (fun k => if conj_true n x (set_diff (nth k sets []) path) then nth c (nth k wss []) 0 else 0) rules).

Definition distinct_sets (sets : list (list nat)) : Prop :=
  forall i j, (i < length sets)%nat -> (j < length sets)%nat ->
    incl (nth i sets []) (nth j sets []) -> incl (nth j sets []) (nth i sets []) -> i = j.

Lemma rules_value_split : forall n x sets wss path c f rules,
  rules_value n x sets wss path rules c =
  rules_value n x sets wss path (filter f rules) c + rules_value n x sets wss path (filter (fun k => negb (f k)) rules) c.
Proof.
  intros. unfold rules_value. induction rules as [|k rules IH]; [reflexivity|].
  cbn [filter]. destruct (f k); cbn [negb map zsum]; rewrite IH; lia.
Qed.

Lemma conj_diff_cons : forall n x s ta path, In ta s -> ~ In ta path ->
  conj_true n x (set_diff s path) = lit_true n x ta && conj_true n x (set_diff s (ta :: path)).
Proof.
  intros n x s ta path Hi Hp. apply eq_true_iff_eq. rewrite andb_true_iff.
  unfold conj_true. rewrite !forallb_forall. split.
  - intros H. split.
    + apply H. now apply set_diff_In.
    + intros v Hv. apply set_diff_In in Hv. apply H. apply set_diff_In. split; [tauto|].
      intros K. apply (proj2 Hv). now right.
  - intros [H1 H2] v Hv. apply set_diff_In in Hv. destruct (Nat.eq_dec v ta) as [->|Hn]; auto.
    apply H2. apply set_diff_In. split; [tauto|]. intros [K|K]; [congruence|]. tauto.
Qed.

Lemma rules_value_child : forall n x sets wss path rules ta c,
  rules_value n x sets wss path (ta_rules sets path rules ta) c =
  if lit_true n x ta then rules_value n x sets wss (ta :: path) (ta_rules sets path rules ta) c else 0.
Proof.
  intros n x sets wss path rules ta c.
  assert (A : forall l, (forall j, In j l -> In ta (nth j sets []) /\ ~ In ta path) ->
     rules_value n x sets wss path l c = if lit_true n x ta then rules_value n x sets wss (ta :: path) l c else 0).
  { intros l Hl. unfold rules_value. induction l as [|j l IH]; [cbn; now destruct (lit_true n x ta)|].
    cbn [map zsum]. rewrite IH by (intros; apply Hl; now right).
    destruct (Hl j (or_introl eq_refl)) as [J1 J2].
    rewrite (conj_diff_cons n x (nth j sets []) ta path J1 J2).
    destruct (lit_true n x ta); cbn [andb]; lia. }
  apply A. intros j Hj. apply ta_rules_In in Hj. tauto.
Qed.

Lemma nodup_at_most_one : forall (l : list nat), NoDup l -> (forall a b, In a l -> In b l -> a = b) ->
  l = [] \/ exists a, l = [a].
Proof.
  intros [|a [|b l]] Hn H; [now left|right; eauto|].
  exfalso. assert (a = b) by (apply H; cbn; auto). subst. inversion Hn; subst. apply H2. now left.
Qed.

Lemma filter_comp : forall (A : Type) (f g : A -> bool) l, filter f (filter g l) = filter (fun a => g a && f a) l.
Proof.
  intros. induction l as [|a l IH]; cbn [filter]; auto.
  destruct (g a); cbn [filter andb]; [destruct (f a); now rewrite IH|auto].
Qed.

Lemma subtree_value : forall fuel pick sets wss n ncls x path rules intree w w' ch it',
  distinct_sets sets -> below sets path rules -> NoDup rules ->
  (forall k, In k rules -> (k < length sets)%nat /\ ~ In k intree) ->
  (w = None \/ eqs sets path rules = []) ->
  Forall (Forall (fun l => (l < 2 * n)%nat)) sets -> (length sets <= length wss)%nat -> rows_of ncls wss ->
  (forall ws, w = Some ws -> length ws = ncls) ->
  subtree fuel pick sets wss path rules intree w = Some (w', ch, it') ->
  Forall (node_ok n ncls) ch /\ (forall ws, w' = Some ws -> length ws = ncls) /\
  (w' = None <-> w = None /\ eqs sets path rules = []) /\
  forall c, opt_weight w' c + nodes_value n x ch c = opt_weight w c + rules_value n x sets wss path rules c.
Proof.
  induction fuel as [|f IH]; intros pick sets wss n ncls x path rules intree w w' ch it'
    Hd Hb Hnd Hr Hw Hrange Hlen Hrows Hwl H; [discriminate|].
  cbn [subtree] in H. destruct rules as [|r0 rules0].
  { inversion H; subst. split; [constructor|]. split; [auto|]. split; [cbn; tauto|].
    intros c. cbn. reflexivity. }
  set (rules := r0 :: rules0) in *. clearbody rules. clear r0 rules0.
  fold (eqs sets path rules) in H.
  (* the rules equal to the path: at most one *)
  assert (One : eqs sets path rules = [] \/ exists a, eqs sets path rules = [a]).
  { apply nodup_at_most_one; [now apply NoDup_filter|].
    intros a b Ha Hb'. apply eqs_In in Ha. apply eqs_In in Hb'. destruct Ha as [A1 [A2 A3]]. destruct Hb' as [B1 [B2 B3]].
    apply Hd; [now apply Hr|now apply Hr| |]; intros v Hv; auto. }
  set (w1 := node_weight sets wss path rules (pick path rules) w) in *.
  assert (W1 : (forall ws, w1 = Some ws -> length ws = ncls) /\
               (w1 = None <-> w = None /\ eqs sets path rules = []) /\
               forall c, opt_weight w1 c = opt_weight w c + rules_value n x sets wss path (eqs sets path rules) c).
  { unfold w1, node_weight. fold (eqs sets path rules). destruct One as [E|[a E]]; rewrite E.
    - cbn [choose]. split; auto. split; [tauto|]. intros c. cbn. lia.
    - cbn [choose length]. rewrite Nat.mod_1_r. cbn [nth].
      assert (Ha : In a (eqs sets path rules)) by (rewrite E; now left). apply eqs_In in Ha. destruct Ha as [A1 [A2 A3]].
      destruct Hw as [->|Hw]; [|congruence].
      split; [|split].
      + intros ws Hws. inversion Hws. subst. apply (proj1 (Forall_forall _ _) Hrows), nth_In.
        pose proof (proj1 (Hr a A1)). lia.
      + split; [discriminate|]. intros [_ K]. discriminate.
      + intros c. cbn [opt_weight]. unfold rules_value. cbn [map zsum].
        rewrite (proj2 (set_diff_nil _ _) A2). cbn. lia. }
  clearbody w1. destruct W1 as [W1 [W2 W3]].
  destruct (choose (pick path rules) (best_keys sets path rules)) as [ta|] eqn:Ec.
  - apply choose_In, best_keys_incl, ta_keys_In in Ec. destruct Ec as [k0 [K1 [K2 K3]]].
    destruct (subtree f pick sets wss (ta :: path) _ _ None) as [[[cw cch] it2]|] eqn:E2; [|discriminate].
    destruct (subtree f pick sets wss path (set_diff rules it2) it2 _) as [[[w3 ch3] it3]|] eqn:E3; [|discriminate].
    inversion H; subst; clear H.
    pose proof (subtree_covers _ _ _ _ _ _ _ _ _ _ _ (below_child _ _ _ ta Hb) E2) as [C1 [C2 C3]].
    set (child := ta_rules sets path rules ta) in *.
    assert (Disj : forall k, In k child -> ~ In k (eqs sets path rules)).
    { intros k Hk He. apply ta_rules_In in Hk. apply eqs_In in He. destruct Hk as [_ [P1 P2]]. destruct He as [_ [P3 _]].
      apply P2, P3, P1. }
    assert (It2 : forall k, In k rules -> (In k it2 <-> In k (eqs sets path rules) \/ In k child)).
    { intros k Hk. split.
      - intros Hi. apply C3, in_app_or in Hi. destruct Hi as [Hi|Hi]; auto.
        apply in_app_or in Hi. destruct Hi as [Hi|Hi]; auto. exfalso. now apply (proj2 (Hr k Hk)).
      - intros [Hi|Hi]; [apply C1, in_or_app; auto|now apply C2]. }
    apply (IH pick sets wss n ncls x) in E2; auto.
    2:{ now apply below_child. }
    2:{ now apply NoDup_filter. }
    2:{ intros k Hk. pose proof (Disj k Hk) as D. apply ta_rules_In in Hk. split; [now apply Hr|].
        intros K. apply in_app_or in K. destruct K as [K|K]; [|tauto]. now apply (proj2 (Hr k (proj1 Hk))). }
    2:{ discriminate. }
    destruct E2 as [P1 [P2 [P3 P4]]].
    assert (Erest : eqs sets path (set_diff rules it2) = []).
    { destruct (eqs sets path (set_diff rules it2)) as [|k l] eqn:E; auto. exfalso.
      assert (Hk : In k (eqs sets path (set_diff rules it2))) by (rewrite E; now left).
      apply eqs_In in Hk. destruct Hk as [Q1 Q2]. apply set_diff_In in Q1. destruct Q1 as [Q1 Q3].
      apply Q3. apply It2; auto. left. apply eqs_In. auto. }
    apply (IH pick sets wss n ncls x) in E3; auto.
    2:{ now apply below_rest. }
    2:{ now apply NoDup_filter. }
    2:{ intros k Hk. apply set_diff_In in Hk. split; [now apply Hr|tauto]. }
    destruct E3 as [R1 [R2 [R3 R4]]].
    split; [|split; [|split]]; auto.
    + constructor; auto. constructor; auto.
      assert (Hin : In (nth k0 sets []) sets) by (apply nth_In; now apply Hr).
      pose proof (proj1 (Forall_forall _ _) Hrange _ Hin) as F. exact (proj1 (Forall_forall _ _) F ta K2).
    + rewrite R3, W2. rewrite Erest. tauto.
    + intros c. cbn [nodes_value]. rewrite node_value_eq. cbn [opt_lit].
      rewrite (P4 c). specialize (R4 c). cbn [opt_weight]. rewrite Z.add_0_l.
      pose proof (rules_value_child n x sets wss path rules ta c) as V. fold child in V. rewrite <- V.
      (* rules = eqs + child + rest *)
      rewrite (rules_value_split n x sets wss path c (fun k => set_eqb (nth k sets []) path) rules).
      fold (eqs sets path rules).
      rewrite (rules_value_split n x sets wss path c (fun k => mem ta (set_diff (nth k sets []) path))
                 (filter (fun k => negb (set_eqb (nth k sets []) path)) rules)).
      rewrite !filter_comp.
      assert (G1 : filter (fun a => negb (set_eqb (nth a sets []) path) && mem ta (set_diff (nth a sets []) path)) rules = child).
      { unfold child, ta_rules. apply filter_ext_in. intros k Hk.
        destruct (mem ta (set_diff (nth k sets []) path)) eqn:M; [|apply andb_false_r].
        rewrite andb_true_r. apply negb_true_iff, not_true_iff_false. intros S.
        apply (Disj k); [unfold child, ta_rules; apply filter_In; auto|].
        unfold eqs. apply filter_In. auto. }
      assert (G2 : filter (fun a => negb (set_eqb (nth a sets []) path) && negb (mem ta (set_diff (nth a sets []) path))) rules
                   = set_diff rules it2).
      { unfold set_diff at 2. apply filter_ext_in. intros k Hk. apply eq_true_iff_eq.
        rewrite andb_true_iff, !negb_true_iff. rewrite (mem_not k it2), (It2 k Hk).
        assert (Q1 : In k (eqs sets path rules) <-> set_eqb (nth k sets []) path = true)
          by (unfold eqs; rewrite filter_In; tauto).
        assert (Q2 : In k child <-> mem ta (set_diff (nth k sets []) path) = true)
          by (unfold child, ta_rules; rewrite filter_In; tauto).
        rewrite Q1, Q2.
        destruct (set_eqb (nth k sets []) path), (mem ta (set_diff (nth k sets []) path)); intuition congruence. }
      rewrite G1, G2. specialize (W3 c). lia.
  - apply choose_none, best_keys_nil in Ec. inversion H; subst; clear H.
    split; [constructor|]. split; [auto|]. split; [auto|].
    intros c. cbn [nodes_value]. rewrite W3. rewrite Z.add_0_r. f_equal. f_equal.
    unfold eqs. clear - Ec Hb. assert (A : forall k, In k rules -> set_eqb (nth k sets []) path = true).
    { intros k Hk. apply set_eqb_spec. split; [|now apply Hb].
      intros l Hl. destruct (in_dec Nat.eq_dec l path) as [|Hn]; auto.
      exfalso. assert (K : In l (ta_keys sets path rules)) by (apply ta_keys_In; eauto).
      rewrite Ec in K. contradiction. }
    clear Ec Hb. induction rules as [|k rules IH]; cbn [filter]; auto. rewrite A by (now left). f_equal.
    apply IH. intros j Hj. apply A. now right.
Qed.

(** *** The whole program *)

Definition distinct_rules (rs : ruleset) : Prop :=
  forall i j ri rj, nth_error (rs_rules rs) i = Some ri -> nth_error (rs_rules rs) j = Some rj ->
    (forall l, In l ri <-> In l rj) -> i = j.

Lemma conj_nodup : forall n x r, conj_true n x (nodup Nat.eq_dec r) = conj_true n x r.
Proof.
  intros. unfold conj_true. apply eq_true_iff_eq. rewrite !forallb_forall.
  split; intros H v Hv; apply H; apply (nodup_In Nat.eq_dec); auto.
Qed.

Lemma rules_value_total_aux : forall n x c rules wss pre prew,
  length pre = length prew -> (length rules <= length wss)%nat ->
  rules_value n x (map (nodup Nat.eq_dec) (pre ++ rules)) (prew ++ wss) [] (seq (length pre) (length rules)) c =
  rule_vote_total n x rules wss c.
Proof.
  intros n x c rules. induction rules as [|r rules IH]; intros wss pre prew Hp Hl; [reflexivity|].
  destruct wss as [|ws wss]; [cbn in Hl; lia|].
  cbn [length seq]. unfold rules_value in *. cbn [map zsum rule_vote_total].
  rewrite set_diff_nil_r.
  replace (nth (length pre) (map (nodup Nat.eq_dec) (pre ++ r :: rules)) []) with (nodup Nat.eq_dec r).
  2:{ rewrite map_app, app_nth2; rewrite map_length; [|lia]. now rewrite Nat.sub_diag. }
  rewrite conj_nodup. rewrite Hp at 1. rewrite app_nth2, Nat.sub_diag by lia. cbn [nth].
  f_equal. specialize (IH wss (pre ++ [r]) (prew ++ [ws])).
  rewrite !app_length in IH. cbn [length] in IH. rewrite !Nat.add_1_r in IH.
  rewrite <- !app_assoc in IH. cbn [app] in IH. apply IH; cbn [length] in *; lia.
Qed.

Lemma rules_value_total : forall n x rs c, length (rs_weights rs) = length (rs_rules rs) ->
  rules_value n x (rule_sets rs) (rs_weights rs) [] (seq 0 (length (rule_sets rs))) c =
  rule_vote_total n x (rs_rules rs) (rs_weights rs) c.
Proof.
  intros n x rs c Hl. unfold rule_sets. rewrite map_length.
  apply (rules_value_total_aux n x c (rs_rules rs) (rs_weights rs) [] []); auto. lia.
Qed.

Lemma rule_sets_range : forall n rs, Forall (Forall (fun l => (l < 2 * n)%nat)) (rs_rules rs) ->
  Forall (Forall (fun l => (l < 2 * n)%nat)) (rule_sets rs).
Proof.
  intros n rs H. unfold rule_sets. apply Forall_map. eapply Forall_impl; [|exact H].
  intros r Hr. apply Forall_forall. intros v Hv. apply nodup_In in Hv. exact (proj1 (Forall_forall _ _) Hr v Hv).
Qed.

Lemma distinct_rules_sets : forall rs, distinct_rules rs -> distinct_sets (rule_sets rs).
Proof.
  intros rs H i j Hi Hj H1 H2. unfold rule_sets in *. rewrite map_length in *.
  destruct (nth_error (rs_rules rs) i) as [ri|] eqn:Ei; [|apply nth_error_None in Ei; lia].
  destruct (nth_error (rs_rules rs) j) as [rj|] eqn:Ej; [|apply nth_error_None in Ej; lia].
  assert (Ni : nth i (map (nodup Nat.eq_dec) (rs_rules rs)) [] = nodup Nat.eq_dec ri)
    by (apply nth_error_nth; rewrite nth_error_map, Ei; reflexivity).
  assert (Nj : nth j (map (nodup Nat.eq_dec) (rs_rules rs)) [] = nodup Nat.eq_dec rj)
    by (apply nth_error_nth; rewrite nth_error_map, Ej; reflexivity).
  rewrite Ni, Nj in *. apply (H i j ri rj Ei Ej). intros l. split; intros Hl.
  - apply (nodup_In Nat.eq_dec), H1, nodup_In. exact Hl.
  - apply (nodup_In Nat.eq_dec), H2, nodup_In. exact Hl.
Qed.

Lemma topo_layout : forall pick rs root, (length (rs_rules rs) <= length (rs_weights rs))%nat ->
  generate_tree pick rs = Some root ->
  topographical_c pick rs =
    Ok ((c_guard "TOPOGRAPHICAL_C" ++ ln topo_note ++ [newline] ++ c_head1) ++
        fmt_nat (rs_nclasses rs) ++ c_head2 ++ export_tree (rs_nliterals rs) root 0 [] ++ c_tail ++ c_end "TOPOGRAPHICAL_C").
Proof.
  intros pick rs root Hl E. unfold topographical_c. rewrite E.
  replace (length (rs_weights rs) <? length (rs_rules rs))%nat with false by (symmetry; now apply Nat.ltb_ge).
  f_equal. unfold fmt_header, c_head2. rewrite <- !app_assoc. reflexivity.
Qed.

Theorem topographical_c_correct : forall pick rs x, ruleset_ok rs -> distinct_rules rs ->
  bytes x -> length x = rs_nliterals rs ->
  (forall c, (c < rs_nclasses rs)%nat -> is_int16 (rule_vote_total (rs_nliterals rs) x (rs_rules rs) (rs_weights rs) c)) ->
  exists t, topographical_c pick rs = Ok t /\
    c_votes "TOPOGRAPHICAL_C" topo_note t x =
      Some (rs_nclasses rs,
            map (rule_vote_total (rs_nliterals rs) x (rs_rules rs) (rs_weights rs)) (seq 0 (rs_nclasses rs))).
Proof.
  intros pick rs x [Hn [Hl [Hw [Hr Hne]]]] Hd Hx Hlx Hfit.
  destruct (generate_tree_total pick rs) as [root E].
  eexists. split; [apply (topo_layout pick rs root); [lia|exact E]|].
  unfold generate_tree in E.
  destruct (subtree _ pick (rule_sets rs) _ [] _ [] None) as [[[w ch] it]|] eqn:Es; [|discriminate].
  inversion E; subst; clear E.
  apply (subtree_value _ pick (rule_sets rs) (rs_weights rs) (rs_nliterals rs) (rs_nclasses rs) x) in Es.
  - destruct Es as [S1 [S2 [S3 S4]]].
    assert (Ew : w = None).
    { apply S3. split; auto. unfold eqs.
      assert (A : forall k, In k (seq 0 (length (rule_sets rs))) -> set_eqb (nth k (rule_sets rs) []) [] = false).
      { intros k Hk. apply in_seq in Hk. apply not_true_iff_false. intros K. apply set_eqb_spec in K.
        destruct K as [K _]. unfold rule_sets in *. rewrite map_length in Hk.
        destruct (nth_error (rs_rules rs) k) as [r|] eqn:Ek; [|apply nth_error_None in Ek; lia].
        assert (Nk : nth k (map (nodup Nat.eq_dec) (rs_rules rs)) [] = nodup Nat.eq_dec r)
          by (apply nth_error_nth; rewrite nth_error_map, Ek; reflexivity).
        rewrite Nk in K. destruct r as [|v r]; [apply Hne; eapply nth_error_In; eauto|].
        apply (K v). apply nodup_In. now left. }
      clear - A. induction (seq 0 (length (rule_sets rs))) as [|k l IH]; cbn [filter]; auto.
      rewrite A by now left. apply IH. intros j Hj. apply A. now right. }
    subst w. rewrite export_tree_eq. cbv zeta.
    erewrite (c_votes_reads (rs_nliterals rs)); [|eapply nodes_reads; exact S1|exact Hn].
    f_equal. f_equal. rewrite (final_votes (rs_nclasses rs) x _ (nodes_value (rs_nliterals rs) x ch)).
    + apply map_ext. intros c. specialize (S4 c). cbn [opt_weight] in S4. rewrite rules_value_total in S4 by auto. lia.
    + now apply nodes_effect.
    + intros c Hc. specialize (S4 c). cbn [opt_weight] in S4. rewrite rules_value_total in S4 by auto.
      specialize (Hfit c Hc). unfold is_int16 in *. lia.
  - now apply distinct_rules_sets.
  - intros k _ v [].
  - apply seq_NoDup.
  - intros k Hk. apply in_seq in Hk. split; [lia|intros []].
  - now left.
  - now apply rule_sets_range.
  - unfold rule_sets. rewrite map_length. lia.
  - exact Hw.
  - discriminate.
Qed.
