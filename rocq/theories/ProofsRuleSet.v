(** RuleSet.compile_from_dense_state preserves votes and merges duplicates. *)
From Coq Require Import ZArith List Bool Lia ZifyBool Permutation.
From Verif Require Import Base BaseProofs Spec ModelRuleSet ProofsClause.
Import ListNotations.
Open Scope Z_scope.

Lemma list_nat_eqb_eq : forall a b, list_nat_eqb a b = true <-> a = b.
Proof.
  induction a as [|x a IH]; intros [|y b]; simpl; try (split; easy).
  rewrite andb_true_iff, Nat.eqb_eq, IH. split; [intros []; congruence | intros H; inversion H; auto].
Qed.

Lemma list_nat_eqb_refl : forall a, list_nat_eqb a a = true.
Proof. intros. now apply list_nat_eqb_eq. Qed.

Lemma nonzero_ge0_shift : forall row i,
  nonzero_ge0 i row = filter (fun j => 0 <=? nth (j - i) row (-1)) (seq i (length row)).
Proof.
  induction row as [|v row IH]; intros i; simpl; auto.
  rewrite Nat.sub_diag. rewrite Z.geb_leb. rewrite IH.
  assert (E : filter (fun j => 0 <=? nth (j - S i) row (-1)) (seq (S i) (length row)) =
              filter (fun j => 0 <=? match (j - i)%nat with 0%nat => v | S m => nth m row (-1) end)
                     (seq (S i) (length row))).
  { apply filter_ext_in. intros j Hj. apply in_seq in Hj.
    replace (j - i)%nat with (S (j - S i)) by lia. reflexivity. }
  destruct (0 <=? v); simpl; congruence.
Qed.

Lemma nonzero_ge0_included : forall row, nonzero_ge0 0 row = included row.
Proof.
  intros. rewrite nonzero_ge0_shift. unfold included. apply filter_ext. intros. now rewrite Nat.sub_0_r.
Qed.

(** ** map lemmas *)

Lemma rm_get_In : forall key m v, rm_get key m = Some v -> In (key, v) m.
Proof.
  intros key m v. induction m as [|[k u] m IH]; simpl; [easy|].
  destruct (list_nat_eqb k key) eqn:E.
  - apply list_nat_eqb_eq in E. intros H. inversion H; subst. auto.
  - auto.
Qed.

Lemma rm_get_None : forall key m, rm_get key m = None <-> ~ In key (map fst m).
Proof.
  intros key m. induction m as [|[k u] m IH]; simpl; [tauto|].
  destruct (list_nat_eqb k key) eqn:E.
  - apply list_nat_eqb_eq in E. split; [easy|tauto].
  - rewrite IH. assert (k <> key). { intros ->. now rewrite list_nat_eqb_refl in E. } tauto.
Qed.

Lemma rm_set_keys_in : forall key v m, In key (map fst m) -> map fst (rm_set key v m) = map fst m.
Proof.
  intros key v m. induction m as [|[k u] m IH]; simpl; [easy|].
  intros H. destruct (list_nat_eqb k key) eqn:E; simpl; auto.
  rewrite IH; auto. destruct H; auto. subst. now rewrite list_nat_eqb_refl in E.
Qed.

Lemma rm_set_notin : forall key v m, ~ In key (map fst m) -> rm_set key v m = m ++ [(key, v)].
Proof.
  intros key v m. induction m as [|[k u] m IH]; simpl; auto.
  intros H. destruct (list_nat_eqb k key) eqn:E.
  - apply list_nat_eqb_eq in E. tauto.
  - rewrite IH; tauto.
Qed.

Lemma rm_set_set : forall key v m, rm_set key v (rm_set key v m) = rm_set key v m.
Proof.
  intros key v m. induction m as [|[k u] m IH]; simpl.
  - now rewrite list_nat_eqb_refl.
  - destruct (list_nat_eqb k key) eqn:E; simpl; rewrite E; auto. now rewrite IH.
Qed.

Lemma rm_get_app_notin : forall key m v, ~ In key (map fst m) -> rm_get key (m ++ [(key, v)]) = Some v.
Proof.
  intros key m v. induction m as [|[k u] m IH]; simpl.
  - now rewrite list_nat_eqb_refl.
  - intros H. destruct (list_nat_eqb k key) eqn:E; [apply list_nat_eqb_eq in E; tauto|]. apply IH. tauto.
Qed.

(** ** Ghost: the same map with unbounded integers *)

Definition zadd (a b : list Z) : list Z := map2 Z.add a b.

(** Value stored for a key (0 when absent). *)
Definition rm_val (m : rule_map) (key : list nat) (c : nat) : Z :=
  match rm_get key m with Some v => nth c v 0 | None => 0 end.

Lemma rm_get_set_eq : forall key v m, rm_get key (rm_set key v m) = Some v.
Proof.
  intros key v m. induction m as [|[k u] m IH]; simpl.
  - now rewrite list_nat_eqb_refl.
  - destruct (list_nat_eqb k key) eqn:E; simpl; rewrite E; auto.
Qed.

Lemma rm_get_set_neq : forall key key' v m, key <> key' -> rm_get key' (rm_set key v m) = rm_get key' m.
Proof.
  intros key key' v m Hne. induction m as [|[k u] m IH]; simpl.
  - destruct (list_nat_eqb key key') eqn:E; auto. apply list_nat_eqb_eq in E. congruence.
  - destruct (list_nat_eqb k key) eqn:E; simpl.
    + apply list_nat_eqb_eq in E. subst. destruct (list_nat_eqb key key') eqn:E2; auto.
      apply list_nat_eqb_eq in E2. congruence.
    + destruct (list_nat_eqb k key'); auto.
Qed.

Lemma rm_set_In_keys : forall key v m k, In k (map fst (rm_set key v m)) <-> k = key \/ In k (map fst m).
Proof.
  intros key v m k. destruct (in_dec (list_eq_dec Nat.eq_dec) key (map fst m)) as [H|H].
  - rewrite rm_set_keys_in by auto. split; auto. intros [->|]; auto.
  - rewrite rm_set_notin by auto. rewrite map_app, in_app_iff. simpl. intuition.
Qed.

Lemma rm_set_NoDup : forall key v m, NoDup (map fst m) -> NoDup (map fst (rm_set key v m)).
Proof.
  intros key v m H. destruct (in_dec (list_eq_dec Nat.eq_dec) key (map fst m)) as [Hi|Hi].
  - now rewrite rm_set_keys_in by auto.
  - rewrite rm_set_notin by auto. rewrite map_app. simpl.
    apply (Permutation_NoDup (l := key :: map fst m)).
    + apply Permutation_cons_append.
    + constructor; auto.
Qed.

Lemma nth_repeat0 : forall n c, nth c (repeat 0 n) 0 = 0.
Proof.
  induction n; intros [|c]; simpl; auto.
Qed.

Lemma all_zero_nth : forall w c, all_zero w = true -> nth c w 0 = 0.
Proof.
  induction w as [|v w IH]; intros [|c] H; simpl in *; auto.
  - apply andb_true_iff in H. lia.
  - apply andb_true_iff in H. apply IH; tauto.
Qed.

Lemma add16_nth : forall a b c, length a = length b -> wrap16 (nth c a 0) = nth c a 0 ->
  nth c (add16 a b) 0 = wrap16 (nth c a 0 + nth c b 0).
Proof.
  intros a b c H Hw. unfold add16. destruct (Nat.lt_ge_cases c (length a)).
  - rewrite nth_map2 with (da := 0) (db := 0) by lia. reflexivity.
  - rewrite nth_overflow by (rewrite map2_length; lia).
    rewrite !nth_overflow by lia. reflexivity.
Qed.

(** ** Invariant *)

Record cinv (ncls : nat) (rows ws : list (list Z)) (m : rule_map) : Prop := {
  ci_nodup : NoDup (map fst m);
  ci_nonempty : ~ In [] (map fst m);
  ci_width : Forall (fun kv : list nat * list Z => length (snd kv) = ncls) m;
  ci_in : forall k, In k (map fst m) <->
            k <> [] /\ exists i row w, nth_error rows i = Some row /\ nth_error ws i = Some w /\
                                       included row = k /\ all_zero w = false;
  ci_val : forall k c, In k (map fst m) -> rm_val m k c = wrap16 (merged_weight rows ws k c)
}.

Lemma merged_weight_app : forall rows ws row w k c, length rows = length ws ->
  merged_weight (rows ++ [row]) (ws ++ [w]) k c =
  merged_weight rows ws k c + (if list_eq_dec Nat.eq_dec (included row) k then nth c w 0 else 0).
Proof.
  induction rows as [|r rows IH]; intros [|u ws] row w k c H; simpl in *; try lia.
  rewrite IH by lia. lia.
Qed.

Lemma merged_weight_absent : forall rows ws k c, length rows = length ws ->
  (forall i row w, nth_error rows i = Some row -> nth_error ws i = Some w -> included row = k -> all_zero w = true) ->
  merged_weight rows ws k c = 0.
Proof.
  induction rows as [|r rows IH]; intros [|u ws] k c Hl H; simpl in *; try lia.
  rewrite IH; try lia.
  - destruct (list_eq_dec Nat.eq_dec (included r) k); [|lia].
    rewrite all_zero_nth; [lia|]. apply (H O r u); auto.
  - intros i row w H1 H2. apply (H (S i)); auto.
Qed.

Lemma Forall_rm_set : forall (P : list nat * list Z -> Prop) key v m,
  (forall k, P (k, v) <-> P (key, v)) -> P (key, v) -> Forall P m -> Forall P (rm_set key v m).
Proof.
  intros P key v m Hk Hp H. induction H as [|[k u] m H1 H2 IH]; simpl.
  - constructor; auto.
  - destruct (list_nat_eqb k key); constructor; auto. now apply Hk.
Qed.

Lemma rm_get_width : forall ncls m k v,
  Forall (fun kv : list nat * list Z => length (snd kv) = ncls) m -> rm_get k m = Some v -> length v = ncls.
Proof.
  intros ncls m k v H Hg. apply rm_get_In in Hg. rewrite Forall_forall in H. apply (H (k, v) Hg).
Qed.

Lemma nth_error_snoc : forall A (l : list A) a i b,
  nth_error (l ++ [a]) i = Some b <-> (nth_error l i = Some b) \/ (i = length l /\ b = a).
Proof.
  intros A l a i b. destruct (Nat.lt_trichotomy i (length l)) as [H|[H|H]].
  - rewrite nth_error_app1 by auto. split; auto. intros [|[]]; auto; lia.
  - subst. rewrite nth_error_app2, Nat.sub_diag by lia. simpl. split.
    + intros E. inversion E. auto.
    + intros [E|[_ ->]]; auto. assert (nth_error l (length l) <> None) by congruence.
      apply nth_error_Some in H. lia.
  - split.
    + intros E. assert (nth_error (l ++ [a]) i <> None) by congruence.
      apply nth_error_Some in H0. rewrite app_length in H0. simpl in H0. lia.
    + intros [E|[E _]]; [|lia]. assert (nth_error l i <> None) by congruence. apply nth_error_Some in H0. lia.
Qed.

Lemma exists_snoc : forall rows ws row wk k, length rows = length ws ->
  (exists i r w, nth_error (rows ++ [row]) i = Some r /\ nth_error (ws ++ [wk]) i = Some w /\
                 included r = k /\ all_zero w = false) <->
  (exists i r w, nth_error rows i = Some r /\ nth_error ws i = Some w /\
                 included r = k /\ all_zero w = false) \/ (included row = k /\ all_zero wk = false).
Proof.
  intros rows ws row wk k Hl. split.
  - intros [i [r [w [H1 [H2 [H3 H4]]]]]]. rewrite nth_error_snoc in H1, H2.
    destruct H1 as [H1|[H1 H1']].
    + destruct H2 as [H2|[H2 H2']].
      * left. exists i, r, w. auto.
      * assert (nth_error rows i <> None) by congruence. apply nth_error_Some in H. lia.
    + destruct H2 as [H2|[H2 H2']].
      * assert (nth_error ws i <> None) by congruence. apply nth_error_Some in H. lia.
      * subst. auto.
  - intros [[i [r [w [H1 [H2 [H3 H4]]]]]]|[H1 H2]].
    + exists i, r, w. rewrite !nth_error_snoc. auto.
    + exists (length rows), row, wk. rewrite !nth_error_snoc. auto.
Qed.

Lemma wrap16_rm_val : forall ncls rows ws m k c, cinv ncls rows ws m -> wrap16 (rm_val m k c) = rm_val m k c.
Proof.
  intros ncls rows ws m k c H. destruct (in_dec (list_eq_dec Nat.eq_dec) k (map fst m)) as [Hi|Hi].
  - rewrite (ci_val _ _ _ _ H) by auto. apply wrap16_wrap16.
  - unfold rm_val. apply rm_get_None in Hi. rewrite Hi. reflexivity.
Qed.

Lemma compile_step_inv : forall ncls rows ws m row wk,
  length rows = length ws -> length wk = ncls -> cinv ncls rows ws m ->
  cinv ncls (rows ++ [row]) (ws ++ [wk]) (compile_dense_step ncls m row wk).
Proof.
  intros ncls rows ws m row wk Hl Hwk I. unfold compile_dense_step. rewrite nonzero_ge0_included.
  set (on := included row).
  destruct (length on <? 1)%nat eqn:E1.
  { assert (Hon : on = []) by (destruct on; simpl in E1; auto; lia).
    destruct I as [I1 I2 I3 I4 I5]. constructor; auto.
    - intros k. rewrite I4, exists_snoc by auto. split.
      + intros [H1 H2]. auto.
      + intros [H1 [H2|[H2 _]]]; auto. fold on in H2. congruence.
    - intros k c Hk. rewrite I5, merged_weight_app by auto. fold on.
      destruct (list_eq_dec Nat.eq_dec on k); [congruence|]. f_equal. lia. }
  assert (Hon : on <> []). { intros Hx. rewrite Hx in E1. simpl in E1. lia. }
  destruct (rm_get on m) as [weights|] eqn:G.
  - (* key present *)
    assert (Hin : In on (map fst m)).
    { apply rm_get_In in G. apply (in_map fst) in G. auto. }
    assert (Hlen : length weights = ncls) by (eapply rm_get_width; [apply (ci_width _ _ _ _ I)|eauto]).
    assert (E : (if all_zero wk then rm_set on (add16 weights wk) m
                 else rm_set on (add16 weights wk) (rm_set on (add16 weights wk) m)) =
                rm_set on (add16 weights wk) m).
    { destruct (all_zero wk); auto. apply rm_set_set. }
    rewrite E. clear E.
    assert (Hval : forall c, nth c weights 0 = wrap16 (merged_weight rows ws on c)).
    { intros c. pose proof (ci_val _ _ _ _ I on c Hin) as V. unfold rm_val in V. rewrite G in V. auto. }
    destruct I as [I1 I2 I3 I4 I5].
    constructor.
    + now apply rm_set_NoDup.
    + rewrite rm_set_In_keys. intros [H|H]; auto.
    + apply Forall_rm_set; auto; simpl; [tauto|]. unfold add16. rewrite map2_length. lia.
    + intros k. rewrite rm_set_In_keys, exists_snoc by auto. rewrite I4. split.
      * intros [H|[H1 H2]]; [|auto]. subst. split; auto. left. apply I4 in Hin. tauto.
      * intros [H1 [H2|[H2 H3]]]; auto.
    + intros k c Hk. rewrite merged_weight_app by auto. fold on.
      unfold rm_val. destruct (list_eq_dec Nat.eq_dec on k) as [->|Hne].
      * rewrite rm_get_set_eq. rewrite add16_nth by (try lia; rewrite Hval, wrap16_wrap16; auto).
        rewrite Hval, wrap16_add_l. reflexivity.
      * rewrite rm_get_set_neq by auto. fold (rm_val m k c).
        rewrite I5; [f_equal; lia|]. apply rm_set_In_keys in Hk. destruct Hk; congruence.
  - (* key absent *)
    assert (Hnin : ~ In on (map fst m)) by (now apply rm_get_None).
    assert (Hz : forall c, merged_weight rows ws on c = 0).
    { intros c. apply merged_weight_absent; auto. intros i r w H1 H2 H3.
      destruct (all_zero w) eqn:Ez; auto. exfalso. apply Hnin. apply (ci_in _ _ _ _ I).
      split; auto. exists i, r, w. auto. }
    destruct I as [I1 I2 I3 I4 I5].
    destruct (all_zero wk) eqn:Ez.
    + constructor; auto.
      * intros k. rewrite I4, exists_snoc by auto. split.
        -- intros [H1 H2]. auto.
        -- intros [H1 [H2|[H2 H3]]]; auto. congruence.
      * intros k c Hk. rewrite I5, merged_weight_app by auto. fold on.
        rewrite (all_zero_nth wk) by auto. destruct (list_eq_dec Nat.eq_dec on k); f_equal; lia.
    + constructor.
      * now apply rm_set_NoDup.
      * rewrite rm_set_In_keys. intros [H|H]; auto.
      * apply Forall_rm_set; auto; simpl; [tauto|]. unfold add16. rewrite map2_length, repeat_length. lia.
      * intros k. rewrite rm_set_In_keys, exists_snoc by auto. rewrite I4. split.
        -- intros [H|[H1 H2]]; [|auto]. subst. split; auto.
        -- intros [H1 [H2|[H2 H3]]]; auto.
      * intros k c Hk. rewrite merged_weight_app by auto. fold on.
        unfold rm_val. destruct (list_eq_dec Nat.eq_dec on k) as [<-|Hne].
        -- rewrite rm_get_set_eq. rewrite add16_nth; rewrite ?repeat_length, ?nth_repeat0; auto.
           rewrite Hz. reflexivity.
        -- rewrite rm_get_set_neq by auto. fold (rm_val m k c).
           rewrite I5; [f_equal; lia|]. apply rm_set_In_keys in Hk. destruct Hk; congruence.
Qed.

Lemma compile_loop_inv : forall ncls c w rows ws m,
  length rows = length ws -> length c = length w -> rows_of ncls w -> cinv ncls rows ws m ->
  exists m', compile_dense_loop ncls m c w = Ok m' /\ cinv ncls (rows ++ c) (ws ++ w) m'.
Proof.
  intros ncls c. induction c as [|row c IH]; intros [|wk w] rows ws m Hl Hcw Hw I; simpl in *; try lia.
  - exists m. rewrite !app_nil_r. auto.
  - inversion Hw; subst.
    destruct (IH w (rows ++ [row]) (ws ++ [wk]) (compile_dense_step (length wk) m row wk)) as [m' [H1' H2']].
    + rewrite !app_length. simpl. lia.
    + lia.
    + auto.
    + apply compile_step_inv; auto.
    + exists m'. rewrite <- !app_assoc in H2'. auto.
Qed.

Lemma cinv_nil : forall ncls, cinv ncls [] [] [].
Proof.
  intros. constructor; simpl.
  - constructor.
  - auto.
  - constructor.
  - intros k. split; [easy|]. intros [_ [i [r [w [H _]]]]]. destruct i; easy.
  - easy.
Qed.

(** Well-formed dense states. *)
Definition dense_wf (n : nat) (s : dense_state) : Prop :=
  ds_ncols s = (2 * n)%nat /\ length (ds_c s) = length (ds_w s) /\
  rows_of (2 * n) (ds_c s) /\ rows_of (ds_nclasses s) (ds_w s).

Lemma compile_ok : forall n s, dense_wf n s ->
  exists m, compile_from_dense_state s =
            Ok (mkRuleSet (map fst m) (map snd m) n (ds_nclasses s)) /\
            cinv (ds_nclasses s) (ds_c s) (ds_w s) m.
Proof.
  intros n s [H1 [H2 [H3 H4]]].
  destruct (compile_loop_inv (ds_nclasses s) (ds_c s) (ds_w s) [] [] [] eq_refl H2 H4 (cinv_nil _)) as [m [E I]].
  exists m. split; auto. unfold compile_from_dense_state. rewrite E.
  rewrite H1. replace (Nat.div (2 * n) 2) with n; auto.
  rewrite Nat.mul_comm, Nat.div_mul; auto.
Qed.

(** ** Vote totals *)

Definition map_total (n : nat) (x : list Z) (m : rule_map) (val : list nat -> Z) : Z :=
  zsum (map (fun k => if conj_true n x k then val k else 0) (map fst m)).

Lemma rm_val_NoDup : forall m k v c, NoDup (map fst m) -> In (k, v) m -> rm_val m k c = nth c v 0.
Proof.
  intros m k v c. unfold rm_val. induction m as [|[k0 u] m IH]; simpl; [easy|].
  intros H Hin. inversion H; subst. destruct (list_nat_eqb k0 k) eqn:E.
  - apply list_nat_eqb_eq in E. subst. destruct Hin as [Hin|Hin]; [now inversion Hin|].
    apply (in_map fst) in Hin. easy.
  - destruct Hin as [Hin|Hin]; [inversion Hin; subst; now rewrite list_nat_eqb_refl in E|]. auto.
Qed.

Lemma rule_vote_total_map : forall n x m c, NoDup (map fst m) ->
  rule_vote_total n x (map fst m) (map snd m) c =
  zsum (map (fun k => if conj_true n x k then rm_val m k c else 0) (map fst m)).
Proof.
  intros n x m c H.
  assert (K : forall l, incl l m ->
     rule_vote_total n x (map fst l) (map snd l) c =
     zsum (map (fun k => if conj_true n x k then rm_val m k c else 0) (map fst l))).
  { induction l as [|[k v] l IH]; intros Hi; simpl; auto.
    rewrite IH by (intros y Hy; apply Hi; simpl; auto).
    rewrite (rm_val_NoDup m k v c) by (auto; apply Hi; simpl; auto). reflexivity. }
  apply K. apply incl_refl.
Qed.

(** Grouping: summing merged weights over the distinct keys counts every
    contributing clause once. *)
Lemma zsum_map_add : forall A (f g : A -> Z) l,
  zsum (map (fun k => f k + g k) l) = zsum (map f l) + zsum (map g l).
Proof. induction l; simpl; intros; auto. rewrite IHl. lia. Qed.

Lemma zsum_map_zero : forall A (f : A -> Z) l, (forall k, In k l -> f k = 0) -> zsum (map f l) = 0.
Proof.
  induction l; simpl; intros H; auto. rewrite H, IHl; auto.
Qed.

Lemma zsum_pick : forall (keys : list (list nat)) (k0 : list nat) (g : list nat -> Z), NoDup keys ->
  zsum (map (fun k => if list_eq_dec Nat.eq_dec k0 k then g k else 0) keys) =
  if in_dec (list_eq_dec Nat.eq_dec) k0 keys then g k0 else 0.
Proof.
  induction keys as [|k keys IH]; intros k0 g H; simpl; auto.
  inversion H; subst. rewrite IH by auto.
  destruct (list_eq_dec Nat.eq_dec k0 k) as [<-|Hne].
  - destruct (in_dec (list_eq_dec Nat.eq_dec) k0 keys); [easy|].
    destruct (list_eq_dec Nat.eq_dec k0 k0); [lia|congruence].
  - destruct (list_eq_dec Nat.eq_dec k k0); [congruence|].
    destruct (in_dec (list_eq_dec Nat.eq_dec) k0 keys); lia.
Qed.

Lemma group_total : forall n x keys rows ws c, NoDup keys -> ~ In [] keys -> length rows = length ws ->
  (forall i row w, nth_error rows i = Some row -> nth_error ws i = Some w ->
     included row <> [] -> all_zero w = false -> In (included row) keys) ->
  zsum (map (fun k => if conj_true n x k then merged_weight rows ws k c else 0) keys) =
  clause_vote_total n x rows ws c.
Proof.
  intros n x keys rows. induction rows as [|row rows IH]; intros [|w ws] c Hnd Hne Hl H; simpl in *; try lia.
  - apply zsum_map_zero. intros. now destruct (conj_true n x k).
  - rewrite <- (IH ws c); auto.
    2:{ intros i r u H1 H2. apply (H (S i)); auto. }
    transitivity (zsum (map (fun k => (if list_eq_dec Nat.eq_dec (included row) k
                                       then (if conj_true n x k then nth c w 0 else 0) else 0) +
                                      (if conj_true n x k then merged_weight rows ws k c else 0)) keys)).
    { f_equal. apply map_ext. intros k. destruct (conj_true n x k); destruct (list_eq_dec Nat.eq_dec (included row) k); lia. }
    rewrite (zsum_map_add _ (fun k => if list_eq_dec Nat.eq_dec (included row) k
                                       then (if conj_true n x k then nth c w 0 else 0) else 0)).
    f_equal. rewrite (zsum_pick keys (included row) (fun k => if conj_true n x k then nth c w 0 else 0)) by auto.
    unfold clause_fires.
    destruct (in_dec (list_eq_dec Nat.eq_dec) (included row) keys) as [Hi|Hi].
    + destruct (included row) eqn:E; [easy|]. reflexivity.
    + destruct (included row) eqn:E; auto. rewrite <- E in *.
      destruct (all_zero w) eqn:Ez.
      * rewrite (all_zero_nth w) by auto. now destruct (conj_true n x (included row)).
      * exfalso. apply Hi. rewrite E. rewrite <- E. apply (H O row w); auto. congruence.
Qed.

Lemma zsum_mod : forall A (f g : A -> Z) M l, (forall k, In k l -> f k mod M = g k mod M) ->
  zsum (map f l) mod M = zsum (map g l) mod M.
Proof.
  induction l; simpl; intros H; auto.
  rewrite Zplus_mod, (Zplus_mod (g a)). rewrite H, IHl; auto.
Qed.

Theorem compile_votes_mod : forall n s rs x c, dense_wf n s ->
  compile_from_dense_state s = Ok rs ->
  rule_vote_total n x (rs_rules rs) (rs_weights rs) c mod 65536 =
  clause_vote_total n x (ds_c s) (ds_w s) c mod 65536.
Proof.
  intros n s rs x c Hwf Hc. destruct (compile_ok n s Hwf) as [m [E I]].
  rewrite E in Hc. inversion Hc; subst; clear Hc. simpl.
  destruct Hwf as [_ [Hl _]]. destruct I as [I1 I2 I3 I4 I5].
  rewrite rule_vote_total_map by auto.
  rewrite <- (group_total n x (map fst m) (ds_c s) (ds_w s) c); auto.
  - apply zsum_mod. intros k Hk. destruct (conj_true n x k); auto.
    rewrite I5 by auto. apply wrap16_mod.
  - intros i row w H1 H2 H3 H4. apply I4. split; auto. exists i, row, w. auto.
Qed.

Theorem compile_votes_exact : forall n s rs x c, dense_wf n s ->
  compile_from_dense_state s = Ok rs ->
  (forall r, In r (rs_rules rs) -> is_int16 (merged_weight (ds_c s) (ds_w s) r c)) ->
  rule_vote_total n x (rs_rules rs) (rs_weights rs) c =
  clause_vote_total n x (ds_c s) (ds_w s) c.
Proof.
  intros n s rs x c Hwf Hc Hfit. destruct (compile_ok n s Hwf) as [m [E I]].
  rewrite E in Hc. inversion Hc; subst; clear Hc. simpl in *.
  destruct Hwf as [_ [Hl _]]. destruct I as [I1 I2 I3 I4 I5].
  rewrite rule_vote_total_map by auto.
  rewrite <- (group_total n x (map fst m) (ds_c s) (ds_w s) c); auto.
  - f_equal. apply map_ext_in. intros k Hk. destruct (conj_true n x k); auto.
    rewrite I5 by auto. apply wrap16_small. auto.
  - intros i row w H1 H2 H3 H4. apply I4. split; auto. exists i, row, w. auto.
Qed.
