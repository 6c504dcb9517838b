(** The IMDb data set: words and ids, n-grams, vocabulary, drawing. *)
From Coq Require Import String Ascii ZArith List Bool Lia Permutation Sorting OrdersEx RelationClasses.
From Verif Require Import Base ModelImdb SpecImdb.
Import ListNotations.
Open Scope Z_scope.

(** ** Words and ids *)

Lemma dict_set_new : forall k v d, ~ In k (map fst d) -> dict_set k v d = d ++ [(k, v)].
Proof.
  intros k v d. induction d as [|[k' v'] d IH]; intros H; cbn [dict_set app]; auto. cbn [map fst In] in H.
  destruct (String.eqb_spec k k') as [->|]; [tauto|]. now rewrite IH by tauto.
Qed.

Lemma word_to_id_new : forall index from, word_index index ->
  word_to_id index from = map (fun e => (fst e, snd e + from)) index ++ [("<PAD>", 0); ("<START>", 1); ("<UNK>", 2)]%string.
Proof.
  intros index from [_ _ _ [M1 [M2 M3]]]. unfold word_to_id. set (l := map (fun e : string * Z => (fst e, snd e + from)) index).
  assert (E : map fst l = map fst index) by (unfold l; rewrite map_map; reflexivity).
  rewrite (dict_set_new "<PAD>") by (rewrite E; exact M1).
  rewrite (dict_set_new "<START>") by (rewrite map_app, E; cbn; intros H; apply in_app_iff in H; cbn in H; destruct H as [H|[H|[]]]; [tauto|discriminate]).
  rewrite (dict_set_new "<UNK>")
    by (rewrite !map_app, E; cbn; intros H; rewrite !in_app_iff in H; cbn in H; destruct H as [[H|[H|[]]]|[H|[]]]; [tauto|discriminate|discriminate]).
  rewrite <- !app_assoc. reflexivity.
Qed.

Lemma id_to_word_app : forall a b id, id_to_word (a ++ b) id = match id_to_word b id with Some w => Some w | None => id_to_word a id end.
Proof.
  induction a as [|[k v] a IH]; intros b id; cbn [app id_to_word]; [destruct (id_to_word b id); reflexivity|].
  rewrite IH. destruct (id_to_word b id); auto.
Qed.
Lemma id_to_word_none : forall l id, ~ In id (map snd l) -> id_to_word l id = None.
Proof.
  induction l as [|[k v] l IH]; intros id H; cbn [id_to_word]; auto. cbn [map snd In] in H. rewrite IH by tauto.
  destruct (Z.eqb_spec v id); [tauto|reflexivity].
Qed.
Lemma id_to_word_in : forall l w id, NoDup (map snd l) -> In (w, id) l -> id_to_word l id = Some w.
Proof.
  induction l as [|[k v] l IH]; intros w id N H; cbn [id_to_word]; [destruct H|]. cbn [map snd] in N. inversion N; subst.
  destruct H as [H|H].
  - inversion H; subst. rewrite id_to_word_none by auto. now rewrite Z.eqb_refl.
  - now rewrite (IH w id) by auto.
Qed.
Lemma word_of_id : forall index from w r, word_index index -> 2 <= from -> In (w, r) index ->
  id_to_word (word_to_id index from) (r + from) = Some w.
Proof.
  intros index from w r W F H. rewrite word_to_id_new by auto. rewrite id_to_word_app. destruct W as [_ W2 W3 _].
  assert (P : 1 <= r). { rewrite Forall_forall in W3. apply W3. apply in_map_iff. exists (w, r). auto. }
  cbn [id_to_word].
  destruct (Z.eqb_spec 2 (r + from)); [lia|]. destruct (Z.eqb_spec 1 (r + from)); [lia|]. destruct (Z.eqb_spec 0 (r + from)); [lia|].
  apply id_to_word_in.
  - rewrite map_map. cbn [snd]. rewrite <- map_map with (f := snd) (g := fun z => z + from). apply FinFun.Injective_map_NoDup; auto. intros a b E. lia.
  - apply in_map_iff. exists (w, r). auto.
Qed.
Lemma marks_of_id : forall index from, word_index index ->
  id_to_word (word_to_id index from) 1 = Some "<START>"%string /\ id_to_word (word_to_id index from) 2 = Some "<UNK>"%string.
Proof. intros. rewrite word_to_id_new by auto. rewrite !id_to_word_app. split; reflexivity. Qed.

Lemma terms_said : forall lower index num from r, word_index index -> 2 <= from -> 2 <= num ->
  Forall (fun z => In z (map snd index)) r ->
  exists t, terms lower (word_to_id index from) (encode num from r) = inl t /\ said lower index num from r t.
Proof.
  intros lower index num from r W F N H. unfold encode. cbn [map]. destruct (marks_of_id index from W) as [M1 M2].
  replace (1 <? num) with true by lia. cbn [terms]. rewrite M1.
  enough (Q : exists ws, terms lower (word_to_id index from) (map (fun w => if w <? num then w else 2) (map (fun w => w + from) r)) = inl ws /\
    Forall2 (fun r w => exists word, In (word, r) index /\ w = lower (if r + from <? num then word else "<UNK>"%string)) r ws).
  { destruct Q as [ws [Q1 Q2]]. rewrite Q1. eexists. split; [reflexivity|]. exists ws. auto. }
  clear M1. induction H as [|z r Hz H IH]; cbn [map terms]; [exists []; split; [reflexivity|constructor]|].
  destruct IH as [ws [I1 I2]]. rewrite I1. apply in_map_iff in Hz. destruct Hz as [[w z'] [E Hz]]. cbn [snd] in E. subst z'.
  destruct (z + from <? num) eqn:C.
  - rewrite (word_of_id index from w z W F Hz). eexists. split; [reflexivity|]. constructor; [|exact I2]. exists w. rewrite C. auto.
  - rewrite M2. eexists. split; [reflexivity|]. constructor; [|exact I2]. exists w. rewrite C. auto.
Qed.

Lemma documents_said : forall lower index num from rs, word_index index -> 2 <= from -> 2 <= num ->
  Forall (Forall (fun z => In z (map snd index))) rs ->
  exists docs, documents lower (word_to_id index from) (map (encode num from) rs) = inl docs /\ Forall2 (said lower index num from) rs docs.
Proof.
  intros lower index num from rs W F N H. induction H as [|r rs Hr H IH]; cbn [map documents]; [exists []; split; [reflexivity|constructor]|].
  destruct (terms_said lower index num from r W F N Hr) as [t [T1 T2]]. destruct IH as [docs [I1 I2]]. rewrite T1, I1.
  eexists. split; [reflexivity|]. constructor; auto.
Qed.

(** ** n-grams *)

Lemma runs_in : forall n t f, (1 <= n)%nat -> In f (runs n t) <->
  exists before run after, t = before ++ run ++ after /\ length run = n /\ f = String.concat " " run.
Proof.
  intros n t f Hn. unfold runs. rewrite in_map_iff. split.
  - intros [i [E H]]. apply in_seq in H. exists (firstn i t), (firstn n (skipn i t)), (skipn n (skipn i t)).
    split; [now rewrite !firstn_skipn|]. split; [|auto]. rewrite firstn_length, skipn_length. lia.
  - intros [b [r [a [E [L Ef]]]]]. exists (length b). split.
    + subst t. rewrite skipn_app, skipn_all, Nat.sub_diag. cbn [app skipn]. rewrite firstn_app, L, Nat.sub_diag. cbn [firstn].
      rewrite app_nil_r. rewrite <- L, firstn_all. auto.
    + apply in_seq. subst t. rewrite !app_length. lia.
Qed.

Lemma ngrams_occurs : forall m t f, (1 <= m)%nat -> In f (ngrams m t) <-> occurs m f t.
Proof.
  intros m t f Hm. unfold ngrams, occurs. rewrite in_app_iff, in_concat. split.
  - intros [H|[l [H1 H2]]].
    + apply in_split in H. destruct H as [b [a ->]]. exists b, [f], a. split; [reflexivity|]. split; [cbn [length]; lia|reflexivity].
    + apply in_map_iff in H1. destruct H1 as [n [<- Hn]]. apply in_seq in Hn. apply runs_in in H2; [|lia].
      destruct H2 as [b [r [a [E [L Ef]]]]]. exists b, r, a. split; [auto|]. split; [lia|auto].
  - intros [b [r [a [E [L Ef]]]]]. destruct (Nat.eq_dec (length r) 1) as [L1|L1].
    + left. destruct r as [|x [|y r]]; cbn [length] in L1; try lia. cbn in Ef. subst. apply in_app_iff. right. left. reflexivity.
    + right. exists (runs (length r) t). split.
      * apply in_map_iff. exists (length r). split; [reflexivity|]. apply in_seq. subst t. rewrite !app_length. lia.
      * apply runs_in; [lia|]. exists b, r, a. auto.
Qed.

(** ** Vocabulary *)

Lemma vocab_add_in : forall s l x, In x (vocab_add s l) <-> x = s \/ In x l.
Proof.
  intros s l x. induction l as [|h l IH]; cbn [vocab_add]; [cbn; intuition congruence|].
  destruct (String.compare s h) eqn:C.
  - apply String.compare_eq_iff in C. subst. cbn [In]. intuition congruence.
  - cbn [In]. intuition congruence.
  - cbn [In]. rewrite IH. intuition congruence.
Qed.
Lemma vocab_add_sorted : forall s l, StronglySorted String_as_OT.lt l -> StronglySorted String_as_OT.lt (vocab_add s l).
Proof.
  intros s l H. induction H as [|h l H IH F]; cbn [vocab_add]; [repeat constructor|].
  destruct (String.compare s h) eqn:C.
  - constructor; auto.
  - constructor; [constructor; auto|]. constructor; [exact C|]. eapply Forall_impl; [|exact F]. intros a Ha.
    pose proof String_as_OT.lt_strorder as [_ TR]. eapply TR; [exact C|exact Ha].
  - constructor; [exact IH|]. apply Forall_forall. intros x Hx. apply vocab_add_in in Hx. destruct Hx as [->|Hx].
    + unfold String_as_OT.lt. change (String.compare h s = Lt). rewrite String.compare_antisym, C. reflexivity.
    + rewrite Forall_forall in F. auto.
Qed.
Lemma vocabulary_spec : forall g, StronglySorted String_as_OT.lt (vocabulary g) /\ forall x, In x (vocabulary g) <-> In x g.
Proof.
  induction g as [|s g [I1 I2]]; cbn [vocabulary fold_right]; [split; [constructor|tauto]|]. fold (vocabulary g). split.
  - now apply vocab_add_sorted.
  - intros x. rewrite vocab_add_in, I2. cbn [In]. intuition congruence.
Qed.

Lemma bits_tell : forall m voc t, (1 <= m)%nat -> tells m voc t (bits voc (ngrams m t)).
Proof.
  intros m voc t Hm. unfold tells, bits. induction voc as [|v voc IH]; cbn [map]; constructor; auto.
  destruct (existsb (String.eqb v) (ngrams m t)) eqn:E.
  - left. split; [reflexivity|]. apply existsb_exists in E. destruct E as [x [Hx Ex]]. apply String.eqb_eq in Ex. subst x. now apply ngrams_occurs.
  - right. split; [reflexivity|]. intros H. apply ngrams_occurs in H; auto.
    assert (T : existsb (String.eqb v) (ngrams m t) = true) by (apply existsb_exists; exists v; split; [auto|apply String.eqb_refl]). congruence.
Qed.

(** ** Drawing rows and columns *)

Lemma pick_map : forall A C (f : A -> C) d d' p l, Forall (fun i => (i < length l)%nat) p -> pick d' p (map f l) = map f (pick d p l).
Proof.
  intros A C f d d' p l H. unfold pick. rewrite map_map. apply map_ext_in. intros i Hi. rewrite Forall_forall in H. specialize (H i Hi).
  rewrite (nth_indep _ d' (f d)) by (rewrite map_length; auto). apply map_nth.
Qed.
Lemma pick_pick : forall A (d : A) p q l, Forall (fun i => (i < length q)%nat) p -> pick d p (pick d q l) = pick d (pick O p q) l.
Proof.
  intros A d p q l H. unfold pick. rewrite map_map. apply map_ext_in. intros i Hi. rewrite Forall_forall in H. specialize (H i Hi).
  rewrite (nth_indep _ d (nth O l d)) by (rewrite map_length; auto). exact (map_nth (fun i => nth i l d) q O i).
Qed.
Lemma pick_length : forall A (d : A) p l, length (pick d p l) = length p.
Proof. intros. apply map_length. Qed.
Lemma pick_nodup : forall p q, NoDup p -> Forall (fun i => (i < length q)%nat) p -> NoDup q -> NoDup (pick O p q).
Proof.
  intros p q Np Hp Nq. unfold pick. induction Np as [|i p Hi Np IH]; cbn [map]; constructor; inversion Hp; subst; auto.
  intros H. apply in_map_iff in H. destruct H as [j [E Hj]].
  assert (Lj : (j < length q)%nat) by (match goal with F : Forall (fun i => (i < length q)%nat) p |- _ => rewrite Forall_forall in F; apply F; exact Hj end).
  rewrite (NoDup_nth q O) in Nq. assert (j = i) by (apply (Nq j i Lj); [assumption|exact E]). subst. contradiction.
Qed.

Lemma nodup_firstn : forall A n (l : list A), NoDup l -> NoDup (firstn n l).
Proof.
  intros A n l H. revert n. induction H as [|x l Hx H IH]; intros [|n]; cbn [firstn]; constructor; auto.
  intros F. apply Hx. rewrite <- (firstn_skipn n l). apply in_app_iff. auto.
Qed.
Lemma perm_facts : forall p n, Permutation p (seq 0 n) -> NoDup p /\ Forall (fun i => (i < n)%nat) p /\ length p = n.
Proof.
  intros p n H. split; [|split].
  - eapply Permutation_NoDup; [apply Permutation_sym; exact H|apply seq_NoDup].
  - apply Forall_forall. intros i Hi. apply (Permutation_in _ H) in Hi. apply in_seq in Hi. lia.
  - rewrite (Permutation_length H). apply seq_length.
Qed.

(** Both draws together: an index per row, used for the review and its label. *)
Lemma subset_drawn : forall (raw : list (list Z * Z)) size k p (f : list Z -> list Z) x' y',
  Permutation k (seq 0 (length raw)) -> Permutation p (seq 0 (length raw)) ->
  subset size p (pick [] k (map (fun e => f (fst e)) raw)) (pick 0 k (map snd raw)) = inl (x', y') ->
  exists idx, drawn raw size idx /\ x' = map f (map (fun i => fst (nth i raw ([], 0))) idx) /\ y' = map (fun i => snd (nth i raw ([], 0))) idx.
Proof.
  intros raw size k p f x' y' Hk Hp H. destruct (perm_facts _ _ Hk) as [K1 [K2 K3]]. destruct (perm_facts _ _ Hp) as [P1 [P2 P3]].
  assert (E : forall C (g : list Z * Z -> C) d q, Forall (fun i => (i < length raw)%nat) q ->
    pick d q (map g raw) = map (fun i => g (nth i raw ([], 0))) q).
  { intros C g d q Hq. rewrite (pick_map _ _ g ([], 0)) by auto. unfold pick. now rewrite map_map. }
  assert (Whole : forall q, NoDup q -> Forall (fun i => (i < length raw)%nat) q -> x' = pick [] q (map (fun e => f (fst e)) raw) ->
    y' = pick 0 q (map snd raw) -> length q = match size with None | Some O => length raw | Some j => j end ->
    exists idx, drawn raw size idx /\ x' = map f (map (fun i => fst (nth i raw ([], 0))) idx) /\ y' = map (fun i => snd (nth i raw ([], 0))) idx).
  { intros q Q1 Q2 Ex Ey L. exists q. split; [split; [auto|split; auto]|]. rewrite Ex, Ey, !E by auto. rewrite map_map. auto. }
  unfold subset in H. destruct size as [[|j]|].
  - inversion H; subst. eapply (Whole k); auto.
  - destruct (Nat.ltb_spec (length (pick [] k (map (fun e => f (fst e)) raw))) (S j)) as [|L]; [discriminate|]. rewrite pick_length, K3 in L.
    assert (F : Forall (fun i => (i < length k)%nat) (firstn (S j) p)).
    { rewrite K3. rewrite <- (firstn_skipn (S j) p) in P2. apply Forall_app in P2. apply P2. }
    rewrite !pick_pick in H by exact F. inversion H; subst. eapply (Whole (pick O (firstn (S j) p) k)); auto.
    + apply pick_nodup; auto. now apply nodup_firstn.
    + unfold pick. rewrite Forall_map. eapply Forall_impl; [|exact F]. cbn beta. intros i Hi. rewrite Forall_forall in K2. apply K2, nth_In. exact Hi.
    + rewrite pick_length, firstn_length, P3. lia.
  - inversion H; subst. eapply (Whole k); auto.
Qed.

Lemma subset_ok : forall (raw : list (list Z * Z)) size k p (f : list Z -> list Z), Permutation k (seq 0 (length raw)) ->
  match size with None => True | Some j => (j <= length raw)%nat end ->
  exists x' y', subset size p (pick [] k (map (fun e => f (fst e)) raw)) (pick 0 k (map snd raw)) = inl (x', y').
Proof.
  intros raw size k p f Hk L. destruct (perm_facts _ _ Hk) as [_ [_ K3]]. unfold subset. destruct size as [[|j]|]; eauto.
  destruct (Nat.ltb_spec (length (pick [] k (map (fun e => f (fst e)) raw))) (S j)) as [B|B]; eauto. rewrite pick_length in B. lia.
Qed.

Lemma pick_tells : forall m cols voc t row, Forall (fun c => (c < length voc)%nat) cols -> tells m voc t row ->
  tells m (pick ""%string cols voc) t (pick 0 cols row).
Proof.
  intros m cols voc t row H T. unfold tells, pick in *. induction H as [|c cols Hc H IH]; cbn [map]; constructor; auto.
  clear IH H. revert c Hc. induction T as [|f v fs vs Hf T IH]; intros c Hc; cbn [length] in Hc; [lia|].
  destruct c as [|c]; cbn [nth]; auto. apply IH. lia.
Qed.

Lemma pick_sorted : forall (voc : list string) cols, StronglySorted String_as_OT.lt voc -> StronglySorted lt cols ->
  Forall (fun c => (c < length voc)%nat) cols -> StronglySorted String_as_OT.lt (pick ""%string cols voc).
Proof.
  intros voc cols V C. unfold pick. induction C as [|c cols C IH F]; intros H; cbn [map]; constructor; inversion H as [|? ? Hc H']; subst; auto.
  rewrite Forall_map. apply Forall_forall. intros c' Hc'. rewrite Forall_forall in F, H'. specialize (F c' Hc'). specialize (H' c' Hc').
  clear - V Hc H' F. revert c c' Hc H' F. induction V as [|h l V IH G]; intros c c' Hc H' F; cbn [length] in *; [lia|].
  destruct c as [|c], c' as [|c']; cbn [nth]; try lia.
  - rewrite Forall_forall in G. apply G, nth_In. lia.
  - apply IH; lia.
Qed.

(** ** The whole function *)

Definition in_index (index : list (string * Z)) (raw : list (list Z * Z)) : Prop :=
  Forall (fun e => Forall (fun z => In z (map snd index)) (fst e)) raw.

Lemma drawn_in_index : forall index raw size idx, in_index index raw -> drawn raw size idx ->
  Forall (Forall (fun z => In z (map snd index))) (map (fun i => fst (nth i raw ([], 0))) idx).
Proof.
  intros index raw size idx H [_ [D _]]. rewrite Forall_map. eapply Forall_impl; [|exact D]. cbn beta. intros i Hi.
  unfold in_index in H. rewrite Forall_forall in H. apply H, nth_In. exact Hi.
Qed.

Lemma rows_tell : forall m cols voc docs, (1 <= m)%nat -> Forall (fun c => (c < length voc)%nat) cols ->
  Forall2 (tells m (pick ""%string cols voc)) docs (map (pick 0 cols) (map (fun t => bits voc (ngrams m t)) docs)).
Proof.
  intros m cols voc docs Hm H. rewrite map_map. induction docs as [|t docs IH]; cbn [map]; constructor; auto.
  apply pick_tells; auto. now apply bits_tell.
Qed.

Lemma bits_length : forall voc g, length (bits voc g) = length voc.
Proof. intros. apply map_length. Qed.
