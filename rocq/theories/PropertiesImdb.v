(** C136: what the rows of the IMDb data set say. *)
From Coq Require Import String Ascii ZArith List Bool Lia Permutation Sorting OrdersEx.
From Verif Require Import Base ModelImdb SpecImdb ProofsImdb.
Import ListNotations.
Open Scope Z_scope.

(** What a call is given: the word index of the reviews, orders of the reviews,
    a choice of columns.  [num_words] = 0 asks for the cut-off keras works out. *)
Record imdb_given (index : list (string * Z)) (raw_train raw_test : list (list Z * Z)) (ktr kte ptr pte : list nat)
  (select : nat -> list (list Z) -> list Z -> option (list nat)) (num_words index_from : Z) : Prop := {
  ig_index : word_index index;
  ig_train : Forall (fun e => Forall (fun z => In z (map snd index)) (fst e)) raw_train;
  ig_test : Forall (fun e => Forall (fun z => In z (map snd index)) (fst e)) raw_test;
  ig_ktr : Permutation ktr (seq 0 (length raw_train));
  ig_kte : Permutation kte (seq 0 (length raw_test));
  ig_ptr : Permutation ptr (seq 0 (length raw_train));
  ig_pte : Permutation pte (seq 0 (length raw_test));
  ig_select : selects select;
  ig_words : 2 <= num_words;
  ig_from : 2 <= index_from
}.

(** Every data set returned is over one list of features, which all occur in the
    training texts; every row tells which of them occur in the review it comes
    from, and the label is that review's. *)
Theorem C136_features_partial : forall lower index raw_train raw_test ktr kte ptr pte select num_words index_from features max_ngram
    train_size test_size skb xtr ytr xte yte,
  imdb_given index raw_train raw_test ktr kte ptr pte select num_words index_from ->
  imdb_dataset lower index raw_train raw_test ktr kte ptr pte select num_words index_from features max_ngram train_size test_size skb =
    inl (xtr, ytr, xte, yte) ->
  exists feats itr ite dtr dte,
    drawn raw_train train_size itr /\ drawn raw_test test_size ite /\
    ytr = map (fun i => snd (nth i raw_train ([], 0))) itr /\ yte = map (fun i => snd (nth i raw_test ([], 0))) ite /\
    Forall2 (said lower index num_words index_from) (map (fun i => fst (nth i raw_train ([], 0))) itr) dtr /\
    Forall2 (said lower index num_words index_from) (map (fun i => fst (nth i raw_test ([], 0))) ite) dte /\
    StronglySorted String_as_OT.lt feats /\
    Forall (fun f => exists t, In t dtr /\ occurs max_ngram f t) feats /\
    (length feats <= features)%nat /\
    (length feats < features -> forall f t, In t dtr -> occurs max_ngram f t -> In f feats)%nat /\
    Forall2 (tells max_ngram feats) dtr xtr /\ Forall2 (tells max_ngram feats) dte xte.
Proof.
  intros lower index raw_train raw_test ktr kte ptr pte select num from features m trs tes skb xtr ytr xte yte [W I1 I2 K1 K2 P1 P2 S N F] H.
  unfold imdb_dataset in H. replace (cutoff num from (map fst (raw_train ++ raw_test))) with num in H
    by (unfold cutoff; destruct (Z.eqb_spec num 0); [lia|reflexivity]).
  destruct (subset trs ptr _ _) as [[x1 y1]|] eqn:E1; [|discriminate].
  destruct (subset tes pte _ _) as [[x2 y2]|] eqn:E2; [|discriminate].
  destruct (subset_drawn _ _ _ _ (encode num from) _ _ K1 P1 E1) as [itr [D1 [X1 Y1]]].
  destruct (subset_drawn _ _ _ _ (encode num from) _ _ K2 P2 E2) as [ite [D2 [X2 Y2]]].
  destruct (documents_said lower index num from _ W F N (drawn_in_index _ _ _ _ I1 D1)) as [dtr [T1 S1]].
  destruct (documents_said lower index num from _ W F N (drawn_in_index _ _ _ _ I2 D2)) as [dte [T2 S2]].
  rewrite <- X1 in T1. rewrite <- X2 in T2. rewrite T1, T2 in H.
  destruct (Nat.ltb_spec m 1) as [|Hm]; [discriminate|].
  set (voc := vocabulary (concat (map (ngrams m) dtr))) in *.
  destruct (vocabulary_spec (concat (map (ngrams m) dtr))) as [V1 V2]. fold voc in V1, V2.
  assert (V3 : forall f, In f voc <-> exists t, In t dtr /\ occurs m f t).
  { intros f. rewrite V2, in_concat. split.
    - intros [l [L1 L2]]. apply in_map_iff in L1. destruct L1 as [t [<- Ht]]. exists t. split; auto. now apply ngrams_occurs.
    - intros [t [L1 L2]]. exists (ngrams m t). split; [now apply in_map|now apply ngrams_occurs]. }
  assert (NE : dtr <> []). { intros ->. unfold voc in H. cbn in H. discriminate. }
  assert (H' : (if skb then match select features (map (fun t => bits voc (ngrams m t)) dtr) y1 with
     | None => inr IValue
     | Some cols => inl (map (pick 0 cols) (map (fun t => bits voc (ngrams m t)) dtr), y1, map (pick 0 cols) (map (fun t => bits voc (ngrams m t)) dte), y2)
     end else inr IUnbound) = inl (xtr, ytr, xte, yte)) by (destruct voc; [discriminate|exact H]).
  clear H. rename H' into H. destruct skb; [|discriminate].
  destruct (select features _ y1) as [cols|] eqn:C; [|discriminate].
  destruct (S _ _ _ _ (length voc) C) as [C1 [C2 C3]].
  { destruct dtr; [contradiction|discriminate]. }
  { rewrite Forall_map. apply Forall_forall. intros t _. apply bits_length. }
  assert (PL : length (pick ""%string cols voc) = length cols) by apply pick_length.
  injection H as <- <- <- <-.
  exists (pick ""%string cols voc), itr, ite, dtr, dte.
  split; [exact D1|]. split; [exact D2|]. split; [exact Y1|]. split; [exact Y2|]. split; [exact S1|]. split; [exact S2|].
  split; [now apply pick_sorted|]. split.
  { apply Forall_forall. intros f Hf. apply V3. unfold pick in Hf. apply in_map_iff in Hf. destruct Hf as [c [<- Hc]].
    apply nth_In. rewrite Forall_forall in C2. auto. }
  split; [rewrite PL; lia|]. split.
  { intros Lt f t Ht Of. assert (In f voc) as Hf by (apply V3; eauto). rewrite PL in Lt.
    assert (NoDup cols) as ND.
    { clear - C1. induction C1 as [|c l C1 IH G]; constructor; auto. intros Hc. rewrite Forall_forall in G. specialize (G c Hc). lia. }
    assert (incl (seq 0 (length voc)) cols) as Inc.
    { apply NoDup_length_incl; [exact ND|rewrite seq_length; lia|]. intros c Hc. apply in_seq. rewrite Forall_forall in C2. specialize (C2 c Hc). lia. }
    destruct (In_nth _ _ ""%string Hf) as [i [Hi Ei]]. unfold pick. apply in_map_iff. exists i. split; [exact Ei|]. apply Inc, in_seq. lia. }
  split; now apply rows_tell.
Qed.

(** With selection of features and sizes there are reviews for, a data set is
    returned. *)
Theorem C136_completes_partial : forall lower index raw_train raw_test ktr kte ptr pte select num_words index_from features max_ngram train_size test_size,
  imdb_given index raw_train raw_test ktr kte ptr pte select num_words index_from ->
  raw_train <> [] -> (1 <= max_ngram)%nat ->
  match train_size with None => True | Some k => (k <= length raw_train)%nat end ->
  match test_size with None => True | Some k => (k <= length raw_test)%nat end ->
  (forall x y, select features x y <> None) ->
  exists d, imdb_dataset lower index raw_train raw_test ktr kte ptr pte select num_words index_from features max_ngram train_size test_size true = inl d.
Proof.
  intros lower index raw_train raw_test ktr kte ptr pte select num from features m trs tes [W I1 I2 K1 K2 P1 P2 S N F] NE Hm L1 L2 Sel.
  unfold imdb_dataset. replace (cutoff num from (map fst (raw_train ++ raw_test))) with num
    by (unfold cutoff; destruct (Z.eqb_spec num 0); [lia|reflexivity]).
  destruct (subset_ok raw_train trs ktr ptr (encode num from) K1 L1) as [x1 [y1 E1]].
  destruct (subset_ok raw_test tes kte pte (encode num from) K2 L2) as [x2 [y2 E2]].
  rewrite E1, E2.
  destruct (subset_drawn _ _ _ _ (encode num from) _ _ K1 P1 E1) as [itr [D1 [X1 Y1]]].
  destruct (subset_drawn _ _ _ _ (encode num from) _ _ K2 P2 E2) as [ite [D2 [X2 Y2]]].
  destruct (documents_said lower index num from _ W F N (drawn_in_index _ _ _ _ I1 D1)) as [dtr [T1 S1]].
  destruct (documents_said lower index num from _ W F N (drawn_in_index _ _ _ _ I2 D2)) as [dte [T2 S2]].
  rewrite <- X1 in T1. rewrite <- X2 in T2. rewrite T1, T2.
  destruct (Nat.ltb_spec m 1) as [|_]; [lia|].
  set (voc := vocabulary (concat (map (ngrams m) dtr))).
  assert (V : exists f, In f voc).
  { destruct itr as [|i itr].
    - exfalso. destruct D1 as [_ [_ D1]]. cbn [length] in D1. destruct trs as [[|k]|]; [|lia|]; destruct raw_train; cbn [length] in D1; try lia; contradiction.
    - cbn [map] in S1. inversion S1 as [|r t rs ts R RS]; subst. destruct R as [ws [-> _]]. exists (lower "<START>"%string).
      apply vocabulary_spec. cbn [map concat]. apply in_app_iff. left. unfold ngrams. left. reflexivity. }
  destruct voc as [|v vs] eqn:Ev; [destruct V as [f []]|].
  destruct (select features _ y1) as [cols|] eqn:C; [eauto|]. exfalso. exact (Sel _ _ C).
Qed.

(** Without selection no call returns a data set. *)
Theorem C136_unselected_refuted : forall lower index raw_train raw_test ktr kte ptr pte select num_words index_from features max_ngram train_size test_size d,
  imdb_dataset lower index raw_train raw_test ktr kte ptr pte select num_words index_from features max_ngram train_size test_size false <> inl d.
Proof.
  intros. unfold imdb_dataset.
  destruct (subset train_size _ _ _) as [[? ?]|]; [|discriminate]. destruct (subset test_size _ _ _) as [[? ?]|]; [|discriminate].
  destruct (documents _ _ _); [|discriminate]. destruct (documents _ _ _); [|discriminate].
  destruct (Nat.ltb max_ngram 1); [discriminate|]. destruct (vocabulary _); discriminate.
Qed.

(** Which error that is, whenever the call with selection would have returned. *)
Theorem C136_unselected_error : forall lower index raw_train raw_test ktr kte ptr pte select num_words index_from features max_ngram train_size test_size d,
  imdb_dataset lower index raw_train raw_test ktr kte ptr pte select num_words index_from features max_ngram train_size test_size true = inl d ->
  imdb_dataset lower index raw_train raw_test ktr kte ptr pte select num_words index_from features max_ngram train_size test_size false = inr IUnbound.
Proof.
  intros until d. unfold imdb_dataset.
  destruct (subset train_size _ _ _) as [[? ?]|]; [|discriminate]. destruct (subset test_size _ _ _) as [[? ?]|]; [|discriminate].
  destruct (documents _ _ _); [|discriminate]. destruct (documents _ _ _); [|discriminate].
  destruct (Nat.ltb max_ngram 1); [discriminate|]. destruct (vocabulary _); [discriminate|reflexivity].
Qed.

(** With index_from 1 the most frequent word of keras' index has the id of the
    marker for unknown words, and every review reads the marker instead. *)
Theorem C136_index_from_refuted : forall lower index num_words word,
  word_index index -> In (word, 1) index -> 2 < num_words ->
  terms lower (word_to_id index 1) (encode num_words 1 [1]) = inl [lower "<START>"; lower "<UNK>"]%string /\ word <> "<UNK>"%string.
Proof.
  intros lower index num word W H N. unfold encode. cbn [map]. replace (1 <? num) with true by lia.
  replace (1 + 1 <? num) with true by lia. destruct (marks_of_id index 1 W) as [M1 M2]. split.
  - change (1 + 1) with 2. cbn [terms]. rewrite M1, M2. reflexivity.
  - intros ->. destruct W as [_ _ _ [_ [_ M]]]. apply M. apply in_map_iff. exists ("<UNK>"%string, 1). auto.
Qed.

(** ** Examples *)

Definition ex_index : list (string * Z) := [("good", 2); ("film", 1); ("bad", 3); ("dull", 4)]%string.
Definition ex_train : list (list Z * Z) := [([2; 1], 1); ([3; 1], 0); ([4; 3], 0)].
Definition ex_test : list (list Z * Z) := [([3], 0); ([2; 4], 1)].
(** the first columns *)
Definition ex_select (k : nat) (x : list (list Z)) (y : list Z) : option (list nat) :=
  Some (seq 0 (Nat.min k (match x with [] => O | r :: _ => length r end))).

Lemma seq_sorted : forall n a, StronglySorted lt (seq a n).
Proof.
  induction n as [|n IH]; intros a; cbn [seq]; constructor; auto. apply Forall_forall. intros c Hc. apply in_seq in Hc. lia.
Qed.

Example C136_given : imdb_given ex_index ex_train ex_test [2; 0; 1]%nat [1; 0]%nat [1; 2; 0]%nat [0; 1]%nat ex_select 6 2.
Proof.
  constructor.
  - constructor.
    + repeat (constructor; [cbn; intuition discriminate|]); constructor.
    + repeat (constructor; [cbn; intuition discriminate|]); constructor.
    + cbn. repeat (constructor; [lia|]). constructor.
    + cbn. intuition discriminate.
  - unfold ex_train, ex_index. cbn [map snd fst]. repeat (constructor; [cbn [fst]; repeat (constructor; [cbn [In]; lia|]); constructor|]). constructor.
  - unfold ex_test, ex_index. cbn [map snd fst]. repeat (constructor; [cbn [fst]; repeat (constructor; [cbn [In]; lia|]); constructor|]). constructor.
  - apply NoDup_Permutation; [repeat (constructor; [cbn; lia|]); constructor|apply seq_NoDup|]. intros x. cbn. lia.
  - apply NoDup_Permutation; [repeat (constructor; [cbn; lia|]); constructor|apply seq_NoDup|]. intros x. cbn. lia.
  - apply NoDup_Permutation; [repeat (constructor; [cbn; lia|]); constructor|apply seq_NoDup|]. intros x. cbn. lia.
  - apply NoDup_Permutation; [repeat (constructor; [cbn; lia|]); constructor|apply seq_NoDup|]. intros x. cbn. lia.
  - intros k x y cols n E NE L. unfold ex_select in E. injection E as <-. destruct x as [|r x]; [contradiction|]. inversion L; subst.
    split; [apply seq_sorted|]. split; [|apply seq_length]. apply Forall_forall. intros c Hc. apply in_seq in Hc. lia.
  - lia.
  - lia.
Qed.
(** Two of three training reviews, the words of rank 4 replaced; vocabulary
    <START>, <START> <UNK>, <START> bad, <UNK>, <UNK> bad, bad, bad film, film. *)
Example C136_run : imdb_dataset (fun s => s) ex_index ex_train ex_test [2; 0; 1]%nat [1; 0]%nat [2; 0; 1]%nat [0; 1]%nat ex_select 6 2 6%nat 2%nat (Some 2%nat) None true =
  inl ([[1; 0; 1; 0; 0; 1]; [1; 1; 0; 1; 1; 1]], [0; 0], [[1; 0; 0; 1; 0; 0]; [1; 0; 1; 0; 0; 1]], [1; 0]).
Proof. vm_compute. reflexivity. Qed.
Example C136_unselected : imdb_dataset (fun s => s) ex_index ex_train ex_test [2; 0; 1]%nat [1; 0]%nat [2; 0; 1]%nat [0; 1]%nat ex_select 6 2 6%nat 2%nat (Some 2%nat) None false = inr IUnbound.
Proof. vm_compute. reflexivity. Qed.
Example C136_index_from_one : word_index ex_index /\ In ("film"%string, 1) ex_index /\
  documents (fun s => s) (word_to_id ex_index 1) (map (encode 6 1) [[2; 1]; [3; 1]]) = inl [["<START>"; "good"; "<UNK>"]; ["<START>"; "bad"; "<UNK>"]]%string.
Proof. split; [exact (ig_index _ _ _ _ _ _ _ _ _ _ C136_given)|]. split; [cbn; auto|reflexivity]. Qed.

Print Assumptions C136_features_partial.
Print Assumptions C136_completes_partial.
Print Assumptions C136_unselected_refuted.
Print Assumptions C136_unselected_error.
Print Assumptions C136_index_from_refuted.
