(** Model of green_tsetlin/dataset_generator.py:imdb_dataset (47-123).

    The libraries enter by what their documentation says: keras
    datasets.imdb.load_data and get_word_index, sklearn's shuffle,
    CountVectorizer and SelectKBest.  Orders drawn from seeds and the choice of
    columns by chi2 scores are arbitrary.  Not covered: download, logging. *)
From Coq Require Import String Ascii ZArith List Bool Lia.
From Verif Require Import Base.
Import ListNotations.
Open Scope Z_scope.

(** KeyError, ValueError, UnboundLocalError. *)
Inductive ierr := IKey | IValue | IUnbound.

(** A dict is the list of its entries; assigning an existing key keeps its place. *)
Fixpoint dict_set (k : string) (v : Z) (d : list (string * Z)) : list (string * Z) :=
  match d with
  | [] => [(k, v)]
  | (k', v') :: d' => if String.eqb k k' then (k, v) :: d' else (k', v') :: dict_set k v d'
  end.
(** {value: key for key, value in d.items()}: the last entry with a value wins (77). *)
Fixpoint id_to_word (d : list (string * Z)) (id : Z) : option string :=
  match d with
  | [] => None
  | (k, v) :: d' => match id_to_word d' id with
                    | Some w => Some w
                    | None => if v =? id then Some k else None
                    end
  end.
(** word_to_id (68-72); [index] is keras' word index, word -> rank. *)
Definition word_to_id (index : list (string * Z)) (index_from : Z) : list (string * Z) :=
  dict_set "<UNK>" 2 (dict_set "<START>" 1 (dict_set "<PAD>" 0
    (map (fun e => (fst e, snd e + index_from)) index))).

(** keras: one review, its ranks [r], as load_data (58) returns it: start_char 1
    in front, everything that is not below num_words replaced by oov_char 2. *)
Definition encode (num_words index_from : Z) (r : list Z) : list Z :=
  map (fun w => if w <? num_words then w else 2) (1 :: map (fun w => w + index_from) r).
(** num_words = 0 means the largest id of all reviews. *)
Definition largest (index_from : Z) (rs : list (list Z)) : Z :=
  fold_left Z.max (concat (map (fun r => 1 :: map (fun w => w + index_from) r) rs)) 0.
Definition cutoff (num_words index_from : Z) (rs : list (list Z)) : Z :=
  if num_words =? 0 then largest index_from rs else num_words.

(** The rows of [l] in the order [p]. *)
Definition pick {A} (d : A) (p : list nat) (l : list A) : list A := map (fun i => nth i l d) p.

(** sklearn.utils.shuffle(x, y, n_samples) (62-65), skipped for None and 0; too
    many samples are refused.  [p]: the order drawn. *)
Definition subset (size : option nat) (p : list nat) (x : list (list Z)) (y : list Z) : (list (list Z) * list Z) + ierr :=
  match size with
  | None | Some O => inl (x, y)
  | Some k => if Nat.ltb (length x) k then inr IValue
              else inl (pick [] (firstn k p) x, pick 0 (firstn k p) y)
  end.

(** The terms of one review (79-93). *)
Fixpoint terms (lower : string -> string) (d : list (string * Z)) (ids : list Z) : list string + ierr :=
  match ids with
  | [] => inl []
  | i :: ids' => match id_to_word d i with
                 | None => inr IKey
                 | Some w => match terms lower d ids' with
                             | inl t => inl (lower w :: t)
                             | inr e => inr e
                             end
                 end
  end.
Fixpoint documents (lower : string -> string) (d : list (string * Z)) (x : list (list Z)) : list (list string) + ierr :=
  match x with
  | [] => inl []
  | r :: x' => match terms lower d r with
               | inr e => inr e
               | inl t => match documents lower d x' with
                          | inl ts => inl (t :: ts)
                          | inr e => inr e
                          end
               end
  end.

(** CountVectorizer(ngram_range=(1, max_ngram)) (95-101): single terms, then runs of 2,
    3, ... terms joined by blanks, as far as the document reaches. *)
Definition runs (n : nat) (t : list string) : list string :=
  map (fun i => String.concat " " (firstn n (skipn i t))) (seq 0 (length t + 1 - n)).
Definition ngrams (max_ngram : nat) (t : list string) : list string :=
  t ++ concat (map (fun n => runs n t) (seq 2 (Nat.min max_ngram (length t) - 1))).

(** The vocabulary: every n-gram of the training documents once, sorted (103). *)
Fixpoint vocab_add (s : string) (l : list string) : list string :=
  match l with
  | [] => [s]
  | h :: l' => match String.compare s h with
               | Lt => s :: l
               | Eq => l
               | Gt => h :: vocab_add s l'
               end
  end.
Definition vocabulary (grams : list string) : list string := fold_right vocab_add [] grams.

(** binary=True: a row of 0/1 over the vocabulary (103-107); other n-grams are
    dropped. *)
Definition bits (voc : list string) (grams : list string) : list Z :=
  map (fun v => if existsb (String.eqb v) grams then 1 else 0) voc.

(** imdb_dataset (47-123).  [raw_train], [raw_test]: the reviews (ranks) and labels of the two halves;
    [ktr], [kte]: the orders keras draws, [ptr], [pte]: those of shuffle;
    [select k x y]: the columns SelectKBest(chi2, k) keeps, None if it refuses k. *)
Definition imdb_dataset (lower : string -> string) (index : list (string * Z))
  (raw_train raw_test : list (list Z * Z)) (ktr kte ptr pte : list nat)
  (select : nat -> list (list Z) -> list Z -> option (list nat))
  (num_words index_from : Z) (features max_ngram : nat) (train_size test_size : option nat) (skb : bool)
  : (list (list Z) * list Z * list (list Z) * list Z) + ierr :=
  let cut := cutoff num_words index_from (map fst (raw_train ++ raw_test)) in
  let train_x := pick [] ktr (map (fun e => encode cut index_from (fst e)) raw_train) in
  let train_y := pick 0 ktr (map snd raw_train) in
  let test_x := pick [] kte (map (fun e => encode cut index_from (fst e)) raw_test) in
  let test_y := pick 0 kte (map snd raw_test) in
  match subset train_size ptr train_x train_y with
  | inr e => inr e
  | inl (train_x, train_y) =>
  match subset test_size pte test_x test_y with
  | inr e => inr e
  | inl (test_x, test_y) =>
  let d := word_to_id index index_from in
  match documents lower d train_x with
  | inr e => inr e
  | inl train_docs =>
  match documents lower d test_x with
  | inr e => inr e
  | inl test_docs =>
  if Nat.ltb max_ngram 1 then inr IValue
  else
    let voc := vocabulary (concat (map (ngrams max_ngram) train_docs)) in
    match voc with
    | [] => inr IValue
    | _ :: _ =>
        let X_train := map (fun t => bits voc (ngrams max_ngram t)) train_docs in
        let X_test := map (fun t => bits voc (ngrams max_ngram t)) test_docs in
        if skb then
          match select features X_train train_y with
          | None => inr IValue
          | Some cols => inl (map (pick 0 cols) X_train, train_y, map (pick 0 cols) X_test, test_y)
          end
        else inr IUnbound  (* x_train is only assigned under if SKB (110-123) *)
    end
  end end end end.
