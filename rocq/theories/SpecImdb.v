(** What the rows of the IMDb data set should say. *)
From Coq Require Import String Ascii ZArith List Bool Lia Permutation Sorting OrdersEx.
From Verif Require Import Base.
Import ListNotations.
Open Scope Z_scope.

(** keras' word index: different words with different ranks from 1 on, none of
    them one of the three markers. *)
Record word_index (index : list (string * Z)) : Prop := {
  wi_words : NoDup (map fst index);
  wi_ranks : NoDup (map snd index);
  wi_pos : Forall (fun r => 1 <= r) (map snd index);
  wi_marks : ~ In "<PAD>"%string (map fst index) /\ ~ In "<START>"%string (map fst index) /\ ~ In "<UNK>"%string (map fst index)
}.

(** The text of a review given by ranks: a start marker and its words, words that
    are not frequent enough replaced. *)
Definition said (lower : string -> string) (index : list (string * Z)) (num_words index_from : Z) (review : list Z) (t : list string) : Prop :=
  exists ws, t = lower "<START>"%string :: ws /\
    Forall2 (fun r w => exists word, In (word, r) index /\
               w = lower (if r + index_from <? num_words then word else "<UNK>"%string)) review ws.

(** The feature is a run of at most [max_ngram] words of the text. *)
Definition occurs (max_ngram : nat) (f : string) (t : list string) : Prop :=
  exists before run after, t = before ++ run ++ after /\ (1 <= length run <= max_ngram)%nat /\ f = String.concat " " run.

(** One entry per feature, 1 if it occurs and 0 if not. *)
Definition tells (max_ngram : nat) (feats : list string) (t : list string) (row : list Z) : Prop :=
  Forall2 (fun f v => v = 1 /\ occurs max_ngram f t \/ v = 0 /\ ~ occurs max_ngram f t) feats row.

(** [idx] names reviews of [raw], each at most once: [size] of them, or all. *)
Definition drawn (raw : list (list Z * Z)) (size : option nat) (idx : list nat) : Prop :=
  NoDup idx /\ Forall (fun i => (i < length raw)%nat) idx /\
  length idx = match size with None | Some O => length raw | Some k => k end.

(** A choice of columns: at most k, from left to right. *)
Definition selects (select : nat -> list (list Z) -> list Z -> option (list nat)) : Prop :=
  forall k x y cols n, select k x y = Some cols -> x <> [] -> Forall (fun row => length row = n) x ->
    StronglySorted lt cols /\ Forall (fun c => (c < n)%nat) cols /\ length cols = Nat.min k n.
