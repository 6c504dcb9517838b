(** Lemmas about files of sparse states. *)
From Coq Require Import ZArith List Bool Lia.
From Verif Require Import Base ModelRuleSet ModelLayout ModelSparse ModelSparseFile.
Import ListNotations.
Open Scope Z_scope.

Lemma mem_compile_loop : forall nlit ncls cs w done m,
  held_compile_loop nlit ncls (map (fun c => Arr (fst (fst c))) cs) (map (fun c => Arr (snd (fst c))) cs)
    (map (fun c => Arr (snd c)) cs) w done m = compile_sparse_loop nlit ncls cs w done m.
Proof.
  induction cs as [|[[d i] p] t IH]; intros w done m; [reflexivity|].
  cbn [map held_compile_loop compile_sparse_loop is_array content fst snd].
  destruct (compile_sparse_block nlit ncls (d, i, p) (Nat.div (length p - 1) 2) 0 (Nat.div (length p - 1) 2) w done m) as [[m' d']|e];
    [apply IH|reflexivity].
Qed.
Lemma mem_compile : forall s n, ss_nlit s = Some n -> held_compile (in_memory s n) = compile_from_sparse_state s.
Proof.
  intros s n H. unfold held_compile, compile_from_sparse_state. rewrite H.
  cbn [in_memory h_nlit h_ncls h_data h_indices h_indptr h_w]. rewrite mem_compile_loop. reflexivity.
Qed.

(** The kind of the data entries does not matter to the compiler. *)
Lemma compile_loop_content : forall nlit ncls data indices indptr data' indices' w done m,
  map content data = map content data' -> map content indices = map content indices' ->
  held_compile_loop nlit ncls data indices indptr w done m = held_compile_loop nlit ncls data' indices' indptr w done m.
Proof.
  induction data as [|d t IH]; intros indices indptr data' indices' w done m Hd Hi.
  - destruct data'; [reflexivity|discriminate].
  - destruct data' as [|d' t']; [discriminate|]. cbn [map] in Hd. injection Hd as Hd Ht.
    destruct indices as [|i ti]; destruct indices' as [|i' ti']; try discriminate; [reflexivity|].
    cbn [map] in Hi. injection Hi as Hi Hti.
    cbn [held_compile_loop]. destruct indptr as [|p tp]; [reflexivity|].
    destruct (is_array p); [|reflexivity]. rewrite Hd, Hi.
    destruct (compile_sparse_block _ _ _ _ _ _ _ _ _) as [[m' d2]|e]; [apply IH; auto|reflexivity].
Qed.
Lemma content_through_file : forall A (l : list (list A)), map content (through_file l) = l.
Proof.
  intros A l. unfold through_file. destruct (same_length l); rewrite map_map; cbn [content]; apply map_id.
Qed.
Lemma content_arr : forall A B (f : B -> list A) l, map content (map (fun c => Arr (f c)) l) = map f l.
Proof. intros. rewrite map_map. reflexivity. Qed.

Lemma mem_save_loop : forall s n cbs index off,
  held_save_loop (in_memory s n) cbs index off = sp_save_loop s cbs index off.
Proof.
  intros s n. induction cbs as [|cb t IH]; intros index off; [reflexivity|].
  cbn [held_save_loop sp_save_loop in_memory h_data h_indices h_indptr h_al h_w].
  rewrite !nth_error_map. change (list Z * list nat * list nat)%type with csr. destruct (nth_error (ss_c s) index) as [[[d i] p]|]; [|reflexivity].
  cbn [option_map is_array andb content fst snd].
  destruct (nth_error (ss_al s) index) as [al|]; [|reflexivity].
  destruct (al_set al _); [|reflexivity]. rewrite IH. reflexivity.
Qed.

Lemma map_arr_compose : forall A B (f : B -> list A) l, map Arr (map f l) = map (fun c => Arr (f c)) l.
Proof. intros. apply map_map. Qed.

Lemma same_length_spec : forall A (l : list (list A)),
  same_length l = true <-> forall a b, In a l -> In b l -> length a = length b.
Proof.
  intros A l. unfold same_length. rewrite forallb_forall. split.
  - intros H a b Ha Hb. apply H in Ha. apply H in Hb. apply Nat.eqb_eq in Ha. apply Nat.eqb_eq in Hb. congruence.
  - intros H a Ha. apply Nat.eqb_eq. apply H; auto. destruct l; [destruct Ha|left; reflexivity].
Qed.

(** All block the same: lists. *)
Lemma file_lists : forall A (l : list (list A)), (forall a b, In a l -> In b l -> length a = length b) ->
  through_file l = map Lst l.
Proof. intros A l H. unfold through_file. rewrite (proj2 (same_length_spec A l)); auto. Qed.
Lemma file_arrays : forall A (l : list (list A)) a b, In a l -> In b l -> length a <> length b -> through_file l = map Arr l.
Proof.
  intros A l a b Ha Hb H. unfold through_file. destruct (same_length l) eqn:E; [|reflexivity].
  exfalso. apply H. apply (proj1 (same_length_spec A l) E); auto.
Qed.
