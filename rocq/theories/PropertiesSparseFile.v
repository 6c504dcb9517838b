(** C113: files of sparse states. *)
From Coq Require Import ZArith List Bool QArith Lia.
From Verif Require Import Base ModelRuleSet ModelLayout ModelSparse ModelSparseFile SpecSparse ProofsSparseFile PropertiesSparse.
Import ListNotations.
Open Scope Z_scope.

(** ** C113: a saved and loaded sparse state works like the one saved

    [in_memory]: the state before saving; compiling it or writing it to the
    blocks is what the other theorems about sparse machines speak of. *)
Theorem C113_in_memory : forall s n cbs, ss_nlit s = Some n ->
  held_compile (in_memory s n) = compile_from_sparse_state s /\ held_save (in_memory s n) cbs = sp_save_state s cbs.
Proof. intros s n cbs H. split; [apply mem_compile; auto|apply mem_save_loop]. Qed.

(** Nothing of the contents is lost in the file. *)
Theorem C113_contents : forall s n, let h := save_and_load s n in let g := in_memory s n in
  h_nlit h = h_nlit g /\ h_w h = h_w g /\ h_al h = h_al g /\ map content (h_data h) = map content (h_data g) /\
  map content (h_indices h) = map content (h_indices g) /\ map content (h_indptr h) = map content (h_indptr g).
Proof.
  intros s n h g. unfold h, g. cbn [save_and_load in_memory h_nlit h_w h_al h_data h_indices h_indptr].
  rewrite !content_through_file, !content_arr. repeat split.
Qed.

(** But as soon as all blocks have the same number of clauses, in particular with
    one block, neither a predictor can be made of it nor training continued. *)
Theorem C113_refuted : forall s n cbs, ss_c s <> [] -> cbs <> [] ->
  (forall c c', In c (ss_c s) -> In c' (ss_c s) -> length (snd c) = length (snd c')) ->
  held_compile (save_and_load s n) = Raise AttributeError /\ held_save (save_and_load s n) cbs = Raise TypeError.
Proof.
  intros s n cbs Hc Hb H.
  assert (E : h_indptr (save_and_load s n) = map Lst (map snd (ss_c s))).
  { cbn [save_and_load h_indptr]. apply file_lists. intros a b Ha Hb'.
    apply in_map_iff in Ha. apply in_map_iff in Hb'. destruct Ha as (c & <- & Ha). destruct Hb' as (c' & <- & Hb'). auto. }
  destruct (ss_c s) as [|[[d i] p] t] eqn:Es; [congruence|]. split.
  - unfold held_compile.
    rewrite (compile_loop_content _ _ _ _ _ (h_data (in_memory s n)) (h_indices (in_memory s n))).
    + rewrite E. cbn [in_memory h_data h_indices]. rewrite Es. reflexivity.
    + apply (C113_contents s n).
    + apply (C113_contents s n).
  - destruct cbs as [|cb t']; [congruence|]. unfold held_save. cbn [held_save_loop]. rewrite E.
    pose proof (C113_contents s n) as (_ & _ & _ & C1 & C2 & _). cbn [in_memory h_data h_indices] in C1, C2.
    rewrite Es in C1, C2. cbn [map] in C1, C2.
    destruct (h_data (save_and_load s n)) as [|hd td]; [discriminate C1|].
    destruct (h_indices (save_and_load s n)) as [|hi ti]; [discriminate C2|].
    cbn [nth_error map]. cbn [is_array]. rewrite andb_false_r. reflexivity.
Qed.

(** A machine with one block, whatever was learned. *)
Theorem C113_one_block_refuted : forall nlit ncls cb tgt, tgt <> [] ->
  let s := sp_load_state nlit (sp_ncl cb) ncls [cb] in
  held_compile (save_and_load s nlit) = Raise AttributeError /\ held_save (save_and_load s nlit) tgt = Raise TypeError.
Proof.
  intros nlit ncls cb tgt H s. apply C113_refuted; auto.
  - unfold s, sp_load_state. cbn [sp_load_loop app ss_c]. discriminate.
  - unfold s, sp_load_state. cbn [sp_load_loop app ss_c]. intros c c' [<-|[]] [<-|[]]. reflexivity.
Qed.

(** With blocks of different sizes the predictor is the same; training continues
    the same if also the numbers of automata in the blocks are not all the same. *)
Theorem C113_predictor_partial : forall s n c c', ss_nlit s = Some n -> In c (ss_c s) -> In c' (ss_c s) ->
  length (snd c) <> length (snd c') -> held_compile (save_and_load s n) = compile_from_sparse_state s.
Proof.
  intros s n c c' Hn H1 H2 H. rewrite <- (mem_compile s n Hn). unfold held_compile.
  assert (E : h_indptr (save_and_load s n) = h_indptr (in_memory s n)).
  { cbn [save_and_load in_memory h_indptr]. rewrite (file_arrays _ _ (snd c) (snd c')); auto using in_map.
    apply map_arr_compose. }
  rewrite E. rewrite (compile_loop_content _ _ _ _ _ (h_data (in_memory s n)) (h_indices (in_memory s n)));
    [reflexivity|apply (C113_contents s n)|apply (C113_contents s n)].
Qed.
Theorem C113_training_partial : forall s n cbs c c' d d', ss_nlit s = Some n -> In c (ss_c s) -> In c' (ss_c s) ->
  length (snd c) <> length (snd c') -> In d (ss_c s) -> In d' (ss_c s) ->
  length (fst (fst d)) <> length (fst (fst d')) -> length (snd (fst d)) <> length (snd (fst d')) ->
  held_save (save_and_load s n) cbs = sp_save_state s cbs.
Proof.
  intros s n cbs c c' d d' Hn H1 H2 H H3 H4 H5 H6.
  assert (E : save_and_load s n = in_memory s n).
  { unfold save_and_load, in_memory. f_equal.
    - rewrite (file_arrays _ _ (fst (fst d)) (fst (fst d'))); [apply map_map| | |exact H5];
        apply in_map_iff; [exists d|exists d']; auto.
    - rewrite (file_arrays _ _ (snd (fst d)) (snd (fst d'))); [apply map_map| | |exact H6];
        apply in_map_iff; [exists d|exists d']; auto.
    - rewrite (file_arrays _ _ (snd c) (snd c')); [apply map_map| | |exact H]; apply in_map; auto. }
  rewrite E. apply mem_save_loop.
Qed.

(** If all blocks have the same number of automata, training does not start. *)
Theorem C113_training_refuted : forall s n cbs, ss_c s <> [] -> cbs <> [] ->
  (forall c c', In c (ss_c s) -> In c' (ss_c s) -> length (fst (fst c)) = length (fst (fst c'))) ->
  held_save (save_and_load s n) cbs = Raise TypeError.
Proof.
  intros s n cbs Hc Hb H.
  assert (E : h_data (save_and_load s n) = map Lst (map (fun c => fst (fst c)) (ss_c s))).
  { cbn [save_and_load h_data]. apply file_lists. intros a b Ha Hb'.
    apply in_map_iff in Ha. apply in_map_iff in Hb'. destruct Ha as (c & <- & Ha). destruct Hb' as (c' & <- & Hb'). auto. }
  destruct cbs as [|cb t']; [congruence|]. unfold held_save. cbn [held_save_loop]. rewrite E.
  pose proof (C113_contents s n) as (_ & _ & _ & _ & C1 & C2). cbn [in_memory h_indptr h_indices] in C1, C2.
  destruct (ss_c s) as [|[[d i] p] t] eqn:Es; [congruence|]. cbn [map] in C1, C2.
  destruct (h_indptr (save_and_load s n)) as [|hd td]; [discriminate C2|].
  destruct (h_indices (save_and_load s n)) as [|hi ti]; [discriminate C1|].
  cbn [nth_error map]. cbn [is_array andb]. reflexivity.
Qed.

(** Two blocks, of three clauses and of one. *)
Definition sx_small : sblock :=
  mkSB 6 1 2 3 3 (-40) [[1;2]; [0]]%nat [[5;3]; [2]] [[2;3]; [0;1]]%nat [0;0]%nat [[2;-1]] [0] [0] [0;0] 100 (1#4) (3#4) (sp_fast sx_block).
Example C113_case : let s := sp_load_state 6 4 2 [sx_even; sx_small] in
  ss_nlit s = Some 6%nat /\ map (fun c => length (snd c)) (ss_c s) = [7; 3]%nat /\
  map (fun c => length (fst (fst c))) (ss_c s) = [8; 3]%nat /\
  held_compile (save_and_load s 6) = compile_from_sparse_state s /\
  (exists rs, compile_from_sparse_state s = Ok rs /\ rs_rules rs = [[1; 4; 6]; [2; 7]; [1; 2; 6]]%nat) /\
  held_save (save_and_load s 6) [sx_even; sx_small] = sp_save_state s [sx_even; sx_small] /\
  held_compile (save_and_load (sp_load_state 6 3 2 [sx_even]) 6) = Raise AttributeError.
Proof.
  intro s. split; [reflexivity|]. split; [reflexivity|]. split; [reflexivity|]. split; [vm_compute; reflexivity|].
  split; [eexists; split; vm_compute; reflexivity|]. split; vm_compute; reflexivity.
Qed.

Print Assumptions C113_in_memory.
Print Assumptions C113_contents.
Print Assumptions C113_refuted.
Print Assumptions C113_one_block_refuted.
Print Assumptions C113_predictor_partial.
Print Assumptions C113_training_partial.
Print Assumptions C113_training_refuted.
