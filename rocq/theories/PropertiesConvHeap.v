(** C129: memory of the scalar convolutional block. *)
From Coq Require Import ZArith List Bool QArith Lia ZifyBool.
From Verif Require Import Base ModelHeap ModelDense ModelFeedback ModelExecutor ModelConv ModelTMHeap ModelHeapRun ModelConvHeap SpecHeap SpecConvHeap
  ProofsHeap ProofsTMHeapG ProofsTMHeapH ProofsConvHeapB ProofsConvHeapC ProofsConvHeapD ProofsConvHeapE ExampleData.
Import ListNotations.
Open Scope Z_scope.

(** ** C129 *)

(** A block's life: initialize, any sequence of training and evaluation calls,
    cleanup.  No access leaves an array, whatever happens to be in new memory; the
    arrays hold what the list model of C35, C43, C62-C64 computes; nothing but the
    example buffer and the block's own arrays changes; one array is not released
    (the finding of C102). *)
Theorem C129_life : forall boost budget_on std_of fast_of j nlit ncl ncls np seed c h xs data inp icur idata ilab,
  fits nlit ncl ncls -> seed <> 0 -> (0 < np)%nat -> Z.of_nat (np * nlit) <= int_max ->
  hs_ncl (hc_s c) = Z.of_nat ncl -> hs_nlit (hc_s c) = Z.of_nat nlit -> hs_ncls (hc_s c) = Z.of_nat ncls -> hc_np c = Z.of_nat np ->
  is_data h idata ilab icur inp (np * nlit) data -> icur <> idata -> icur <> ilab ->
  Forall (ccall_ok (length data) ncls) xs ->
  exists v c1 h1 inp2 c2 h2 c3 h3 i ia ip,
    conv_initialize std_of fast_of (map (j_counts j) (seq 0 ncl)) (map (j_active j) (seq 0 ncl)) (map (j_ppc j) (seq 0 np))
      (Z.of_nat np) nlit ncl ncls (hs_budget (hc_s c)) (hs_s_inv (hc_s c)) (hs_s_min1_inv (hc_s c)) seed = Some v /\
    h_conv_initialize budget_on std_of fast_of seed c h = Some ((true, c1), h1) /\
    h_ccalls false budget_on boost j xs inp c1 h1 = Some ((inp2, c2), h2) /\
    is_conv budget_on j i ia ip h2 c2 (fold_left (c_call budget_on boost data) xs v) /\
    h_conv_cleanup budget_on c2 h2 = Some (c3, h3) /\ live h3 = S (live h) /\
    (forall id, (id < length h)%nat -> id <> icur -> nth_error h3 id = nth_error h id).
Proof.
  intros boost bo std_of fast_of j nlit ncl ncls np seed c h xs data inp icur idata ilab FT SD NP NF N1 N2 N3 N4 ID A1 A2 OK.
  destruct (conv_life_ok boost bo std_of fast_of j nlit ncl ncls np seed c h xs data inp icur idata ilab FT SD NP NF N1 N2 N3 N4 ID A1 A2 OK)
    as (v & c1 & h1 & inp2 & c2 & h2 & c3 & h3 & P).
  exists v, c1, h1, inp2, c2, h2, c3, h3, (fresh_ids (length h)), (length h + per bo)%nat, (length h + per bo + 1)%nat. exact P.
Qed.

(** Any block in memory, any sequence of calls: defined, and the list model's
    result; with [strict] reads of unwritten memory are undefined too, and there are
    none once the arrays have been written. *)
Theorem C129_calls_partial : forall strict boost budget_on j i ia ip icur idata ilab data xs h inp c v,
  is_conv budget_on j i ia ip h c v -> is_data h idata ilab icur inp (cv_np v * b_nlit (cv_b v)) data ->
  icur <> idata -> icur <> ilab ->
  (forall id, In id [icur; idata; ilab] -> ~ In id (conv_ids budget_on i ia ip)) ->
  Forall (ccall_ok (length data) (b_ncls (cv_b v))) xs ->
  (strict = true -> all_written budget_on i ia ip h) ->
  exists inp' c' h', h_ccalls strict budget_on boost j xs inp c h = Some ((inp', c'), h') /\
    is_conv budget_on j i ia ip h' c' (fold_left (c_call budget_on boost data) xs v) /\
    (all_written budget_on i ia ip h -> all_written budget_on i ia ip h') /\
    only (icur :: conv_ids budget_on i ia ip) h h'.
Proof.
  intros strict boost bo j i ia ip icur idata ilab data xs h inp c v H ID A1 A2 NI OK ST.
  destruct (ccalls_ok strict boost bo j i ia ip icur idata ilab A1 A2 (NI _ (or_introl eq_refl)) (NI _ (or_intror (or_introl eq_refl)))
    (NI _ (or_intror (or_intror (or_introl eq_refl)))) data xs h inp c v H ID OK ST) as (inp' & c' & h' & E & H' & _ & W & U).
  eauto 8.
Qed.

(** Without a literal budget, or with one patch per example, what happens to be in
    new memory changes nothing a caller sees. *)
Theorem C129_no_trace_partial : forall boost budget_on std_of fast_of j j' nlit ncl ncls np seed c h xs data inp icur idata ilab,
  budget_on = false \/ np = 1%nat ->
  fits nlit ncl ncls -> seed <> 0 -> (0 < np)%nat -> Z.of_nat (np * nlit) <= int_max ->
  hs_ncl (hc_s c) = Z.of_nat ncl -> hs_nlit (hc_s c) = Z.of_nat nlit -> hs_ncls (hc_s c) = Z.of_nat ncls -> hc_np c = Z.of_nat np ->
  is_data h idata ilab icur inp (np * nlit) data -> icur <> idata -> icur <> ilab ->
  Forall (ccall_ok (length data) ncls) xs ->
  exists c1 h1 inp2 c2 h2 inp2' c2' h2' i ia ip w w',
    h_conv_initialize budget_on std_of fast_of seed c h = Some ((true, c1), h1) /\
    h_ccalls false budget_on boost j xs inp c1 h1 = Some ((inp2, c2), h2) /\ is_conv budget_on j i ia ip h2 c2 w /\
    h_ccalls false budget_on boost j' xs inp c1 h1 = Some ((inp2', c2'), h2') /\ is_conv budget_on j' i ia ip h2' c2' w' /\
    same_block w w'.
Proof.
  intros boost bo std_of fast_of j j' nlit ncl ncls np seed c h xs data inp icur idata ilab B FT SD NP NF N1 N2 N3 N4 ID A1 A2 OK.
  destruct (conv_life_ok boost bo std_of fast_of j nlit ncl ncls np seed c h xs data inp icur idata ilab FT SD NP NF N1 N2 N3 N4 ID A1 A2 OK)
    as (v & c1 & h1 & inp2 & c2 & h2 & c3 & h3 & IV & E1 & E2 & H2 & _).
  destruct (conv_life_ok boost bo std_of fast_of j' nlit ncl ncls np seed c h xs data inp icur idata ilab FT SD NP NF N1 N2 N3 N4 ID A1 A2 OK)
    as (v' & c1' & h1' & inp2' & c2' & h2' & c3' & h3' & IV' & E1' & E2' & H2' & _).
  rewrite E1 in E1'. injection E1' as <- <-.
  exists c1, h1, inp2, c2, h2, inp2', c2', h2', (fresh_ids (length h)), (length h + per bo)%nat, (length h + per bo + 1)%nat.
  eexists. eexists. split; [exact E1|]. split; [exact E2|]. split; [exact H2|]. split; [exact E2'|]. split; [exact H2'|].
  destruct (init_same _ _ _ _ _ (map (j_counts j') (seq 0 ncl)) (map (j_active j') (seq 0 ncl)) (map (j_ppc j') (seq 0 np)) _ _ _ _ _ _ _ _ _ IV)
    as (w & W1 & W2 & W3).
  rewrite IV' in W1. injection W1 as <-.
  apply calls_same; [exact W2| | |].
  - eapply init_sized; [exact IV|rewrite map_length, seq_length; lia..].
  - eapply init_sized; [exact IV'|rewrite map_length, seq_length; lia..].
  - rewrite W3, Nat2Z.id. exact B.
Qed.

(** A number of patches that is not positive: initialize answers false, the block
    stays uninitialised, and what it has allocated stays allocated. *)
Theorem C129_no_patches : forall budget_on std_of fast_of nlit ncl ncls seed c h,
  fits nlit ncl ncls -> seed <> 0 -> hc_np c <= 0 ->
  hs_ncl (hc_s c) = Z.of_nat ncl -> hs_nlit (hc_s c) = Z.of_nat nlit -> hs_ncls (hc_s c) = Z.of_nat ncls ->
  exists c' h', h_conv_initialize budget_on std_of fast_of seed c h = Some ((false, c'), h') /\ hs_init (hc_s c') = false /\
    (forall id, (id < length h)%nat -> nth_error h' id = nth_error h id) /\
    kinds h' = kinds h ++ fresh_kinds budget_on ++ [Some KNew].
Proof. exact conv_init_refused. Qed.

(** *** New memory is read *)
(** One clause over one literal, two patches, one example; the literal is included. *)
Definition qx_one : rng := mkRng (fun k => nth k [1; 0] 0 # 1) 0.
Definition qx_heap (lits : list Z) : heap :=
  [Some (mkChunk KMalloc (map Some lits)); Some (mkChunk KMalloc [Some 0]); Some (mkChunk KMalloc (repeat (Some 0) 32))].
Definition qx_inp : hinput := mkIn 2 1 1 (start 0) (start 1) (start 2) null.
Definition qx_obj : hconv := h_conv_construct (h_construct 1 1 2 5 (1#4) (3#4) ex_rng ex_rng) 2.
Definition qx_run (strict budget_on : bool) (j : junk) (lits : list Z) (x : ccall) : option (list (option chunk)) :=
  match h_conv_initialize budget_on (fun _ => qx_one) (fun _ => qx_one) 7 qx_obj (qx_heap lits) with
  | Some ((true, c), h) => match h_ccalls strict budget_on false j [x] qx_inp c h with Some (_, h') => Some h' | None => None end
  | _ => None
  end.
Definition qx_j (n : Z) : junk := mkJunk (fun _ => O) (fun _ => n) (fun _ => n).

(** The first patch does not match, the second does: the count is read from
    literal_counts_per_patch[0], which no one has written, and decides whether the
    clause counts as over budget: two runs that differ only in that leave different
    clauses and weights. *)
Theorem C129_trace_refuted : exists j j' lits x,
  is_data (qx_heap lits) 0 1 2 qx_inp 2 [(lits, O)] /\ ccall_ok 1 2 x /\
  qx_run true true j lits x = None /\
  exists h h', qx_run false true j lits x = Some h /\ qx_run false true j' lits x = Some h' /\
    nth_error h (i_clauses (fresh_ids 3)) <> nth_error h' (i_clauses (fresh_ids 3)) /\
    nth_error h (i_weights (fresh_ids 3)) <> nth_error h' (i_weights (fresh_ids 3)).
Proof.
  exists (qx_j 0), (qx_j 100), [0; 1], (CTrain 0 0 (1#1) 1 (0#1)).
  split.
  { constructor; try reflexivity.
    + split; [reflexivity|]. exists KMalloc. reflexivity.
    + split; [reflexivity|]. exists KMalloc. reflexivity.
    + split; [reflexivity|]. exists (repeat (Some 0) 32). split; [exists KMalloc; reflexivity|cbn; lia].
    + repeat constructor.
    + unfold int_max. cbn. lia. }
  split; [cbn; lia|]. split; [vm_compute; reflexivity|].
  eexists. eexists. split; [vm_compute; reflexivity|]. split; [vm_compute; reflexivity|]. split; discriminate.
Qed.

(** Also with one patch per example or no budget: the first update reads
    active_patches of a clause that never matched. *)
Theorem C129_unwritten_refuted : forall budget_on, exists j lits x,
  is_data (qx_heap lits) 0 1 2 qx_inp 2 [(lits, O)] /\ ccall_ok 1 2 x /\
  qx_run true budget_on j lits x = None /\ qx_run false budget_on j lits x <> None.
Proof.
  intros bo. exists (qx_j 0), [0; 0], (CTrain 0 0 (1#1) 1 (0#1)).
  split.
  { constructor; try reflexivity.
    + split; [reflexivity|]. exists KMalloc. reflexivity.
    + split; [reflexivity|]. exists KMalloc. reflexivity.
    + split; [reflexivity|]. exists (repeat (Some 0) 32). split; [exists KMalloc; reflexivity|cbn; lia].
    + repeat constructor.
    + unfold int_max. cbn. lia. }
  split; [cbn; lia|]. split; [destruct bo; vm_compute; reflexivity|]. destruct bo; vm_compute; discriminate.
Qed.

(** ** Examples *)
Example C129_example : fits 1 1 2 /\ hs_ncl (hc_s qx_obj) = 1 /\ hs_nlit (hc_s qx_obj) = 1 /\ hs_ncls (hc_s qx_obj) = 2 /\ hc_np qx_obj = 2 /\
  exists h, qx_run false true (qx_j 3) [1; 1] (CTrain 0 0 (1#1) 1 (0#1)) = Some h /\ qx_run true true (qx_j 3) [1; 1] (CTrain 0 0 (1#1) 1 (0#1)) = Some h /\
    nth_error h 3 = Some (Some (mkChunk KNew (map Some [1; -2]))) /\ live h = 10%nat.
Proof.
  split; [red; unfold int_max; cbn; lia|]. do 4 (split; [reflexivity|]). eexists. split; [vm_compute; reflexivity|].
  split; [vm_compute; reflexivity|]. split; vm_compute; reflexivity.
Qed.
Example C129_refused_example : exists c h, h_conv_initialize true (fun _ => ex_rng) (fun _ => ex_rng) 7
  (h_conv_construct (h_construct 1 1 2 5 (1#4) (3#4) ex_rng ex_rng) (-1)) [] = Some ((false, c), h) /\ live h = 6%nat.
Proof. eexists. eexists. split; [vm_compute; reflexivity|]. reflexivity. Qed.

Print Assumptions C129_life.
Print Assumptions C129_calls_partial.
Print Assumptions C129_no_trace_partial.
Print Assumptions C129_no_patches.
Print Assumptions C129_trace_refuted.
Print Assumptions C129_unwritten_refuted.
