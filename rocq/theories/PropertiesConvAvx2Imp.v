(** C130: the AVX2 convolutional block in its memory. *)
From Coq Require Import ZArith List Bool QArith Lia ZifyBool.
From Verif Require Import Base BaseProofs Spec ModelDense ModelLayout ModelAvx2 ModelConv ModelConvAvx2 SpecAvx2 SpecConvAvx2 ModelSparse ModelSparseImp ModelAvx2Imp
  ModelConvAvx2Imp SpecAvx2Imp SpecConvAvx2Imp ProofsAvx2ImpE ProofsConvAvx2Hist ProofsConvAvx2ImpD ProofsConvAvx2ImpE ExampleData PropertiesConvAvx2.
Import ListNotations.
Open Scope Z_scope.

(** ** C130 The AVX2 convolutional block in its memory *)

(** A block from its initialisation over some calls; what was in new memory is
    in [jm] (mask), [jc] (clauses), [jk] (literal_counts), [ja] (active_patches)
    and [jp] (literal_counts_per_patch). *)
Definition xlife (bo boost pad : bool) std_of vec_of fast_of jm jc jk ja jp np nlit ncl ncls budget sv seed cs : R ximp :=
  bindR (imp_xinitialize bo pad std_of vec_of fast_of jm jc jk ja jp np nlit ncl ncls budget sv seed)
        (fun o => match o with Some x => xi_calls bo boost cs x | None => Wild end).

(** initialize is that of the list model; without a number of patches it answers
    false. *)
Theorem C130_initialize : forall bo pad std_of vec_of fast_of jm jc jk ja jp np nlit ncl ncls budget sv seed, seed <> 0 -> fits pad nlit ncl ncls ->
  exists rest, imp_xinitialize bo pad std_of vec_of fast_of jm jc jk ja jp np nlit ncl ncls budget sv seed =
    Ret (option_map (xinmem bo pad rest)
      (xc_initialize std_of vec_of fast_of (fresh ncl jk) (map ja (seq 0 ncl)) (fresh (Z.to_nat np) jp) np nlit ncl ncls budget sv seed)) /\
    (np <= 0 -> imp_xinitialize bo pad std_of vec_of fast_of jm jc jk ja jp np nlit ncl ncls budget sv seed = Ret None).
Proof.
  intros bo pad std_of vec_of fast_of jm jc jk ja jp np nlit ncl ncls budget sv seed Hs F.
  destruct (xinit_eq bo pad std_of vec_of fast_of jm jc jk ja jp np nlit ncl ncls budget sv seed Hs F) as (rest & E1 & _). exists rest. split; [exact E1|].
  intros HN. rewrite E1. unfold xc_initialize. destruct (avx_initialize _ _ _ _ _ _ _ _ _); [|reflexivity].
  destruct (Z.gtb_spec np 0); [lia|reflexivity].
Qed.

(** Every history of calls computes what the list model computes, and leaves the
    arrays, or loads a vector from an odd address, exactly where the list model
    has no result. *)
Theorem C130_history_partial : forall (bo boost pad : bool) std_of vec_of fast_of jm jc jk ja jp np nlit ncl ncls budget sv seed cs, seed <> 0 -> (0 < nlit)%nat -> 0 < np ->
  fits pad nlit ncl ncls -> np * Z.of_nat nlit <= int_max -> vrng_ok (vec_of seed) -> Forall (xcall_ok nlit (Z.to_nat np) ncl ncls) cs ->
  exists rest v, xc_initialize std_of vec_of fast_of (fresh ncl jk) (map ja (seq 0 ncl)) (fresh (Z.to_nat np) jp) np nlit ncl ncls budget sv seed = Some v /\
  xlife bo boost pad std_of vec_of fast_of jm jc jk ja jp np nlit ncl ncls budget sv seed cs = mem_of bo pad rest (fold_left (x_call bo boost) cs (Some v)).
Proof.
  intros bo boost pad std_of vec_of fast_of jm jc jk ja jp np nlit ncl ncls budget sv seed cs Hs Hn HN F HI Hv Hc. unfold xlife.
  destruct (xinit_eq bo pad std_of vec_of fast_of jm jc jk ja jp np nlit ncl ncls budget sv seed Hs F) as (rest & E1 & E2). exists rest.
  destruct (xc_initialize std_of vec_of fast_of (fresh ncl jk) (map ja (seq 0 ncl)) (fresh (Z.to_nat np) jp) np nlit ncl ncls budget sv seed) as [v|] eqn:E.
  - exists v. split; [reflexivity|]. rewrite E1. cbn [bindR option_map]. destruct (E2 _ eq_refl) as (A1 & A2 & A3 & A4 & A5).
    apply xcalls_eq; [apply A5; auto; lia|]. rewrite A1, A2, A3, A4. exact Hc.
  - exfalso. revert E. unfold xc_initialize, avx_initialize. destruct (Z.eqb_spec seed 0); [contradiction|].
    destruct (avx_init_rows nlit ncl (fast_of seed)) as [rows f]. destruct (init_weights ncls ncl f) as [ws f']. destruct (Z.gtb_spec np 0); [discriminate|lia].
Qed.
Theorem C130_call_partial : forall bo boost pad rest v c, xshape bo pad v -> xcall_ok (a_nlit (xc_b v)) (xc_np v) (length (a_rows (xc_b v))) (a_ncls (xc_b v)) c ->
  xi_call bo boost (xinmem bo pad rest v) c = mem_of bo pad rest (x_call bo boost (Some v) c) /\
  forall v', x_call bo boost (Some v) c = Some v' -> xshape bo pad v'.
Proof.
  intros bo boost pad rest v c Sh Hc. destruct (xcall_eq bo boost pad rest v c Sh Hc) as (E1 & E2). split; [exact E1|].
  intros v' E. exact (proj1 (E2 v' E)).
Qed.

(** Patches of whole vectors, or one patch: every access is in range and aligned. *)
Theorem C130_safe_partial : forall (bo boost pad : bool) std_of vec_of fast_of jm jc jk ja jp np nlit ncl ncls budget sv seed cs, seed <> 0 -> (0 < nlit)%nat -> 0 < np ->
  fits pad nlit ncl ncls -> np * Z.of_nat nlit <= int_max -> vrng_ok (vec_of seed) -> Forall (xcall_ok nlit (Z.to_nat np) ncl ncls) cs ->
  whole_patches nlit (Z.to_nat np) ->
  exists x, xlife bo boost pad std_of vec_of fast_of jm jc jk ja jp np nlit ncl ncls budget sv seed cs = Ret x.
Proof.
  intros bo boost pad std_of vec_of fast_of jm jc jk ja jp np nlit ncl ncls budget sv seed cs Hs Hn HN F HI Hv Hc HW.
  destruct (C130_history_partial bo boost pad std_of vec_of fast_of jm jc jk ja jp np nlit ncl ncls budget sv seed cs Hs Hn HN F HI Hv Hc) as (rest & v & E1 & E2).
  destruct (xinit_eq bo pad std_of vec_of fast_of jm jc jk ja jp np nlit ncl ncls budget sv seed Hs F) as (rest' & _ & E3).
  destruct (E3 _ E1) as (A1 & A2 & A3 & A4 & A5). rewrite E2.
  destruct (safe_calls bo boost pad cs v) as (v' & E).
  - apply A5; auto. lia.
  - rewrite A1, A2. exact HW.
  - rewrite A1, A2, A3, A4. exact Hc.
  - rewrite E. eexists. reflexivity.
Qed.

(** Any other patch size with more than one patch: the first training example is
    loaded from an odd address. *)
Theorem C130_ragged_refuted : forall (bo boost pad : bool) std_of vec_of fast_of jm jc jk ja jp np nlit ncl ncls budget sv seed l pc pp nc npq cs, seed <> 0 ->
  (nlit mod 32 <> 0)%nat -> 2 <= np -> (0 < ncl)%nat ->
  fits pad nlit ncl ncls -> np * Z.of_nat nlit <= int_max -> vrng_ok (vec_of seed) -> Forall (xcall_ok nlit (Z.to_nat np) ncl ncls) (XTrain l pc pp nc npq :: cs) ->
  xlife bo boost pad std_of vec_of fast_of jm jc jk ja jp np nlit ncl ncls budget sv seed (XTrain l pc pp nc npq :: cs) = Wild.
Proof.
  intros bo boost pad std_of vec_of fast_of jm jc jk ja jp np nlit ncl ncls budget sv seed l pc pp nc npq cs Hs HM HN HC F HI Hv Hc.
  assert (Hn : (0 < nlit)%nat) by (destruct nlit; [cbn in HM; lia|lia]).
  destruct (C130_history_partial bo boost pad std_of vec_of fast_of jm jc jk ja jp np nlit ncl ncls budget sv seed _ Hs Hn ltac:(lia) F HI Hv Hc) as (rest & v & E1 & E2).
  destruct (xinit_eq bo pad std_of vec_of fast_of jm jc jk ja jp np nlit ncl ncls budget sv seed Hs F) as (rest' & _ & E3).
  destruct (E3 _ E1) as (A1 & A2 & A3 & A4 & A5). rewrite E2. cbn [fold_left x_call].
  assert (Sh : xshape bo pad v) by (apply A5; auto; lia).
  rewrite xc_train_ragged; [cbn [fst xc_upd]; rewrite x_none; reflexivity| | | | |].
  - rewrite A2. exact HM.
  - rewrite A1. lia.
  - unfold xclauses. rewrite A3. exact HC.
  - rewrite (xs_active _ _ _ Sh), A3. exact HC.
  - rewrite (xs_counts _ _ _ Sh), A3. exact HC.
Qed.

(** Without a literal budget, or with one patch, two histories that differ in what
    was in new memory agree on everything but active_patches and the counts. *)
Theorem C130_no_trace_partial : forall (bo boost pad : bool) std_of vec_of fast_of jm jm' jc jc' jk jk' ja ja' jp jp' np nlit ncl ncls budget sv seed cs, seed <> 0 -> (0 < nlit)%nat -> 0 < np ->
  fits pad nlit ncl ncls -> np * Z.of_nat nlit <= int_max -> vrng_ok (vec_of seed) -> Forall (xcall_ok nlit (Z.to_nat np) ncl ncls) cs ->
  bo = false \/ np = 1 ->
  exists rest rest' v v',
    xlife bo boost pad std_of vec_of fast_of jm jc jk ja jp np nlit ncl ncls budget sv seed cs = mem_of bo pad rest v /\
    xlife bo boost pad std_of vec_of fast_of jm' jc' jk' ja' jp' np nlit ncl ncls budget sv seed cs = mem_of bo pad rest' v' /\ alike_o v v'.
Proof.
  intros bo boost pad std_of vec_of fast_of jm jm' jc jc' jk jk' ja ja' jp jp' np nlit ncl ncls budget sv seed cs Hs Hn HN F HI Hv Hc HB. unfold xlife.
  destruct (xinit_eq bo pad std_of vec_of fast_of jm jc jk ja jp np nlit ncl ncls budget sv seed Hs F) as (rest & E1 & E2).
  destruct (xinit_eq bo pad std_of vec_of fast_of jm' jc' jk' ja' jp' np nlit ncl ncls budget sv seed Hs F) as (rest' & E1' & E2').
  exists rest, rest'. rewrite E1, E1'. cbn [bindR]. revert E2 E2'. unfold xc_initialize, avx_initialize. destruct (Z.eqb_spec seed 0); [contradiction|].
  destruct (avx_init_rows nlit ncl (fast_of seed)) as [rows f]. destruct (init_weights ncls ncl f) as [ws f']. destruct (Z.gtb_spec np 0); [|lia].
  intros E2 E2'. destruct (E2 _ eq_refl) as (A1 & A2 & A3 & A4 & A5). destruct (E2' _ eq_refl) as (_ & _ & _ & _ & A5'). cbn [option_map].
  apply (trace_calls bo boost pad rest rest' cs).
  - cbn [xc_np]. destruct HB as [HB|HB]; [auto|right; subst np; reflexivity].
  - apply A5; auto. lia.
  - apply A5'; auto. lia.
  - constructor; reflexivity.
  - rewrite A1, A2, A3, A4. exact Hc.
Qed.

(** With a budget and several patches they do not: the count of the patch picked
    is looked up at the index into the list of matching patches, in an element that
    may never have been written, and decides over the feedback. *)
Definition xq_cs : list xcall :=
  [XState [5 :: repeat (-5) 63] 0; XWeights [[1; 1]] 0; XTrain (repeat 0 32 ++ repeat 1 32 ++ repeat 0 32) 0 (1#1) 1 (0#1)].
Definition xq_run (jp : nat -> Z) : R ximp :=
  xlife true false false (fun _ => ex_rng) (fun _ => xx_vrng) (fun _ => ex_rng) (fun _ => 0) (fun _ => 0) (fun _ => 0) (fun _ => O) jp 2 32 1 2 5 (4#1) 7 xq_cs.
Lemma xq_fits : fits false 32 1 2. Proof. unfold fits, int_max. vm_compute. repeat split; discriminate. Qed.
Lemma xq_ok : Forall (xcall_ok 32 2 1 2) xq_cs.
Proof.
  unfold xq_cs. constructor; [|constructor; [|constructor; [|constructor]]]; cbn [xcall_ok].
  - split; [repeat constructor|]. split; [cbn [length]; lia|]. unfold int_max. cbn. lia.
  - split; [repeat constructor|]. split; [cbn [length]; lia|]. unfold int_max. cbn. lia.
  - split; [reflexivity|lia].
Qed.
Theorem C130_trace_refuted : exists jp jp' x x', xq_run jp = Ret x /\ xq_run jp' = Ret x' /\
  m_clauses (xi_v x) <> m_clauses (xi_v x') /\ m_weights (xi_v x) <> m_weights (xi_v x').
Proof.
  exists (fun _ => 0), (fun _ => 100). eexists. eexists. split; [vm_compute; reflexivity|]. split; [vm_compute; reflexivity|]. split; discriminate.
Qed.

(** The same block trained on patches that match, and a ragged one. *)
Example C130_case : fits false 32 1 2 /\ vrng_ok xx_vrng /\ Forall (xcall_ok 32 2 1 2) xq_cs /\ whole_patches 32 2 /\
  match xq_run (fun _ => 3) with Ret x => (firstn 2 (m_clauses (xi_v x)), m_weights (xi_v x), xi_active x) = ([5; -5], [2; 1], [1%nat]) | _ => False end.
Proof.
  split; [exact xq_fits|]. split; [intros k; cbn [xx_vrng vr_src]; now rewrite map_length, seq_length|]. split; [exact xq_ok|].
  split; [left; reflexivity|]. vm_compute. reflexivity.
Qed.
Example C130_ragged_case : fits false 7 1 2 /\ Forall (xcall_ok 7 2 1 2) [XTrain (repeat 1 32) 0 (1#1) 1 (0#1)] /\
  xlife true false false (fun _ => ex_rng) (fun _ => xx_vrng) (fun _ => ex_rng) (fun _ => 0) (fun _ => 0) (fun _ => 0) (fun _ => O) (fun _ => 0) 2 7 1 2 5 (4#1) 7
    [XTrain (repeat 1 32) 0 (1#1) 1 (0#1)] = Wild.
Proof.
  split; [unfold fits, int_max; vm_compute; repeat split; discriminate|]. split; [|vm_compute; reflexivity].
  constructor; [|constructor]. split; [reflexivity|lia].
Qed.

Print Assumptions C130_initialize.
Print Assumptions C130_history_partial.
Print Assumptions C130_call_partial.
Print Assumptions C130_safe_partial.
Print Assumptions C130_ragged_refuted.
Print Assumptions C130_no_trace_partial.
Print Assumptions C130_trace_refuted.
