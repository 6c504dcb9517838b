(** C140: what a NEON block can learn. *)
From Coq Require Import ZArith List Bool QArith Lia.
From Verif Require Import Base BaseProofs Spec SpecLearning SpecLearnable SpecAvx2 SpecNeon SpecLearnableAvx2 SpecLearnableNeon ModelInference ModelDense ModelLayout ModelAvx2 ModelNeon
  ProofsEval ProofsStep ProofsHistory ProofsLearnableAll ProofsLearnableGame ProofsAvx2Step ProofsAvx2Hist ProofsNeonScalar ProofsNeonStep ProofsNeonHist ProofsLearnableNeon.
Import ListNotations.
Open Scope Z_scope.

(** Every classification of the inputs can be learnt from every state of the block,
    boosted or not, although the two halves of every random vector are equal. *)
Theorem C140_function : forall n ncls boost (p : probs) (f : list Z -> nat) a, (2 <= ncls)%nat ->
  (forall cs ws x pc nc, (0 < fst (p cs ws x pc nc) < 1)%Q /\ (0 < snd (p cs ws x pc nc) < 1)%Q) ->
  neon_good n a -> -127 <= a_cmp a <= 127 ->
  a_ncls a = ncls -> rows_of ncls (a_weights a) -> length (a_rows a) = length (a_weights a) -> Forall (Forall is_int16) (a_weights a) ->
  (2 ^ n <= length (a_rows a))%nat -> Z.of_nat n <= a_budget a ->
  (forall x, length x = n -> binary x -> (f x < ncls)%nat) ->
  exists a', neon_trains n ncls boost p a a' /\
    forall x lits c, nbuffer_of n x lits -> binary x -> (c < ncls)%nat ->
      nth c (snd (neon_eval_ex lits a')) 0 = if Nat.eqb c (f x) then 128 else 0.
Proof.
  intros n ncls boost p f a Hc HP G HC N1 N2 N3 N4 H2 HB Hf.
  destruct (neon_function n ncls (length (a_rows a)) boost p Hc HP f a) as [a' [T [_ D]]]; auto; [|exists a'; auto].
  constructor; auto. apply view_ok; auto.
Qed.

(** The same from the block that InitializeAlignedNeon makes, for every s and every
    seed but 0. *)
Theorem C140_initialised : forall vec_of std_of fast_of junk n ncl ncls budget s seed a boost (p : probs) (f : list Z -> nat), (0 < n)%nat -> (2 <= ncls)%nat ->
  (forall z, nvrng_ok (vec_of z)) ->
  (forall cs ws x pc nc, (0 < fst (p cs ws x pc nc) < 1)%Q /\ (0 < snd (p cs ws x pc nc) < 1)%Q) ->
  (2 ^ n <= ncl)%nat -> Z.of_nat n <= budget -> (forall x, length x = n -> binary x -> (f x < ncls)%nat) ->
  neon_initialize vec_of std_of fast_of junk n ncl ncls budget s seed = Some a ->
  exists a', neon_trains n ncls boost p a a' /\
    forall x lits c, nbuffer_of n x lits -> binary x -> (c < ncls)%nat ->
      nth c (snd (neon_eval_ex lits a')) 0 = if Nat.eqb c (f x) then 128 else 0.
Proof.
  intros vec_of std_of fast_of junk n ncl ncls budget s seed a boost p f Hn Hc HV HP H2 HB Hf HI.
  destruct (neon_initialize_good vec_of std_of fast_of junk n ncl ncls budget s seed a Hn HV HI) as [G L].
  unfold neon_initialize in HI. destruct (seed =? 0); [discriminate|]. destruct (neon_init_rows n ncl (std_of seed)) as [rows r].
  pose proof (init_weights_spec ncls ncl r) as W. destruct (init_weights ncls ncl r) as [ws r']. injection HI as <-. cbn [a_rows] in *.
  destruct W as [W1 [_ W3]]. apply (C140_function n ncls boost p f); auto; cbn [a_cmp a_ncls a_weights a_rows a_budget].
  - pose proof (gtcmp_range s). lia.
  - apply Forall_forall. intros w Hw. apply (In_nth _ _ []) in Hw. destruct Hw as [k [Hk <-]]. apply W3. lia.
  - lia.
  - apply Forall_forall. intros w Hw. apply (In_nth _ _ []) in Hw. destruct Hw as [k [Hk <-]]. destruct (W3 k ltac:(lia)) as [W4 W5].
    apply Forall_forall. intros v Hv. apply (In_nth _ _ 7) in Hv. destruct Hv as [i [Hi <-]]. rewrite W5 by lia. unfold is_int16. destruct (Qlt_bool _ _); lia.
  - lia.
Qed.

(** Whatever the block was trained on before, every classification can still be
    learnt. *)
Theorem C140_relearn : forall n ncls boost (p : probs) (f : list Z -> nat) a a1, (2 <= ncls)%nat ->
  (forall cs ws x pc nc, (0 < fst (p cs ws x pc nc) < 1)%Q /\ (0 < snd (p cs ws x pc nc) < 1)%Q) ->
  neon_good n a -> -127 <= a_cmp a <= 127 ->
  a_ncls a = ncls -> rows_of ncls (a_weights a) -> length (a_rows a) = length (a_weights a) -> Forall (Forall is_int16) (a_weights a) ->
  (2 ^ n <= length (a_rows a))%nat -> Z.of_nat n <= a_budget a ->
  (forall x, length x = n -> binary x -> (f x < ncls)%nat) ->
  neon_trains n ncls boost p a a1 ->
  exists a', neon_trains n ncls boost p a1 a' /\
    forall x lits c, nbuffer_of n x lits -> binary x -> (c < ncls)%nat ->
      nth c (snd (neon_eval_ex lits a')) 0 = if Nat.eqb c (f x) then 128 else 0.
Proof.
  intros n ncls boost p f a a1 Hc HP G HC N1 N2 N3 N4 H2 HB Hf T.
  assert (H1 : nok n ncls (length (a_rows a)) a1).
  { apply (neon_trains_ok n ncls (length (a_rows a)) boost p a a1 T). constructor; auto. apply view_ok; auto. }
  destruct (neon_function n ncls (length (a_rows a)) boost p Hc HP f a1 H1 H2 Hf) as [a' [T2 [_ D]]]. exists a'. auto.
Qed.

(** Non-vacuous case: four clauses over two inputs. *)
Definition nz_row (p0 p1 q0 q1 : Z) : list Z := [p0; p1] ++ repeat (-109) 14 ++ [q0; q1] ++ repeat (-111) 14.
Definition nz_block : ablock :=
  mkABlock 2 16 (nmask_of 2) 2 [nz_row 1 (-1) (-1) (-1); nz_row 5 7 9 (-1); nz_row (-1) 127 (-128) 3; nz_row (-1) (-1) 1 (-1)]
    [[2; -2]; [-2; 2]; [300; -7]; [0; 0]] [0; 0; 0; 0] [0; 0; 0; 0] [0; 0] 2 (gtcmp_for_s 4) (mkVrng (fun _ => repeat 0 16) 0) (mkRng (fun _ => (1#2)%Q) 0).
Example C140_case : neon_good 2 nz_block /\ -127 <= a_cmp nz_block <= 127 /\
  rows_of 2 (a_weights nz_block) /\ length (a_rows nz_block) = length (a_weights nz_block) /\ Forall (Forall is_int16) (a_weights nz_block) /\
  (2 ^ 2 <= length (a_rows nz_block))%nat /\ Z.of_nat 2 <= a_budget nz_block.
Proof.
  split; [|split; [vm_compute; split; discriminate|split; [repeat constructor|split; [reflexivity|split; [|split; [cbn; lia|cbn; lia]]]]]].
  - split; [constructor; try reflexivity; [lia|repeat constructor]|]. split; [|intros k; reflexivity].
    unfold nz_block, nz_row. cbn [a_rows app repeat]. repeat (apply Forall_cons || apply Forall_nil); unfold row8; repeat (apply Forall_cons || apply Forall_nil); vm_compute; split; discriminate.
  - cbn [a_weights nz_block]. repeat (apply Forall_cons || apply Forall_nil); vm_compute; split; discriminate.
Qed.
(** Initialisation succeeds for ten inputs and 1024 clauses. *)
Example C140_initialised_case : exists a,
  neon_initialize (fun _ => mkVrng (fun _ => repeat 5 16) 0) (fun _ => mkRng (fun i => if Nat.even i then 1#4 else 3#4)%Q 0) (fun _ => mkRng (fun _ => (1#2)%Q) 0) [] 10 1024 3 10 4 7 = Some a /\
  (2 ^ 10 <= 1024)%nat /\ Z.of_nat 10 <= 10.
Proof. unfold neon_initialize. change (7 =? 0) with false. cbv iota. destruct (neon_init_rows _ _ _). destruct (init_weights _ _ _). eexists. split; [reflexivity|]. split; [apply Nat.leb_le; vm_compute; reflexivity|cbn; lia]. Qed.
(** A step from [nz_block]: the example and the vectors are admissible. *)
Example C140_relearn_case : exists a1, neon_trains 2 2 false (fun _ _ _ _ _ => (1#2, 1#2)%Q) nz_block a1 /\ a_rows a1 <> a_rows nz_block.
Proof.
  eexists. split.
  - apply (neon_train_more 2 2 false (fun _ _ _ _ _ => (1#2, 1#2)%Q) nz_block [1; 0] ([1; 0] ++ repeat 9 14) 0 1 (mkVrng (fun _ => repeat (-128) 16) 0) (mkRng (fun _ => 0%Q) 0)); try lia.
    + split; [reflexivity|split; [cbn; lia|reflexivity]].
    + repeat (apply Forall_cons; [auto|]). apply Forall_nil.
    + intros k. reflexivity.
    + intros k i Hi. cbn [vr_src]. do 8 (destruct i as [|i]; [reflexivity|]). lia.
    + intros i. split; [apply Qle_refl|reflexivity].
    + apply neon_trained.
  - vm_compute. discriminate.
Qed.

Print Assumptions C140_function.
Print Assumptions C140_initialised.
Print Assumptions C140_relearn.
