(** Properties of the backend registry: which classes are chosen, for every
    build, processor and program of calls. *)
From Coq Require Import String Ascii ZArith List Bool Lia.
From Verif Require Import Base ModelMachine ModelTrainer ModelPredictor ModelRegistry SpecRegistry
  ProofsRegistry.
Import ListNotations.
Open Scope string_scope.
Open Scope list_scope.
Open Scope Z_scope.

(** ** Example data *)

Definition ex_intel : cpu := fun leaf =>
  if leaf =? 0 then mkRegs 22 (word "G" "e" "n" "u") (word "n" "t" "e" "l") (word "i" "n" "e" "I")
  else if leaf =? 7 then mkRegs 0 (2 ^ 5 + 2 ^ 3) 0 0 else mkRegs 0 0 0 0.
(** A processor from before AVX2 (bit 5 of leaf 7 clear). *)
Definition ex_old_intel : cpu := fun leaf =>
  if leaf =? 0 then mkRegs 13 (word "G" "e" "n" "u") (word "n" "t" "e" "l") (word "i" "n" "e" "I")
  else if leaf =? 7 then mkRegs 0 (2 ^ 7) 0 0 else mkRegs 0 0 0 0.
Definition ex_avx2 : build := mkBuild true false false.
Definition ex_scalar : build := mkBuild false false false.
Definition ex_neon : build := mkBuild false true true.
Definition ex_csr : xarr := mkX KCsr [2%nat; 3%nat] true [[0; 2]; [1]].
Definition ex_arr : xarr := mkX KArray [2%nat; 3%nat] true [[1; 0; 1]; [0; 1; 0]].
Definition ex_lab : yarr := mkY [2%nat] true [[0]; [1]].
Definition run_from (b : build) (p : cpu) (pr : list action) : list (res outcome) :=
  match import_backend (Some (b, p)) with
  | Ok r => fst (steps pr (start r))
  | Raise e => [Raise e]
  end.
(** Data for trainer [t], then training. *)
Definition feed (t : nat) (x : xarr) : list action := [ATrainData t (Some x) ex_lab; AEvalData t (Some x) ex_lab].

(** ** C82: every machine and predictor gets the class of its own flags *)

Theorem C82_import : forall b p, exists r, import_backend (Some (b, p)) = Ok r.
Proof. intros b p. destruct (import_native b p) as (r & E & _). eauto. Qed.

Theorem C82_machine_class : forall b p w m i,
  reached (Some (b, p)) w -> nth_error (w_machs w) i = Some m -> k_kind m <> KConv ->
  exists w', get_backend m w = Ok (ECls (class_for (core_isa b p) m), w').
Proof.
  intros b p w m i R Em K. pose proof (reached_inv _ _ _ R) as I.
  rewrite (get_backend_native (core_isa b p) (conv_entry b p)) by apply (wi_fixed _ _ _ I).
  destruct (k_kind m); eauto. now elim K.
Qed.

Theorem C82_inference_class : forall b p w x exclude,
  reached (Some (b, p)) w -> x <> XOther ->
  inference_cls (w_reg w) x exclude = Ok (inference_for x exclude).
Proof.
  intros b p w x ex R Hx. pose proof (wi_fixed _ _ _ (reached_inv _ _ _ R)) as F.
  unfold inference_cls. destruct x; try (now elim Hx);
    (erewrite item_ok; [|apply (fx_inf _ _ _ F); destruct ex; reflexivity]); reflexivity.
Qed.

(** The fastest class the probes allow, and nothing a build does not contain. *)
Theorem C82_isa_built : forall b p,
  (core_isa b p = Neon -> b_neon b = true) /\ (core_isa b p = Avx2 -> b_avx2 b = true)
  /\ (core_isa b p = Scalar -> has_avx2 b p = false).
Proof.
  intros b p. unfold core_isa, has_avx2. destruct (b_neon b), (b_arm b), (b_avx2 b); cbn [andb];
    repeat split; try congruence; try discriminate;
    destruct (get_cpuid p 0) as [r|]; try congruence; destruct (negb _); congruence.
Qed.

Example C82_case :
  run_from ex_neon ex_intel ([ANewDense 3 true false false; ATrainer 0 FFocused] ++ feed 0 ex_arr ++ [ATrain 0])
  = [Ok ODone; Ok ODone; Ok ODone; Ok ODone; Ok (OTrain (CDense Neon true false) CDenseIn)].
Proof. vm_compute. reflexivity. Qed.

Print Assumptions C82_import.
Print Assumptions C82_machine_class.
Print Assumptions C82_inference_class.
Print Assumptions C82_isa_built.

(** ** C83: has_avx2 *)

(** The claim "has_avx2() is true exactly on processors with AVX2" is false: an
    AVX2 build says yes on every Intel and AMD processor, since it reads a letter
    of the vendor's name. *)
Theorem C83_vendor_refuted : forall b p,
  b_avx2 b = true -> 0 < r_eax (p 0) -> intel p \/ amd p -> has_avx2 b p = true.
Proof. exact has_avx2_vendor. Qed.

Theorem C83_detects_refuted : exists b p, intel p /\ ~ avx2_present p /\ has_avx2 b p = true.
Proof.
  exists ex_avx2, ex_old_intel. split; [repeat split; reflexivity|]. split; [|vm_compute; reflexivity].
  intros [_ H]. vm_compute in H. discriminate H.
Qed.

(** What it computes instead, for every processor. *)
Theorem C83_exact_partial : forall b p, 0 <= r_eax (p 0) -> 0 <= r_edx (p 0) ->
  (has_avx2 b p = true <-> b_avx2 b = true /\ r_eax (p 0) <> 0 /\ Z.testbit (r_edx (p 0)) 5 = true).
Proof.
  intros b p H0 H. rewrite has_avx2_exact by assumption. rewrite !andb_true_iff, negb_true_iff, Z.eqb_neq.
  tauto.
Qed.

(** setup.py defines USE_AVX2 on Linux exactly when the building machine has AVX2
    (setup.py:41-46); run on that same machine the answer is right. *)
Theorem C83_same_machine_partial : forall b p,
  (b_avx2 b = true <-> avx2_present p) -> intel p \/ amd p ->
  (has_avx2 b p = true <-> avx2_present p).
Proof.
  intros b p Hb V. split.
  - intros H. apply Hb. unfold has_avx2 in H. destruct (b_avx2 b); [reflexivity | discriminate H].
  - intros H. apply has_avx2_vendor; [tauto | destruct H; lia | exact V].
Qed.

Example C83_case : intel ex_intel /\ avx2_present ex_intel /\ intel ex_old_intel
  /\ has_avx2 ex_avx2 ex_intel = true /\ has_avx2 ex_avx2 ex_old_intel = true
  /\ has_avx2 ex_scalar ex_intel = false.
Proof. vm_compute. repeat split; discriminate. Qed.

Print Assumptions C83_vendor_refuted.
Print Assumptions C83_detects_refuted.
Print Assumptions C83_exact_partial.
Print Assumptions C83_same_machine_partial.

(** ** C84: the registry without the core *)

(** "Falls back to pure python" is false for training and for predicting. *)
Theorem C84_training_refuted : forall w t cb ib, reached None w ->
  fst (step (ATrain t) w) <> Ok (OTrain cb ib).
Proof.
  intros w t cb ib R. pose proof (pw_reg _ (pure_reached _ R)) as E. cbn [step].
  destruct (nth_error (w_trainers w) t) as [tr|]; [|discriminate].
  destruct (nth_error (w_machs w) (rt_m tr)) as [m|]; [|discriminate].
  pose proof (pure_train m tr w E) as P.
  destruct (train_start m tr w) as [[[c1 c2]|e] w']; [|discriminate].
  exfalso. exact (P _ eq_refl).
Qed.

Theorem C84_training_keyerror_refuted : forall w t tr m k,
  reached None w -> trainer_at w t tr m -> k_kind m <> KConv ->
  has_data k tr -> k = KArray \/ k = KCsr -> rt_fb tr = FFocused ->
  fst (step (ATrain t) w) = Raise KeyError.
Proof. exact pure_trains. Qed.

Theorem C84_predicting_refuted : forall w x exclude, reached None w -> x <> XOther ->
  inference_cls (w_reg w) x exclude = Raise KeyError.
Proof.
  intros w x ex R Hx. unfold inference_cls, item. rewrite (pw_reg _ (pure_reached _ R)).
  destruct x, ex; try reflexivity; now elim Hx.
Qed.

(** What works: machines and trainers can be created and data is checked as
    documented. *)
Theorem C84_setup_partial : forall w, reached None w ->
  (forall n l b mu, fst (step (ANewDense n l b mu) w) = Ok ODone)
  /\ (forall n l b d mu, fst (step (ANewSparse n l b d mu) w) = Ok ODone)
  /\ (forall i m fb, nth_error (w_machs w) i = Some m -> fst (step (ATrainer i fb) w) = Ok ODone)
  /\ (forall i m other x y, nth_error (w_machs w) i = Some m ->
        data_call m other x y w =
        check_data (k_nlit m) (match k_kind m with KSparse => true | _ => false end) (option_map d_x other) x y).
Proof.
  intros w R. pose proof (pw_reg _ (pure_reached _ R)) as E. repeat split.
  - intros. cbn [step]. unfold new_dense, item. rewrite E. reflexivity.
  - intros. cbn [step]. unfold new_sparse, item. rewrite E. reflexivity.
  - intros i m fb Em. cbn [step]. rewrite Em. unfold new_trainer, item. rewrite E. reflexivity.
  - intros i m other x y Em. now apply (pure_data w m i).
Qed.

Example C84_case :
  fst (steps ([ANewDense 3 true false false; ATrainer 0 FFocused] ++ feed 0 ex_arr ++ [ATrain 0])
             (start pure_impl))
  = [Ok ODone; Ok ODone; Ok ODone; Ok ODone; Raise KeyError].
Proof. vm_compute. reflexivity. Qed.

Print Assumptions C84_training_refuted.
Print Assumptions C84_training_keyerror_refuted.
Print Assumptions C84_predicting_refuted.
Print Assumptions C84_setup_partial.

(** ** C85: sparse machines next to other machines *)

(** Two sparse machines with equal flags, both prepared, the first trained: the
    second can no longer be trained, unless the flags are those of the default
    class (a budget, dynamic active literals, no boost).  Note that the default
    arguments have no budget. *)
Definition pair (l bo d : bool) : list action :=
  [ANewSparse 3 l bo d false; ANewSparse 3 l bo d false; ATrainer 0 FFocused; ATrainer 1 FFocused]
  ++ feed 0 ex_csr ++ feed 1 ex_csr.

Theorem C85_two_machines_refuted : forall b p l bo d, (l, bo, d) <> (true, false, true) ->
  let done := repeat (Ok ODone) 8 in
  run_from b p (pair l bo d ++ [ATrain 1]) = done ++ [Ok (OTrain (CSparse l d bo) CSparseIn)]
  /\ run_from b p (pair l bo d ++ [ATrain 0; ATrain 1])
     = done ++ [Ok (OTrain (CSparse l d bo) CSparseIn); Raise TypeError].
Proof.
  intros b p l bo d H. cbv zeta. unfold run_from.
  destruct (import_native b p) as (r0 & E0 & _). clear E0 r0.
  unfold import_backend. destruct (has_avx2 b p) eqn:E.
  - assert (Eb : b_avx2 b = true) by (unfold has_avx2 in E; destruct (b_avx2 b); congruence).
    clear E. unfold has_neon. destruct b as [av ne ar]; cbn [b_avx2 b_neon b_arm] in *; subst av.
    destruct l, bo, d; try (now elim H); destruct ne, ar; split; vm_compute; reflexivity.
  - clear E. unfold has_neon. destruct b as [av ne ar]; cbn [b_neon b_arm].
    destruct l, bo, d; try (now elim H); destruct av, ne, ar; split; vm_compute; reflexivity.
Qed.

(** True: a sparse machine works from its creation on, in every program, as long
    as no other sparse machine is trained in between. *)
Theorem C85_sequential_partial : forall b p r p1 n l bo d mu p2 os w t tr m,
  import_backend (Some (b, p)) = Ok r ->
  steps (p1 ++ ANewSparse n l bo d mu :: p2) (start r) = (os, w) ->
  quiet w p2 (length (w_machs (snd (steps p1 (start r))))) ->
  trainer_at w t tr m -> rt_m tr = length (w_machs (snd (steps p1 (start r)))) ->
  sparse_works w t tr m.
Proof. exact sparse_sequential. Qed.

(** True: in programs whose sparse machines all have a budget, dynamic active
    literals and no boost, every sparse machine works at every time. *)
Theorem C85_default_flags_partial : forall b p r pr os w t tr m,
  import_backend (Some (b, p)) = Ok r -> steps pr (start r) = (os, w) ->
  (forall n l bo d mu, In (ANewSparse n l bo d mu) pr -> l = true /\ d = true /\ bo = false) ->
  trainer_at w t tr m -> k_kind m = KSparse -> sparse_works w t tr m.
Proof.
  intros b p r pr os w t tr m Er Es F. apply (sparse_default b p r pr os w t tr m Er Es).
  apply Forall_forall. intros a Ha. unfold default_flags. destruct a; try exact I.
  exact (F _ _ _ _ _ Ha).
Qed.

(** A first machine is trained, then a second one is created, trained twice, with
    a dense machine trained in between. *)
Definition seq_prog : list action :=
  [ANewSparse 3 false true true false; ATrainer 0 FFocused] ++ feed 0 ex_csr ++ [ATrain 0].
Definition seq_rest : list action :=
  [ATrainer 1 FFocused] ++ feed 1 ex_csr ++ [ATrain 1; ANewDense 3 true true false; ATrainer 2 FUniform]
  ++ feed 2 ex_csr ++ [ATrain 2; ATrain 1].
Example C85_case :
  run_from ex_avx2 ex_intel (seq_prog ++ ANewSparse 3 true false false false :: seq_rest)
  = repeat (Ok ODone) 4 ++ [Ok (OTrain (CSparse false true true) CSparseIn)]
    ++ repeat (Ok ODone) 4 ++ [Ok (OTrain (CSparse true false false) CSparseIn)]
    ++ repeat (Ok ODone) 4 ++ [Ok (OTrain (CDense Avx2 true true) CSparseDenseIn);
                               Ok (OTrain (CSparse true false false) CSparseIn)].
Proof. vm_compute. reflexivity. Qed.

(** The same program meets the hypotheses of C85_sequential_partial. *)
Example C85_quiet_case : exists r os w tr m,
  import_backend (Some (ex_avx2, ex_intel)) = Ok r
  /\ steps (seq_prog ++ ANewSparse 3 true false false false :: seq_rest) (start r) = (os, w)
  /\ length (w_machs (snd (steps seq_prog (start r)))) = 1%nat
  /\ quiet w seq_rest 1 /\ trainer_at w 1 tr m /\ rt_m tr = 1%nat
  /\ has_data KCsr tr /\ feedback_ok m tr /\ k_kind m = KSparse.
Proof.
  eexists; eexists; eexists; eexists; eexists.
  split; [vm_compute; reflexivity|]. split; [vm_compute; reflexivity|]. split; [vm_compute; reflexivity|].
  split.
  { intros t tr m Hin [Et Em] K. cbn [seq_rest feed app In] in Hin.
    repeat (destruct Hin as [Hin|Hin]; [try discriminate Hin; inversion Hin; subst t; clear Hin|]);
      try contradiction; cbn in Et; inversion Et; subst tr; clear Et; cbn in Em |- *;
      inversion Em; subst m; clear Em; cbn in K; first [reflexivity | discriminate K]. }
  split; [split; vm_compute; reflexivity|]. split; [reflexivity|].
  split; [eexists; eexists; repeat split; reflexivity|]. split; [left; reflexivity | reflexivity].
Qed.

Print Assumptions C85_two_machines_refuted.
Print Assumptions C85_sequential_partial.
Print Assumptions C85_default_flags_partial.

(** ** C86: training never starts on blocks that do not belong together *)

(** Dense machines train on arrays and on csr matrices in every program. *)
Theorem C86_dense : forall b p w t tr m k, reached (Some (b, p)) w -> trainer_at w t tr m ->
  k_kind m = KDense -> has_data k tr -> k = KArray \/ k = KCsr -> feedback_ok m tr ->
  fst (step (ATrain t) w) =
  Ok (OTrain (CDense (core_isa b p) (k_budget m) (k_boost m))
             (match k with KCsr => CSparseDenseIn | _ => CDenseIn end)).
Proof. exact dense_works. Qed.

(** Their data is accepted whatever other machines did before. *)
Theorem C86_dense_data : forall b p w m i other x y, reached (Some (b, p)) w ->
  nth_error (w_machs w) i = Some m -> k_kind m = KDense \/ x_kind x = KCsr ->
  data_call m other (Some x) y w = check_data (k_nlit m) false (option_map d_x other) (Some x) y.
Proof. intros b p w m i other x y R Em H. eapply data_native; eauto. Qed.

(** Whatever the program did: if training starts, the clause blocks have the
    machine's own kind and flags, and the input block decodes the data that was
    set into the form these blocks read. *)
Theorem C86_started : forall b p w t tr m cb ib, reached (Some (b, p)) w -> trainer_at w t tr m ->
  fst (step (ATrain t) w) = Ok (OTrain cb ib) ->
  (k_kind m = KDense -> cb = CDense (core_isa b p) (k_budget m) (k_boost m)
     /\ ((has_data KArray tr /\ ib = CDenseIn) \/ (has_data KCsr tr /\ ib = CSparseDenseIn)))
  /\ (k_kind m = KSparse -> cb = CSparse (k_budget m) (k_dyn m) (k_boost m)
     /\ has_data KCsr tr /\ ib = CSparseIn)
  /\ k_kind m <> KConv.
Proof.
  intros b p w t tr m cb ib R At H.
  destruct (train_answer b p w t tr m cb ib R At H) as (A & B & C & D).
  unfold class_for in C. split; [|split; [|exact B]]; intros K; rewrite K in C; subst cb.
  - split; [reflexivity|]. destruct D as [D|[D [Ei|Ei]]]; subst; auto. discriminate A.
  - split; [reflexivity|]. destruct D as [[D Ei]|[D [Ei|Ei]]]; subst ib; auto; discriminate A.
Qed.

(** A sparse machine that is fed arrays (accepted while it is not recognised)
    fails with TypeError instead of training on them. *)
Example C86_case :
  run_from ex_avx2 ex_intel
    ([ANewSparse 3 false false true false; ANewSparse 3 false false true false;
      ATrainer 0 FFocused; ATrainer 1 FFocused] ++ feed 0 ex_csr ++ [ATrain 0] ++ feed 1 ex_arr ++ [ATrain 1])
  = repeat (Ok ODone) 6 ++ [Ok (OTrain (CSparse false true false) CSparseIn)]
    ++ [Ok ODone; Ok ODone; Raise TypeError].
Proof. vm_compute. reflexivity. Qed.

Print Assumptions C86_dense.
Print Assumptions C86_dense_data.
Print Assumptions C86_started.

(** ** C87: convolutional machines from Python *)

(** Training a convolutional machine never starts.  Without AVX2 the registry
    holds a tuple instead of the class; with AVX2 the blocks are built but refuse
    to initialise, since nothing sets the number of patches. *)
Theorem C87_trains_refuted : forall core w t tr m cb ib,
  reached core w -> trainer_at w t tr m -> k_kind m = KConv ->
  fst (step (ATrain t) w) <> Ok (OTrain cb ib).
Proof.
  intros [[b p]|] w t tr m cb ib R At K H.
  - destruct (train_answer b p w t tr m cb ib R At H) as (_ & B & _). exact (B K).
  - exact (C84_training_refuted w t cb ib R H).
Qed.

Theorem C87_error_refuted : forall b p w t tr m,
  reached (Some (b, p)) w -> trainer_at w t tr m -> k_kind m = KConv ->
  has_data KArray tr -> feedback_ok m tr ->
  fst (step (ATrain t) w) = Raise (if has_avx2 b p then RuntimeError else TypeError).
Proof.
  intros b p w t tr m R At K D Fb.
  destruct (train_native b p w t tr m KArray R At D (or_introl eq_refl) Fb) as (ib & Es & E).
  pose proof (reached_inv _ _ _ R) as I. destruct At as [Et Em].
  destruct (select_native _ _ w m tr KArray I (nth_Forall _ _ _ _ (wi_t _ _ _ I) Et)
              (nth_Forall _ _ _ _ (wi_m _ _ _ I) Em) D (or_introl eq_refl)) as (ib' & Es' & Ei).
  assert (Eq : ib = CDenseIn) by congruence. rewrite Eq in E.
  rewrite E, K. unfold conv_entry. now destruct (has_avx2 b p).
Qed.

(** What works is building the machine and the trainer.  multi_label=True never makes a multi-label machine; it turns on the boosting
    of true positives. *)
Theorem C87_multi_label_refuted : forall b p w n l mu, reached (Some (b, p)) w ->
  exists w' m, step (ANewConv n l mu) w = (Ok ODone, w')
    /\ nth_error (w_machs w') (length (w_machs w)) = Some m
    /\ k_kind m = KConv /\ k_multi m = false /\ k_boost m = mu.
Proof.
  intros b p w n l mu R. pose proof (reached_inv _ _ _ R) as I.
  destruct (wi_cb _ _ _ I) as (j & l' & t' & C).
  cbn [step]. unfold new_conv, new_dense. rewrite (item_ok _ _ _ C). cbn [add_mach].
  eexists; eexists. split; [reflexivity|]. cbn [w_machs].
  rewrite nth_error_app2 by lia. rewrite Nat.sub_diag. cbn. repeat split.
Qed.

Example C87_case :
  run_from ex_scalar ex_intel ([ANewConv 3 true true; ATrainer 0 FFocused] ++ feed 0 ex_arr ++ [ATrain 0])
  = repeat (Ok ODone) 4 ++ [Raise TypeError]
  /\ run_from ex_avx2 ex_intel ([ANewConv 3 true true; ATrainer 0 FFocused] ++ feed 0 ex_arr ++ [ATrain 0])
  = repeat (Ok ODone) 4 ++ [Raise RuntimeError].
Proof. vm_compute. split; reflexivity. Qed.

Print Assumptions C87_trains_refuted.
Print Assumptions C87_multi_label_refuted.
Print Assumptions C87_error_refuted.
