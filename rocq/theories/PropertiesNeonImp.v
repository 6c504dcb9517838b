(** C126: the NEON block in its memory. *)
From Coq Require Import ZArith List Bool QArith Lia ZifyBool.
From Verif Require Import Base BaseProofs Spec ModelDense ModelLayout ModelAvx2 ModelNeon SpecAvx2 SpecNeon ModelSparse ModelSparseImp ModelAvx2Imp
  SpecAvx2Imp ModelNeonImp SpecNeonImp ProofsAvx2Imp ProofsAvx2ImpB ProofsAvx2ImpD ProofsAvx2ImpE
  ProofsNeonImp ProofsNeonImpB ProofsNeonImpC ProofsNeonImpD ProofsNeonImpE ExampleData PropertiesNeon.
Import ListNotations.
Open Scope Z_scope.

(** ** C126 The NEON block stays inside its memory *)

(** initialize returns the block of the functional model, whatever was in the
    memory; literal_counts keeps what was there. *)
Theorem C126_initialize : forall (bo : bool) vec_of std_of fast_of jm jc jk jw jv nlit ncl ncls budget sv seed, seed <> 0 -> nfits nlit ncl ncls ->
  exists h b, neon_initialize vec_of std_of fast_of (if bo then fresh ncl jk else []) nlit ncl ncls budget sv seed = Some b /\
  nimp_initialize bo vec_of std_of fast_of jm jc jk jw jv nlit ncl ncls budget sv seed = Ret (Some (in_neon h b)).
Proof.
  intros bo vec_of std_of fast_of jm jc jk jw jv nlit ncl ncls budget sv seed Hs F.
  destruct (ninit_eq bo vec_of std_of fast_of jm jc jk jw jv nlit ncl ncls budget sv seed Hs F) as (h & b & E1 & E2 & _). eauto.
Qed.

(** The sizes that do not work, exactly. *)
Theorem C126_sizes : forall bo vec_of std_of fast_of jm jc jk jw jv nlit ncl ncls budget sv seed, seed <> 0 ->
  Z.of_nat nlit <= int_max -> Z.of_nat ncls <= int_max ->
  (nimp_initialize bo vec_of std_of fast_of jm jc jk jw jv nlit ncl ncls budget sv seed = Wild <-> ~ nfits nlit ncl ncls).
Proof.
  intros bo vec_of std_of fast_of jm jc jk jw jv nlit ncl ncls budget sv seed Hs Hn Hk. split.
  - intros E F. destruct (ninit_eq bo vec_of std_of fast_of jm jc jk jw jv nlit ncl ncls budget sv seed Hs F) as (h & b & _ & E2 & _). congruence.
  - apply ninit_overflow; auto.
Qed.

(** From then on every history of calls makes accesses in range only and computes
    what the functional model computes. *)
Theorem C126_history : forall (bo boost : bool) vec_of std_of fast_of jm jc jk jw jv nlit ncl ncls budget sv seed cs, seed <> 0 -> (0 < nlit)%nat ->
  nfits nlit ncl ncls -> nvrng_ok (vec_of seed) -> Forall (ncall_ok bo nlit ncl ncls) cs ->
  exists h b, neon_initialize vec_of std_of fast_of (if bo then fresh ncl jk else []) nlit ncl ncls budget sv seed = Some b /\
  bindR (nimp_initialize bo vec_of std_of fast_of jm jc jk jw jv nlit ncl ncls budget sv seed)
        (fun o => match o with Some s => ni_calls bo boost cs s | None => Wild end) =
  Ret (in_neon h (fold_left (n_call bo boost) cs b)).
Proof.
  intros bo boost vec_of std_of fast_of jm jc jk jw jv nlit ncl ncls budget sv seed cs Hs Hp F Hv Hc.
  destruct (ninit_eq bo vec_of std_of fast_of jm jc jk jw jv nlit ncl ncls budget sv seed Hs F) as (h & b & E1 & E2 & E3 & E4 & E5 & E6).
  exists h, b. split; [exact E1|]. rewrite E2. cbn [bindR].
  destruct (ncalls_eq bo boost h cs b) as [C _]; auto. rewrite E3, E4, E5. exact Hc.
Qed.

(** ... and so does one call from any state of these sizes. *)
Theorem C126_call : forall bo boost h b c, nshape bo b -> ncall_ok bo (a_nlit b) (length (a_rows b)) (a_ncls b) c ->
  ni_call bo boost (in_neon h b) c = Ret (in_neon h (n_call bo boost b c)) /\ nshape bo (n_call bo boost b c).
Proof. intros bo boost h b c Sh Hc. destruct (ncall_eq bo boost h b c Sh Hc) as (E1 & E2 & _). auto. Qed.

(** Reading a state back fills exactly the rows of the block. *)
Theorem C126_read : forall bo h b, nshape bo b ->
  (forall d off, window d (2 * a_nlit b) off (length (a_rows b)) ->
    imp_get_state (concat d) off (in_neon h b) =
    Ret (concat (firstn off d ++ map (own_row (a_nlit b) (a_lmem b)) (a_rows b) ++ skipn (off + length (a_rows b)) d))) /\
  (forall d off, window d (a_ncls b) off (length (a_rows b)) ->
    imp_get_wts (concat d) off (in_neon h b) = Ret (concat (firstn off d ++ a_weights b ++ skipn (off + length (a_rows b)) d))).
Proof.
  intros bo h b Sh. split; intros d off Hd.
  - exact (nget_state_eq bo h b Sh d off Hd).
  - exact (nget_wts_eq bo h b Sh d off Hd).
Qed.

(** The buffer of the input block has room for the padded literals. *)
Theorem C126_buffer : forall jb n, Z.of_nat ((n / 32 + 1) * 32) <= int_max ->
  exists buf, imp_new_buffer jb n = Ret buf /\ (nlmem_of n <= length buf)%nat.
Proof.
  intros jb n H. exists (repeat 0 ((n / 32 + 1) * 32)). rewrite repeat_length. split; [apply new_buffer_eq; exact H|apply nbuffer_room].
Qed.

(** The limits.  Without the literal budget training writes to literal_counts,
    which is not allocated; *)
Theorem C126_budget_refuted : forall boost h b lits, nshape false b -> a_rows b <> [] -> (nlmem_of (a_nlit b) <= length lits)%nat ->
  ni_call false boost (in_neon h b) (VTrain lits) = Wild.
Proof.
  intros boost h b lits Sh HR HL. assert (E0 : (length (a_rows b) =? 0)%nat = false) by (destruct (a_rows b); [contradiction|reflexivity]).
  pose proof (ns_counts _ _ Sh) as HC. pose proof (ns_outputs _ _ Sh) as HO. pose proof (ns_pos _ _ Sh) as HP. pose proof (ns_lmem _ _ Sh) as HM.
  assert (HQ : (a_lmem b / 16 =? 0)%nat = false).
  { apply Nat.eqb_neq. destruct (nlmem_mod (a_nlit b)) as (q & Eq & Hle & _). rewrite HM, Eq, Nat.div_mul by lia. intros ->. lia. }
  cbn [ni_call]. unfold nimp_train, nimp_set, nlast_chunk. cbn [in_neon m_ncl m_lmem]. rewrite E0, HQ. cbn [bindR].
  destruct (a_rows b) as [|r0 rt]; [contradiction|]. cbn [length] in *. cbn [fold_ix]. unfold nimp_set_clause at 1. cbn [in_neon m_outputs m_counts].
  unfold set_ix at 1. destruct (_ <? _)%nat; cbn [bindR]; [|reflexivity]. unfold set_ix at 1. rewrite HC. reflexivity.
Qed.
(** without literals the first example loads from before the arrays; *)
Theorem C126_no_literals_refuted : forall bo boost h b lits, a_lmem b = O -> a_rows b <> [] ->
  ni_call bo boost (in_neon h b) (VTrain lits) = Wild /\ ni_call bo boost (in_neon h b) (VEval lits) = Wild.
Proof.
  intros bo boost h b lits HL HR. assert (E0 : (length (a_rows b) =? 0)%nat = false) by (destruct (a_rows b); [contradiction|reflexivity]).
  cbn [ni_call]. unfold nimp_train, nimp_test, nimp_set, nimp_eval, nlast_chunk. cbn [in_neon m_ncl m_lmem]. rewrite E0, HL. auto.
Qed.
(** from 2^30 weights on, the array has 32 bytes and initialize writes behind it. *)
Theorem C126_weights_refuted : forall bo vec_of std_of fast_of jm jc jk jw jv nlit ncl ncls budget sv seed, seed <> 0 ->
  Z.of_nat nlit <= int_max -> Z.of_nat ncls <= int_max -> 2 ^ 30 <= Z.of_nat (ncl * ncls) <= int_max ->
  nsafe_mem (wrap32 (2 * Z.of_nat (ncl * ncls))) = Ret 32%nat /\
  nimp_initialize bo vec_of std_of fast_of jm jc jk jw jv nlit ncl ncls budget sv seed = Wild.
Proof.
  intros bo vec_of std_of fast_of jm jc jk jw jv nlit ncl ncls budget sv seed Hs Hn Hk HW. change (2 ^ 30) with 1073741824 in HW. split.
  - unfold int_max in HW. unfold wrap32, wrap, nsafe_mem. change (2 ^ (32 - 1)) with 2147483648. change (2 ^ 32) with 4294967296.
    set (n := Z.of_nat (ncl * ncls)) in *. clearbody n.
    replace (2 * n + 2147483648) with ((2 * n - 2147483648) + 1 * 4294967296) by lia. rewrite Z.mod_add by lia. rewrite Z.mod_small by lia.
    destruct (Z.ltb_spec (2 * n - 2147483648 - 2147483648) 32); [reflexivity|lia].
  - apply ninit_overflow; auto. intros (_ & _ & _ & F & _). unfold int_max in *. lia.
Qed.

(** 17 literals (two vectors a half), 3 clauses, 2 classes. *)
Definition ni_lits : list Z := map (fun i => Z.of_nat (i mod 2)) (seq 0 32).
(** A label that is not a class: label 2 of two classes is the next clause's
    weight, which is trained; a larger one leaves the array. *)
Definition ni_start : R vimp :=
  bindR (nimp_initialize true (fun _ => nx_vrng) (fun _ => ex_rng) (fun _ => ex_rng) (fun _ => 5) (fun _ => 6) (fun _ => 7) (fun _ => 8) (fun _ => 9) 17 3 2 65535 (4#1) 42)
        (fun o => match o with Some s => ni_calls true true [VState (repeat (repeat (-3) 34) 3) 0; VTrain (repeat 1 32)] s | None => Wild end).
Theorem C126_class_refuted : exists s s2, ni_start = Ret s /\ m_ncls s = 2%nat /\
  ni_call true true s (VUpdate (repeat 1 32) 2 1 2 0) = Ret s2 /\ nth 6 (m_weights s) 0 <> nth 6 (m_weights s2) 0 /\
  ni_call true true s (VUpdate (repeat 1 32) 16 1 0 0) = Wild.
Proof.
  do 2 eexists. split; [vm_compute; reflexivity|]. split; [reflexivity|]. split; [vm_compute; reflexivity|]. split; [vm_compute; discriminate|vm_compute; reflexivity].
Qed.

Definition ni_calls0 : list vcall :=
  [VTrain ni_lits; VUpdate ni_lits 0 1 1 1; VWeights [[1;2];[3;4];[5;6];[7;8]] 1; VState (repeat (repeat (-3) 34) 4) 0; VTrain (repeat 1 32); VUpdate (repeat 1 32) 1 1 0 1; VEval ni_lits].
Example C126_case : nfits 17 3 2 /\ nvrng_ok nx_vrng /\ Forall (ncall_ok true 17 3 2) ni_calls0 /\
  match bindR (nimp_initialize true (fun _ => nx_vrng) (fun _ => ex_rng) (fun _ => ex_rng) (fun _ => 5) (fun _ => 6) (fun _ => 7) (fun _ => 8) (fun _ => 9) 17 3 2 65535 (4#1) 42)
        (fun o => match o with Some s => ni_calls true true ni_calls0 s | None => Wild end) with
  | Ret s => (firstn 3 (m_clauses s), firstn 7 (m_weights s), length (m_weights s), firstn 3 (m_votes s))
  | _ => ([], [], O, [])
  end = ([-2;-2;-2], [2;5;4;7;6;9;8], 16%nat, [0;0;9]) /\
  (exists ncl ncls, Z.of_nat ncl = 32768 /\ Z.of_nat ncls = 32768 /\ 2 ^ 30 <= Z.of_nat (ncl * ncls) <= int_max /\
     Z.of_nat (ncl * nlmem_of 16 * 2) <= int_max).
Proof.
  split; [unfold nfits, int_max; vm_compute; repeat split; discriminate|].
  split; [intros k; cbn [nx_vrng vr_src]; now rewrite map_length, seq_length|].
  split.
  { unfold ni_calls0. repeat constructor; cbn [ncall_ok]; try (apply Nat.leb_le; vm_compute; reflexivity); unfold int_max; vm_compute; discriminate. }
  split.
  { vm_compute. reflexivity. }
  exists (Z.to_nat 32768), (Z.to_nat 32768). change (nlmem_of 16) with 16%nat. unfold int_max. change (2 ^ 30) with 1073741824.
  rewrite !Nat2Z.inj_mul, Z2Nat.id by lia. repeat split; lia.
Qed.

Print Assumptions C126_initialize.
Print Assumptions C126_sizes.
Print Assumptions C126_history.
Print Assumptions C126_call.
Print Assumptions C126_read.
Print Assumptions C126_buffer.
Print Assumptions C126_budget_refuted.
Print Assumptions C126_no_literals_refuted.
Print Assumptions C126_weights_refuted.
Print Assumptions C126_class_refuted.
