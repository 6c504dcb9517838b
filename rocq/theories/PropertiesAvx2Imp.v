(** C116: the AVX2 block in its memory. *)
From Coq Require Import ZArith List Bool QArith Lia ZifyBool.
From Verif Require Import Base BaseProofs Spec ModelDense ModelLayout ModelAvx2 SpecAvx2 ModelSparse ModelSparseImp ModelAvx2Imp
  SpecAvx2Imp ProofsAvx2Imp ProofsAvx2ImpB ProofsAvx2ImpC ProofsAvx2ImpD ProofsAvx2ImpE ExampleData PropertiesAvx2.
Import ListNotations.
Open Scope Z_scope.

(** ** C116 The AVX2 block stays inside its memory and its vectors are aligned *)

(** initialize returns the block of the functional model, whatever was in the
    memory of the mask and the clauses; literal_counts keeps what was there. *)
Theorem C116_initialize : forall (bo pad : bool) vec_of fast_of jm jc jk nlit ncl ncls budget sv seed, seed <> 0 -> fits pad nlit ncl ncls ->
  exists rest b, avx_initialize vec_of fast_of (if bo then fresh ncl jk else []) nlit ncl ncls budget sv seed = Some b /\
  imp_initialize bo pad vec_of fast_of jm jc jk nlit ncl ncls budget sv seed = Ret (Some (inmem pad rest b)).
Proof.
  intros bo pad vec_of fast_of jm jc jk nlit ncl ncls budget sv seed Hs F.
  destruct (init_eq bo pad vec_of fast_of jm jc jk nlit ncl ncls budget sv seed Hs F) as (rest & b & E1 & E2 & _). eauto.
Qed.

(** The sizes that overflow, exactly. *)
Theorem C116_sizes : forall bo pad vec_of fast_of jm jc jk nlit ncl ncls budget sv seed, seed <> 0 ->
  Z.of_nat nlit <= int_max -> Z.of_nat ncls <= int_max ->
  (imp_initialize bo pad vec_of fast_of jm jc jk nlit ncl ncls budget sv seed = Wild <-> ~ fits pad nlit ncl ncls).
Proof.
  intros bo pad vec_of fast_of jm jc jk nlit ncl ncls budget sv seed Hs Hn Hk. split.
  - intros E F. destruct (init_eq bo pad vec_of fast_of jm jc jk nlit ncl ncls budget sv seed Hs F) as (rest & b & _ & E2 & _). congruence.
  - apply init_overflow; auto.
Qed.

(** From then on every history of calls makes aligned accesses in range only and
    computes what the functional model computes. *)
Theorem C116_history : forall (bo boost pad : bool) vec_of fast_of jm jc jk nlit ncl ncls budget sv seed cs, seed <> 0 -> (0 < nlit)%nat ->
  fits pad nlit ncl ncls -> vrng_ok (vec_of seed) -> Forall (vcall_ok nlit ncl ncls) cs ->
  exists rest b, avx_initialize vec_of fast_of (if bo then fresh ncl jk else []) nlit ncl ncls budget sv seed = Some b /\
  bindR (imp_initialize bo pad vec_of fast_of jm jc jk nlit ncl ncls budget sv seed)
        (fun o => match o with Some s => vi_calls bo boost cs s | None => Wild end) =
  Ret (inmem pad rest (fold_left (v_call bo boost) cs b)).
Proof.
  intros bo boost pad vec_of fast_of jm jc jk nlit ncl ncls budget sv seed cs Hs Hp F Hv Hc.
  destruct (init_eq bo pad vec_of fast_of jm jc jk nlit ncl ncls budget sv seed Hs F) as (rest & b & E1 & E2 & E3 & E4 & E5 & E6).
  exists rest, b. split; [exact E1|]. rewrite E2. cbn [bindR].
  destruct (calls_eq bo boost pad rest cs b) as [C _]; auto. rewrite E3, E4, E5. exact Hc.
Qed.

(** ... and so does one call from any state of these sizes. *)
Theorem C116_call : forall bo boost pad rest b c, vshape bo pad b -> vcall_ok (a_nlit b) (length (a_rows b)) (a_ncls b) c ->
  vi_call bo boost (inmem pad rest b) c = Ret (inmem pad rest (v_call bo boost b c)) /\ vshape bo pad (v_call bo boost b c).
Proof. intros bo boost pad rest b c Sh Hc. destruct (call_eq bo boost pad rest b c Sh Hc) as (E1 & E2 & _). auto. Qed.

(** Reading a state back fills exactly the rows of the block. *)
Theorem C116_read : forall bo pad rest b, vshape bo pad b ->
  (forall d off, window d (2 * a_nlit b) off (length (a_rows b)) ->
    imp_get_state (concat d) off (inmem pad rest b) =
    Ret (concat (firstn off d ++ map (own_row (a_nlit b) (a_lmem b)) (a_rows b) ++ skipn (off + length (a_rows b)) d))) /\
  (forall d off, window d (a_ncls b) off (length (a_rows b)) ->
    imp_get_wts (concat d) off (inmem pad rest b) = Ret (concat (firstn off d ++ a_weights b ++ skipn (off + length (a_rows b)) d))).
Proof.
  intros bo pad rest b Sh. split; intros d off Hd.
  - exact (get_state_eq bo pad rest b Sh d off Hd).
  - exact (get_wts_eq bo pad rest b Sh d off Hd).
Qed.

(** The buffer of the input block has room for the padded literals, and a
    prepared example is in it. *)
Theorem C116_buffer : forall jb n, Z.of_nat ((n / 32 + 1) * 32) <= int_max ->
  exists buf, imp_new_buffer jb n = Ret buf /\ (lmem_of n <= length buf)%nat /\
  forall data index x buf1, Forall (fun r => length r = n) data -> nth_error data index = Some x -> length buf1 = length buf ->
    Z.of_nat (index * n) <= int_max ->
    exists buf2, imp_prepare (concat data) n index buf1 = Ret buf2 /\ buffer_of n x buf2 /\ length buf2 = length buf.
Proof.
  intros jb n H. exists (repeat 0 ((n / 32 + 1) * 32)). rewrite repeat_length. split; [apply new_buffer_eq; exact H|]. split; [apply buffer_room|].
  intros data index x buf1 HF Hx Hl HI. destruct (prepare_eq data n index buf1 x HF Hx Hl HI) as (buf2 & E1 & E2 & E3).
  exists buf2. rewrite E3, Hl. auto.
Qed.

(** The limits.  Without literals the first example loads from before the arrays;
    a label that is not a class leaves the weights; an example far enough in the
    data has an offset that is not an [int]. *)
Theorem C116_no_literals_refuted : forall bo boost pad rest b lits, length (a_mask b) = 32%nat -> a_lmem b = O -> a_rows b <> [] ->
  vi_call bo boost (inmem pad rest b) (VTrain lits) = Wild /\ vi_call bo boost (inmem pad rest b) (VEval lits) = Wild.
Proof.
  intros bo boost pad rest b lits Hm HL HR. assert (E0 : (length (a_rows b) =? 0)%nat = false) by (destruct (a_rows b); [contradiction|reflexivity]).
  cbn [vi_call]. unfold imp_vtrain, imp_vtest, imp_vset, imp_veval. cbn [inmem m_mask m_ncl m_lmem].
  rewrite mask_ld by exact Hm. cbn [bindR]. rewrite E0, HL. auto.
Qed.

Theorem C116_index_refuted : forall data n index buf, int_max < Z.of_nat (index * n) -> imp_prepare data n index buf = Wild.
Proof.
  intros data n index buf H. unfold imp_prepare, int_. unfold int_max in H.
  destruct (Z.leb_spec (Z.of_nat (index * n)) 2147483647); [lia|reflexivity].
Qed.

Definition vi_block : ablock :=
  match avx_initialize (fun _ => vx_vrng) (fun _ => ex_rng) (fresh 3 Z.of_nat) 33 3 2 65535 (4#1) 42 with Some b => b | None => vx_block end.
Definition vi_lits : list Z := map (fun i => Z.of_nat (i mod 2)) (seq 0 64).
Theorem C116_class_refuted : exists bo boost b lits, vshape bo false b /\ (lmem_of (a_nlit b) <= length lits)%nat /\
  vi_call bo boost (inmem false [] b) (VUpdate lits (a_ncls b) 1 0 1) = Wild.
Proof.
  exists true, true, vi_block, vi_lits. split; [|split; [apply Nat.leb_le; vm_compute; reflexivity|vm_compute; reflexivity]].
  assert (F : fits false 33 3 2) by (unfold fits, int_max; vm_compute; repeat split; discriminate).
  destruct (init_eq true false (fun _ => vx_vrng) (fun _ => ex_rng) (fun _ => 0) (fun _ => 0) Z.of_nat 33 3 2 65535 (4#1) 42 ltac:(discriminate) F)
    as (rest & b & E1 & _ & _ & _ & _ & E6).
  assert (E' : b = vi_block).
  { cbv iota in E1. unfold vi_block. rewrite E1. reflexivity. }
  rewrite <- E'. apply E6; [lia|]. intros k. cbn [vx_vrng vr_src]. now rewrite map_length, seq_length.
Qed.

(** 33 literals (two vectors a half), 3 clauses, 2 classes; a history that changes
    clauses and weights. *)
Definition vi_calls0 : list vcall :=
  [VTrain vi_lits; VUpdate vi_lits 0 1 1 1; VWeights [[1;2];[3;4];[5;6];[7;8]] 1; VState (repeat (repeat (-3) 66) 4) 0; VTrain (repeat 1 64); VUpdate (repeat 1 64) 1 1 0 1; VEval vi_lits].
Example C116_case : fits true 33 3 2 /\ vrng_ok vx_vrng /\ Forall (vcall_ok 33 3 2) vi_calls0 /\
  match bindR (imp_initialize true true (fun _ => vx_vrng) (fun _ => ex_rng) (fun _ => 5) (fun _ => 6) (fun _ => 7) 33 3 2 65535 (4#1) 42)
        (fun o => match o with Some s => vi_calls true true vi_calls0 s | None => Wild end) with
  | Ret s => (firstn 3 (m_clauses s), firstn 3 (m_weights s), length (m_weights s), firstn 2 (m_votes s))
  | _ => ([], [], O, [])
  end = ([-2;-2;-2], [2;5;0], 384%nat, [0;0]) /\
  (exists buf, bindR (imp_new_buffer (fun _ => 9) 33) (imp_prepare (concat [repeat 0 33; repeat 1 33]) 33 1) = Ret buf /\ firstn 34 buf = repeat 1 33 ++ [0]) /\
  (forall n, 33554432 <= Z.of_nat n -> ~ fits false 4 n 2).
Proof.
  split; [unfold fits, int_max; vm_compute; repeat split; discriminate|].
  split; [intros k; cbn [vx_vrng vr_src]; now rewrite map_length, seq_length|].
  split.
  { unfold vi_calls0. repeat constructor; cbn [vcall_ok]; try (apply Nat.leb_le; vm_compute; reflexivity); unfold int_max; vm_compute; discriminate. }
  split.
  { vm_compute. reflexivity. }
  split; [eexists; split; vm_compute; reflexivity|].
  intros n Hn (_ & F & _). unfold int_max in F. change (lmem_of 4) with 32%nat in F. lia.
Qed.

Print Assumptions C116_initialize.
Print Assumptions C116_sizes.
Print Assumptions C116_history.
Print Assumptions C116_call.
Print Assumptions C116_read.
Print Assumptions C116_buffer.
Print Assumptions C116_no_literals_refuted.
Print Assumptions C116_index_refuted.
Print Assumptions C116_class_refuted.
