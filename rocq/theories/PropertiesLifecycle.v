(** C107, C108: allocation and release in every clause block. *)
From Coq Require Import ZArith List Bool Lia.
From Verif Require Import ModelLifecycle SpecLifecycle ProofsLifecycle.
Import ListNotations.

(** ** C107 *)

(** No sequence of initialize and cleanup calls releases memory twice, memory
    that is not live, or memory of the other kind. *)
Theorem C107_defined : forall b p live next cs, heap_ok live next ->
  exists st, do_calls b p cs (new_object live next) = Some st.
Proof.
  intros b p live next cs [H1 H2]. destruct (new_object_ok b live next H1 H2) as [A1 A2].
  destruct (calls_ok b p cs _ false A1 (A2 p)) as (st & B & _). exists st. exact B.
Qed.

(** Allocations after any sequence of calls: every allocating initialize adds
    all its arrays, every cleanup that finds something removes one fewer. *)
Theorem C107_balance_partial : forall b p live next cs st, heap_ok live next ->
  do_calls b p cs (new_object live next) = Some st ->
  length (ls_live st) + pred (length (init_allocs b p)) * cleanups false cs =
  length live + length (init_allocs b p) * inits cs.
Proof.
  intros b p live next cs st [H1 H2] H. destruct (new_object_ok b live next H1 H2) as [A1 A2].
  destruct (calls_ok b p cs _ false A1 (A2 p)) as (st' & B1 & _ & _ & B2). assert (st' = st) by congruence. subst st'.
  exact B2.
Qed.

(** Every backend leaks one array per initialize/cleanup. *)
Theorem C107_cycles_refuted : forall b p live next k st, heap_ok live next -> init_allocs b p <> [] ->
  do_calls b p (cycles k) (new_object live next) = Some st -> length (ls_live st) = length live + k.
Proof.
  intros b p live next k st H HA HC. pose proof (C107_balance_partial b p live next (cycles k) st H HC) as B.
  destruct (cycles_counts k) as [C1 C2]. rewrite C1, C2 in B. destruct (init_allocs b p) as [|x l]; [congruence|].
  cbn [length pred] in B. lia.
Qed.

(** It is clause_outputs: the only member still set after a cleanup. *)
Theorem C107_outputs : forall b p live next cs st s, heap_ok live next ->
  do_calls b p (cs ++ [CCleanup]) (new_object live next) = Some st -> s <> SOutputs -> ls_ptr st s = None.
Proof.
  intros b p live next cs st s [H1 H2] H Hs. destruct (new_object_ok b live next H1 H2) as [A1 A2].
  destruct (calls_ok b p (cs ++ [CCleanup]) _ false A1 (A2 p)) as (st' & B1 & _ & B3 & _).
  assert (st' = st) by congruence. subst st'.
  assert (U : forall cs up, up_after up (cs ++ [CCleanup]) = false).
  { clear. induction cs as [|[[]|] cs IH]; intros up; cbn; auto. }
  rewrite U in B3. specialize (B3 s Hs). destruct (ls_ptr st s); auto. destruct B3 as [B3 _]. destruct B3; discriminate.
Qed.

(** initialize without cleanup (an exception inside allocate_clause_blocks, a
    second initialize) leaves all arrays behind. *)
Theorem C107_no_cleanup : forall b p live next cs st, heap_ok live next -> ~ In CCleanup cs ->
  do_calls b p cs (new_object live next) = Some st ->
  length (ls_live st) = length live + length (init_allocs b p) * inits cs.
Proof.
  intros b p live next cs st H HN HC. pose proof (C107_balance_partial b p live next cs st H HC) as B.
  assert (Z0 : forall cs up, ~ In CCleanup cs -> cleanups up cs = 0).
  { clear. induction cs as [|[[]|] cs IH]; intros up HN; cbn in *; auto. tauto. }
  rewrite Z0 in B by auto. lia.
Qed.

(** m_is_init is set exactly by an initialize that returned true and was not
    followed by another call. *)
Theorem C107_is_init : forall b p live next cs c st, heap_ok live next ->
  do_calls b p (cs ++ [c]) (new_object live next) = Some st ->
  ls_init st = match c with CInit false => init_result b p | _ => false end.
Proof.
  intros b p live next cs c st [H1 H2]. remember (new_object live next) as st0 eqn:E. clear E H1 H2.
  revert st0. induction cs as [|c0 cs IH]; intros st0 H.
  - cbn [app do_calls] in H. destruct c as [[]|]; cbn [do_call] in H.
    + inversion H. reflexivity.
    + inversion H. reflexivity.
    + destruct (releases (cleanup_frees b p) st0); [|discriminate]. inversion H. reflexivity.
  - cbn [app do_calls] in H. destruct (do_call b p c0 st0); [|discriminate]. eauto.
Qed.

Example C107_case :
  heap_ok [(0, MNew); (3, MAligned)] 4 /\ init_allocs BConvAvx2 (mkLp true true true) <> [] /\
  (exists st, do_calls BConvAvx2 (mkLp true true true) (cycles 3) (new_object [(0, MNew); (3, MAligned)] 4) = Some st /\
    length (ls_live st) = 5) /\
  (exists st, do_calls BConv (mkLp true false true) [CInit false; CInit true; CInit false; CCleanup; CCleanup]
                (new_object [] 0) = Some st /\ length (ls_live st) = 7 /\ ls_init st = false) /\
  ~ In CCleanup [CInit false; CInit true].
Proof.
  split.
  { split.
    - repeat (constructor; [cbn; intuition discriminate|]). constructor.
    - cbn. intros i k [E|[E|[]]]; inversion E; lia. }
  split; [discriminate|]. split; [eexists; split; vm_compute; reflexivity|].
  split; [eexists; split; [vm_compute; reflexivity|split; vm_compute; reflexivity]|].
  cbn. intuition discriminate.
Qed.

(** ** C108 *)

(** safe_aligned_alloc asks for a multiple of the alignment, at least what was
    wanted and less than one alignment more (a request for nothing gets one). *)
Theorem C108_safe : forall align mem, (0 < align)%Z -> (0 <= mem)%Z ->
  (mem <= safe_size align mem /\ safe_size align mem mod align = 0 /\
   (safe_size align mem < mem + align \/ mem = 0 /\ safe_size align mem = align))%Z.
Proof.
  intros align mem Ha Hm. destruct (safe_size_spec align mem Ha Hm) as [(A1 & A2 & A3 & A4)|(A1 & A2)].
  - auto.
  - rewrite A2. split; [lia|]. split; [apply Z_mod_same_full|]. right. auto.
Qed.

(** The AVX2 block calls aligned_alloc itself.  With padded weights (the
    convolutional block) all sizes are multiples of 32. *)
Theorem C108_padded : forall ncl ncls, (0 <= ncl)%Z -> (0 <= ncls)%Z ->
  Forall (fun n => n mod 32 = 0)%Z (avx2_direct_sizes true ncl ncls 128).
Proof.
  intros ncl ncls H1 H2. unfold avx2_direct_sizes, avx2_wmem.
  repeat constructor.
  - replace ((ncl / 128 + 1) * 128)%Z with ((ncl / 128 + 1) * 4 * 32)%Z by lia. apply Z_mod_mult.
  - replace (ncl * ((ncls / 128 + 1) * 128) * 2)%Z with (ncl * (ncls / 128 + 1) * 8 * 32)%Z by lia. apply Z_mod_mult.
  - replace ((ncls / 128 + 1) * 128 * 2)%Z with ((ncls / 128 + 1) * 8 * 32)%Z by lia. apply Z_mod_mult.
Qed.

(** Without padding (the dense block) exactly when the number of classes is a
    multiple of 16. *)
Theorem C108_unpadded_partial : forall ncl ncls, (0 <= ncl)%Z -> (0 <= ncls)%Z ->
  Forall (fun n => n mod 32 = 0)%Z (avx2_direct_sizes false ncl ncls 128) <-> (ncls mod 16 = 0)%Z.
Proof.
  intros ncl ncls H1 H2. unfold avx2_direct_sizes, avx2_wmem. split.
  - intros F. apply Forall_inv_tail, Forall_inv_tail, Forall_inv_tail, Forall_inv in F.
    replace (ncls * 2)%Z with (2 * ncls)%Z in F by lia. change 32%Z with (2 * 16)%Z in F.
    rewrite Z.mul_mod_distr_l in F by lia. lia.
  - intros M. apply Z_div_exact_full_2 in M; [|lia]. repeat constructor.
    + replace ((ncl / 128 + 1) * 128)%Z with ((ncl / 128 + 1) * 4 * 32)%Z by lia. apply Z_mod_mult.
    + replace (ncl * ncls * 2)%Z with (ncl * (ncls / 16) * 32)%Z by nia. apply Z_mod_mult.
    + replace (ncls * 2)%Z with ((ncls / 16) * 32)%Z by lia. apply Z_mod_mult.
Qed.

Theorem C108_unpadded_refuted : exists n, In n (avx2_direct_sizes false 100 2 128) /\ (n mod 32 <> 0)%Z.
Proof. exists 4%Z. split; [cbn; tauto|]. discriminate. Qed.

Example C108_case : safe_size 32 100 = 128%Z /\ safe_size 32 7 = 32%Z /\ safe_size 32 64 = 64%Z /\
  avx2_direct_sizes true 100 2 128 = [32; 128; 25600; 256]%Z.
Proof. vm_compute. auto. Qed.

Print Assumptions C107_defined.
Print Assumptions C107_balance_partial.
Print Assumptions C107_cycles_refuted.
Print Assumptions C107_outputs.
Print Assumptions C107_no_cleanup.
Print Assumptions C107_is_init.
Print Assumptions C108_safe.
Print Assumptions C108_padded.
Print Assumptions C108_unpadded_partial.
Print Assumptions C108_unpadded_refuted.
