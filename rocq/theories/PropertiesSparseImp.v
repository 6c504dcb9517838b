(** C114, C115: index safety of the sparse block and states for other numbers of
    blocks. *)
From Coq Require Import ZArith List Bool QArith Lia ZifyBool.
From Verif Require Import Base Spec ModelDense ModelLayout ModelSparse ModelSparseImp SpecSparse SpecSparseImp ExampleData
  ProofsSparseState ProofsSparseImp ProofsSparseImpFb ProofsSparseSplit PropertiesSparse.
Import ListNotations.
Open Scope Z_scope.

Lemma sx_shape : shape true sx_block.
Proof.
  constructor; try reflexivity; try (cbn; lia).
  - intros i Hi. cbn in Hi. do 6 (destruct i as [|i]; [reflexivity|]). lia.
  - intros i Hi. cbn in Hi. do 2 (destruct i as [|i]; [cbn; lia|]). lia.
  - repeat constructor.
Qed.

(** ** C114: the sparse block never indexes outside its vectors *)

(** One call, on a block of any contents. *)
Theorem C114_train : forall bo lits b, shape bo b -> imp_train_ex bo lits (flat b) = Ret (flat (fst (sp_train_ex bo lits b))).
Proof. intros bo lits b Sh. apply (imp_call_eq bo false false (CTrain lits) b Sh I). Qed.

Theorem C114_eval : forall bo lits b, shape bo b -> imp_eval_ex lits (flat b) = Ret (flat (fst (sp_eval_ex lits b))).
Proof. intros bo lits b Sh. apply (imp_call_eq bo false false (CEval lits) b Sh I). Qed.

Theorem C114_update : forall bo boost dynamic lits pc pp nc np b, shape bo b -> (pc < sp_ncls b)%nat -> (nc < sp_ncls b)%nat ->
  imp_train_update bo boost dynamic lits pc pp nc np (flat b) = Ret (flat (sp_train_update bo boost dynamic lits pc pp nc np b)).
Proof. intros bo boost dynamic lits pc pp nc np b Sh H1 H2. apply (imp_call_eq bo boost dynamic (CUpdate lits pc pp nc np) b Sh (conj H1 H2)). Qed.

(** Any sequence of calls after initialize. *)
Theorem C114_history : forall bo boost dynamic fast_of junk nlit ncl ncls csize alsize thr budget si sm seed b cs,
  sp_initialize bo fast_of junk nlit ncl ncls csize alsize thr budget si sm seed = Some b ->
  (1 <= alsize)%nat -> (bo = true -> length junk = ncl) -> Forall (call_ok ncls) cs ->
  exists b', imp_calls bo boost dynamic cs (flat b) = Ret (flat b') /\ b' = fold_left (sp_call bo boost dynamic) cs b /\ shape bo b' /\ same_dims b' b.
Proof.
  intros bo boost dynamic fast_of junk nlit ncl ncls csize alsize thr budget si sm seed b cs H Ha Hj Hc.
  destruct (sp_initialize_shape _ _ _ _ _ _ _ _ _ _ _ _ _ _ H Ha Hj) as (Sh & N & _). rewrite <- N in Hc.
  destruct (imp_calls_eq bo boost dynamic cs b Sh Hc) as (E & S1 & D1). eauto.
Qed.

(** A state stored in the block: any CSR matrix with its row ends in its arrays
    stays in bounds, and leaves a block safe when it has a row for every vector. *)
Theorem C114_set_state : forall bo c b, shape bo b -> csr_in c ->
  imp_csr_set c (flat b) = Ret (flat (csr_set c b)) /\ (length (snd c) = S (2 * sp_ncl b) -> shape bo (csr_set c b)).
Proof.
  intros bo c b Sh H. split; [apply imp_csr_set_eq; auto|]. intros L.
  destruct c as [[data indices] indptr]. cbn [snd] in L. destruct Sh. constructor; cbn [csr_set sp_with_rows sp_rows sp_states sp_ncl sp_ncls sp_al sp_repl sp_alsize sp_weights sp_outputs sp_counts sp_votes]; auto.
  - rewrite map_length, seq_length. lia.
  - rewrite map_length, seq_length. lia.
  - intros i Hi.
    set (row := fun i => map (fun j => nth j indices O) (seq (nth i indptr O) (nth (S i) indptr O - nth i indptr O))).
    set (st := fun i => map (fun j => nth j data 0) (seq (nth i indptr O) (nth (S i) indptr O - nth i indptr O))).
    rewrite (nth_indep _ [] (st O)), (nth_indep _ [] (row O)) by (rewrite map_length, seq_length; lia).
    rewrite (map_nth st), (map_nth row), !seq_nth by lia. unfold st, row. rewrite !map_length, !seq_length. reflexivity.
Qed.

(** The limits.  A label that is not a class reads past the active literals; without
    room for an active literal the dynamic replacement throws; an active
    literals array with a row too few is read past its end. *)
Theorem C114_class_refuted : exists bo b lits, shape bo b /\
  imp_train_update bo false true lits (sp_ncls b) 1 0 1 (flat b) = Wild.
Proof.
  exists true, sx_block, [1;4;5]%nat. split; [apply sx_shape|vm_compute; reflexivity].
Qed.

Theorem C114_no_active_refuted : exists fast_of b cs,
  sp_initialize true fast_of [0;0;0] 6 3 2 3 0 (-40) 4 (1#4) (3#4) 7 = Some b /\ Forall (call_ok 2) cs /\
  imp_calls true false true cs (flat b) = Throw.
Proof.
  eexists (fun _ => ex_rng), _, [CTrain [1;4;5]%nat; CUpdate [1;4;5]%nat 0 1 1 1]. split; [reflexivity|]. split; [repeat constructor|]. vm_compute. reflexivity.
Qed.

Theorem C114_short_active_refuted : exists b buf, shape true b /\ imp_al_set [1;2]%nat buf (flat b) = Wild /\ length buf = 2%nat.
Proof.
  exists sx_block, [3;4]%nat. split; [apply sx_shape|split; [vm_compute; reflexivity|reflexivity]].
Qed.

(** A block after initialize, three calls, the middle one changing clauses; and
    the block of C32, whose rows hold literals. *)
Definition si_fresh : sblock :=
  match sp_initialize true (fun _ => ex_rng) [0;0;0] 6 3 2 3 3 (-40) 4 (1#4) (3#4) 7 with Some b => b | None => sx_block end.
Definition si_calls : list call := [CTrain [1;4;5]%nat; CUpdate [1;4;5]%nat 0 1 1 1; CTrain [0;2]%nat; CUpdate [0;2]%nat 1 1 0 1; CEval [1;4]%nat].
Example C114_case : shape true sx_block /\ Forall (call_ok 2) si_calls /\
  sp_initialize true (fun _ => ex_rng) [0;0;0] 6 3 2 3 3 (-40) 4 (1#4) (3#4) 7 = Some si_fresh /\
  (exists s, imp_calls true false true si_calls (flat si_fresh) = Ret s /\ i_rows s <> i_rows (flat si_fresh)) /\
  (exists s, imp_calls true false true si_calls (flat sx_block) = Ret s /\ i_rows s <> i_rows (flat sx_block) /\ i_al s <> sp_al sx_block) /\
  csr_in (csr_get sx_block) /\ length (snd (csr_get sx_block)) = 7%nat.
Proof.
  split; [exact sx_shape|]. split; [repeat constructor|]. split; [reflexivity|].
  split; [eexists; split; [vm_compute; reflexivity|discriminate]|].
  split; [eexists; split; [vm_compute; reflexivity|split; discriminate]|].
  apply csr_get_in. apply (sh_row _ _ sx_shape).
Qed.

(** ** C115: a sparse state and a machine with other block sizes *)

Section C115.
Variables (bo : bool) (nlit ncls : nat) (src tgt : list sblock).

(** Two machines of the same size, however their clauses are divided. *)
Definition same_machine : Prop :=
  Forall (shape bo) src /\ Forall (shape bo) tgt /\ Forall (fun b => even_al (sp_al b)) src /\
  Forall (fun b => sp_ncls b = ncls) src /\ Forall (fun b => sp_ncls b = ncls) tgt /\
  Forall (fun b => (0 < sp_ncl b)%nat) src /\ (1 <= ncls)%nat /\ nsum (map sp_ncl src) = nsum (map sp_ncl tgt).

(** The state of the first, stored in the blocks of the second. *)
Definition moved : R (list simp) := imp_save (sp_load_state nlit (nsum (map sp_ncl src)) ncls src) (map flat tgt) 0 0.
(** A block that training and evaluation can be run on. *)
Definition usable (s : simp) : Prop :=
  forall lits, (exists s', imp_train_ex bo lits s = Ret s') /\ (exists s', imp_eval_ex lits s = Ret s').
End C115.

(** The same block sizes: the state moves, the blocks are as safe as before. *)
Theorem C115_same : forall bo nlit ncls src tgt, same_machine bo ncls src tgt -> map sp_ncl src = map sp_ncl tgt ->
  exists out, moved nlit ncls src tgt = Ret (map flat out) /\ Forall2 same_state out src /\ Forall (shape bo) out.
Proof.
  intros bo nlit ncls src tgt (H1 & H2 & H3 & H4 & H5 & H6 & H7 & H8) E.
  destruct (split_same bo nlit ncls src tgt H1 H2 H3 H4 H5 H7 H8 E) as (out & O1 & O2 & O3 & _).
  exists out. split; [exact O1|]. split; [|exact O3].
  destruct (sp_save_after_load nlit ncls src tgt) as (r & R1 & R2); auto.
  - rewrite Forall_forall in *. intros b Hb. pose proof (H1 b Hb) as Sb. split; [exact (sh_rows _ _ Sb)|]. split; [exact (sh_states _ _ Sb)|].
    split; [exact (sh_row _ _ Sb)|]. split; [exact (sh_weights _ _ Sb)|]. split; [exact (sh_al _ _ Sb)|]. rewrite H4; auto.
  - clear - H4 H5 E. revert tgt E H5. induction src as [|a l IH]; intros [|b t] E Nt; try discriminate E; constructor.
    + injection E as E _. pose proof (Forall_inv H4). pose proof (Forall_inv Nt). cbv beta in *. split; congruence.
    + apply IH; [apply (Forall_inv_tail H4)|injection E; auto|apply (Forall_inv_tail Nt)].
  - congruence.
Qed.

(** More blocks than the state has: IndexError. *)
Theorem C115_more_blocks : forall bo nlit ncls src tgt, same_machine bo ncls src tgt -> (length src < length tgt)%nat ->
  moved nlit ncls src tgt = Throw.
Proof.
  intros bo nlit ncls src tgt (H1 & H2 & H3 & H4 & H5 & H6 & H7 & H8) L.
  pose proof (split_runs bo nlit ncls src tgt H1 H2 H3 H4 H5 H7 H8) as S. destruct (Nat.leb_spec (length tgt) (length src)); [lia|exact S].
Qed.

(** Otherwise the transfer ends without complaint, and when the sizes differ one
    of the blocks reads outside its vectors on every example. *)
Theorem C115_silent : forall bo nlit ncls src tgt, same_machine bo ncls src tgt -> (length tgt <= length src)%nat -> map sp_ncl src <> map sp_ncl tgt ->
  exists out, moved nlit ncls src tgt = Ret out /\ exists s, In s out /\ forall lits, imp_train_ex bo lits s = Wild /\ imp_eval_ex lits s = Wild.
Proof.
  intros bo nlit ncls src tgt (H1 & H2 & H3 & H4 & H5 & H6 & H7 & H8) L N.
  pose proof (split_runs bo nlit ncls src tgt H1 H2 H3 H4 H5 H7 H8) as S. destruct (Nat.leb_spec (length tgt) (length src)); [|lia].
  destruct S as [out S]. exists out. split; [exact S|]. apply (split_other bo nlit ncls src tgt H1 H6 H7 H8 out S N).
Qed.

(** Exactly the same block sizes work. *)
Theorem C115_exact : forall bo nlit ncls src tgt, same_machine bo ncls src tgt ->
  (exists out, moved nlit ncls src tgt = Ret out /\ Forall (usable bo) out) <-> map sp_ncl src = map sp_ncl tgt.
Proof.
  intros bo nlit ncls src tgt M. split.
  - intros (out & E & U). destruct (list_eq_dec Nat.eq_dec (map sp_ncl src) (map sp_ncl tgt)) as [Q|N]; [exact Q|exfalso].
    destruct (Nat.le_gt_cases (length tgt) (length src)) as [L|L].
    + destruct (C115_silent bo nlit ncls src tgt M L N) as (o2 & E2 & s & Is & W). rewrite E in E2. injection E2 as <-.
      rewrite Forall_forall in U. destruct (U s Is []) as [[s' T] _]. destruct (W []) as [T2 _]. congruence.
    + rewrite (C115_more_blocks bo nlit ncls src tgt M L) in E. discriminate E.
  - intros Q. destruct (C115_same bo nlit ncls src tgt M Q) as (out & E & _ & Sh). exists (map flat out). split; [exact E|].
    apply Forall_map. rewrite Forall_forall in *. intros b Hb lits. split.
    + rewrite C114_train by (apply Sh; auto). eauto.
    + rewrite (C114_eval bo) by (apply Sh; auto). eauto.
Qed.

(** Four clauses trained in two blocks of two, then used with one block of four
    (n_jobs 2 and 1), and the other way round. *)
Definition mv_block (n : nat) : sblock :=
  mkSB 6 n 2 3 3 (-40) (map (fun k => [k; 4]%nat) (seq 0 (2 * n))) (repeat [5; 3] (2 * n)) [[2;3]; [0;1]]%nat [0;0]%nat (repeat [4;-2] n)
    (repeat 0 n) (repeat 0 n) [0;0] 100 (1#4) (3#4) ex_rng.
Lemma mv_shape : forall n, shape true (mv_block n).
Proof.
  intros n. constructor; cbn [mv_block sp_rows sp_states sp_ncl sp_ncls sp_al sp_repl sp_alsize sp_weights sp_outputs sp_counts sp_votes];
    rewrite ?map_length, ?seq_length, ?repeat_length; auto; try lia.
  - intros i Hi. rewrite (nth_indep (repeat _ _) [] [5;3]) by (rewrite repeat_length; auto). rewrite nth_repeat.
    rewrite (nth_indep _ [] [O;4]%nat) by (rewrite map_length, seq_length; auto). rewrite (map_nth (fun k => [k;4]%nat)). reflexivity.
  - intros [|[|c]] Hc; cbn; lia.
  - apply Forall_forall. intros x Hx. apply repeat_spec in Hx. subst. reflexivity.
Qed.
Example C115_case : same_machine true 2 [mv_block 2; mv_block 2] [mv_block 4] /\ same_machine true 2 [mv_block 4] [mv_block 2; mv_block 2] /\
  same_machine true 2 [mv_block 2; mv_block 2] [mv_block 2; mv_block 2] /\
  moved 6 2 [mv_block 4] [mv_block 2; mv_block 2] = Throw /\
  (exists s, moved 6 2 [mv_block 2; mv_block 2] [mv_block 4] = Ret [s] /\ imp_train_ex true [1;4]%nat s = Wild).
Proof.
  assert (K : forall l l', nsum (map sp_ncl (map mv_block l)) = nsum (map sp_ncl (map mv_block l')) -> Forall (fun n => (0 < n)%nat) l -> same_machine true 2 (map mv_block l) (map mv_block l')).
  { intros l l' E P. unfold same_machine. rewrite !Forall_map.
    split; [apply Forall_forall; intros n _; apply mv_shape|]. split; [apply Forall_forall; intros n _; apply mv_shape|].
    split; [apply Forall_forall; intros n _ r [<-|[<-|[]]]; reflexivity|].
    split; [apply Forall_forall; reflexivity|]. split; [apply Forall_forall; reflexivity|]. split; [exact P|]. split; [lia|exact E]. }
  split; [apply (K [2;2]%nat [4]%nat); [reflexivity|repeat constructor]|]. split; [apply (K [4]%nat [2;2]%nat); [reflexivity|repeat constructor]|].
  split; [apply (K [2;2]%nat [2;2]%nat); [reflexivity|repeat constructor]|].
  split; [vm_compute; reflexivity|]. eexists. split; vm_compute; reflexivity.
Qed.

Print Assumptions C114_train.
Print Assumptions C114_eval.
Print Assumptions C114_update.
Print Assumptions C114_history.
Print Assumptions C114_set_state.
Print Assumptions C114_class_refuted.
Print Assumptions C114_no_active_refuted.
Print Assumptions C114_short_active_refuted.
Print Assumptions C115_same.
Print Assumptions C115_more_blocks.
Print Assumptions C115_silent.
Print Assumptions C115_exact.
