(** C123: a sparse block initialised again. *)
From Coq Require Import ZArith List Bool QArith Lia.
From Verif Require Import Base ModelDense ModelSparse ModelSparseLife.
Import ListNotations.
Open Scope Z_scope.

Lemma resize_nil : forall A n (d : A), resize n d [] = repeat d n.
Proof. intros A n d. unfold resize. rewrite firstn_nil. cbn [app length]. rewrite Nat.sub_0_r. reflexivity. Qed.
Lemma resize_same : forall A n (d : A) l, length l = n -> resize n d l = l.
Proof. intros A n d l H. unfold resize. rewrite firstn_all2 by lia. replace (n - length l)%nat with O by lia. apply app_nil_r. Qed.
Lemma zeros : forall n, map (fun _ : nat => O) (repeat O n) = repeat O n.
Proof. intros n. induction n; cbn [repeat map]; congruence. Qed.

(** Everything but the active literals is that of a new block, whatever block
    was cleaned up; the active literals are the old ones. *)
Definition with_al (al : list (list nat)) (b : sblock) : sblock :=
  mkSB (sp_nlit b) (sp_ncl b) (sp_ncls b) (sp_csize b) (sp_alsize b) (sp_thr b) (sp_rows b) (sp_states b) al
       (sp_repl b) (sp_weights b) (sp_outputs b) (sp_counts b) (sp_votes b) (sp_budget b) (sp_si b) (sp_sm b) (sp_fast b).

Theorem C123_new : forall bo fo junk nlit ncl ncls csize alsize thr budget si sm seed,
  sv_initialize bo fo junk nlit ncl ncls csize alsize thr budget si sm seed sv_new
  = sp_initialize bo fo junk nlit ncl ncls csize alsize thr budget si sm seed.
Proof.
  intros. unfold sv_initialize, sp_initialize. destruct (seed =? 0); auto. destruct (bo && (budget <? 1)); auto.
  destruct (init_weights ncls ncl (fo seed)) as [ws f]. cbn [sv_new sv_rows sv_states sv_al sv_repl]. rewrite !resize_nil, zeros. reflexivity.
Qed.

Theorem C123_again_partial : forall bo fo junk nlit ncl ncls csize alsize thr budget si sm seed b, length (sp_al b) = ncls ->
  sv_initialize bo fo junk nlit ncl ncls csize alsize thr budget si sm seed (sv_cleanup (sv_of b))
  = option_map (with_al (sp_al b)) (sp_initialize bo fo junk nlit ncl ncls csize alsize thr budget si sm seed).
Proof.
  intros bo fo junk nlit ncl ncls csize alsize thr budget si sm seed b H. unfold sv_initialize, sp_initialize. destruct (seed =? 0); auto.
  destruct (bo && (budget <? 1)); auto. destruct (init_weights ncls ncl (fo seed)) as [ws f].
  cbn [sv_cleanup sv_of sv_rows sv_states sv_al sv_repl option_map]. rewrite !resize_nil, zeros, resize_same by auto. reflexivity.
Qed.

(** It is the new block exactly when the old one had no active literals. *)
Theorem C123_again : forall bo fo junk nlit ncl ncls csize alsize thr budget si sm seed b b0, length (sp_al b) = ncls ->
  sp_initialize bo fo junk nlit ncl ncls csize alsize thr budget si sm seed = Some b0 ->
  (sv_initialize bo fo junk nlit ncl ncls csize alsize thr budget si sm seed (sv_cleanup (sv_of b)) = Some b0 <->
   Forall (fun l => l = []) (sp_al b)).
Proof.
  intros bo fo junk nlit ncl ncls csize alsize thr budget si sm seed b b0 H E. rewrite C123_again_partial, E by auto. cbn [option_map].
  assert (A : sp_al b0 = repeat [] ncls).
  { unfold sp_initialize in E. destruct (seed =? 0); [discriminate|]. destruct (bo && (budget <? 1)); [discriminate|].
    destruct (init_weights ncls ncl (fo seed)) as [ws f]. injection E as <-. reflexivity. }
  assert (R : forall l : list (list nat), length l = ncls -> (l = repeat [] ncls <-> Forall (fun l => l = []) l)).
  { clear. intros l. revert ncls. induction l as [|a l IH]; intros [|n] L; cbn [length repeat] in *; try discriminate.
    - split; auto.
    - specialize (IH n ltac:(lia)). split.
      + intros E. injection E as -> E2. constructor; [reflexivity|]. apply IH; auto.
      + intros F. pose proof (Forall_inv F) as F1. apply Forall_inv_tail in F. cbv beta in F1. subst a. f_equal. apply IH; auto. }
  split.
  - intros X. apply (R (sp_al b) H). rewrite <- A. injection X as X. rewrite <- X. reflexivity.
  - intros X. apply (R (sp_al b) H) in X. rewrite X, <- A. destruct b0. reflexivity.
Qed.

(** Without cleanup the clauses stay as well. *)
Theorem C123_twice : forall bo fo junk nlit ncl ncls csize alsize thr budget si sm seed b b1,
  length (sp_al b) = ncls -> length (sp_rows b) = (2 * ncl)%nat -> length (sp_states b) = (2 * ncl)%nat ->
  sv_initialize bo fo junk nlit ncl ncls csize alsize thr budget si sm seed (sv_of b) = Some b1 ->
  sp_rows b1 = sp_rows b /\ sp_states b1 = sp_states b /\ sp_al b1 = sp_al b /\ sp_repl b1 = map (fun _ => O) (resize ncls O (sp_repl b)).
Proof.
  intros bo fo junk nlit ncl ncls csize alsize thr budget si sm seed b b1 H1 H2 H3 E. unfold sv_initialize in E.
  destruct (seed =? 0); [discriminate|]. destruct (bo && (budget <? 1)); [discriminate|].
  destruct (init_weights ncls ncl (fo seed)) as [ws f]. injection E as <-. cbn. rewrite !resize_same by auto. auto.
Qed.

(** The difference shows at the next example: with the old active literals type
    II feedback puts literals into the empty clause, without them it does not. *)
Definition slRng : rng := mkRng (fun i => Z.of_nat ((2 * i + 1) mod 7)%nat # 7) 0.
Definition slInit := sv_initialize false (fun _ => slRng) [] 4 1 2 4 4 (-20) 0 (1#4) (3#4) 5.
Definition slStep (b : sblock) : sblock := sp_train_update false false true [0]%nat 1 1 0 0 (fst (sp_train_ex false [0]%nat b)).
Definition slOld (b : sblock) : sblock := sp_train_update false false true [0; 1]%nat 0 1 1 1 (fst (sp_train_ex false [0; 1]%nat b)).
Definition slTwo (b : sblock) : sblock := sp_train_update false false true [0; 2]%nat 1 1 0 1 (fst (sp_train_ex false [0; 2]%nat (slOld b))).
Theorem C123_refuted : exists b0 b1, slInit sv_new = Some b0 /\ slInit (sv_cleanup (sv_of (slTwo b0))) = Some b1 /\
  length (sp_al (slTwo b0)) = 2%nat /\ sp_al b1 <> sp_al b0 /\ sp_rows b1 = sp_rows b0 /\ sp_rows (slStep b1) <> sp_rows (slStep b0).
Proof.
  do 2 eexists. split; [vm_compute; reflexivity|]. split; [vm_compute; reflexivity|]. vm_compute. repeat split; auto; discriminate.
Qed.
Example C123_case : exists b0 b1, slInit sv_new = Some b0 /\ slInit (sv_cleanup (sv_of (slTwo b0))) = Some b1 /\
  sp_al (slTwo b0) = [[]; [0; 1]]%nat /\ sp_al b0 = [[]; []] /\ sp_al b1 = [[]; [0; 1]]%nat /\ sp_weights b1 = sp_weights b0 /\
  sp_rows (slStep b0) = [[]; []] /\ sp_rows (slStep b1) = [[1]; [0]]%nat.
Proof. do 2 eexists. split; [vm_compute; reflexivity|]. split; [vm_compute; reflexivity|]. vm_compute. repeat split. Qed.

Print Assumptions C123_new.
Print Assumptions C123_again_partial.
Print Assumptions C123_again.
Print Assumptions C123_twice.
Print Assumptions C123_refuted.
