(** What the blocks of a run are given, for every backend: used by
    PropertiesTrainerParams.v. *)
From Coq Require Import ZArith List Bool QArith Lia.
From Verif Require Import Base BaseProofs Spec ModelInference ModelRuleSet ModelDense ModelFeedback ModelExecutor ModelLayout ModelAvx2 ModelSparse
  ModelMachine ModelTrainer ModelTrainerDense ModelTrainerAvx2 ModelTrainerSparse SpecTraining SpecTrainerDense SpecTrainerRun
  ProofsMachine ProofsTrainer ProofsTrainerDense ProofsTrainerPool ProofsTrainerRun.
Import ListNotations.
Open Scope Z_scope.

Definition budget_dealt (m : tm) (i : nat) (budget : Z) : Prop :=
  hd_error (tm_budgets m) = Some None /\ budget = 65535 \/
  hd_error (tm_budgets m) <> Some None /\ cyclic (tm_budgets m) i = Some (Some budget).

Lemma dealt : forall m n_jobs seed d cbs m' l, cfg_ok m -> dense_construct m n_jobs seed d = (Ok cbs, m') -> allocate_clause_blocks cbs seed = Ok l ->
  exists sizes, (forall sz, tm_sizes m = Some sz -> sizes = sz) /\ zsum sizes = tm_ncl m /\ length l = length sizes /\
    tm_threshold m' = tm_threshold m /\ get_backend m' = get_backend m /\ tm_nlit m' = tm_nlit m /\ tm_ncls m' = tm_ncls m /\
    forall i e, nth_error l i = Some e -> snd (fst e) = seed + Z.of_nat i /\
      exists s budget, cyclic (tm_s m) i = Some s /\ budget_dealt m i budget /\
        fst (fst e) = mkCb (get_backend m) (tm_nlit m) (nth i sizes 0) (tm_ncls m) s budget.
Proof.
  intros m n_jobs seed d cbs m' l K0 L3 EA.
  destruct (construct_sizes _ _ _ _ _ _ K0 L3) as [sizes [Z1 [Z2 [Z3 [Z4 [Z5 [Z6 Z7]]]]]]].
  destruct (construct_dims _ _ _ _ _ _ K0 L3) as [_ [_ [D2 [D3 _]]]].
  assert (EA' : allocate_loop seed cbs = Ok l) by (unfold allocate_clause_blocks in EA; destruct cbs; [discriminate|exact EA]).
  exists sizes. split; [exact Z2|]. split; [exact Z3|]. split; [now rewrite <- Z4, <- (allocate_loop_cbs _ _ _ EA'), map_length|].
  split; [exact Z5|]. split; [exact Z6|]. split; [exact D2|]. split; [exact D3|].
  intros i e A1. destruct (allocate_nth _ _ _ EA' i e A1) as [A3 A4]. split; [exact A4|].
  assert (Hi : (i < length sizes)%nat) by (rewrite <- Z4; apply nth_error_Some; rewrite A3; discriminate).
  destruct (Z7 i (fst (fst e)) Hi) as [bud [B1 B2]]. rewrite (nth_error_nth cbs i _ A3) in B2. destruct K0 as [_ Ks Kb _ _].
  exists (nth (i mod length (tm_s m)) (tm_s m) Fnan), bud. split.
  { unfold cyclic. apply nth_error_nth'. apply Nat.mod_upper_bound. destruct (tm_s m); [congruence|discriminate]. }
  split; [|exact B2]. unfold budget_dealt, dealt_budget in *. destruct (tm_budgets m) as [|[z|] bl] eqn:Ebu; [congruence| |left; cbn [hd_error]; split; congruence].
  right. split; [discriminate|]. unfold cyclic.
  set (j := (i mod length (Some z :: bl))%nat) in *.
  assert (Hj : (j < length (Some z :: bl))%nat) by (apply Nat.mod_upper_bound; discriminate). clearbody j.
  rewrite (nth_error_nth' _ None Hj). destruct (nth j (Some z :: bl) None) as [w|]; [|discriminate]. cbn [as_uint32] in B1.
  destruct (_ && _); inversion B1. reflexivity.
Qed.

Lemma backend_budget : forall m, fst (get_backend m) = false <-> hd_error (tm_budgets m) = Some None.
Proof. intros m. unfold get_backend. cbn [fst]. destruct (tm_budgets m) as [|[b|] l']; cbn [hd_error]; split; intros; try discriminate; congruence. Qed.

Lemma avx_alloc_nth : forall G l bs, avx_alloc_all G l = Some bs -> length bs = length l /\ forall i b, nth_error bs i = Some b ->
  exists e, nth_error l i = Some e /\ avx_alloc_block G (fst (fst e)) (snd (fst e)) = Some b.
Proof.
  intros G l. induction l as [|e l IH]; intros bs H; cbn [avx_alloc_all] in H.
  - inversion H; subst. split; [reflexivity|]. intros i b Hb. destruct i; discriminate.
  - destruct (avx_alloc_block G (fst (fst e)) (snd (fst e))) as [b0|] eqn:A; [|discriminate].
    destruct (avx_alloc_all G l) as [bs'|]; [|discriminate]. inversion H; subst bs. destruct (IH bs' eq_refl) as [L IH'].
    split; [cbn [length]; now rewrite L|]. intros i b Hb. destruct i; cbn [nth_error] in *.
    + inversion Hb; subst. eauto.
    + destruct (IH' i b Hb) as [e' Q]. eauto.
Qed.

Lemma sparse_alloc_nth : forall G m l bs, sparse_alloc_all G m l = Some bs -> length bs = length l /\ forall i b, nth_error bs i = Some b ->
  exists e, nth_error l i = Some e /\ sparse_alloc_block G m (fst (fst e)) (snd (fst e)) = Some b.
Proof.
  intros G m l. induction l as [|e l IH]; intros bs H; cbn [sparse_alloc_all] in H.
  - inversion H; subst. split; [reflexivity|]. intros i b Hb. destruct i; discriminate.
  - destruct (sparse_alloc_block G m (fst (fst e)) (snd (fst e))) as [b0|] eqn:A; [|discriminate].
    destruct (sparse_alloc_all G m l) as [bs'|]; [|discriminate]. inversion H; subst bs. destruct (IH bs' eq_refl) as [L IH'].
    split; [cbn [length]; now rewrite L|]. intros i b Hb. destruct i; cbn [nth_error] in *.
    + inversion Hb; subst. eauto.
    + destruct (IH' i b Hb) as [e' Q]. eauto.
Qed.

(** A state written into sparse blocks: rows, automata, active literals and
    weights change, nothing else. *)
Definition sparse_apart (b b0 : sblock) : Prop :=
  b = mkSB (sp_nlit b0) (sp_ncl b0) (sp_ncls b0) (sp_csize b0) (sp_alsize b0) (sp_thr b0) (sp_rows b) (sp_states b) (sp_al b)
       (sp_repl b0) (sp_weights b) (sp_outputs b0) (sp_counts b0) (sp_votes b0) (sp_budget b0) (sp_si b0) (sp_sm b0) (sp_fast b0).
Lemma save_apart : forall s cbs i off r, sp_save_loop s cbs i off = Ok r -> length r = length cbs /\
  forall k b, nth_error r k = Some b -> exists b0, nth_error cbs k = Some b0 /\ sparse_apart b b0.
Proof.
  intros s cbs. induction cbs as [|b0 cbs IH]; intros i off r H; cbn [sp_save_loop] in H.
  - inversion H; subst. split; [reflexivity|]. intros k b Hb. destruct k; discriminate.
  - destruct (nth_error (ss_c s) i) as [[[cd ci] cp]|]; [|discriminate]. destruct (nth_error (ss_al s) i) as [al|]; [|discriminate].
    unfold al_set in H. destruct (forallb _ al); [|discriminate]. destruct (length al =? 0)%nat; [discriminate|].
    destruct (sp_save_loop s cbs (S i) (off + sp_ncl b0)) as [t'|] eqn:E; [|discriminate]. injection H as <-.
    destruct (IH _ _ _ E) as [L IH']. split; [cbn [length]; now rewrite L|]. intros k b Hb. destruct k; cbn [nth_error] in *.
    + exists b0. split; [reflexivity|]. injection Hb as <-. reflexivity.
    + apply IH'. exact Hb.
Qed.

(** The root in the default sizes is the least with enough room. *)
Lemma ceil_sqrt_least : forall n, (n <= ceil_sqrt n * ceil_sqrt n)%nat /\ forall r, (n <= r * r)%nat -> (ceil_sqrt n <= r)%nat.
Proof.
  intros n. pose proof (Nat.sqrt_spec n ltac:(lia)) as [A B]. unfold ceil_sqrt. destruct (Nat.eqb_spec (Nat.sqrt n * Nat.sqrt n) n) as [E|E].
  - split; [lia|]. intros r H. destruct (Nat.le_gt_cases (Nat.sqrt n) r) as [|C]; [auto|]. exfalso.
    assert (r * r < Nat.sqrt n * Nat.sqrt n)%nat by (apply Nat.mul_lt_mono; lia). lia.
  - split; [lia|]. intros r H. destruct (Nat.le_gt_cases (S (Nat.sqrt n)) r) as [|C]; [auto|]. exfalso.
    assert (r * r <= Nat.sqrt n * Nat.sqrt n)%nat by (apply Nat.mul_le_mono; lia). lia.
Qed.
