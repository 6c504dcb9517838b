(** The python sparse state: automata without bound, the literal budget. *)
From Coq Require Import ZArith List Bool QArith Lia Permutation ZifyBool.
From Verif Require Import Base BaseProofs Spec SpecLearning ModelInference ModelDense ModelFeedback ModelExecutor ModelSparse ModelPy ModelPySparse SpecPySparse
  ProofsLearning ProofsSparse ProofsPySparse ProofsPySparseFb ProofsPySparseInv.
Import ListNotations.
Open Scope Z_scope.

(** ** Automata without bound *)

Lemma ps_steps_app : forall a b x, ps_steps (a ++ b) x = rbind (ps_steps a x) (ps_steps b).
Proof.
  induction a as [|[[l p] m] a IH]; intros b x; cbn [app ps_steps rbind]; auto.
  destruct (ps_train_ex l x) as [[y v]|]; cbn [rbind]; auto. destruct (ps_train_update l p 1 m 1 y); cbn [rbind]; auto.
Qed.
Definition zeros : rng := mkRng (fun _ => 0%Q) 0.
Definition tall (p : positive) (k : nat) (o : list Z) : psblock :=
  mkPS 2 2 2 [[0%nat]; [0%nat]; [0%nat]; [0%nat]] [[0]; [0]; [Zpos p]; [Zpos p]] [[]; [0%nat]; []; [0%nat]] [[-2; 0]; [-2; 0]] o [0; 0] None false 3
       (mkRng (fun _ => 0%Q) k).
Definition cycle : list (list nat * nat * nat) := [([], 1, 0); ([], 0, 1)]%nat.
Lemma cycle_step : forall p k o, exists k', ps_steps cycle (tall p k o) = Ok (tall (p + 1 + 1) k' [1; 1]).
Proof. intros p k o. eexists. vm_compute. reflexivity. Qed.
Definition climb : list (list nat * nat * nat) :=
  [([0], 0, 1); ([0], 1, 0); ([], 0, 1); ([], 0, 1); ([], 1, 0); ([], 0, 1); ([], 1, 0); ([], 0, 1); ([], 1, 0)]%nat.
Definition fresh : psblock := ps_initialize (fun _ => zeros) 2 2 2 None true 3 1.
Lemma climb_fresh : exists k, ps_steps climb fresh = Ok (tall 2 k [1; 1]).
Proof. eexists. vm_compute. reflexivity. Qed.
Lemma cycles : forall m, exists p k, ps_steps (climb ++ concat (repeat cycle m)) fresh = Ok (tall p k [1; 1]) /\ Z.of_nat m < Zpos p.
Proof.
  induction m as [|m [p [k [E H]]]].
  - destruct climb_fresh as [k E]. exists 2%positive, k. cbn [repeat concat]. rewrite app_nil_r. split; auto. lia.
  - destruct (cycle_step p k [1; 1]) as [k' E']. exists (p + 1 + 1)%positive, k'. split; [|lia].
    replace (S m) with (m + 1)%nat by lia. rewrite repeat_app, concat_app, app_assoc, ps_steps_app, E. cbn [rbind repeat concat]. rewrite app_nil_r. exact E'.
Qed.

(** ** The literal budget *)

Definition rlift {A B} (f : A -> B) (x : res A) : res B := match x with Ok a => Ok (f a) | Raise e => Raise e end.

Lemma erase_update : forall lits k t c b, ps_update_clause lits k t c (no_budget b) = rlift no_budget (ps_update_clause lits k t c b).
Proof.
  intros lits k t c b. unfold ps_update_clause. cbn [q_weights q_outputs q_al q_ncls q_s q_rng no_budget].
  change (ps_rows (no_budget b) k) with (ps_rows b k).
  destruct (_ >? 0); [destruct (_ =? 1)|destruct (_ && _)]; try reflexivity.
  - destruct (ps_t1a _ _ _ _ _ _) as [[[[q ap] an] r]|]; reflexivity.
  - destruct (ps_t1b _ _ _) as [q r]. reflexivity.
Qed.
Lemma update_bud : forall lits k t c b b', ps_update_clause lits k t c b = Ok b' -> q_counts b' = q_counts b /\ q_budget b' = q_budget b.
Proof.
  intros lits k t c b b'. unfold ps_update_clause.
  destruct (_ >? 0); [destruct (_ =? 1)|destruct (_ && _)].
  - destruct (ps_t1a _ _ _ _ _ _) as [[[[q ap] an] r]|]; cbn [rbind]; intros E; inversion E; auto.
  - destruct (ps_t1b _ _ _) as [q r]. intros E; inversion E; auto.
  - intros E; inversion E; auto.
  - intros E; inversion E; auto.
Qed.
Lemma bud_same : forall b b', q_counts b' = q_counts b -> q_budget b' = q_budget b -> bud_ok b -> bud_ok b'.
Proof. intros b b' E1 E2 [H1 H2]. unfold bud_ok. rewrite E1, E2. auto. Qed.

Lemma train_clause_erase : forall lits pc pp nc np b k, bud_ok b ->
  ps_train_clause lits pc pp nc np (no_budget b) k = rlift no_budget (ps_train_clause lits pc pp nc np b k) /\
  forall b', ps_train_clause lits pc pp nc np b k = Ok b' -> bud_ok b'.
Proof.
  intros lits pc pp nc np b k HB. assert (HB' := HB). destruct HB' as [HC HG]. unfold ps_train_clause.
  assert (O : (if q_do_budget b && (nth k (q_counts b) 0 >? match q_budget b with Some z => z | None => 0 end) then set_nth k 0 (q_outputs b) else q_outputs b) = q_outputs b).
  { rewrite HC. replace (0 >? _) with false; [rewrite andb_false_r; reflexivity|]. destruct (q_budget b); lia. }
  rewrite O. cbn [q_do_budget no_budget q_counts q_budget q_outputs q_rng andb]. rewrite draw_lt_eq.
  set (r1 := advance 1 (q_rng b)).
  change (ps_with_rng (no_budget b) (q_outputs b) r1) with (no_budget (ps_with_rng b (q_outputs b) r1)).
  set (b1 := ps_with_rng b (q_outputs b) r1).
  assert (B1 : bud_ok b1) by exact HB.
  assert (S1 : (if Qlt_bool (draw (q_rng b) 0) pp then ps_update_clause lits k 1 pc (no_budget b1) else Ok (no_budget b1)) =
    rlift no_budget (if Qlt_bool (draw (q_rng b) 0) pp then ps_update_clause lits k 1 pc b1 else Ok b1)).
  { destruct (Qlt_bool _ _); [apply erase_update|reflexivity]. }
  rewrite S1.
  assert (S2 : forall b2, (if Qlt_bool (draw (q_rng b) 0) pp then ps_update_clause lits k 1 pc b1 else Ok b1) = Ok b2 -> bud_ok b2).
  { intros b2. destruct (Qlt_bool _ _); intros E; [|inversion E; subst; auto]. apply update_bud in E. destruct E. eapply bud_same; eauto. }
  destruct (if Qlt_bool (draw (q_rng b) 0) pp then ps_update_clause lits k 1 pc b1 else Ok b1) as [b2|e]; cbn [rlift rbind]; [|split; [auto|discriminate]].
  clear S1. specialize (S2 b2 eq_refl). cbn [no_budget q_rng q_outputs]. rewrite draw_lt_eq. set (r2 := advance 1 (q_rng b2)).
  match goal with |- context [ps_with_rng ?x (q_outputs b2) r2] => change (ps_with_rng x (q_outputs b2) r2) with (no_budget (ps_with_rng b2 (q_outputs b2) r2)) end.
  set (b3 := ps_with_rng b2 (q_outputs b2) r2). assert (B3 : bud_ok b3) by exact S2.
  assert (T1 : (if Qlt_bool (draw (q_rng b2) 0) np then ps_update_clause lits k (-1) nc (no_budget b3) else Ok (no_budget b3)) =
    rlift no_budget (if Qlt_bool (draw (q_rng b2) 0) np then ps_update_clause lits k (-1) nc b3 else Ok b3)).
  { destruct (Qlt_bool (draw (q_rng b2) 0) np); [apply erase_update|reflexivity]. }
  rewrite T1.
  assert (T2 : forall b4, (if Qlt_bool (draw (q_rng b2) 0) np then ps_update_clause lits k (-1) nc b3 else Ok b3) = Ok b4 -> bud_ok b4).
  { intros b4. destruct (Qlt_bool (draw (q_rng b2) 0) np); intros E; [|inversion E; subst; auto]. apply update_bud in E. destruct E. eapply bud_same; eauto. }
  destruct (if Qlt_bool (draw (q_rng b2) 0) np then ps_update_clause lits k (-1) nc b3 else Ok b3) as [b4|e]; cbn [rlift rbind]; [|split; [auto|discriminate]].
  split; [reflexivity|]. intros b' E. inversion E; subst. exact (T2 b4 eq_refl).
Qed.
Lemma rfold_erase : forall A B S T (P : S -> Prop) (g : S -> T) (h : A -> B) (f : S -> A -> res S) (f' : T -> B -> res T) l s, P s ->
  (forall a s, P s -> f' (g s) (h a) = rlift g (f s a) /\ forall s', f s a = Ok s' -> P s') ->
  rfold f' (map h l) (g s) = rlift g (rfold f l s) /\ forall s', rfold f l s = Ok s' -> P s'.
Proof.
  intros A B S T P g h f f' l. induction l as [|a l IH]; intros s Hs H; cbn [rfold map].
  - split; auto. intros s' E. inversion E; subst; auto.
  - destruct (H a s Hs) as [E K]. rewrite E. destruct (f s a) as [s1|]; cbn [rlift rbind]; [|split; [auto|discriminate]]. apply IH; auto.
Qed.
Lemma train_update_erase : forall lits pc pp nc np b, bud_ok b ->
  ps_train_update lits pc pp nc np (no_budget b) = rlift no_budget (ps_train_update lits pc pp nc np b) /\
  forall b', ps_train_update lits pc pp nc np b = Ok b' -> bud_ok b'.
Proof.
  intros lits pc pp nc np b H. unfold ps_train_update. cbn [no_budget q_ncl]. rewrite <- (map_id (seq 0 (q_ncl b))) at 1.
  apply (rfold_erase nat nat psblock psblock bud_ok no_budget (fun k => k)); auto. intros k s Hs. apply train_clause_erase. auto.
Qed.

Definition no_budgets (bs : list (bool * psblock)) : list (bool * psblock) := map (fun tb => (fst tb, no_budget (snd tb))) bs.
Definition buds_ok (bs : list (bool * psblock)) : Prop := Forall (fun tb => bud_ok (snd tb)) bs.
Definition pairlift (s : list (bool * psblock) * fblock) := (no_budgets (fst s), snd s).

Definition ex_erase (f : list nat -> psblock -> res (psblock * list Z)) : Prop := forall e b,
  f e (no_budget b) = rlift (fun p => (no_budget (fst p), snd p)) (f e b) /\
  forall b' v, f e b = Ok (b', v) -> q_counts b' = q_counts b /\ q_budget b' = q_budget b.
Lemma train_ex_erase : ex_erase ps_train_ex.
Proof.
  intros e b. unfold ps_train_ex. change (ps_set_output e (no_budget b)) with (ps_set_output e b).
  destruct (ps_set_output e b); cbn [rbind rlift]; split; auto; intros b' v E; inversion E; auto.
Qed.
Lemma eval_ex_erase : ex_erase ps_eval_ex.
Proof.
  intros e b. unfold ps_eval_ex. change (ps_eval_output e (no_budget b)) with (ps_eval_output e b).
  destruct (ps_eval_output e b); cbn [rbind rlift]; split; auto; intros b' v E; inversion E; auto.
Qed.
Lemma run_erase : forall f, ex_erase f -> forall e bs fb, buds_ok bs ->
  ps_run f e (no_budgets bs) fb = rlift pairlift (ps_run f e bs fb) /\ forall s, ps_run f e bs fb = Ok s -> buds_ok (fst s).
Proof.
  intros f Hf e bs. induction bs as [|[t b] bs IH]; intros fb H; cbn [ps_run no_budgets map fst snd].
  - split; [reflexivity|]. intros s E. inversion E; subst. constructor.
  - inversion H as [|? ? Hb Hbs]; subst. cbn [snd] in Hb. destruct (Hf e b) as [E K]. rewrite E.
    destruct (f e b) as [[b1 v]|]; cbn [rlift rbind fst snd]; [|split; [auto|discriminate]].
    destruct (IH (py_register v fb) Hbs) as [E2 K2]. unfold no_budgets in E2. rewrite E2.
    destruct (ps_run f e bs (py_register v fb)) as [[bs2 fb2]|]; cbn [rlift rbind pairlift fst snd]; [|split; [auto|discriminate]].
    split; [reflexivity|]. intros s E3. inversion E3; subst. cbn [fst]. constructor; [|apply (K2 (bs2, fb2)); auto].
    destruct (K b1 v eq_refl). cbn [snd]. eapply bud_same; eauto.
Qed.
Lemma updates_erase : forall e fb bs, buds_ok bs ->
  ps_updates e fb (no_budgets bs) = rlift no_budgets (ps_updates e fb bs) /\ forall bs', ps_updates e fb bs = Ok bs' -> buds_ok bs'.
Proof.
  intros e fb bs. unfold ps_updates. induction bs as [|[t b] bs IH]; intros H; cbn [rmap no_budgets map fst snd].
  - split; [reflexivity|]. intros s E. inversion E; subst. constructor.
  - inversion H as [|? ? Hb Hbs]; subst. cbn [snd] in Hb. destruct (IH Hbs) as [E2 K2].
    unfold no_budgets in E2. 
    destruct (train_update_erase e (fb_pos fb) (fb_pp fb) (fb_neg fb) (fb_np fb) b Hb) as [E K].
    destruct t.
    + rewrite E. destruct (ps_train_update _ _ _ _ _ b) as [b1|]; cbn [rlift rbind]; [|split; [auto|discriminate]].
      rewrite E2. destruct (rmap _ bs) as [bs1|]; cbn [rlift rbind]; [|split; [auto|discriminate]].
      split; [reflexivity|]. intros s E3. inversion E3; subst. constructor; [apply K; auto|apply K2; auto].
    + cbn [rbind]. rewrite E2. destruct (rmap _ bs) as [bs1|]; cbn [rlift rbind]; [|split; [auto|discriminate]].
      split; [reflexivity|]. intros s E3. inversion E3; subst. constructor; [exact Hb|apply K2; auto].
Qed.
Lemma train_one_erase : forall d s, buds_ok (fst s) ->
  ps_train_one (pairlift s) d = rlift pairlift (ps_train_one s d) /\ forall s', ps_train_one s d = Ok s' -> buds_ok (fst s').
Proof.
  intros d [bs fb] H. unfold ps_train_one. cbn [pairlift fst snd] in *.
  destruct (run_erase ps_train_ex train_ex_erase (fst d) bs (py_reset fb) H) as [E K]. rewrite E.
  destruct (ps_run ps_train_ex (fst d) bs (py_reset fb)) as [[b1 f1]|]; cbn [rlift rbind pairlift fst snd]; [|split; [auto|discriminate]].
  specialize (K _ eq_refl). cbn [fst] in K.
  destruct (py_process (snd d) f1) as [f2|]; cbn [rbind rlift]; [|split; [auto|discriminate]].
  destruct (updates_erase (fst d) f2 b1 K) as [E2 K2]. rewrite E2.
  destruct (ps_updates (fst d) f2 b1) as [b2|]; cbn [rbind rlift]; [|split; [auto|discriminate]].
  split; [reflexivity|]. intros s' E3. inversion E3; subst. apply K2; auto.
Qed.
Definition sx_no_budget (x : psexec) : psexec := mkPsx (no_budgets (sx_blocks x)) (sx_fb x) (sx_rng x).
Lemma epoch_erase : forall data x, buds_ok (sx_blocks x) ->
  ps_train_epoch data (sx_no_budget x) = rlift (fun p => (fst p, sx_no_budget (snd p))) (ps_train_epoch data x) /\
  forall p, ps_train_epoch data x = Ok p -> buds_ok (sx_blocks (snd p)).
Proof.
  intros data x H. unfold ps_train_epoch. cbn [sx_no_budget sx_blocks sx_fb sx_rng]. destruct (shuffle _ _) as [idx r].
  destruct (rfold_erase _ _ _ _ (fun s => buds_ok (fst s)) pairlift (fun d => d) ps_train_one ps_train_one (select (list nat) nat data idx) (sx_blocks x, fb_reset_counter (sx_fb x)) H) as [E K].
  { intros d s Hs. apply train_one_erase. auto. }
  rewrite map_id in E.
  change (pairlift (sx_blocks x, fb_reset_counter (sx_fb x))) with (no_budgets (sx_blocks x), fb_reset_counter (sx_fb x)) in E. rewrite E.
  destruct (rfold ps_train_one (select (list nat) nat data idx) (sx_blocks x, fb_reset_counter (sx_fb x))) as [[bs fb]|]; cbn [rbind rlift pairlift fst snd]; [|split; [auto|discriminate]].
  split; [reflexivity|]. intros p E2. inversion E2; subst. cbn [snd sx_blocks]. apply (K _ eq_refl).
Qed.
Lemma eval_list_erase : forall es bs fb, buds_ok bs ->
  ps_eval_list es (no_budgets bs) fb = rlift (fun p => let '(ys, bs, fb) := p in (ys, no_budgets bs, fb)) (ps_eval_list es bs fb) /\
  forall ys bs' fb', ps_eval_list es bs fb = Ok (ys, bs', fb') -> buds_ok bs'.
Proof.
  induction es as [|e es IH]; intros bs fb H; cbn [ps_eval_list].
  - split; [reflexivity|]. intros ys bs' fb' E. inversion E; subst. auto.
  - destruct (run_erase ps_eval_ex eval_ex_erase e bs (py_reset fb) H) as [E K]. rewrite E.
    destruct (ps_run ps_eval_ex e bs (py_reset fb)) as [[b1 f1]|]; cbn [rlift rbind pairlift fst snd]; [|split; [auto|discriminate]].
    specialize (K _ eq_refl). cbn [fst] in K. destruct (IH b1 f1 K) as [E2 K2]. rewrite E2.
    destruct (ps_eval_list es b1 f1) as [[[ys b2] f2]|]; cbn [rlift rbind]; [|split; [auto|discriminate]].
    split; [reflexivity|]. intros y b' f' E3. inversion E3; subst. eapply K2; eauto.
Qed.
Theorem calls_erase : forall cs x, buds_ok (sx_blocks x) -> ps_calls cs (sx_no_budget x) = rlift sx_no_budget (ps_calls cs x).
Proof.
  induction cs as [|c cs IH]; intros x H; cbn [ps_calls]; auto. destruct c as [d|d out].
  - destruct (epoch_erase d x H) as [E K]. rewrite E. destruct (ps_train_epoch d x) as [[acc x1]|]; cbn [rlift fst snd]; auto. apply IH. apply (K _ eq_refl).
  - unfold ps_eval_predict. cbn [sx_no_budget sx_blocks sx_fb sx_rng]. destruct (negb _).
    + apply (IH x H).
    + destruct (eval_list_erase (map fst d) (sx_blocks x) (sx_fb x) H) as [E K]. rewrite E.
      destruct (ps_eval_list (map fst d) (sx_blocks x) (sx_fb x)) as [[[ys bs] fb]|]; cbn [rlift rbind]; auto.
      apply (IH (mkPsx bs fb (sx_rng x))). eapply K; eauto.
Qed.

(** ** What an update writes *)

Lemma store_only : forall b k q c ap an w r, only_changes k c b (ps_store b k q c ap an w r).
Proof.
  intros. constructor; unfold ps_store; cbn [q_nlit q_ncl q_ncls q_index q_states q_al q_weights q_outputs q_counts q_budget q_do_budget q_s]; auto.
  - intros j N1 N2. rewrite !nth_set_nth_neq by auto. auto.
  - intros j N1 N2. rewrite !nth_set_nth_neq by auto. auto.
  - intros i j N. rewrite nth_set. destruct ((i =? k)%nat && _) eqn:E; auto. assert (i = k) by lia. subst i.
    rewrite nth_set_nth_neq by lia. reflexivity.
Qed.
Lemma store_reads : forall n ncls ncl b k q c ap an w r, ps_shape n ncls ncl b -> (k < ncl)%nat -> (c < ncls)%nat ->
  let b' := ps_store b k q c ap an w r in
  ps_rows b' k = mkR (r_prow q) (r_psts q) (r_nrow q) (r_nsts q) /\ nth c (q_al b') [] = ap /\ nth (c + ncls) (q_al b') [] = an /\
  nth c (nth k (q_weights b') []) 0 = w /\ q_rng b' = r.
Proof.
  intros n ncls ncl b k q c ap an w r H HK HC b'. destruct H as [K1 K2 K3 K4 K5 K6 K7 K8 K9 K10]. unfold b', ps_rows, ps_store.
  cbn [q_ncl q_index q_states q_al q_weights q_rng].
  assert (W : length (nth k (q_weights b) []) = ncls) by (apply (proj1 (Forall_forall _ _) K7); apply nth_In; lia).
  rewrite (nth_set_nth_eq _ k (set_nth c w (nth k (q_weights b) []))) by lia. rewrite (nth_set_nth_eq _ c w) by lia.
  rewrite !nth_set, !set_nth_length, K1, K2, K3, K4, K5, !Nat.eqb_refl.
  replace (k =? k + ncl)%nat with false by lia. replace (c =? c + ncls)%nat with false by lia.
  replace (k <? ncl * 2)%nat with true by lia. replace (k + ncl <? ncl * 2)%nat with true by lia.
  replace (c <? ncls * 2)%nat with true by lia. replace (c + ncls <? ncls * 2)%nat with true by lia.
  cbn [andb]. auto.
Qed.
