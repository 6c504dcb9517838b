(** C138: what a block can learn. *)
From Coq Require Import ZArith List Bool QArith Lia Lqa.
From Verif Require Import Base BaseProofs Spec SpecLearning SpecLearnable ModelDense ModelFeedback ModelDenseExec ProofsFeedback ProofsEval ProofsStep ProofsLearnable ProofsLearnableAll.
Import ListNotations.
Open Scope Z_scope.

(** From any state of the block, some examples and draws give clause [k] exactly
    the conjunction [R], and leave the other clauses, the other weights of the
    clause and the block's parameters as they were.  The weight for class [c] ends
    128 further from zero on the way. *)
Theorem C138_conjunction : forall n ncls bo boost prob, open_probs prob ->
  forall c other, (c < ncls)%nat -> (other < ncls)%nat -> c <> other ->
  forall R, conjunction n R ->
  forall b k, block_ok n ncls b -> (k < length (b_clauses b))%nat -> (0 <= b_s_inv b)%Q -> (0 <= b_s_min1_inv b < 1)%Q ->
  (bo = true -> Z.of_nat (length R) <= b_budget b) ->
  exists b', trains n ncls bo boost prob b b' /\ block_ok n ncls b' /\ length (b_clauses b') = length (b_clauses b) /\ b_budget b' = b_budget b /\
    (forall i, In i (included (row_at b' k)) <-> In i R) /\
    (forall j, j <> k -> row_at b' j = row_at b j) /\
    (forall j d, j <> k \/ d <> c -> weight_at b' j d = weight_at b j d) /\
    (let w := weight_at b k c in let w' := if w >=? 0 then w + 128 else w - 128 in is_int16 w' -> weight_at b' k c = w').
Proof.
  intros n ncls bo boost prob HP c other Hc Ho N R HR b k OK Hk Hsi Hsm HB.
  destruct (learnable n ncls bo boost prob HP c other Hc Ho N unit_draws zeros_unit R HR (guide_unit n boost R) b k OK Hk Hsi Hsm HB) as [b' [T [F [I [W V]]]]].
  exists b'. destruct F as [F1 F2 F3 F4 F5 F6 F7]. do 6 (split; [assumption|]). split.
  - intros j d D. destruct (Nat.eq_dec j k) as [->|J]; [destruct D as [D|D]; [contradiction|auto]|auto].
  - exact V.
Qed.

(** Every clause and every weight at once: any conjunctions within the budget and
    any weights, as long as each clause has one weight of 128 or more, or -129 or
    less, can be reached from every state. *)
Theorem C138_machine : forall n ncls bo boost prob, open_probs prob -> (2 <= ncls)%nat ->
  forall (R : nat -> list nat) (c : nat -> nat) (W : nat -> nat -> Z) b,
  block_ok n ncls b -> (0 <= b_s_inv b)%Q -> (0 <= b_s_min1_inv b < 1)%Q ->
  (forall k, (k < length (b_clauses b))%nat -> conjunction n (R k) /\ (bo = true -> Z.of_nat (length (R k)) <= b_budget b) /\
     (c k < ncls)%nat /\ (128 <= W k (c k) \/ W k (c k) <= -129) /\ forall d, is_int16 (W k d)) ->
  exists b', trains n ncls bo boost prob b b' /\ block_ok n ncls b' /\ length (b_clauses b') = length (b_clauses b) /\
    forall k, (k < length (b_clauses b))%nat ->
      (forall i, In i (included (row_at b' k)) <-> In i (R k)) /\ (forall d, (d < ncls)%nat -> weight_at b' k d = W k d).
Proof.
  intros n ncls bo boost prob HP Hn R c W b OK Hsi Hsm H.
  destruct (Nat.eq_dec (length (b_clauses b)) 0) as [Z0|NZ].
  { exists b. split; [apply trained|]. split; [exact OK|]. split; [reflexivity|]. intros k Hk. lia. }
  destruct (machine_learnable n ncls bo boost prob HP Hn unit_draws zeros_unit (fun _ => true) R c W (length (b_clauses b)) b OK Hsi Hsm) as [b' [T [O1 [L [_ [_ [_ D]]]]]]]; auto.
  - intros E. destruct (H O ltac:(lia)) as [_ [H2 _]]. specialize (H2 E). lia.
  - intros k Hk. apply H. exact Hk.
  - intros k Hk _. destruct (H k Hk) as [H1 [H2 [H3 [H4 _]]]]. split; [exact H1|]. split; [apply guide_unit|auto].
  - exists b'. split; [exact T|]. split; [exact O1|]. split; [exact L|]. intros k Hk. destruct (D k Hk) as [D1 D2]. auto.
Qed.

(** Every classification of the inputs is the prediction of a block that training
    can reach from any state, given a clause for every input. *)
Theorem C138_function : forall n ncls bo boost prob (f : list Z -> nat) b, (0 < n)%nat -> (2 <= ncls)%nat -> open_probs prob ->
  block_ok n ncls b -> (0 <= b_s_inv b)%Q -> (0 <= b_s_min1_inv b < 1)%Q ->
  (2 ^ n <= length (b_clauses b))%nat -> (bo = true -> Z.of_nat n <= b_budget b) ->
  (forall x, length x = n -> binary x -> (f x < ncls)%nat) ->
  exists b', trains n ncls bo boost prob b b' /\
    forall x c, length x = n -> binary x -> (c < ncls)%nat ->
      nth c (snd (dense_eval_ex x b')) 0 = if Nat.eqb c (f x) then 128 else 0.
Proof.
  intros n ncls bo boost prob f b Hn Hc HP OK Hsi Hsm HL HB Hf.
  destruct (function_learnable n ncls bo boost prob f b Hn Hc HP OK Hsi Hsm HL HB Hf) as [b' [T [_ D]]]. exists b'. auto.
Qed.

(** The probabilities of feedback_block.hpp are strictly between 0 and 1 as long as
    the votes are strictly within the threshold, by 2e-16 T for the other class. *)
Theorem C138_window : forall T v, (0 < T)%Q ->
  (- T < inject_Z v)%Q -> (inject_Z v + 2 * T * eps < T)%Q ->
  (0 < pos_prob T v < 1)%Q /\ (0 < neg_prob T v < 1)%Q.
Proof.
  intros T v HT L U. assert (E0 : (0 < eps)%Q) by reflexivity.
  assert (TE : (0 < T * eps)%Q) by (apply Qmult_lt_0_compat; auto).
  assert (C : clampQ (inject_Z v) T = inject_Z v).
  { unfold clampQ. rewrite (qlt_false (inject_Z v) (- T)) by lra. rewrite (qlt_false T (inject_Z v)) by lra. reflexivity. }
  unfold pos_prob, neg_prob. rewrite C. split; split.
  - apply Qlt_shift_div_l; lra.
  - apply Qlt_shift_div_r; lra.
  - assert (0 < (T + inject_Z v) / (2 * T))%Q by (apply Qlt_shift_div_l; lra). lra.
  - assert ((T + inject_Z v) / (2 * T) < 1 - eps)%Q by (apply Qlt_shift_div_r; lra). lra.
Qed.

(** Outside the window a step may have no effect at all: with both probabilities 0
    nothing is learnt, whatever the examples and draws. *)
Theorem C138_closed : forall n ncls bo boost b b', trains n ncls bo boost (fun _ _ _ _ => (0, 0)%Q) b b' ->
  b_clauses b' = b_clauses b /\ b_weights b' = b_weights b.
Proof. exact closed_probs. Qed.

(** Non-vacuous cases: exclusive or on two inputs, from a block that says otherwise. *)
Definition lx_prob : block -> list Z -> nat -> nat -> Q * Q := fun _ _ _ _ => (1#2, 1#2)%Q.
Definition lx_block : block :=
  mkBlock 2 2 [mkClause [1; -1] [-1; -1]; mkClause [5; 7] [9; -1]; mkClause [-1; 127] [-128; 3]; mkClause [-1; -1] [1; -1]]
    [[2; -2]; [-2; 2]; [300; -7]; [0; 0]] [0; 0; 0; 0] [0; 0; 0; 0] [0; 0] 2 (1#3) (2#3) (mkRng (fun _ => 1#2) O) (mkRng (fun _ => 1#2) O).
Definition lx_xor (x : list Z) : nat := if nth 0 x 0 =? nth 1 x 0 then 0%nat else 1%nat.
Example C138_case : open_probs lx_prob /\ block_ok 2 2 lx_block /\ (0 <= b_s_inv lx_block)%Q /\ (0 <= b_s_min1_inv lx_block < 1)%Q /\
  (2 ^ 2 <= length (b_clauses lx_block))%nat /\ Z.of_nat 2 <= b_budget lx_block /\
  (forall x, length x = 2%nat -> binary x -> (lx_xor x < 2)%nat) /\ conjunction 2 [0; 3]%nat.
Proof.
  split; [intros b x pc nc; repeat split; reflexivity|]. split.
  - constructor; [constructor; [reflexivity|repeat constructor|repeat constructor|reflexivity]| |].
    + cbn. repeat (apply Forall_cons || apply Forall_nil || split); vm_compute; discriminate.
    + cbn. repeat (apply Forall_cons || apply Forall_nil); vm_compute; split; discriminate.
  - split; [discriminate|]. split; [split; [discriminate|reflexivity]|]. split; [cbn; lia|]. split; [cbn; lia|]. split.
    + intros x _ _. unfold lx_xor. destruct (_ =? _); lia.
    + constructor.
      * intros i [<-|[<-|[]]]; lia.
      * intros i [[<-|[<-|[]]] [E|[E|[]]]]; discriminate.
      * constructor; [intros [E|[]]; discriminate|constructor; [intros []|constructor]].
Qed.
Example C138_machine_case :
  let R := fun k => nth k [[0; 1]; [2; 3]; [0; 3]; []]%nat [] in
  let W := fun k d => nth d (nth k [[128; 0]; [500; -3]; [7; -129]; [-2; 32767]] []) 0 in
  let c := fun k => nth k [0; 0; 1; 1]%nat O in
  forall k, (k < length (b_clauses lx_block))%nat -> conjunction 2 (R k) /\ (true = true -> Z.of_nat (length (R k)) <= b_budget lx_block) /\
     (c k < 2)%nat /\ (128 <= W k (c k) \/ W k (c k) <= -129) /\ forall d, is_int16 (W k d).
Proof.
  intros R W c k Hk. cbn in Hk.
  assert (WI : forall d, is_int16 (W k d)).
  { intros d. unfold W. destruct k as [|[|[|[|k]]]]; try lia; destruct d as [|[|[|d]]]; cbn; unfold is_int16; lia. }
  assert (CJ : conjunction 2 (R k)).
  { unfold R. destruct k as [|[|[|[|k]]]]; try lia; cbn [nth]; (constructor; [intros i H; cbn [In] in H; lia|intros i H; cbn [In] in H; lia|repeat (constructor; [cbn [In]; lia|]); constructor]). }
  split; [exact CJ|]. split; [|split; [|split; [|exact WI]]]; unfold R, c, W; destruct k as [|[|[|[|k]]]]; cbn; lia.
Qed.
Example C138_window_case : (0 < 10)%Q /\ (- (10) < inject_Z (-9))%Q /\ (inject_Z 9 + 2 * 10 * eps < 10)%Q.
Proof. repeat split; reflexivity. Qed.
Example C138_closed_case : trains 2 2 true true (fun _ _ _ _ => (0, 0)%Q) lx_block
  (dense_step true true [1; 0] 0 0 1 0 (with_gens (mkRng (fun _ => 0%Q) O) (mkRng (fun _ => 0%Q) O) lx_block)).
Proof.
  apply (train_more _ _ _ _ _ _ _ [1; 0] 0%nat 1%nat (mkRng (fun _ => 0%Q) O) (mkRng (fun _ => 0%Q) O));
    [reflexivity|repeat apply Forall_cons; auto|lia|lia|lia|apply zeros_unit|apply zeros_unit|apply trained].
Qed.

Print Assumptions C138_conjunction.
Print Assumptions C138_machine.
Print Assumptions C138_function.
Print Assumptions C138_window.
Print Assumptions C138_closed.
