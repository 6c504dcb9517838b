(** C18, C19, C51-C54: class selection, update probabilities, exact feedback. *)
From Coq Require Import ZArith List Bool QArith Lia Permutation Lqa.
From Verif Require Import Base Spec SpecLearning ModelInference ModelDense ModelFeedback ModelExecutor ModelDenseExec
  ProofsEval ProofsExecutor ProofsDenseExec ProofsLearning ProofsStep ProofsHistory ProofsFeedback ProofsTopLearning ExampleData.
Import ListNotations.
Open Scope Z_scope.

(** A feedback block whose votes are [v], threshold [T], next draw [u]. *)
Definition fb_of (T : Q) (v : list Z) (u : Q) : fblock :=
  mkFb (length v) T v (map (fun _ => 0%Q) v) 0 0 0 0 0 0 (mkRng (fun _ => u) 0).

(** ** C18 *)

(** The probability handed to the clause blocks for the true class. *)
Theorem C18_true_class : forall f label ncls, (0 < fb_thr f)%Q -> fb_ok ncls f -> length (fb_votes f) = ncls -> (label < ncls)%nat ->
  let T := fb_thr f in
  let v := inject_Z (nth label (fb_votes f) 0) in
  let p := fb_pp (fb_process label f) in
  ((0 <= p <= 1) /\ (T <= v -> p == 0) /\ (v <= - T -> p == 1) /\ (- T <= v <= T -> p == (T - v) / (2 * T)))%Q.
Proof.
  intros f label ncls HT Hf HL Hl T v p.
  destruct (process_spec f label ncls HT Hf HL Hl) as [_ [_ [E _]]]. unfold p, T, v in *. rewrite E.
  split; [|split; [|split]].
  - apply pos_prob_unit; auto.
  - apply pos_prob_top; auto.
  - apply pos_prob_bot; auto.
  - apply pos_prob_mid.
Qed.

(** More votes for the true class, less reward; strictly less inside the thresholds. *)
Theorem C18_true_class_decreasing : forall f g label ncls, (0 < fb_thr f)%Q -> fb_thr g = fb_thr f ->
  fb_ok ncls f -> fb_ok ncls g -> length (fb_votes f) = ncls -> length (fb_votes g) = ncls -> (label < ncls)%nat ->
  let v := nth label (fb_votes f) 0 in
  let w := nth label (fb_votes g) 0 in
  (v <= w -> (fb_pp (fb_process label g) <= fb_pp (fb_process label f))%Q) /\
  (v < w -> (- fb_thr f <= inject_Z v)%Q -> (inject_Z w <= fb_thr f)%Q ->
     (fb_pp (fb_process label g) < fb_pp (fb_process label f))%Q).
Proof.
  intros f g label ncls HT ET Hf Hg Lf Lg Hl v w.
  destruct (process_spec f label ncls HT Hf Lf Hl) as [_ [_ [E1 _]]].
  destruct (process_spec g label ncls ltac:(rewrite ET; auto) Hg Lg Hl) as [_ [_ [E2 _]]].
  rewrite E1, E2, ET. fold v w. split.
  - apply pos_prob_mono; auto.
  - intros. apply pos_prob_strict; auto.
Qed.

(** The negative class mirrors the true one: whatever probability a class with
    these votes would get as true class, it gets one minus that plus 1e-16. *)
Theorem C18_negative_mirror : forall f label ncls, (0 < fb_thr f)%Q -> fb_ok ncls f -> length (fb_votes f) = ncls -> (label < ncls)%nat ->
  let f' := fb_process label f in
  fb_neg f' <> label ->
  (fb_np f' == 1 - fb_pp (fb_process (fb_neg f') f) + (1 # 10000000000000000))%Q /\ (0 < fb_np f')%Q.
Proof.
  intros f label ncls HT Hf HL Hl f' Hn.
  destruct (process_spec f label ncls HT Hf HL Hl) as [_ [Hr [_ [En _]]]]. fold f' in Hr, En.
  destruct (process_spec f (fb_neg f') ncls HT Hf HL Hr) as [_ [_ [Ep _]]].
  rewrite (En Hn), Ep. split; [apply neg_prob_mirror|apply neg_prob_pos]; auto.
Qed.

(** In double arithmetic, for every monotone rounding that keeps 0 and 1. *)
Theorem C18_floating_point : forall (rnd : Q -> Q) (T : Q),
  (forall a b, a <= b -> rnd a <= rnd b)%Q -> (rnd 0 == 0)%Q -> (rnd 1 == 1)%Q -> (0 < T)%Q -> (0 < rnd (2 * T))%Q ->
  (forall v, 0 <= pos_prob_fp rnd T v <= 1)%Q /\
  (forall v w, v <= w -> (pos_prob_fp rnd T w <= pos_prob_fp rnd T v)%Q) /\
  (forall v, (T <= inject_Z v)%Q -> (pos_prob_fp rnd T v == 0)%Q) /\
  (forall v, (inject_Z v <= - T)%Q -> (pos_prob_fp rnd T v == 1)%Q) /\
  (forall v, rnd (1 # 10000000000000000) <= neg_prob_fp rnd T v <= rnd (1 + (1 # 10000000000000000)))%Q /\
  (forall v w, v <= w -> (neg_prob_fp rnd T v <= neg_prob_fp rnd T w)%Q).
Proof.
  intros rnd T M R0 R1 HT H2. repeat apply conj; intros.
  - apply pos_prob_fp_unit; auto.
  - apply pos_prob_fp_mono; auto.
  - apply pos_prob_fp_top; auto.
  - apply pos_prob_fp_bot; auto.
  - apply (neg_prob_fp_range rnd M R0 R1 T HT H2).
  - apply neg_prob_fp_mono; auto.
Qed.

Example C18_case : let f := fb_of 10 [4; -3; 12] (1#2) in
  (0 < fb_thr f)%Q /\ fb_ok 3 f /\ length (fb_votes f) = 3%nat /\
  (fb_pp (fb_process 0 f) == 3 # 10)%Q /\ (fb_pp (fb_process 2 f) == 0)%Q /\ fb_neg (fb_process 0 f) = 2%nat /\
  (1 < fb_np (fb_process 0 f))%Q.
Proof. cbv zeta. repeat split; vm_compute; reflexivity. Qed.

(** ** C19 *)

(** Every draw in (0,1], at least two classes: in range, not the label; and the
    counters record whether the argmax equals the label. *)
Theorem C19_negative_class_partial : forall f label ncls, (0 < fb_thr f)%Q -> fb_ok ncls f -> length (fb_votes f) = ncls ->
  (label < ncls)%nat -> (2 <= ncls)%nat -> (0 < draw (fb_rng f) 0 <= 1)%Q ->
  let f' := fb_process label f in
  fb_pos f' = label /\ fb_neg f' <> label /\ (fb_neg f' < ncls)%nat /\
  fb_total f' = fb_total f + 1 /\
  fb_correct f' = fb_correct f + (if Nat.eqb (fb_predict f) label then 1 else 0).
Proof.
  intros f label ncls HT Hf HL Hl H2 Hu f'.
  destruct (process_spec f label ncls HT Hf HL Hl) as [A [B [_ [_ [_ [C [D E]]]]]]]. auto.
Qed.

(** Missing above: the draw 0, for which the label itself is returned. *)
Theorem C19_zero_draw_refuted : exists f, (0 < fb_thr f)%Q /\ fb_ok 3 f /\ length (fb_votes f) = 3%nat /\
  (0 <= draw (fb_rng f) 0 < 1)%Q /\ fb_neg (fb_process 0 f) = 0%nat.
Proof. exists (fb_of 10 [4; -3; 12] 0). repeat split; vm_compute; try reflexivity; discriminate. Qed.

(** Every other class can be drawn: its share of the draws has positive width. *)
Theorem C19_every_class_reachable : forall f label ncls k, (0 < fb_thr f)%Q -> fb_ok ncls f -> length (fb_votes f) = ncls ->
  (label < ncls)%nat -> (k < ncls)%nat -> k <> label ->
  let w := neg_weights (fb_thr f) (fb_votes f) label in
  (qprefix (qsum w) k w < qprefix (qsum w) (S k) w)%Q /\
  ((qprefix (qsum w) k w < draw (fb_rng f) 0 <= qprefix (qsum w) (S k) w)%Q -> fb_neg (fb_process label f) = k).
Proof. exact process_reaches. Qed.

(** The uniform block: whenever its loop stops. *)
Theorem C19_uniform : forall fuel label f f', (0 < fb_ncls f)%nat -> fbu_process fuel label f = Some f' ->
  fb_pos f' = label /\ fb_neg f' <> label /\ (fb_neg f' < fb_ncls f)%nat /\
  fb_pp f' = pos_prob (fb_thr f) (nth label (fb_votes f) 0) /\
  fb_np f' = neg_prob (fb_thr f) (nth (fb_neg f') (fb_votes f) 0) /\
  fb_total f' = fb_total f + 1 /\
  fb_correct f' = fb_correct f + (if Nat.eqb (fb_predict f) label then 1 else 0).
Proof. exact uniform_spec. Qed.

(** It stops at the first draw that differs; with one class it never does. *)
Theorem C19_uniform_stops : forall k n pos r, fst (draw_class n (advance k r)) <> pos ->
  exists c, draw_other (S k) n pos r = Some c.
Proof. exact draw_other_ends. Qed.
Theorem C19_one_class_refuted : forall fuel f, fb_ncls f = 1%nat -> fbu_process fuel 0 f = None.
Proof. intros fuel f H. unfold fbu_process. rewrite H, draw_other_stuck. reflexivity. Qed.

Theorem C19_multi_label : forall fuel labels f f', (0 < fb_ncls f)%nat -> fbm_process fuel labels f = Some f' ->
  exists p0 q0, (p0 < fb_ncls f)%nat /\ (q0 < fb_ncls f)%nat /\ p0 <> q0 /\
  fb_pos f' = (if (nth p0 labels 0 =? 0)%Z then (p0 + fb_ncls f)%nat else p0) /\
  fb_neg f' = (if (nth q0 labels 0 =? 1)%Z then (q0 + fb_ncls f)%nat else q0) /\
  fb_pos f' <> fb_neg f' /\ (fb_pos f' < 2 * fb_ncls f)%nat /\ (fb_neg f' < 2 * fb_ncls f)%nat.
Proof. exact multi_spec. Qed.

Example C19_case : let f := fb_of 10 [4; -3; 12] (1#5) in
  (0 < fb_thr f)%Q /\ fb_ok 3 f /\ (0 < draw (fb_rng f) 0 <= 1)%Q /\ fb_neg (fb_process 0 f) = 1%nat /\
  fb_correct (fb_process 2 f) = 1 /\ fb_correct (fb_process 0 f) = 0 /\
  (exists f', fbu_process 1 0 (fb_of 10 [4; -3; 12] (1#2)) = Some f' /\ fb_neg f' = 1%nat) /\
  (exists f', fbm_process 4 [1;0;1] (mkFb 3 10 [4;-3;12;0;0;0] [] 0 0 0 0 0 0 ex_rng) = Some f').
Proof.
  cbv zeta. split; [vm_compute; reflexivity|]. split; [split; vm_compute; reflexivity|].
  split; [split; vm_compute; try reflexivity; discriminate|]. split; [vm_compute; reflexivity|].
  split; [vm_compute; reflexivity|]. split; [vm_compute; reflexivity|].
  split; eexists; [split|]; vm_compute; reflexivity.
Qed.

(** ** C51: exactly which draw decides which automaton *)

Theorem C51_type1a_exact : forall boost si sm x pos neg r,
  length pos = length x -> length neg = length x -> int8s pos -> int8s neg ->
  let '(ps, qs, r') := type1a boost si sm pos neg x r in
  length ps = length x /\ length qs = length x /\
  (forall i, (i < length x)%nat -> nth i ps 0 = t1a_new_pos boost si sm x r i (nth i pos 0)) /\
  (forall i, (i < length x)%nat -> nth i qs 0 = t1a_new_neg boost si sm x r i (nth i neg 0)) /\
  r' = advance (t1a_first_draw boost x (length x)) r.
Proof. exact type1a_exact. Qed.

Theorem C51_type1b_exact : forall si pos neg r,
  length neg = length pos -> int8s pos -> int8s neg ->
  let '(ps, qs, r') := type1b si pos neg r in
  length ps = length pos /\ length qs = length pos /\
  (forall i, (i < length pos)%nat ->
     nth i ps 0 = (if Qle_bool (draw r (2 * i)) si then step_down (nth i pos 0) else nth i pos 0)) /\
  (forall i, (i < length pos)%nat ->
     nth i qs 0 = (if Qle_bool (draw r (2 * i + 1)) si then step_down (nth i neg 0) else nth i neg 0)) /\
  r' = advance (2 * length pos) r.
Proof. exact type1b_exact. Qed.

Example C51_case : let x := [1;0] in int8s [5;-127] /\ int8s [127;-1] /\
  fst (type1a true (1#2) (1#2) [5;-127] [127;-1] x ex_rng) = ([6;-127],[126;-1]) /\
  snd (type1a true (1#2) (1#2) [5;-127] [127;-1] x ex_rng) = advance 3 ex_rng.
Proof. cbv zeta. repeat split; try (repeat constructor; vm_compute; discriminate); vm_compute; reflexivity. Qed.

(** ** C52: uninitialised memory never influences training *)

Theorem C52_counts_irrelevant : forall bo boost h b1 b2, sim_counts b1 b2 ->
  b_clauses (run_steps bo boost h b1) = b_clauses (run_steps bo boost h b2) /\
  b_weights (run_steps bo boost h b1) = b_weights (run_steps bo boost h b2) /\
  b_rng (run_steps bo boost h b1) = b_rng (run_steps bo boost h b2) /\
  b_fast (run_steps bo boost h b1) = b_fast (run_steps bo boost h b2).
Proof.
  intros bo boost h b1 b2 H. pose proof (run_steps_sim bo boost h b1 b2 H) as S.
  unfold sim_counts in S. inversion S. auto.
Qed.

Theorem C52_initialisation : forall bo boost std_of fast_of junk1 junk2 nlit ncl ncls budget si sm seed b1 b2 h,
  initialize std_of fast_of junk1 nlit ncl ncls budget si sm seed = Some b1 ->
  initialize std_of fast_of junk2 nlit ncl ncls budget si sm seed = Some b2 ->
  b_clauses (run_steps bo boost h b1) = b_clauses (run_steps bo boost h b2) /\
  b_weights (run_steps bo boost h b1) = b_weights (run_steps bo boost h b2).
Proof.
  intros bo boost std_of fast_of junk1 junk2 nlit ncl ncls budget si sm seed b1 b2 h H1 H2.
  assert (S : sim_counts b1 b2).
  { unfold initialize in H1, H2. destruct (seed =? 0); [discriminate|].
    repeat match type of H1 with context [let '(_, _) := ?e in _] => destruct e end.
    inversion H1. inversion H2. subst. reflexivity. }
  destruct (C52_counts_irrelevant bo boost h b1 b2 S) as [A [B _]]. auto.
Qed.

Example C52_case : let b1 := lx_block in
  let b2 := mkBlock 3 2 (b_clauses b1) (b_weights b1) [1;1;1] [77;-5;9] [3;3] 1 (1#4) (3#4) ex_rng ex_rng in
  sim_counts b1 b2 /\ b1 <> b2 /\
  b_clauses (run_steps true false [mkUpd [1;1;0] 0 1 1 1] b1) <> b_clauses b1.
Proof. cbv zeta. split; [reflexivity|]. split; [discriminate|]. vm_compute. discriminate. Qed.

(** ** C53: a program of epochs is one history of steps *)

Theorem C53_one_history : forall ncls bo boost (L : Type) (process : L -> fblock -> fblock) (Lok : L -> Prop) n,
  (forall l f, fb_ok ncls f -> fb_ok ncls (process l f)) ->
  (forall l f, Lok l -> fb_ok ncls f -> (fb_pos (process l f) < ncls)%nat /\ (fb_neg (process l f) < ncls)%nat) ->
  forall cs (x : exec block), exec_inv ncls x ->
  exists h, Permutation (map u_x h) (map fst (call_data L cs)) /\
    (Forall (data_ok L Lok n) (call_data L cs) -> Forall (valid_upd n ncls) h) /\
    Forall2 (evolved bo boost h) (x_blocks x) (x_blocks (snd (xrun bo boost L process cs x))).
Proof. exact xrun_history. Qed.

Example C53_case : exec_inv 2 (ex_exec ex_flats) /\
  Forall (data_ok nat (fun l => (l < 2)%nat) 3) (call_data nat [XTrain nat ex_data; XEval nat [] [0%nat]; XTrain nat ex_data]) /\
  length (call_data nat [XTrain nat ex_data; XEval nat [] [0%nat]; XTrain nat ex_data]) = 8%nat.
Proof.
  split; [repeat constructor|]. split; [|reflexivity]. cbn [call_data app ex_data].
  repeat (apply Forall_cons || apply Forall_nil); unfold data_ok, binary; cbn [fst snd length];
    (split; [reflexivity|split; [repeat (apply Forall_cons || apply Forall_nil); auto|lia]]).
Qed.

(** ** C54: even when the label is drawn as negative class it is harmless *)

Theorem C54_label_as_negative : forall f label ncls, (0 < fb_thr f)%Q -> fb_ok ncls f -> length (fb_votes f) = ncls ->
  (label < ncls)%nat -> fb_neg (fb_process label f) = label -> fb_np (fb_process label f) = 0%Q.
Proof.
  intros f label ncls HT Hf HL Hl E. destruct (process_spec f label ncls HT Hf HL Hl) as [_ [_ [_ [_ [H _]]]]]. auto.
Qed.

Example C54_case : let f := fb_of 10 [4; -3; 12] 0 in
  fb_ok 3 f /\ fb_neg (fb_process 0 f) = 0%nat /\ (fb_pp (fb_process 0 f) == 3 # 10)%Q.
Proof. cbv zeta. repeat split; vm_compute; reflexivity. Qed.

Print Assumptions C18_true_class.
Print Assumptions C18_true_class_decreasing.
Print Assumptions C18_negative_mirror.
Print Assumptions C18_floating_point.
Print Assumptions C19_negative_class_partial.
Print Assumptions C19_zero_draw_refuted.
Print Assumptions C19_every_class_reachable.
Print Assumptions C19_uniform.
Print Assumptions C19_uniform_stops.
Print Assumptions C19_one_class_refuted.
Print Assumptions C19_multi_label.
Print Assumptions C51_type1a_exact.
Print Assumptions C51_type1b_exact.
Print Assumptions C52_counts_irrelevant.
Print Assumptions C52_initialisation.
Print Assumptions C53_one_history.
Print Assumptions C54_label_as_negative.
