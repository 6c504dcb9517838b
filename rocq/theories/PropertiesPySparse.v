(** C96-C100: the sparse state of the python backend. *)
From Coq Require Import ZArith List Bool QArith Lia ZifyBool.
From Verif Require Import Base BaseProofs Spec SpecLearning ModelInference ModelDense ModelFeedback ModelExecutor ModelSparse ModelPy ModelPySparse SpecPySparse
  ProofsLearning ProofsSparse ProofsPySparse ProofsPySparseFb ProofsPySparseInv ProofsPySparseMore.
Import ListNotations.
Open Scope Z_scope.

(** Machines trained from scratch on all-zero draws. *)
Definition ps_start (n ncl : nat) (budget : option Z) : psexec :=
  mkPsx [(true, ps_initialize (fun _ => zeros) n ncl 2 budget true 3 1)] (mkFb 2 10 [0; 0] [] 0 0 0 0 0 0 zeros) (mkIrng (fun k => k) 0).
Definition the_block (x : psexec) : psblock := match sx_blocks x with (_, b) :: _ => b | [] => fresh end.

(** ** C96: outputs *)

(** Training: the conjunction of the included literals, except for clauses without
    positive automata whose list number k + n_classes is empty too; those fire. *)
Theorem C96_training_exact : forall n ncls ncl b lits, ps_shape n ncls ncl b -> (ncls <= ncl)%nat ->
  exists o, ps_set_output lits b = Ok o /\ length o = ncl /\
    forall k, (k < ncl)%nat -> (nth k o 0 = 0 \/ nth k o 0 = 1) /\
      (nth k o 0 = 1 <-> clause_holds b k lits \/ (nth k (q_states b) [] = [] /\ nth (k + ncls) (q_states b) [] = [])).
Proof.
  intros n ncls ncl b lits H HC. exists (map (train_out b lits) (seq 0 ncl)). split; [eapply set_output_ok; eauto|].
  rewrite map_length, seq_length. split; auto. intros k HK.
  assert (E : nth k (map (train_out b lits) (seq 0 ncl)) 0 = train_out b lits k).
  { rewrite (nth_indep _ 0 (train_out b lits O)) by (rewrite map_length, seq_length; auto). rewrite map_nth, seq_nth by auto. reflexivity. }
  rewrite E. unfold train_out. rewrite <- (conj_out_spec n ncls ncl) by auto.
  assert (SK : skipped b k = true <-> nth k (q_states b) [] = [] /\ nth (k + ncls) (q_states b) [] = []).
  { unfold skipped. rewrite (pk_ncls _ _ _ _ H), andb_true_iff, !Nat.eqb_eq, !length_zero_iff_nil. reflexivity. }
  rewrite <- SK. pose proof (conj_out_01 b lits k). destruct (skipped b k); split; auto; try tauto. split; auto. intros [X|X]; auto. discriminate.
Qed.

(** With as many classes as clauses the offset is the right one: the clause fires
    exactly when its included literals hold.  Missing for the full claim: any
    other number of classes. *)
Theorem C96_training_partial : forall n ncl b lits, ps_shape n ncl ncl b ->
  exists o, ps_set_output lits b = Ok o /\ length o = ncl /\ forall k, (k < ncl)%nat -> (nth k o 0 = 1 <-> clause_holds b k lits).
Proof.
  intros n ncl b lits H. destruct (C96_training_exact n ncl ncl b lits H (Nat.le_refl _)) as [o [E [L C]]]. exists o. split; auto. split; auto.
  intros k HK. destruct (C k HK) as [_ C1]. rewrite C1. split; auto. intros [X|[X1 X2]]; auto.
  rewrite <- (pk_ncl _ _ _ _ H) in X2. split; intros l [i [_ Hi]].
  - rewrite X1 in Hi. destruct i; cbn in Hi; lia.
  - rewrite X2 in Hi. destruct i; cbn in Hi; lia.
Qed.

(** Two classes, three clauses, trained on the example {5} from scratch: clause 0
    has included the negation of literal 5 and still fires on {5}. *)
Theorem C96_training_refuted : exists cs x o,
  ps_calls cs (ps_start 6 3 None) = Ok x /\ Forall (fun c => Forall (example_ok 6 2) (ps_data c)) cs /\
  ps_set_output [5%nat] (the_block x) = Ok o /\ nth 0 o 0 = 1 /\ ~ clause_holds (the_block x) 0 [5%nat].
Proof.
  exists [PsTrain [([5%nat], 0%nat); ([5%nat], 1%nat)]; PsTrain [([5%nat], 0%nat); ([5%nat], 1%nat)]].
  eexists. eexists. split; [vm_compute; reflexivity|]. split.
  { assert (D : Forall (example_ok 6 2) [([5%nat], 0%nat); ([5%nat], 1%nat)]).
    { repeat constructor; cbn; lia. }
    constructor; [exact D|]. constructor; [exact D|constructor]. }
  split; [vm_compute; reflexivity|]. split; [reflexivity|].
  intros [_ H]. apply (H 5%nat); [|left; reflexivity]. exists 0%nat. vm_compute. split; reflexivity.
Qed.

(** Evaluation runs over range(n_classes): exact for those clauses, the others
    fire on every example. *)
Theorem C96_evaluation : forall n ncls ncl b lits, ps_shape n ncls ncl b -> (ncls <= ncl)%nat ->
  exists o, ps_eval_output lits b = Ok o /\ length o = ncl /\
    (forall k, (k < ncls)%nat -> (nth k o 0 = 0 \/ nth k o 0 = 1) /\ (nth k o 0 = 1 <-> clause_holds b k lits)) /\
    (forall k, (ncls <= k < ncl)%nat -> nth k o 0 = 1).
Proof.
  intros n ncls ncl b lits H HC. destruct (eval_output_ok n ncls ncl b lits H HC) as [o [E [L C]]]. exists o. split; auto. split; auto. split.
  - intros k HK. rewrite C by lia. replace (k <? ncls)%nat with true by lia. split; [apply conj_out_01|]. apply (conj_out_spec n ncls ncl); auto.
  - intros k HK. rewrite C by lia. replace (k <? ncls)%nat with false by lia. reflexivity.
Qed.
Theorem C96_evaluation_refuted : exists cs x o,
  ps_calls cs (ps_start 6 3 None) = Ok x /\ ps_eval_output [5%nat] (the_block x) = Ok o /\ nth 2 o 0 = 1 /\ ~ clause_holds (the_block x) 2 [5%nat].
Proof.
  exists [PsTrain [([5%nat], 0%nat); ([5%nat], 1%nat)]].
  eexists. eexists. split; [vm_compute; reflexivity|]. split; [vm_compute; reflexivity|]. split; [reflexivity|].
  intros [_ H]. apply (H 5%nat); [|left; reflexivity]. exists 0%nat. vm_compute. split; reflexivity.
Qed.

(** More classes than clauses: evaluation always raises, training raises on the
    first example of a fresh block. *)
Theorem C96_more_classes : forall n ncls ncl b lits, ps_shape n ncls ncl b -> (ncl < ncls)%nat -> ps_eval_ex lits b = Raise IndexError.
Proof.
  intros n ncls ncl b lits H HC. unfold ps_eval_ex. rewrite eval_output_raise; [reflexivity|]. rewrite (pk_ncl _ _ _ _ H), (pk_ncls _ _ _ _ H). auto.
Qed.
Theorem C96_more_classes_training : forall g n ncl ncls budget do_budget s seed lits, (0 < ncl < ncls)%nat ->
  ps_train_ex lits (ps_initialize g n ncl ncls budget do_budget s seed) = Raise IndexError.
Proof.
  intros. destruct (initialize_ok g n ncl ncls budget do_budget s seed) as [P _]. unfold ps_train_ex.
  rewrite (set_output_raise n ncls ncl); auto. unfold ps_initialize. destruct (init_weights _ _ _). cbn [q_states]. apply nth_repeat_nil.
Qed.

Definition demo_block : psblock :=
  mkPS 6 2 2 [[1; 4]%nat; [2%nat]; [3%nat]; [5; 0]%nat] [[2; 0]; [-3]; [1]; [4; -20]] [[4%nat]; [0%nat]; []; [2%nat]] [[2; -1]; [-128; 127]]
       [1; 0] [0; 0] (Some 3) true 3 (mkRng (fun k => (Z.of_nat (k * 7 mod 10)) # 10) 0).
Lemma demo_shape : ps_ok 6 2 2 demo_block.
Proof.
  split; [constructor|]; cbn [demo_block q_ncl q_ncls q_index q_states q_al q_weights q_counts]; auto.
  - repeat constructor; unfold is_int8; lia.
  - intros j. do 4 (destruct j as [|j]; [split; [reflexivity|]; cbn; split; [repeat constructor; cbn; intuition lia|repeat constructor; lia]|]).
    destruct j; cbn; split; auto; split; constructor.
  - intros j. do 4 (destruct j as [|j]; [cbn; split; [repeat constructor; cbn; intuition lia|split; [cbn; lia|repeat constructor; lia]]|]).
    destruct j; cbn; split; try constructor; cbn; try lia; constructor.
  - intros j. cbn [q_states]. do 4 (destruct j as [|j]; [cbn; repeat constructor; lia|]). destruct j; cbn; constructor.
Qed.
Example C96_example :
  ps_set_output [1; 2]%nat demo_block = Ok [1; 1] /\ ps_set_output [1; 3]%nat demo_block = Ok [0; 1] /\ ps_eval_output [2; 5]%nat demo_block = Ok [0; 0] /\
  ps_shape 6 2 2 demo_block.
Proof. repeat split; try (vm_compute; reflexivity); apply demo_shape. Qed.

(** ** C97: invariant *)

(** Over every sequence of epochs and evaluations nothing raises, and the lists
    stay parallel and without duplicates, literals in range, automata at least
    -20, at most seven active literals, weights in int8. *)
Theorem C97_history : forall n ncls sizes cs x, (2 <= ncls)%nat -> Forall (fun ncl => (ncls <= ncl)%nat) sizes ->
  Forall (fun c => Forall (example_ok n ncls) (ps_data c)) cs ->
  Forall2 (fun tb ncl => ps_ok n ncls ncl (snd tb)) (sx_blocks x) sizes ->
  fb_ncls (sx_fb x) = ncls -> (0 < fb_thr (sx_fb x))%Q -> length (fb_votes (sx_fb x)) = ncls ->
  exists x', ps_calls cs x = Ok x' /\ Forall2 (fun tb ncl => ps_ok n ncls ncl (snd tb)) (sx_blocks x') sizes.
Proof.
  intros n ncls sizes cs x H2 HS HD HB F1 F2 F3. destruct (ps_history n ncls sizes cs x H2 HS HD) as [x' [E [K _]]]; [|eauto].
  split; [exact HB|]. split; auto.
Qed.
Theorem C97_initialized : forall g n ncl ncls budget do_budget s seed, ps_ok n ncls ncl (ps_initialize g n ncl ncls budget do_budget s seed).
Proof. exact initialize_ok. Qed.

(** There is no upper bound: the constants 127 of T1aFeedback are not used. *)
Theorem C97_bound_refuted : forall N, exists g ds b, ps_steps ds (ps_initialize g 2 2 2 None true 3 1) = Ok b /\
  Forall (fun d => Forall (fun l => (l < 2)%nat) (fst (fst d)) /\ (snd (fst d) < 2)%nat /\ (snd d < 2)%nat /\ snd (fst d) <> snd d) ds /\
  N < nth 0 (nth 2 (q_states b) []) 0.
Proof.
  intros N. destruct (cycles (Z.to_nat N)) as [p [k [E H]]]. exists (fun _ => zeros), (climb ++ concat (repeat cycle (Z.to_nat N))), (tall p k [1; 1]).
  split; [exact E|]. split; [|cbn [tall q_states nth]; lia].
  apply Forall_app. split.
  - unfold climb. repeat (apply Forall_cons; [cbn; split; [repeat constructor|lia]|]). constructor.
  - generalize (Z.to_nat N). intros m. induction m as [|m IH]; cbn [repeat concat]; [constructor|]. apply Forall_app. split; [|apply IH].
    unfold cycle. repeat (apply Forall_cons; [cbn; split; [repeat constructor|lia]|]). constructor.
Qed.
Example C97_example : exists x', ps_calls [PsTrain [([5%nat], 0%nat); ([5; 1]%nat, 1%nat)]; PsEval [([1%nat], 0%nat)] [0%nat]; PsTrain [([1%nat], 0%nat)]] (ps_start 6 3 None) = Ok x' /\
  q_states (the_block x') <> [[]; []; []; []; []; []] /\ q_al (the_block x') <> [[]; []; []; []].
Proof. eexists. split; [vm_compute; reflexivity|]. split; vm_compute; discriminate. Qed.

(** ** C98: pruning *)

(** Removing by value and by index in one pass over a copy leaves exactly the
    pairs with an automaton of at least -20, in order. *)
Theorem C98_pruning : forall q, length (r_prow q) = length (r_psts q) -> length (r_nrow q) = length (r_nsts q) ->
  let q' := ps_prune_rows q in
  length (r_prow q') = length (r_psts q') /\ length (r_nrow q') = length (r_nsts q') /\
  combine (r_prow q') (r_psts q') = filter (fun p => -20 <=? snd p) (combine (r_prow q) (r_psts q)) /\
  combine (r_nrow q') (r_nsts q') = filter (fun p => -20 <=? snd p) (combine (r_nrow q) (r_nsts q)).
Proof.
  intros q HP HN q'. unfold q', ps_prune_rows. pose proof (prune_spec _ _ HP) as A. pose proof (prune_spec _ _ HN) as B.
  destruct (ps_prune (r_psts q) 0 (r_prow q) (r_psts q)) as [p ps]. destruct (ps_prune (r_nsts q) 0 (r_nrow q) (r_nsts q)) as [m ms].
  cbn [r_prow r_psts r_nrow r_nsts]. destruct A, B. auto.
Qed.
Example C98_example : ps_prune_rows (mkR [7; 3; 9; 1]%nat [-21; 4; -21; -20] [2; 5]%nat [-30; -30]) = mkR [3; 1]%nat [4; -20] [] [].
Proof. reflexivity. Qed.

(** ** C99: updates of one clause *)

Section Updates.
Variables (n ncls ncl : nat) (lits : list nat) (k : nat) (target : Z) (c : nat) (b : psblock).
Let w := nth c (nth k (q_weights b) []) 0.
Let sign := if 0 <=? w then 1 else -1.
Let pix := nth k (q_index b) [].
Let pst := nth k (q_states b) [].
Let nix := nth (k + ncl) (q_index b) [].
Let nst := nth (k + ncl) (q_states b) [].
Let ap := nth c (q_al b) [].
Let an := nth (c + ncls) (q_al b) [].

Lemma sign_model : (if w >=? 0 then 1 else -1) = sign.
Proof. unfold sign. destruct (w >=? 0) eqn:E; destruct (0 <=? w) eqn:F; auto; lia. Qed.
Lemma rows_model : q_ncl b = ncl -> ps_rows b k = mkR pix pst nix nst.
Proof. intros H. unfold ps_rows. rewrite H. reflexivity. Qed.

(** A firing clause of the right sign learns the example: its weight moves away
    from zero; included and excluded automata move as in the type 1a table, each
    by its own draw. *)
Theorem C99_type1a : ps_shape n ncls ncl b -> (k < ncl)%nat -> (c < ncls)%nat -> NoDup lits ->
  0 < target * sign -> nth k (q_outputs b) 0 = 1 ->
  let u := used pix nix lits (length lits) in
  exists b', ps_update_clause lits k target c b = Ok b' /\ only_changes k c b b' /\
    nth c (nth k (q_weights b') []) 0 = wrap8 (w + sign) /\
    nth k (q_index b') [] = pix /\ nth (k + ncl) (q_index b') [] = nix /\
    nth c (q_al b') [] = seen pix lits ap /\ nth (c + ncls) (q_al b') [] = seen nix lits an /\
    (forall i j, (i < length pix)%nat -> nth_error lits j = Some (nth i pix O) ->
       nth i (nth k (q_states b') []) 0 = nth i pst 0 + (if Qle_bool (draw (q_rng b) (used pix nix lits j)) ((q_s b - 1) / q_s b) then 1 else 0)) /\
    (forall i, (i < length pix)%nat -> ~ In (nth i pix O) lits ->
       nth i (nth k (q_states b') []) 0 = nth i pst 0 - (if Qle_bool (draw (q_rng b) (u + outside lits pix i)) (1 / q_s b) then 1 else 0)) /\
    (forall i j, (i < length nix)%nat -> nth_error lits j = Some (nth i nix O) ->
       nth i (nth (k + ncl) (q_states b') []) 0 = nth i nst 0 -
         (if Qle_bool (draw (q_rng b) (used pix nix lits j + (if memb (nth i nix O) pix then 1 else 0))) (1 / q_s b) then 1 else 0)) /\
    (forall i, (i < length nix)%nat -> ~ In (nth i nix O) lits ->
       nth i (nth (k + ncl) (q_states b') []) 0 = nth i nst 0 +
         (if Qle_bool (draw (q_rng b) (u + outside lits pix (length pix) + outside lits nix i)) ((q_s b - 1) / q_s b) then 1 else 0)).
Proof.
  intros H HK HC ND HT HO u. unfold ps_update_clause. fold w. rewrite sign_model. replace (target * sign >? 0) with true by lia.
  rewrite HO. cbn [Z.eqb Pos.eqb]. rewrite (pk_ncls _ _ _ _ H). fold ap an. rewrite (rows_model (pk_ncl _ _ _ _ H)).
  destruct (t1a_spec n (q_s b) lits (mkR pix pst nix nst) ap an (q_rng b)) as [q [E [Q1 [Q2 [_ [_ [A1 [A2 [A3 A4]]]]]]]]]; auto; try apply H.
  cbn [r_prow r_nrow r_psts r_nsts] in *. rewrite E. cbn [rbind].
  set (r' := advance _ (q_rng b)). eexists. split; [reflexivity|]. split; [apply store_only|].
  destruct (store_reads n ncls ncl b k q c (seen pix lits ap) (seen nix lits an) (wrap8 (w + sign)) r' H HK HC) as [R1 [R2 [R3 [R4 R5]]]].
  set (b' := ps_store _ _ _ _ _ _ _ _) in *. unfold ps_rows in R1. change (q_ncl b') with (q_ncl b) in R1. rewrite (pk_ncl _ _ _ _ H) in R1.
  pose proof (f_equal r_prow R1) as X1. pose proof (f_equal r_psts R1) as X2. pose proof (f_equal r_nrow R1) as X3. pose proof (f_equal r_nsts R1) as X4.
  cbn [r_psts r_nsts r_prow r_nrow] in X1, X2, X3, X4. rewrite X2, X4. split; [exact R4|]. split; [congruence|]. split; [congruence|]. auto 10.
Qed.

(** A clause of the right sign that does not fire forgets. *)
Theorem C99_type1b : ps_shape n ncls ncl b -> (k < ncl)%nat -> (c < ncls)%nat -> 0 < target * sign -> nth k (q_outputs b) 0 <> 1 ->
  exists b', ps_update_clause lits k target c b = Ok b' /\ only_changes k c b b' /\
    nth c (nth k (q_weights b') []) 0 = w /\
    nth k (q_index b') [] = pix /\ nth (k + ncl) (q_index b') [] = nix /\ nth c (q_al b') [] = ap /\ nth (c + ncls) (q_al b') [] = an /\
    (forall i, (i < length pst)%nat -> nth i (nth k (q_states b') []) 0 = nth i pst 0 - (if Qle_bool (draw (q_rng b) i) (1 / q_s b) then 1 else 0)) /\
    (forall i, (i < length nst)%nat -> nth i (nth (k + ncl) (q_states b') []) 0 =
       nth i nst 0 - (if Qle_bool (draw (q_rng b) (length pst + i)) (1 / q_s b) then 1 else 0)).
Proof.
  intros H HK HC HT HO. unfold ps_update_clause. fold w. rewrite sign_model. replace (target * sign >? 0) with true by lia.
  replace (nth k (q_outputs b) 0 =? 1) with false by lia. rewrite (pk_ncls _ _ _ _ H). fold ap an. rewrite (rows_model (pk_ncl _ _ _ _ H)).
  unfold ps_t1b. cbn [r_psts r_nsts r_prow r_nrow].
  pose proof (fall_spec (1 / q_s b) pst (q_rng b)) as A. destruct (ps_fall _ pst _) as [ps r1]. destruct A as [A1 [A2 A3]].
  pose proof (fall_spec (1 / q_s b) nst r1) as B. destruct (ps_fall _ nst _) as [ns r2]. destruct B as [B1 [B2 B3]].
  eexists. split; [reflexivity|]. split; [apply store_only|].
  destruct (store_reads n ncls ncl b k (mkR pix ps nix ns) c ap an w r2 H HK HC) as [R1 [R2 [R3 [R4 R5]]]].
  set (b' := ps_store _ _ _ _ _ _ _ _) in *. unfold ps_rows in R1. change (q_ncl b') with (q_ncl b) in R1. rewrite (pk_ncl _ _ _ _ H) in R1.
  cbn [r_psts r_nsts r_prow r_nrow] in R1. pose proof (f_equal r_prow R1) as X1. pose proof (f_equal r_psts R1) as X2. pose proof (f_equal r_nrow R1) as X3. pose proof (f_equal r_nsts R1) as X4.
  cbn [r_psts r_nsts r_prow r_nrow] in X1, X2, X3, X4. rewrite X2, X4. repeat (split; [assumption|]).
  intros i Hi. rewrite B3 by auto. rewrite A2, draw_advance. reflexivity.
Qed.

(** A firing clause of the wrong sign: its weight moves by one towards the other
    sign; excluded automata that would have silenced it rise by one, and the
    active literals that would have are added with automaton 0.  No random
    number is used. *)
Theorem C99_type2 : ps_shape n ncls ncl b -> (k < ncl)%nat -> (c < ncls)%nat -> target * sign < 0 -> nth k (q_outputs b) 0 = 1 ->
  let pnew := filter (fun l => negb (memb l pix) && negb (memb l lits)) ap in
  let nnew := filter (fun l => negb (memb l nix) && memb l lits) an in
  exists b', ps_update_clause lits k target c b = Ok b' /\ only_changes k c b b' /\ q_rng b' = q_rng b /\
    nth c (nth k (q_weights b') []) 0 = wrap8 (w - sign) /\ nth c (q_al b') [] = ap /\ nth (c + ncls) (q_al b') [] = an /\
    nth k (q_index b') [] = pix ++ pnew /\ nth (k + ncl) (q_index b') [] = nix ++ nnew /\
    length (nth k (q_states b') []) = (length pst + length pnew)%nat /\ length (nth (k + ncl) (q_states b') []) = (length nst + length nnew)%nat /\
    (forall i, (i < length pst)%nat -> nth i (nth k (q_states b') []) 0 =
       if negb (memb (nth i pix O) lits) && (nth i pst 0 <=? 0) then nth i pst 0 + 1 else nth i pst 0) /\
    (forall i, (i < length nst)%nat -> nth i (nth (k + ncl) (q_states b') []) 0 =
       if memb (nth i nix O) lits && (nth i nst 0 <=? 0) then nth i nst 0 + 1 else nth i nst 0) /\
    (forall i, (length pst <= i)%nat -> nth i (nth k (q_states b') []) 0 = 0) /\
    (forall i, (length nst <= i)%nat -> nth i (nth (k + ncl) (q_states b') []) 0 = 0).
Proof.
  intros H HK HC HT HO pnew nnew. unfold ps_update_clause. fold w. rewrite sign_model. replace (target * sign >? 0) with false by lia.
  replace (target * sign <? 0) with true by lia. rewrite HO. cbn [Z.eqb Pos.eqb andb]. rewrite (pk_ncls _ _ _ _ H). fold ap an. rewrite (rows_model (pk_ncl _ _ _ _ H)).
  unfold ps_t2. cbn [r_psts r_nsts r_prow r_nrow].
  assert (DP : NoDup ap) by apply H. assert (DN : NoDup an) by apply H.
  rewrite !t2_add_spec by auto. cbv zeta.
  assert (EP : filter (fun l => negb (memb l pix) && Bool.eqb (memb l lits) false) ap = pnew).
  { apply filter_ext. intros l. destruct (memb l lits); reflexivity. }
  assert (EN : filter (fun l => negb (memb l nix) && Bool.eqb (memb l lits) true) an = nnew).
  { apply filter_ext. intros l. destruct (memb l lits); reflexivity. }
  rewrite EP, EN.
  assert (LP : length pix = length pst) by apply H. assert (LN : length nix = length nst) by apply H.
  destruct (t2_up_spec false lits pix pst LP) as [U1 U2]. destruct (t2_up_spec true lits nix nst LN) as [V1 V2].
  eexists. split; [reflexivity|]. split; [apply store_only|].
  match goal with |- context [ps_store b k ?q c ap an ?v ?r] => destruct (store_reads n ncls ncl b k q c ap an v r H HK HC) as [R1 [R2 [R3 [R4 R5]]]] end.
  set (b' := ps_store _ _ _ _ _ _ _ _) in *. unfold ps_rows in R1. change (q_ncl b') with (q_ncl b) in R1. rewrite (pk_ncl _ _ _ _ H) in R1.
  cbn [r_psts r_nsts r_prow r_nrow] in R1. pose proof (f_equal r_prow R1) as X1. pose proof (f_equal r_psts R1) as X2. pose proof (f_equal r_nrow R1) as X3. pose proof (f_equal r_nsts R1) as X4.
  cbn [r_psts r_nsts r_prow r_nrow] in X1, X2, X3, X4. rewrite X2, X4.
  split; [exact R5|]. split; [exact R4|]. split; [exact R2|]. split; [exact R3|]. split; [exact X1|]. split; [exact X3|].
  rewrite !app_length, !repeat_length. split; [lia|]. split; [lia|]. split; [|split; [|split]].
  - intros i Hi. rewrite app_nth1 by lia. rewrite U2 by auto. destruct (memb _ lits); cbn [Bool.eqb andb negb]; [lia|]. destruct (_ <=? 0); lia.
  - intros i Hi. rewrite app_nth1 by lia. rewrite V2 by auto. destruct (memb _ lits); cbn [Bool.eqb andb negb]; [|lia]. destruct (_ <=? 0); lia.
  - intros i Hi. rewrite app_nth2 by lia. apply nth_repeat.
  - intros i Hi. rewrite app_nth2 by lia. apply nth_repeat.
Qed.

(** A clause of the wrong sign that does not fire is left alone. *)
Theorem C99_nothing : target * sign < 0 -> nth k (q_outputs b) 0 <> 1 -> ps_update_clause lits k target c b = Ok b.
Proof.
  intros HT HO. unfold ps_update_clause. fold w. rewrite sign_model. replace (target * sign >? 0) with false by lia.
  replace (nth k (q_outputs b) 0 =? 1) with false by lia. rewrite andb_false_r. reflexivity.
Qed.
End Updates.

(** The active list: at most the seven literals seen last. *)
Theorem C99_active : forall n lit al, active_ok n al -> (lit < n)%nat ->
  ps_update_al al lit = (if memb lit al then al else last7 (al ++ [lit])) /\ active_ok n (ps_update_al al lit) /\ In lit (ps_update_al al lit).
Proof.
  intros n lit al H HL. rewrite update_al_see by apply H. split; [reflexivity|]. split; [apply see_ok; auto|].
  unfold see. destruct (memb lit al) eqn:M; [apply memb_In; auto|]. unfold last7. rewrite app_length. cbn [length].
  rewrite skipn_app. apply in_or_app. right. replace (length al + 1 - 7 - length al)%nat with O by (destruct H as [_ [H _]]; lia). left. reflexivity.
Qed.
Example C99_example :
  (exists b', ps_update_clause [1; 2]%nat 0 1 0 demo_block = Ok b' /\ q_states b' = [[3; 0]; [-3]; [2]; [4; -20]] /\ q_weights b' = [[3; -1]; [-128; 127]] /\ q_al b' = [[4; 2]; [0]; [1; 2]; [2]]%nat) /\
  (exists b', ps_update_clause [1; 2]%nat 0 (-1) 0 demo_block = Ok b' /\ q_states b' = [[2; 1]; [-3]; [1]; [4; -20]] /\ q_weights b' = [[1; -1]; [-128; 127]]) /\
  (exists b', ps_update_clause [1; 2]%nat 1 1 1 demo_block = Ok b' /\ q_states b' <> q_states demo_block /\ q_weights b' = q_weights demo_block).
Proof. split; [|split]; eexists; (split; [vm_compute; reflexivity|]); split; try split; vm_compute; try reflexivity; discriminate. Qed.

(** ** C100: the literal budget *)

(** A non-negative budget changes nothing: every history gives the machine it gives
    without a budget. *)
Theorem C100_budget_ignored_partial : forall cs x, Forall (fun tb => bud_ok (snd tb)) (sx_blocks x) ->
  let erase := fun x => mkPsx (map (fun tb => (fst tb, no_budget (snd tb))) (sx_blocks x)) (sx_fb x) (sx_rng x) in
  ps_calls cs (erase x) = match ps_calls cs x with Ok x' => Ok (erase x') | Raise e => Raise e end.
Proof. intros cs x H erase. exact (calls_erase cs x H). Qed.
Theorem C100_initialized : forall g n ncl ncls budget do_budget s seed, match budget with Some z => 0 <= z | None => True end ->
  bud_ok (ps_initialize g n ncl ncls budget do_budget s seed).
Proof.
  intros. unfold ps_initialize, bud_ok. destruct (init_weights _ _ _). cbn [q_counts q_budget]. split; auto. intros k. apply nth_repeat.
Qed.
(** With budget 0, a clause that has included a literal is still reinforced. *)
Theorem C100_budget_refuted : exists ds l b b1, ps_steps ds (ps_initialize (fun _ => zeros) 2 2 2 (Some 0) true 3 1) = Ok b /\
  q_budget b = Some 0 /\ q_do_budget b = true /\ 0 < nth 0 (nth 2 (q_states b) []) 0 /\
  ps_steps [(l, 0%nat, 1%nat)] b = Ok b1 /\ nth 0 (nth 2 (q_states b) []) 0 < nth 0 (nth 2 (q_states b1) []) 0 /\ q_outputs b1 = [1; 1].
Proof.
  exists [([0], 0, 1); ([0], 1, 0)]%nat, []. eexists. eexists. split; [vm_compute; reflexivity|].
  split; [reflexivity|]. split; [reflexivity|]. split; [reflexivity|]. split; [vm_compute; reflexivity|]. split; reflexivity.
Qed.
Example C100_example : bud_ok demo_block /\ q_budget demo_block = Some 3 /\ q_do_budget demo_block = true /\
  exists x', ps_calls [PsTrain [([5%nat], 0%nat); ([5; 1]%nat, 1%nat)]] (mkPsx [(true, demo_block)] (mkFb 2 10 [0; 0] [] 0 0 0 0 0 0 zeros) (mkIrng (fun k => k) 0)) = Ok x'.
Proof.
  split; [split; [intros k; destruct k as [|[|[|k]]]; reflexivity|cbn; lia]|]. split; [reflexivity|]. split; [reflexivity|]. eexists. vm_compute. reflexivity.
Qed.

Print Assumptions C96_training_exact.
Print Assumptions C96_training_partial.
Print Assumptions C96_training_refuted.
Print Assumptions C96_evaluation.
Print Assumptions C96_evaluation_refuted.
Print Assumptions C96_more_classes.
Print Assumptions C96_more_classes_training.
Print Assumptions C97_history.
Print Assumptions C97_initialized.
Print Assumptions C97_bound_refuted.
Print Assumptions C98_pruning.
Print Assumptions C99_type1a.
Print Assumptions C99_type1b.
Print Assumptions C99_type2.
Print Assumptions C99_nothing.
Print Assumptions C99_active.
Print Assumptions C100_budget_ignored_partial.
Print Assumptions C100_initialized.
Print Assumptions C100_budget_refuted.
