(** C31-C34, C42, C61 and the sparse part of C15. *)
From Coq Require Import ZArith Arith List Bool QArith Lia ZifyBool Sorted.
From Verif Require Import Base Spec ModelRuleSet ModelInference ModelPredictor ModelDense ModelFeedback ModelExecutor ModelSparse SpecSparse
  ProofsRuleSet ProofsLayout ProofsAvx2Hist ProofsSparse ProofsSparseState ProofsSparseSort ProofsSparseInv ProofsSparseRules ProofsSparseFeedback ExampleData ProofsEval.
Import ListNotations.
Open Scope Z_scope.

(** Three clauses over six literals, two classes. Clause 1 has no negated part,
    clause 2 excludes its last positive literal. *)
Definition sx_block : sblock :=
  mkSB 6 3 2 3 3 (-40)
    [[1;4]; [0]; [2;5]; [0;3]; []; [1]]%nat [[5;3]; [-3]; [7;-2]; [2;-6]; []; [4]]
    [[2;3]; [0]]%nat [0;0]%nat [[4;-2]; [1;1]; [-3;6]] [9;9;9] [8;8;8] [7;7] 100 (1#4) (3#4) ex_rng.
Definition sx_exec : exec sblock := mkExec [(true, sx_block)] (new_fblock 2 (20#1) ex_rng) [] ex_irng.

Lemma increasing_bool : forall l, (fix go l := match l with a :: (b :: _) as t => (a <? b)%nat && go t | _ => true end) l = true -> increasing l.
Proof.
  intros l H. apply Sorted_StronglySorted; [exact Nat.lt_trans|]. induction l as [|a l IH]; [constructor|]. destruct l as [|b l]; [constructor; constructor|].
  apply andb_prop in H. destruct H as [H1 H2]. constructor; [apply IH; exact H2|]. constructor. now apply Nat.ltb_lt.
Qed.
Ltac concrete := repeat (apply Forall_cons || apply Forall_nil); cbn; unfold is_int8; try lia; auto.
Lemma sx_good : sp_good 6 2 sx_block.
Proof.
  split.
  - constructor; try reflexivity; try (cbn; lia).
    + intros i Hi. cbn in Hi. do 6 (destruct i as [|i]; [constructor; [apply increasing_bool; reflexivity|concrete|reflexivity|cbn; lia|concrete]|]). lia.
    + intros c Hc. cbn in Hc. do 2 (destruct c as [|c]; [split; [repeat constructor; cbn; lia|split; [cbn; lia|concrete]]|]). lia.
    + intros c Hc. cbn in Hc. do 2 (destruct c as [|c]; [cbn; lia|]). lia.
  - split; [reflexivity|]. split; [reflexivity|]. repeat constructor.
Qed.

(** ** C31 *)

(** get_clause_state_sparse after set_clause_state_sparse: the same CSR triple. *)
Theorem C31_get_after_set : forall c b, csr_valid (2 * sp_ncl b) c -> csr_get (csr_set c b) = c.
Proof. exact csr_get_set. Qed.

(** set_clause_state_sparse after get_clause_state_sparse, into any block. *)
Theorem C31_set_after_get : forall b b0, length (sp_rows b) = (2 * sp_ncl b)%nat -> length (sp_states b) = (2 * sp_ncl b)%nat ->
  (forall i, (i < 2 * sp_ncl b)%nat -> length (nth i (sp_states b) []) = length (nth i (sp_rows b) [])) ->
  sp_rows (csr_set (csr_get b) b0) = sp_rows b /\ sp_states (csr_set (csr_get b) b0) = sp_states b.
Proof. exact csr_set_get. Qed.

(** The whole machine: reading the state of the blocks and writing it into new
    blocks of the same sizes gives blocks with the same learned state. *)
Theorem C31_save_after_load : forall nlit ncls src tgt, Forall sized src -> Forall (fun b => even_al (sp_al b)) src ->
  Forall2 (fun a b => sp_ncl a = sp_ncl b /\ sp_ncls a = sp_ncls b) src tgt ->
  exists r, sp_save_state (sp_load_state nlit (nsum (map sp_ncl src)) ncls src) tgt = Ok r /\ Forall2 same_state r src.
Proof. exact sp_save_after_load. Qed.

(** ... and the other way round: every state that fits the blocks. *)
Theorem C31_load_after_save : forall s nlit cbs r, ss_nlit s = Some nlit ->
  Forall2 (fun b c => csr_valid (2 * sp_ncl b) c) cbs (ss_c s) -> Forall2 (fun b al => length al = sp_ncls b) cbs (ss_al s) ->
  length (ss_w s) = nsum (map sp_ncl cbs) -> sp_save_state s cbs = Ok r ->
  sp_load_state nlit (nsum (map sp_ncl r)) (ss_ncls s) r = s.
Proof. exact sp_load_after_save. Qed.

(** Without [even_al] the state just read cannot be written back at all. *)
Theorem C31_ragged_refuted : forall nlit ncls a src tgt, length (sp_al a) = sp_ncls a -> ~ even_al (sp_al a) -> tgt <> [] ->
  sp_save_state (sp_load_state nlit (nsum (map sp_ncl (a :: src))) ncls (a :: src)) tgt = Raise TypeError.
Proof. exact sp_save_ragged. Qed.

(** A copied state forgets the number of literals: the rule set compiled from
    the copy numbers its negated literals differently. *)
Theorem C31_copy_refuted : exists s rs rs', compile_from_sparse_state s = Ok rs /\ compile_from_sparse_state (sparse_copy s) = Ok rs' /\
  rs_nliterals rs = 7%nat /\ rs_nliterals rs' = 6%nat /\ rs_rules rs = [[1;4;7]; [2;8]]%nat /\ rs_rules rs' = [[1;4;6]; [2;7]]%nat.
Proof. exists (sp_load_state 7 3 2 [sx_block]). eexists. eexists. split; [vm_compute; reflexivity|]. repeat split. Qed.

(** Rows of length 2, 1, 2, 2, 0, 1; the same block with even active literal
    lists goes through, the original one does not. *)
Definition sx_even : sblock := sp_with_al sx_block [[2;3]; [0;1]]%nat.
Example C31_case : csr_get sx_block = ([5;3;-3;7;-2;2;-6;4], [1;4;0;2;5;0;3;1]%nat, [0;2;3;5;7;7;8]%nat) /\
  csr_valid 6 (csr_get sx_block) /\ sized sx_even /\ even_al (sp_al sx_even) /\ ~ even_al (sp_al sx_block).
Proof.
  split; [vm_compute; reflexivity|]. split.
  - vm_compute. repeat split. intros i Hi. do 6 (destruct i as [|i]; [repeat constructor|]). lia.
  - split; [|split].
    + unfold sized. cbn. split; [reflexivity|]. split; [reflexivity|]. split; [|repeat split; lia].
      intros i Hi. do 6 (destruct i as [|i]; [reflexivity|]). lia.
    + intros r [<-|[<-|[]]]; reflexivity.
    + intros E. specialize (E [0%nat] ltac:(right; left; reflexivity)). discriminate.
Qed.
Example C31_case_machine : (exists r, sp_save_state (sp_load_state 6 3 2 [sx_even]) [sp_with_rows sx_even (repeat [] 6) (repeat [] 6)] = Ok r /\
    map csr_get r = [csr_get sx_block]) /\
  sp_save_state (sp_load_state 6 3 2 [sx_block]) [sx_block] = Raise TypeError.
Proof. split; [eexists; split; vm_compute; reflexivity|vm_compute; reflexivity]. Qed.

(** ** C32 *)

(** Any program of training epochs and evaluations on any executor, any feedback
    function, any draws. *)
Theorem C32_history : forall (bo boost dynamic : bool) L (process : L -> fblock -> fblock) n calls x,
  Forall (fun c => Forall (fun d => Forall (fun l => (l < n)%nat) (fst d)) (gdata (list nat) L c)) calls ->
  Forall (fun tb => sp_inv n (snd tb)) (x_blocks x) ->
  Forall (fun tb => sp_inv n (snd tb))
    (x_blocks (grun sblock (list nat) (sp_train_ex bo) sp_eval_ex (sp_train_update bo boost dynamic) L process calls x)).
Proof. exact sparse_history. Qed.

(** A new block is in such a state. *)
Theorem C32_initial : forall bo fast_of junk nlit ncl ncls csize alsize thr budget si sm seed b, (1 <= alsize)%nat ->
  sp_initialize bo fast_of junk nlit ncl ncls csize alsize thr budget si sm seed = Some b ->
  sp_inv nlit b /\ sp_ncl b = ncl /\ sp_ncls b = ncls /\ sp_csize b = csize /\ sp_alsize b = alsize.
Proof. exact sp_initialize_inv. Qed.

(** Weights keep their shape as well. *)
Theorem C32_history_weights : forall (bo boost dynamic : bool) L (process : L -> fblock -> fblock) n ncls calls x,
  Forall (fun c => Forall (fun d => Forall (fun l => (l < n)%nat) (fst d)) (gdata (list nat) L c)) calls ->
  Forall (fun tb => sp_good n ncls (snd tb)) (x_blocks x) ->
  Forall (fun tb => sp_good n ncls (snd tb))
    (x_blocks (grun sblock (list nat) (sp_train_ex bo) sp_eval_ex (sp_train_update bo boost dynamic) L process calls x)).
Proof. exact sparse_history_good. Qed.

(** One training step for class 1 against class 0. *)
Definition sx_step := sp_train_update true false true [1;4;5]%nat 1 1 0 1 (fst (sp_train_ex true [1;4;5]%nat sx_block)).
Example C32_case : sp_inv 6 sx_block /\ sp_rows sx_step = [[0;1;4]; [0;2;3]; [2;5]; [0;3]; []; [1]]%nat /\
  sp_states sx_step = [[-34;5;3]; [-3;-35;-35]; [6;-3]; [2;-6]; []; [4]] /\ sp_al sx_step = [[2;3]; [5;1;4]]%nat.
Proof. split; [apply sx_good|]. vm_compute. repeat split. Qed.

(** ** C33 *)

(** The training output, exactly: every included positive literal is in the
    example or beyond its last one (and not the clause's last), no included
    negated literal is in it. *)
Theorem C33_exact : forall lits prow nrow psts nsts, increasing lits ->
  fst (sp_set_output lits prow nrow psts nsts) = 1 <->
  (forall l, In l (sp_included prow psts) -> In l lits \/ ((forall x, In x lits -> (x < l)%nat) /\ l <> last prow O)) /\
  (forall l, In l (sp_included nrow nsts) -> ~ In l lits).
Proof. exact sp_set_output_exact. Qed.

(** A clause whose included literals hold fires. *)
Theorem C33_holds_fires : forall lits prow nrow psts nsts, increasing lits ->
  sp_holds lits prow psts nrow nsts -> fst (sp_set_output lits prow nrow psts nsts) = 1.
Proof.
  intros lits prow nrow psts nsts HL [H1 H2]. apply sp_set_output_exact; auto. split; auto. intros l Hl. left. auto.
Qed.

(** Full statement: iff.  Missing: clauses whose last positive literal is
    excluded, on examples ending before an included positive literal. *)
Theorem C33_fires_partial : forall lits prow nrow psts nsts, increasing lits -> increasing prow -> length psts = length prow ->
  prow = [] \/ 0 <= last psts 0 \/ (forall l, In l (sp_included prow psts) -> exists x, In x lits /\ (l <= x)%nat) ->
  (fst (sp_set_output lits prow nrow psts nsts) = 1 <-> sp_holds lits prow psts nrow nsts).
Proof.
  intros lits prow nrow psts nsts HL HP HS HC. rewrite sp_set_output_exact by auto. unfold sp_holds.
  pose proof (tolerated_holds lits prow psts HP HS HC) as T. tauto.
Qed.

(** Literal 1 is required, the example is {0}: the clause fires. *)
Theorem C33_last_excluded_refuted : exists lits prow psts nrow nsts, increasing lits /\ increasing prow /\ length psts = length prow /\
  ~ sp_holds lits prow psts nrow nsts /\ fst (sp_set_output lits prow nrow psts nsts) = 1.
Proof.
  exists [0%nat], [1;5]%nat, [3;-2], [2%nat], [-1]. split; [apply increasing_bool; reflexivity|]. split; [apply increasing_bool; reflexivity|].
  split; [reflexivity|]. split; [|reflexivity]. intros [H _]. specialize (H 1%nat ltac:(left; reflexivity)). cbn in H. lia.
Qed.

(** The literal count of the budget is the number of included literals. *)
Theorem C33_count : forall lits prow nrow psts nsts, length psts = length prow -> length nsts = length nrow ->
  snd (sp_set_output lits prow nrow psts nsts) = Z.of_nat (length (sp_included prow psts) + length (sp_included nrow nsts)).
Proof. exact sp_counts_included. Qed.

(** Evaluation: the same, but a clause with an empty vector is silent. *)
Theorem C33_evaluation : forall lits prow nrow psts nsts, increasing lits ->
  sp_eval_output lits prow nrow psts nsts = 1 <->
  prow <> [] /\ nrow <> [] /\ fst (sp_set_output lits prow nrow psts nsts) = 1.
Proof.
  intros lits prow nrow psts nsts HL. rewrite sp_eval_output_exact, sp_set_output_exact by auto. tauto.
Qed.

(** A clause that only requires literal 1 never fires in evaluation. *)
Theorem C33_one_sided_refuted : exists lits prow psts nrow nsts, increasing lits /\ sp_included prow psts <> [] /\
  sp_holds lits prow psts nrow nsts /\ sp_eval_output lits prow nrow psts nsts = 0.
Proof.
  exists [1%nat], [1%nat], [3], [], []. split; [apply increasing_bool; reflexivity|]. split; [discriminate|]. split; [|reflexivity].
  split; intros l; cbn; tauto.
Qed.

Example C33_case : increasing [1;4;5]%nat /\ sp_holds [1;4;5]%nat [1;4]%nat [5;3] [0;3]%nat [2;-6] /\
  sp_outputs (fst (sp_train_ex true [1;4;5]%nat sx_block)) = [1;1;0] /\ sp_counts (fst (sp_train_ex true [1;4;5]%nat sx_block)) = [3;0;2] /\
  sp_outputs (fst (sp_eval_ex [1;4;5]%nat sx_block)) = [1;0;0] /\
  sp_outputs (fst (sp_train_ex true [0;2]%nat sx_block)) = [0;1;1].
Proof.
  split; [apply increasing_bool; reflexivity|]. split; [split; intros l H; cbn in *; lia|]. vm_compute. repeat split.
Qed.

(** ** C34 *)

(** The rule set of a machine in any legal state: class votes are the weights
    of the clauses whose rule fires, as long as the weights of equal rules do
    not overflow 16 bits together. *)
Theorem C34_rule_votes : forall n ncls cbs, Forall (sp_good n ncls) cbs ->
  exists rs, compile_from_sparse_state (sp_load_state n (nsum (map sp_ncl cbs)) ncls cbs) = Ok rs /\
  (forall x c, rule_vote_total n x (rs_rules rs) (rs_weights rs) c mod 65536 =
     pick_total (key_fires n x) (all_keys n cbs) (all_wts cbs) c mod 65536) /\
  (forall x c, (forall r, is_int16 (pick_total (fun key => list_nat_eqb key r) (all_keys n cbs) (all_wts cbs) c)) ->
     rule_vote_total n x (rs_rules rs) (rs_weights rs) c = pick_total (key_fires n x) (all_keys n cbs) (all_wts cbs) c).
Proof.
  intros n ncls cbs H. destruct (compile_sparse_ok n ncls cbs H) as [m [M1 M2]]. eexists. split; [exact M1|]. split.
  - intros x c. apply (sparse_rule_votes_mod n ncls cbs _ x c H M1).
  - intros x c. apply (sparse_rule_votes_exact n ncls cbs _ x c H M1).
Qed.

(** Full statement: for every state and input.  Missing: clauses that are not
    plain on the input (see the refutations below). *)
Theorem C34_votes_partial : forall n ncls cbs rs lits c, Forall (sp_good n ncls) cbs -> increasing lits -> Forall (all_plain lits) cbs ->
  compile_from_sparse_state (sp_load_state n (nsum (map sp_ncl cbs)) ncls cbs) = Ok rs -> (c < ncls)%nat ->
  rule_vote_total n (vec n lits) (rs_rules rs) (rs_weights rs) c mod 65536 =
  zsum (map (fun b => nth c (snd (sp_eval_ex lits b)) 0) cbs) mod 65536.
Proof. exact sparse_votes_agree. Qed.

(** The predictor made from the rule set answers like the machine. *)
Theorem C34_predictor_partial : forall (L : Type) n ncls (e : exec sblock) rs mode excl junk p (data : list (list nat * L)) out,
  Forall (fun tb => sp_good n ncls (snd tb)) (x_blocks e) -> fb_ready ncls (x_fb e) ->
  compile_from_sparse_state (sp_load_state n (nsum (map sp_ncl (map snd (x_blocks e)))) ncls (map snd (x_blocks e))) = Ok rs ->
  from_ruleset mode excl rs junk = Ok p -> length out = length data ->
  Forall (fun d => increasing (fst d) /\ Forall (fun tb => all_plain (fst d) (snd tb)) (x_blocks e) /\
    forall c, (c < ncls)%nat -> is_int16 (rule_vote_total n (vec n (fst d)) (rs_rules rs) (rs_weights rs) c)) data ->
  exists ys e', eval_predict sblock (list nat) sp_eval_ex L data out e = (true, ys, e') /\
    map (fun d => fst (pred_predict p (vec n (fst d)))) data = map (fun y => Ok (AClass y)) ys.
Proof. exact sparse_predictor_agrees. Qed.

(** One clause, class weights 5 and -5. *)
Definition one_clause (prow nrow : list nat) (psts nsts : list Z) : sblock :=
  mkSB 6 1 2 3 3 (-40) [prow; nrow] [psts; nsts] [[]; []] [0;0]%nat [[5;-5]] [0] [0] [0;0] 100 (1#4) (3#4) ex_rng.
Definition rule_votes (b : sblock) (lits : list nat) : option (list Z) :=
  match compile_from_sparse_state (sp_load_state 6 1 2 [b]) with
  | Ok rs => Some (map (rule_vote_total 6 (vec 6 lits) (rs_rules rs) (rs_weights rs)) [0;1]%nat)
  | Raise _ => None
  end.

(** Only positive literals: the rule votes, the machine does not. *)
Theorem C34_one_sided_refuted : let b := one_clause [1%nat] [] [3] [] in
  rule_votes b [1%nat] = Some [5;-5] /\ snd (sp_eval_ex [1%nat] b) = [0;0].
Proof. split; vm_compute; reflexivity. Qed.
(** State 0 counts as included in the machine and as excluded in the rule. *)
Theorem C34_state_zero_refuted : let b := one_clause [1%nat] [2%nat] [0] [5] in
  rule_votes b [] = Some [5;-5] /\ snd (sp_eval_ex [] b) = [0;0].
Proof. split; vm_compute; reflexivity. Qed.
(** Everything excluded: no rule, but the machine's clause fires. *)
Theorem C34_all_excluded_refuted : let b := one_clause [1%nat] [2%nat] [-1] [-1] in
  rule_votes b [3%nat] = Some [0;0] /\ snd (sp_eval_ex [3%nat] b) = [5;-5].
Proof. split; vm_compute; reflexivity. Qed.
(** The positive literal is missing, but the scan does not notice. *)
Theorem C34_last_excluded_refuted : let b := one_clause [1;5]%nat [2%nat] [3;-2] [-1] in
  rule_votes b [0%nat] = Some [0;0] /\ snd (sp_eval_ex [0%nat] b) = [5;-5].
Proof. split; vm_compute; reflexivity. Qed.

Lemma sx_plain : all_plain [1;4;5]%nat sx_block.
Proof.
  intros k Hk. cbn in Hk. destruct k as [|[|[|k]]]; [| | |lia]; (split; [concrete|split; [concrete|]]).
  - left. split; [discriminate|]. split; [discriminate|]. split; [exists 1%nat; left; left; reflexivity|]. left. vm_compute. discriminate.
  - right. split; [right; reflexivity|]. split; reflexivity.
  - left. split; [discriminate|]. split; [discriminate|]. split; [exists 2%nat; left; left; reflexivity|]. right.
    intros l [<-|[]]. exists 4%nat. split; [right; left; reflexivity|cbn; lia].
Qed.

Example C34_case : sp_good 6 2 sx_block /\ all_plain [1;4;5]%nat sx_block /\ fb_ready 2 (x_fb sx_exec) /\
  all_keys 6 [sx_block] = [[1;4;6]; []; [2;7]]%nat /\
  (exists rs, compile_from_sparse_state (sp_load_state 6 3 2 [sx_block]) = Ok rs /\ rs_rules rs = [[1;4;6]; [2;7]]%nat /\
     map (rule_vote_total 6 (vec 6 [1;4;5]%nat) (rs_rules rs) (rs_weights rs)) [0;1]%nat = [4;-2]) /\
  snd (sp_eval_ex [1;4;5]%nat sx_block) = [4;-2] /\
  fst (eval_predict sblock (list nat) sp_eval_ex unit [([1;4;5]%nat, tt)] [7%nat] sx_exec) = (true, [0%nat]).
Proof.
  split; [apply sx_good|]. split; [apply sx_plain|]. split; [split; reflexivity|]. split; [reflexivity|].
  split; [eexists; split; [vm_compute; reflexivity|split; vm_compute; reflexivity]|]. split; vm_compute; reflexivity.
Qed.

(** ** C42 *)

(** Pruning keeps every automaton at or above the threshold, in place. *)
Theorem C42_kept : forall thr row sts, length sts = length row ->
  let '(row', sts') := prune_clause thr row sts in
  length sts' = length row' /\
  filter (fun p : nat * Z => thr <=? snd p) (combine row' sts') = filter (fun p => thr <=? snd p) (combine row sts).
Proof.
  intros thr row sts H. rewrite prune_clause_eq by auto. rewrite !map_length, combine_map. split; auto. apply prune_pairs_keeps.
Qed.

(** It removes at least half of those below. *)
Theorem C42_half_partial : forall thr row sts, length sts = length row ->
  (2 * length (filter (fun v => (v <? thr)%Z) (snd (prune_clause thr row sts))) <= length (filter (fun v => (v <? thr)%Z) sts))%nat.
Proof.
  intros thr row sts H. rewrite prune_clause_eq by auto. cbn [snd]. pose proof (prune_pairs_halves thr (combine row sts)) as P. unfold below in P.
  assert (E : forall l : list (nat * Z), length (filter (fun v => v <? thr) (map snd l)) = length (filter (fun p => snd p <? thr) l)).
  { induction l as [|p l IH]; cbn [map filter]; auto. destruct (snd p <? thr); cbn [length]; auto. }
  rewrite E. etransitivity; [exact P|]. rewrite <- E, combine_snd by lia. lia.
Qed.

(** Full statement: it removes all of them.  Missing: two neighbours below. *)
Theorem C42_removed_partial : forall thr row sts, length sts = length row ->
  (forall k, (S k < length sts)%nat -> thr <= nth k sts 0 \/ thr <= nth (S k) sts 0) ->
  Forall (fun v => thr <= v) (snd (prune_clause thr row sts)).
Proof.
  intros thr row sts HL H. rewrite prune_clause_eq by auto. cbn [snd]. rewrite prune_pairs_exact.
  - apply Forall_map, Forall_forall. intros p Hp. apply filter_In in Hp. destruct Hp as [_ Hp]. lia.
  - intros k Hk. rewrite combine_length in Hk. specialize (H k ltac:(lia)).
    rewrite !combine_nth by auto. exact H.
Qed.

(** A training update on a clause with two automata at the threshold leaves one
    below it. *)
Definition low_block : sblock :=
  mkSB 6 1 2 3 3 (-40) [[1;2]%nat; [3%nat]] [[-40;-40]; [5]] [[]; []] [0;0]%nat [[5;-5]] [0] [0] [0;0] 100 (1#4) (3#4) (mkRng (fun _ => 0%Q) 0).
Theorem C42_neighbours_refuted : exists b, sp_inv 6 b /\
  Forall (Forall (fun v => sp_thr b <= v)) (sp_states b) /\
  let b' := sp_train_update true false true [0%nat] 0 1 1 0 (fst (sp_train_ex true [0%nat] b)) in
  sp_rows b' = [[2]; [3]]%nat /\ sp_states b' = [[-41]; [6]] /\ sp_thr b' = -40.
Proof.
  exists low_block. split; [|split].
  - constructor; try reflexivity; try (cbn; lia).
    + intros i Hi. cbn in Hi. do 2 (destruct i as [|i]; [constructor; [apply increasing_bool; reflexivity|concrete|reflexivity|cbn; lia|concrete]|]). lia.
    + intros c Hc. cbn in Hc. do 2 (destruct c as [|c]; [split; [constructor|split; [cbn; lia|constructor]]|]). lia.
    + intros c Hc. cbn in Hc. do 2 (destruct c as [|c]; [cbn; lia|]). lia.
  - repeat constructor; cbn; lia.
  - vm_compute. repeat split.
Qed.

Example C42_case : prune_clause (-40) [1;3;4;8]%nat [-41;7;-90;-40] = ([3;8]%nat, [7;-40]) /\
  prune_clause (-40) [1;3;4;8]%nat [-41;-41;-41;-40] = ([3;8]%nat, [-41;-40]).
Proof. split; reflexivity. Qed.

(** ** C61 *)

(** Type Ia, Type Ib and Type II feedback on a sparse clause. *)
Theorem C61_type1a : forall boost dynamic lits k c t n b, sp_inv n b -> (k < sp_ncl b)%nat -> increasing lits ->
  nth k (sp_outputs b) 0 = 1 -> 0 < t * wsign (nth c (nth k (sp_weights b) []) 0) ->
  let b' := sp_clause_update boost dynamic lits k c t b in
  (forall l v, has (prow_of b k) (psts_of b k) l v -> exists v', kept (sp_thr b) (prow_of b' k) (psts_of b' k) l v' /\
     (In l lits -> step_up boost (sp_fast b) (sp_sm b) v v') /\ (~ In l lits -> step_down (sp_fast b) (sp_si b) v v')) /\
  (forall l v, has (nrow_of b k) (nsts_of b k) l v -> exists v', kept (sp_thr b) (nrow_of b' k) (nsts_of b' k) l v' /\
     (In l lits -> step_down (sp_fast b) (sp_si b) v v') /\ (~ In l lits -> step_up boost (sp_fast b) (sp_sm b) v v')) /\
  (forall l, In l (prow_of b' k) -> In l (prow_of b k)) /\ (forall l, In l (nrow_of b' k) -> In l (nrow_of b k)).
Proof. exact sp_type1a. Qed.

Theorem C61_type1b : forall boost dynamic lits k c t n b, sp_inv n b -> (k < sp_ncl b)%nat ->
  nth k (sp_outputs b) 0 = 0 -> 0 < t * wsign (nth c (nth k (sp_weights b) []) 0) ->
  let b' := sp_clause_update boost dynamic lits k c t b in
  (forall l v, has (prow_of b k) (psts_of b k) l v -> exists v', kept (sp_thr b) (prow_of b' k) (psts_of b' k) l v' /\
     step_down (sp_fast b) (sp_si b) v v') /\
  (forall l v, has (nrow_of b k) (nsts_of b k) l v -> exists v', kept (sp_thr b) (nrow_of b' k) (nsts_of b' k) l v' /\
     step_down (sp_fast b) (sp_si b) v v') /\
  (forall l, In l (prow_of b' k) -> In l (prow_of b k)) /\ (forall l, In l (nrow_of b' k) -> In l (nrow_of b k)) /\
  sp_al b' = sp_al b.
Proof. exact sp_type1b. Qed.

Theorem C61_type2 : forall boost dynamic lits k c t n b, sp_inv n b -> (k < sp_ncl b)%nat ->
  nth k (sp_outputs b) 0 = 1 -> t * wsign (nth c (nth k (sp_weights b) []) 0) < 0 ->
  let b' := sp_clause_update boost dynamic lits k c t b in
  let al := nth c (sp_al b) [] in
  (forall l v, has (prow_of b k) (psts_of b k) l v ->
     has (prow_of b' k) (psts_of b' k) l (if negb (memb l lits) && (v <? 0) then v + 1 else v)) /\
  (forall l v, has (nrow_of b k) (nsts_of b k) l v ->
     has (nrow_of b' k) (nsts_of b' k) l (if memb l lits && (v <? 0) then v + 1 else v)) /\
  (forall l, In l (prow_of b' k) -> In l (prow_of b k) \/
     (In l al /\ ~ In l lits /\ has (prow_of b' k) (psts_of b' k) l (wrap8 (sp_thr b + 5)))) /\
  (forall l, In l (nrow_of b' k) -> In l (nrow_of b k) \/
     (In l al /\ In l lits /\ has (nrow_of b' k) (nsts_of b' k) l (wrap8 (sp_thr b + 5)))) /\
  (forall l, In l al -> ~ In l lits -> In l (prow_of b' k) \/ length (prow_of b' k) = sp_csize b) /\
  (forall l, In l al -> In l lits -> In l (nrow_of b' k) \/ length (nrow_of b' k) = sp_csize b).
Proof. exact sp_type2. Qed.

(** The weight for the class moves by the target, 1 or -1, when the clause
    fires; no other weight and no other clause is touched. *)
Theorem C61_weights : forall boost dynamic lits k c t n ncls b, sp_good n ncls b -> (k < sp_ncl b)%nat -> (c < ncls)%nat -> t = 1 \/ t = -1 ->
  let b' := sp_clause_update boost dynamic lits k c t b in
  forall i d, nth d (nth i (sp_weights b') []) 0 =
    if ((i =? k) && (d =? c))%nat && (nth k (sp_outputs b) 0 =? 1) then wrap16 (nth c (nth k (sp_weights b) []) 0 + t) else nth d (nth i (sp_weights b) []) 0.
Proof. exact sp_weight_step. Qed.
Theorem C61_other_clauses : forall boost dynamic lits k c t b j, (k < sp_ncl b)%nat -> (j < sp_ncl b)%nat -> j <> k ->
  let b' := sp_clause_update boost dynamic lits k c t b in
  prow_of b' j = prow_of b j /\ psts_of b' j = psts_of b j /\ nrow_of b' j = nrow_of b j /\ nsts_of b' j = nsts_of b j /\
  nth j (sp_weights b') [] = nth j (sp_weights b) [].
Proof. exact sp_update_other. Qed.

(** Type Ia offers the literals of the example the clause has no automaton for
    to the active literal list of the class. *)
Theorem C61_active_literals : forall boost dynamic lits k c t b, nth k (sp_outputs b) 0 = 1 -> 0 < t * wsign (nth c (nth k (sp_weights b) []) 0) ->
  (c < length (sp_al b))%nat ->
  let al := nth c (sp_al b) [] in let al' := nth c (sp_al (sp_clause_update boost dynamic lits k c t b)) [] in
  (forall l, In l al' -> In l al \/ (In l lits /\ ~ In l (prow_of b k))) /\
  (dynamic = false -> (exists new, al' = al ++ new) /\ forall l, In l lits -> ~ In l (prow_of b k) -> In l al' \/ (sp_alsize b <= length al')%nat).
Proof. exact sp_type1a_al. Qed.

(** Clause 0 fires on {1,4,5}: Type Ia for class 0 (weight 4), Type II for
    class 0 as the negative class. Clause 2 is silent: Type Ib. *)
Definition sx_ready : sblock := fst (sp_train_ex true [1;4;5]%nat sx_block).
Example C61_case : sp_inv 6 sx_ready /\ sp_outputs sx_ready = [1;1;0] /\
  (let b' := sp_clause_update false true [1;4;5]%nat 0 0 1 sx_ready in
   prow_of b' 0 = [1;4]%nat /\ psts_of b' 0 = [6;4] /\ nsts_of b' 0 = [3;-5] /\ sp_weights b' = [[5;-2];[1;1];[-3;6]] /\ sp_al b' = [[2;3;5];[0]]%nat) /\
  (let b' := sp_clause_update false true [1;4;5]%nat 0 0 (-1) sx_ready in
   prow_of b' 0 = [1;2;4]%nat /\ psts_of b' 0 = [5;-35;3] /\ nrow_of b' 0 = [0;3]%nat /\ sp_weights b' = [[3;-2];[1;1];[-3;6]]) /\
  (let b' := sp_clause_update false true [1;4;5]%nat 2 1 1 sx_ready in
   psts_of b' 2 = [6;-2] /\ nsts_of b' 2 = [4] /\ sp_weights b' = [[4;-2];[1;1];[-3;6]]).
Proof.
  split; [apply sp_train_ex_inv; apply sx_good|]. split; [reflexivity|]. vm_compute. repeat split.
Qed.

(** ** C15 *)

(** A clause over the literal budget: weights unchanged, no automaton goes up. *)
Theorem C15_sparse_over_budget : forall boost dynamic lits pc pp nc np n b, sp_inv n b -> Forall (fun l => (l < n)%nat) lits ->
  let b' := sp_train_update true boost dynamic lits pc pp nc np (fst (sp_train_ex true lits b)) in
  forall k, (k < sp_ncl b)%nat ->
    sp_budget b < Z.of_nat (length (sp_included (prow_of b k) (psts_of b k)) + length (sp_included (nrow_of b k) (nsts_of b k))) ->
    no_rise (prow_of b k) (psts_of b k) (prow_of b' k) (psts_of b' k) /\
    no_rise (nrow_of b k) (nsts_of b k) (nrow_of b' k) (nsts_of b' k) /\
    nth k (sp_weights b') [] = nth k (sp_weights b) [].
Proof. exact sp_over_budget. Qed.

(** Clause 0 includes three literals, budget two. *)
Definition sx_tight : sblock :=
  mkSB 6 3 2 3 3 (-40) (sp_rows sx_block) (sp_states sx_block) (sp_al sx_block) (sp_repl sx_block) (sp_weights sx_block)
    [9;9;9] [8;8;8] [7;7] 2 (1#4) (3#4) ex_rng.
Example C15_sparse_case : sp_inv 6 sx_tight /\
  sp_weights (sp_train_update true false true [1;4;5]%nat 0 1 1 1 (fst (sp_train_ex true [1;4;5]%nat sx_tight))) = [[4;-2]; [2;0]; [-3;6]] /\
  sp_weights (sp_train_update true false true [1;4;5]%nat 0 1 1 1 (fst (sp_train_ex true [1;4;5]%nat sx_block))) = [[5;-3]; [2;0]; [-3;6]].
Proof.
  split; [destruct sx_good as [[A1 A2 A3 A4 A5 A6 A7 A8] _]; constructor; auto|]. split; vm_compute; reflexivity.
Qed.

Print Assumptions C31_get_after_set.
Print Assumptions C31_set_after_get.
Print Assumptions C31_save_after_load.
Print Assumptions C31_load_after_save.
Print Assumptions C31_ragged_refuted.
Print Assumptions C31_copy_refuted.
Print Assumptions C32_history.
Print Assumptions C32_initial.
Print Assumptions C32_history_weights.
Print Assumptions C33_exact.
Print Assumptions C33_holds_fires.
Print Assumptions C33_fires_partial.
Print Assumptions C33_last_excluded_refuted.
Print Assumptions C33_count.
Print Assumptions C33_evaluation.
Print Assumptions C33_one_sided_refuted.
Print Assumptions C34_rule_votes.
Print Assumptions C34_votes_partial.
Print Assumptions C34_predictor_partial.
Print Assumptions C34_one_sided_refuted.
Print Assumptions C34_state_zero_refuted.
Print Assumptions C34_all_excluded_refuted.
Print Assumptions C34_last_excluded_refuted.
Print Assumptions C42_kept.
Print Assumptions C42_half_partial.
Print Assumptions C42_removed_partial.
Print Assumptions C42_neighbours_refuted.
Print Assumptions C61_type1a.
Print Assumptions C61_type1b.
Print Assumptions C61_type2.
Print Assumptions C61_weights.
Print Assumptions C61_other_clauses.
Print Assumptions C61_active_literals.
Print Assumptions C15_sparse_over_budget.
