(** Vocabulary for the sparse properties. *)
From Coq Require Import ZArith List Bool QArith Lia Sorted.
From Verif Require Import Base Spec ModelSparse.
Import ListNotations.
Open Scope Z_scope.

(** An example, a clause row: strictly increasing literal numbers. *)
Definition increasing (l : list nat) : Prop := StronglySorted lt l.

(** The literals whose automaton includes them (state >= 0). *)
Definition sp_included (row : list nat) (sts : list Z) : list nat :=
  map fst (filter (fun p : nat * Z => 0 <=? snd p) (combine row sts)).

(** Every included literal of the clause holds on the example. *)
Definition sp_holds (lits prow : list nat) (psts : list Z) (nrow : list nat) (nsts : list Z) : Prop :=
  (forall l, In l (sp_included prow psts) -> In l lits) /\
  (forall l, In l (sp_included nrow nsts) -> ~ In l lits).

(** One clause vector: increasing literals below [n], one int8 state each, at
    most [cap] of them. *)
Record row_inv (n cap : nat) (row : list nat) (sts : list Z) : Prop := {
  ri_inc : increasing row;
  ri_lit : Forall (fun l => (l < n)%nat) row;
  ri_len : length sts = length row;
  ri_cap : (length row <= cap)%nat;
  ri_int : Forall is_int8 sts
}.

(** A sparse block in a legal state. *)
Record sp_inv (n : nat) (b : sblock) : Prop := {
  si_rows : length (sp_rows b) = (2 * sp_ncl b)%nat;
  si_states : length (sp_states b) = (2 * sp_ncl b)%nat;
  si_row : forall i, (i < 2 * sp_ncl b)%nat ->
    row_inv n (sp_csize b) (nth i (sp_rows b) []) (nth i (sp_states b) []);
  si_alpos : (1 <= sp_alsize b)%nat;
  si_al_len : length (sp_al b) = sp_ncls b;
  si_al : forall c, (c < sp_ncls b)%nat ->
    NoDup (nth c (sp_al b) []) /\ (length (nth c (sp_al b) []) <= sp_alsize b)%nat /\
    Forall (fun l => (l < n)%nat) (nth c (sp_al b) []);
  si_repl_len : length (sp_repl b) = sp_ncls b;
  si_repl : forall c, (c < sp_ncls b)%nat -> (nth c (sp_repl b) O < sp_alsize b)%nat
}.

(** A valid CSR matrix with [n] rows. *)
Definition csr_valid (n : nat) (c : csr) : Prop :=
  let '(data, indices, indptr) := c in
  length indptr = S n /\ nth 0 indptr O = O /\ length indices = length data /\
  nth n indptr O = length data /\
  forall i, (i < n)%nat -> (nth i indptr O <= nth (S i) indptr O)%nat.

(** The 0/1 input vector of [n] literals given by the list of its ones. *)
Definition vec (n : nat) (lits : list nat) : list Z :=
  map (fun i => if existsb (Nat.eqb i) lits then 1 else 0) (seq 0 n).

(** The literals with a state above 0. *)
Definition sp_strict (row : list nat) (sts : list Z) : list nat :=
  map fst (filter (fun p : nat * Z => 0 <? snd p) (combine row sts)).

(** The rule a clause stands for: literal numbers, negated ones from [n] on. *)
Definition sp_key (n : nat) (prow : list nat) (psts : list Z) (nrow : list nat) (nsts : list Z) : list nat :=
  sp_strict prow psts ++ map (fun l => (l + n)%nat) (sp_strict nrow nsts).

(** A clause on which the evaluation and the rule set read the states the same
    way: no state is 0; and either both vectors are there, something is
    included and the last positive literal of the clause is included or not
    beyond the example; or a vector is missing and nothing is included. *)
Definition sp_plain (lits prow : list nat) (psts : list Z) (nrow : list nat) (nsts : list Z) : Prop :=
  Forall (fun v => v <> 0) psts /\ Forall (fun v => v <> 0) nsts /\
  ((prow <> [] /\ nrow <> [] /\ (exists l, In l (sp_included prow psts) \/ In l (sp_included nrow nsts)) /\
    (0 <= last psts 0 \/ forall l, In l (sp_included prow psts) -> exists x, In x lits /\ (l <= x)%nat)) \/
   ((prow = [] \/ nrow = []) /\ sp_included prow psts = [] /\ sp_included nrow nsts = [])).

(** Sum of the class-[c] weights of the selected clauses. *)
Fixpoint pick_total {A} (sel : A -> bool) (cls : list A) (ws : list (list Z)) (c : nat) : Z :=
  match cls, ws with
  | cl :: cls', w :: ws' => (if sel cl then nth c w 0 else 0) + pick_total sel cls' ws' c
  | _, _ => 0
  end.

(** A block in a legal state with weights of the right shape. *)
Definition sp_good (n ncls : nat) (b : sblock) : Prop :=
  sp_inv n b /\ sp_ncls b = ncls /\ length (sp_weights b) = sp_ncl b /\ rows_of ncls (sp_weights b).

(** The rule of clause [k] of a block; the rules and the weights of all clauses
    of all blocks. *)
Definition bkey (n : nat) (b : sblock) (k : nat) : list nat := sp_key n (prow_of b k) (psts_of b k) (nrow_of b k) (nsts_of b k).
Definition all_keys (n : nat) (cbs : list sblock) : list (list nat) := concat (map (fun b => map (bkey n b) (seq 0 (sp_ncl b))) cbs).
Definition all_wts (cbs : list sblock) : list (list Z) := concat (map sp_weights cbs).

(** A rule fires: it is not empty and everything in it holds. *)
Definition key_fires (n : nat) (x : list Z) (key : list nat) : bool := match key with [] => false | _ => conj_true n x key end.

(** Every clause of the block is plain on the example. *)
Definition all_plain (lits : list nat) (b : sblock) : Prop :=
  forall k, (k < sp_ncl b)%nat -> sp_plain lits (prow_of b k) (psts_of b k) (nrow_of b k) (nsts_of b k).

Definition nsum (l : list nat) : nat := fold_right Nat.add O l.

(** Nothing but the learned state of the two blocks is compared. *)
Definition same_state (a b : sblock) : Prop :=
  sp_rows a = sp_rows b /\ sp_states a = sp_states b /\ sp_weights a = sp_weights b /\ sp_al a = sp_al b.

(** What reading a block out needs: the sizes it was initialised with. *)
Definition sized (b : sblock) : Prop :=
  length (sp_rows b) = (2 * sp_ncl b)%nat /\ length (sp_states b) = (2 * sp_ncl b)%nat /\
  (forall i, (i < 2 * sp_ncl b)%nat -> length (nth i (sp_states b) []) = length (nth i (sp_rows b) [])) /\
  length (sp_weights b) = sp_ncl b /\ length (sp_al b) = sp_ncls b /\ (1 <= sp_ncls b)%nat.

(** All active literal lists of a block have the same length. *)
Definition even_al (al : list (list nat)) : Prop := forall r, In r al -> length r = length (hd [] al).

(** The clause vector has an automaton for literal [l], in state [v]. *)
Definition has (row : list nat) (sts : list Z) (l : nat) (v : Z) : Prop := In (l, v) (combine row sts).

(** Some draw from the generator compares to [p] with result [d]. *)
Definition drawn (r : rng) (p : Q) (d : bool) : Prop := exists j, Qle_bool (rng_src r (rng_pos r + j)) p = d.

(** One randomised step up (certain with boost), stopping at 127; one step down,
    stopping at -127. *)
Definition step_up (boost : bool) (r : rng) (p : Q) (v v' : Z) : Prop :=
  (v' = v /\ (127 <= v \/ boost = false /\ drawn r p false)) \/
  (v' = v + 1 /\ v < 127 /\ (boost = true \/ drawn r p true)).
Definition step_down (r : rng) (p : Q) (v v' : Z) : Prop :=
  (v' = v /\ (v <= -127 \/ drawn r p false)) \/ (v' = v - 1 /\ -127 < v /\ drawn r p true).

(** A pruned automaton is gone; the others are there. *)
Definition kept (thr : Z) (row : list nat) (sts : list Z) (l : nat) (v : Z) : Prop :=
  has row sts l v \/ (v < thr /\ ~ In l row).

(** The sign a weight gives to the feedback. *)
Definition wsign (w : Z) : Z := if 0 <=? w then 1 else -1.

(** No automaton of the second vector is above the one of the same literal in
    the first. *)
Definition no_rise (row : list nat) (sts : list Z) (row' : list nat) (sts' : list Z) : Prop :=
  forall l v', has row' sts' l v' -> exists v, has row sts l v /\ v' <= v.
