(** What it means that memory holds a block, an input block, a data set. *)
From Coq Require Import ZArith List Bool QArith Lia.
From Verif Require Import Base ModelHeap ModelDense ModelFeedback ModelTMHeap.
Import ListNotations.
Open Scope Z_scope.

(** Allocation [id] is live and has exactly these elements. *)
Definition cells (h : heap) (id : nat) (cs : list (option Z)) : Prop :=
  exists k, nth_error h id = Some (Some (mkChunk k cs)).
(** ... all of them written. *)
Definition holds (h : heap) (id : nat) (vs : list Z) : Prop := cells h id (map Some vs).
(** A pointer to its first element. *)
Definition start (id : nat) : ptr := Some (mkAddr id 0).

(** Nothing but the allocations [ids] differs: nothing was allocated or released either. *)
Definition only (ids : list nat) (h h' : heap) : Prop :=
  length h' = length h /\ forall id, ~ In id ids -> nth_error h' id = nth_error h id.

(** The arrays of one block. *)
Record ids := mkIds { i_clauses : nat; i_outputs : nat; i_votes : nat; i_weights : nat; i_counts : nat }.
Definition owned (budget_on : bool) (i : ids) : list nat :=
  i_clauses i :: i_outputs i :: i_votes i :: i_weights i :: (if budget_on then [i_counts i] else []).

(** The clause array: positive half, negated half, clause after clause. *)
Definition flat_clauses (cs : list clause) : list Z := concat (map (fun c => cl_pos c ++ cl_neg c) cs).

(** A block with the sizes its fields announce. *)
Definition shaped (b : block) : Prop :=
  Forall (fun c => length (cl_pos c) = b_nlit b /\ length (cl_neg c) = b_nlit b) (b_clauses b) /\
  length (b_weights b) = length (b_clauses b) /\
  Forall (fun w => length w = b_ncls b) (b_weights b) /\
  length (b_outputs b) = length (b_clauses b) /\
  length (b_votes b) = b_ncls b.

(** The int computations of the kernels stay in range. *)
Definition fits (nlit ncl ncls : nat) : Prop :=
  Z.of_nat (ncl * nlit * 2) <= int_max /\ Z.of_nat (ncl * ncls) <= int_max /\
  Z.of_nat (nlit * 2) <= int_max /\ Z.of_nat ncl <= int_max /\ Z.of_nat ncls <= int_max.

(** The object [s] with the memory [h] is the block [b]; [counted]: the literal
    counts have been written (before, any written ones agree). *)
Record is_block (budget_on counted : bool) (i : ids) (h : heap) (s : hstate) (b : block) : Prop := {
  ib_shaped : shaped b;
  ib_fits : fits (b_nlit b) (length (b_clauses b)) (b_ncls b);
  ib_ncl : hs_ncl s = Z.of_nat (length (b_clauses b));
  ib_nlit : hs_nlit s = Z.of_nat (b_nlit b);
  ib_lmem : hs_lmem s = Z.of_nat (b_nlit b);
  ib_ncls : hs_ncls s = Z.of_nat (b_ncls b);
  ib_wmem : hs_wmem s = Z.of_nat (b_ncls b);
  ib_budget : hs_budget s = b_budget b;
  ib_s_inv : hs_s_inv s = b_s_inv b;
  ib_s_min1 : hs_s_min1_inv s = b_s_min1_inv b;
  ib_rng : hs_rng s = b_rng b;
  ib_fast : hs_fast s = b_fast b;
  ib_init : hs_init s = true;
  ib_distinct : NoDup (owned budget_on i);
  ib_clauses : hs_clauses s = start (i_clauses i) /\ holds h (i_clauses i) (flat_clauses (b_clauses b));
  ib_outputs : hs_outputs s = start (i_outputs i) /\ holds h (i_outputs i) (b_outputs b);
  ib_votes : hs_votes s = start (i_votes i) /\ holds h (i_votes i) (b_votes b);
  ib_weights : hs_weights s = start (i_weights i) /\ holds h (i_weights i) (concat (b_weights b));
  ib_counts : budget_on = true ->
    hs_counts s = start (i_counts i) /\
    exists cs, cells h (i_counts i) cs /\ length cs = length (b_clauses b) /\
               (counted = true -> cs = map Some (b_counts b) /\ length (b_counts b) = length (b_clauses b))
}.

(** Block after block: same trainable flag, each with its own arrays. *)
Fixpoint each_block (budget_on counted : bool) (h : heap) (is : list ids)
  (hb : list (bool * hstate)) (mb : list (bool * block)) : Prop :=
  match is, hb, mb with
  | [], [], [] => True
  | i :: is', (t, s) :: hb', (t', b) :: mb' =>
      t = t' /\ is_block budget_on counted i h s b /\ each_block budget_on counted h is' hb' mb'
  | _, _, _ => False
  end.

(** Blocks of an executor: one set of arrays each, all different. *)
Definition are_blocks (budget_on counted : bool) (is : list ids) (h : heap)
  (hb : list (bool * hstate)) (mb : list (bool * block)) : Prop :=
  NoDup (concat (map (owned budget_on) is)) /\ each_block budget_on counted h is hb mb.

(** The example buffer: room for at least one example. *)
Definition is_buffer (h : heap) (id : nat) (nlit : nat) : Prop :=
  exists cs, cells h id cs /\ (nlit <= length cs)%nat.
(** ... with the literals of an example at its beginning. *)
Definition buffer_holds (h : heap) (id : nat) (lits : list Z) : Prop :=
  exists rest, cells h id (map Some lits ++ rest).

(** A data set in memory: rows one after the other, one label per row. *)
Record is_data (h : heap) (idata ilab icur : nat) (b : hinput) (nlit : nat)
  (data : list (list Z * nat)) : Prop := {
  id_nlit : in_nlit b = Z.of_nat nlit;
  id_nlab : in_nlab b = 1;
  id_data : in_data b = start idata /\ holds h idata (concat (map fst data));
  id_labels : in_labels b = start ilab /\ holds h ilab (map (fun d => Z.of_nat (snd d)) data);
  id_cur : in_cur b = start icur /\ is_buffer h icur nlit;
  id_rows : Forall (fun d => length (fst d) = nlit) data;
  id_fits : Z.of_nat (length data * nlit) <= int_max /\ Z.of_nat (length data) <= int_max
}.

(** Dimensions shared by the blocks of an executor and its feedback block. *)
Definition dims (nlit ncls : nat) (mb : list (bool * block)) : Prop :=
  Forall (fun tb => b_nlit (snd tb) = nlit /\ b_ncls (snd tb) = ncls) mb.
Definition fb_inv (ncls : nat) (f : fblock) : Prop := fb_ncls f = ncls /\ length (fb_votes f) = ncls.

(** The allocation numbers initialize uses. *)
Definition fresh_ids (n : nat) : ids := mkIds n (n + 1) (n + 3) (n + 2) (n + 4).

(** Allocations per block, and the ones a whole list of blocks receives. *)
Definition per (bo : bool) : nat := if bo then 5%nat else 4%nat.
Fixpoint fresh_list (bo : bool) (n : nat) (k : nat) : list ids :=
  match k with O => [] | S k' => fresh_ids n :: fresh_list bo (n + per bo) k' end.

(** The blocks the list model builds for the same parameters and seeds. *)
Fixpoint built (std_of fast_of : Z -> rng) (junk : list Z) (nlit ncls : nat) (seed : Z)
  (hb : list (bool * hstate)) (mb : list (bool * block)) : Prop :=
  match hb, mb with
  | [], [] => True
  | (t, s) :: hb', (t', b) :: mb' =>
      t = t' /\ initialize std_of fast_of junk nlit (Z.to_nat (hs_ncl s)) ncls (hs_budget s) (hs_s_inv s)
                  (hs_s_min1_inv s) seed = Some b /\
      built std_of fast_of junk nlit ncls (seed + 1) hb' mb'
  | _, _ => False
  end.

(** Parameters an object may be initialised with. *)
Definition sized (nlit ncls : nat) (s : hstate) : Prop :=
  hs_nlit s = Z.of_nat nlit /\ hs_ncls s = Z.of_nat ncls /\ 0 <= hs_ncl s /\
  fits nlit (Z.to_nat (hs_ncl s)) ncls.

(** An object cleanup has gone over: no pointer left but clause_outputs. *)
Definition released (bo : bool) (s : hstate) : Prop :=
  hs_clauses s = null /\ hs_votes s = null /\ hs_weights s = null /\ (bo = true -> hs_counts s = null) /\ hs_init s = false.
