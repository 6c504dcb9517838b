(** Memory of the scalar machine: C101 (no access outside its arrays), C102 (what
    is allocated and what is released), C103 (what the preconditions are for). *)
From Coq Require Import ZArith List Bool QArith Lia ZifyBool.
From Verif Require Import Base ModelHeap ModelDense ModelFeedback ModelExecutor ModelDenseExec ModelTMHeap ModelHeapRun SpecHeap
  ProofsHeap ProofsTMHeapB ProofsTMHeapE ProofsTMHeapF ProofsTMHeapG ProofsTMHeapH ProofsHeapRun ProofsHeapMore ExampleData.
Import ListNotations.
Open Scope Z_scope.

(** ** C101 *)

(** initialize: whatever the memory looks like, the new object is the block of
    the list model, in fresh arrays; nothing else is touched. *)
Theorem C101_initialize : forall budget_on std_of fast_of nlit ncl ncls seed junk s h,
  fits nlit ncl ncls -> seed <> 0 ->
  hs_ncl s = Z.of_nat ncl -> hs_nlit s = Z.of_nat nlit -> hs_ncls s = Z.of_nat ncls ->
  exists b s' h',
    initialize std_of fast_of junk nlit ncl ncls (hs_budget s) (hs_s_inv s) (hs_s_min1_inv s) seed = Some b /\
    h_initialize budget_on std_of fast_of seed s h = Some ((true, s'), h') /\
    is_block budget_on false (fresh_ids (length h)) h' s' b /\
    forall id, (id < length h)%nat -> nth_error h' id = nth_error h id.
Proof.
  intros bo std_of fast_of nlit ncl ncls seed junk s h F SD N1 N2 N3.
  destruct (initialize_ok bo std_of fast_of nlit ncl ncls (hs_budget s) (hs_s_inv s) (hs_s_min1_inv s) seed junk s h)
    as (b & s1 & h1 & I1 & E1 & B1 & _ & _ & _ & _ & K1 & _); auto. eauto 8.
Qed.

(** One call of each kernel, in any state. *)
Theorem C101_train_outputs : forall budget_on counted i h s b il lits, is_block budget_on counted i h s b ->
  ~ In il (owned budget_on i) -> buffer_holds h il lits -> length lits = b_nlit b ->
  exists h', h_train_set_output budget_on (start il) s h = Some (tt, h') /\
    is_block budget_on true i h' s (train_set_clause_output budget_on lits b) /\
    only (i_outputs i :: (if budget_on then [i_counts i] else [])) h h'.
Proof. intros. eapply train_output_ok; eauto. Qed.

Theorem C101_eval_outputs : forall budget_on counted i h s b il lits, is_block budget_on counted i h s b ->
  ~ In il (owned budget_on i) -> buffer_holds h il lits -> length lits = b_nlit b ->
  exists h', h_eval_set_output (start il) s h = Some (tt, h') /\
    is_block budget_on counted i h' s (eval_set_clause_output lits b) /\ only [i_outputs i] h h'.
Proof. intros. eapply eval_output_ok; eauto. Qed.

Theorem C101_votes : forall budget_on counted i h s b, is_block budget_on counted i h s b ->
  exists h', h_count_votes s h = Some (tt, h') /\
    is_block budget_on counted i h' s (count_votes b) /\ only [i_votes i] h h'.
Proof. intros. eapply votes_ok; eauto. Qed.

Theorem C101_update : forall budget_on counted boost i h s b il lits pc pp nc np,
  is_block budget_on counted i h s b -> (budget_on = true -> counted = true) ->
  ~ In il (owned budget_on i) -> buffer_holds h il lits -> length lits = b_nlit b ->
  (pc < b_ncls b)%nat -> (nc < b_ncls b)%nat ->
  exists s' h', h_train_update budget_on boost (start il) (Z.of_nat pc) pp (Z.of_nat nc) np s h = Some (s', h') /\
    is_block budget_on counted i h' s' (train_update budget_on boost lits pc pp nc np b) /\
    only [i_clauses i; i_outputs i; i_weights i] h h'.
Proof. intros. eapply update_ok; eauto. Qed.

(** Training with any number of blocks on any sequence of examples. *)
Theorem C101_train : forall fl nlit ncls icur idata ilab is data idx counted h inp hb f mb,
  are_blocks (fl_budget fl) counted is h hb mb -> is_data h idata ilab icur inp nlit data ->
  dims nlit ncls mb -> fb_inv ncls f ->
  icur <> idata -> icur <> ilab ->
  (forall id, In id [icur; idata; ilab] -> ~ In id (concat (map (owned (fl_budget fl)) is))) ->
  (forall d, In d data -> (snd d < ncls)%nat) -> (forall k, In k idx -> (k < length data)%nat) ->
  let r := train_list block (list Z) (dense_train_ex (fl_budget fl)) (dense_upd (fl_budget fl) (fl_boost fl))
             nat fb_process (select (list Z) nat data idx) mb f in
  exists x h', h_train_list fl idx (mkHx inp hb f) h = Some (x, h') /\
    are_blocks (fl_budget fl) (match idx with [] => counted | _ => true end) is h' (hx_blocks x) (fst r) /\
    hx_fb x = snd r /\
    is_data h' idata ilab icur (hx_in x) nlit data /\
    only (icur :: concat (map (owned (fl_budget fl)) is)) h h'.
Proof.
  intros fl nlit ncls icur idata ilab is data idx ct h inp hb f mb [ND E] ID D FI N1 N2 NI LB IX r.
  assert (X1 := NI icur (or_introl eq_refl)). assert (X2 := NI idata (or_intror (or_introl eq_refl))).
  assert (X3 := NI ilab (or_intror (or_intror (or_introl eq_refl)))).
  destruct (train_list_ok fl nlit ncls icur idata ilab N1 N2 is ND X1 X2 X3 data LB idx ct h inp hb f mb IX E ID D FI)
    as (x & h' & R1 & R2 & R3 & R4 & _ & _ & R5).
  exists x, h'. split; [exact R1|]. split; [split; [exact ND|exact R2]|]. split; [exact R3|]. split; [exact R4|exact R5].
Qed.

(** Evaluating a data set into the caller's array. *)
Theorem C101_eval : forall fl nlit ncls icur idata ilab iout is data counted h inp hb f mb out0,
  are_blocks (fl_budget fl) counted is h hb mb -> is_data h idata ilab icur inp nlit data ->
  dims nlit ncls mb -> fb_inv ncls f -> holds h iout out0 -> length out0 = length data ->
  icur <> idata -> icur <> ilab -> iout <> icur -> iout <> idata -> iout <> ilab ->
  (forall id, In id [icur; idata; ilab; iout] -> ~ In id (concat (map (owned (fl_budget fl)) is))) ->
  let r := eval_list block (list Z) dense_eval_ex (map fst data) mb f in
  exists x h', h_eval_list (start iout) (seq 0 (length data)) (mkHx inp hb f) h = Some (x, h') /\
    holds h' iout (map Z.of_nat (fst (fst r))) /\
    are_blocks (fl_budget fl) counted is h' (hx_blocks x) (snd (fst r)) /\
    hx_fb x = snd r /\
    only (iout :: icur :: concat (map (owned (fl_budget fl)) is)) h h'.
Proof.
  intros fl nlit ncls icur idata ilab iout is data ct h inp hb f mb out0 [ND E] ID D FI HO LO N1 N2 N3 N4 N5 NI r.
  assert (X1 := NI icur (or_introl eq_refl)). assert (X2 := NI idata (or_intror (or_introl eq_refl))).
  assert (X3 := NI ilab (or_intror (or_intror (or_introl eq_refl)))).
  assert (X4 := NI iout (or_intror (or_intror (or_intror (or_introl eq_refl))))).
  destruct (eval_list_ok fl nlit ncls icur idata ilab N1 N2 is ND X1 X2 X3 iout X4 N3 N4 N5 data data [] ct h inp hb f mb [] out0 eq_refl E ID D FI HO eq_refl LO)
    as (x & h' & R1 & R2 & R3 & R4 & _ & R5).
  exists x, h'. split; [exact R1|]. split; [exact R2|]. split; [split; [exact ND|exact R3]|]. split; [exact R4|exact R5].
Qed.

(** Copying state and weights out and in, at any clause offset of a larger array. *)
Theorem C101_get_state : forall budget_on counted i h s b ia off A m B,
  is_block budget_on counted i h s b -> ~ In ia (owned budget_on i) ->
  cells h ia (A ++ m ++ B) -> length A = (off * b_nlit b * 2)%nat -> length m = (length (b_clauses b) * b_nlit b * 2)%nat ->
  Z.of_nat ((off + length (b_clauses b)) * b_nlit b * 2) <= int_max -> Z.of_nat (off + length (b_clauses b)) <= int_max ->
  exists h', h_get_clause_state s (start ia) (Z.of_nat off) h = Some (tt, h') /\
    cells h' ia (A ++ map Some (flat_clauses (b_clauses b)) ++ B) /\ only [ia] h h'.
Proof.
  intros bo ct i h s b ia off A m B H NI C LA LM I1 I2. destruct H. destruct ib_shaped as (S1 & _).
  destruct ib_clauses as [P HC]. unfold h_get_clause_state. rewrite ib_ncl, Nat2Z.id.
  destruct (get_state_loop (b_nlit b) off ia (i_clauses i) s) with (cs := b_clauses b) (dd := @nil clause) (dm := m) (A := A) (B := B) (h := h)
    as (h' & E & C' & U); auto.
  { intros X. apply NI. unfold owned. rewrite X. cbn [In]. auto. }
  { cbn [length]. now rewrite Nat.add_0_r. }
  { cbn [length]. now rewrite Nat.add_0_r. }
  exists h'. auto.
Qed.

Theorem C101_set_state : forall budget_on counted i h s b ia off A cs B,
  is_block budget_on counted i h s b -> ~ In ia (owned budget_on i) ->
  cells h ia (A ++ map Some (flat_clauses cs) ++ B) -> length A = (off * b_nlit b * 2)%nat ->
  length cs = length (b_clauses b) -> Forall (fun c => length (cl_pos c) = b_nlit b /\ length (cl_neg c) = b_nlit b) cs ->
  Z.of_nat ((off + length (b_clauses b)) * b_nlit b * 2) <= int_max -> Z.of_nat (off + length (b_clauses b)) <= int_max ->
  exists h', h_set_clause_state s (start ia) (Z.of_nat off) h = Some (tt, h') /\
    is_block budget_on counted i h' s
      (mkBlock (b_nlit b) (b_ncls b) cs (b_weights b) (b_outputs b) (b_counts b) (b_votes b) (b_budget b)
               (b_s_inv b) (b_s_min1_inv b) (b_rng b) (b_fast b)) /\
    only [i_clauses i] h h'.
Proof.
  intros bo ct i h s b ia off A cs B H NI C LA LC FC I1 I2.
  assert (NE : ia <> i_clauses i) by (intros X; apply NI; unfold owned; rewrite X; cbn [In]; auto).
  pose proof H as H0. destruct H. destruct ib_shaped as (S1 & S2 & S3 & S4 & S5). destruct ib_fits as (F1 & F2 & F3 & F4 & F5).
  destruct ib_clauses as [P HC]. unfold h_set_clause_state. rewrite ib_ncl, Nat2Z.id, <- LC.
  destruct (set_state_loop (b_nlit b) off ia (i_clauses i) s) with (cs := cs) (dd := @nil clause) (dm := map Some (flat_clauses (b_clauses b))) (A := A) (B := B) (h := h)
    as (h' & E & C' & U); auto.
  { cbn [length]. rewrite Nat.add_0_r, LC. exact I1. }
  { cbn [length]. rewrite Nat.add_0_r, LC. exact I2. }
  { rewrite map_length, (flat_len (b_nlit b)) by exact S1. rewrite LC. lia. }
  exists h'. split; [exact E|]. split; [|exact U].
  destruct (ProofsTMHeapC.nodup4 _ _ ib_distinct) as (D1 & D2 & D3 & D4 & D5 & D6 & D7).
  constructor; cbn [b_nlit b_ncls b_clauses b_weights b_outputs b_counts b_votes b_budget b_s_inv b_s_min1_inv b_rng b_fast]; auto.
  - red. cbn [b_nlit b_ncls b_clauses b_weights b_outputs b_votes]. rewrite LC. auto 6.
  - rewrite LC. red. auto 6.
  - now rewrite LC.
  - destruct ib_outputs as [Q1 Q2]. split; auto. eapply ProofsTMHeapC.cells_one; eauto.
  - destruct ib_votes as [Q1 Q2]. split; auto. eapply ProofsTMHeapC.cells_one; eauto.
  - destruct ib_weights as [Q1 Q2]. split; auto. eapply ProofsTMHeapC.cells_one; eauto.
  - intros X. destruct (ib_counts X) as (Q1 & k & Q2 & Q3 & Q4). split; auto. exists k.
    destruct (D7 X) as (D71 & _). rewrite LC. split; [eapply ProofsTMHeapC.cells_one; eauto|auto].
Qed.

Theorem C101_get_weights : forall budget_on counted i h s b ia off A m B,
  is_block budget_on counted i h s b -> ~ In ia (owned budget_on i) ->
  cells h ia (A ++ m ++ B) -> length A = (off * b_ncls b)%nat -> length m = (length (b_clauses b) * b_ncls b)%nat ->
  Z.of_nat ((off + length (b_clauses b)) * b_ncls b) <= int_max -> Z.of_nat (off + length (b_clauses b)) <= int_max ->
  exists h', h_get_clause_weights s (start ia) (Z.of_nat off) h = Some (tt, h') /\
    cells h' ia (A ++ map Some (concat (b_weights b)) ++ B) /\ only [ia] h h'.
Proof.
  intros bo ct i h s b ia off A m B H NI C LA LM I1 I2. destruct H. destruct ib_shaped as (S1 & S2 & S3 & _).
  destruct ib_weights as [P HC]. unfold h_get_clause_weights. rewrite ib_ncl, Nat2Z.id, <- S2.
  destruct (get_weights_loop (b_ncls b) off ia (i_weights i) s) with (ws := b_weights b) (dd := @nil (list Z)) (dm := m) (A := A) (B := B) (h := h)
    as (h' & E & C' & U); auto.
  { intros X. apply NI. unfold owned. rewrite X. cbn [In]. auto 6. }
  { cbn [length]. now rewrite Nat.add_0_r, S2. }
  { cbn [length]. now rewrite Nat.add_0_r, S2. }
  { now rewrite S2. }
  exists h'. auto.
Qed.

Theorem C101_set_weights : forall budget_on counted i h s b ia off A ws B,
  is_block budget_on counted i h s b -> ~ In ia (owned budget_on i) ->
  cells h ia (A ++ map Some (concat ws) ++ B) -> length A = (off * b_ncls b)%nat ->
  length ws = length (b_clauses b) -> Forall (fun w => length w = b_ncls b) ws ->
  Z.of_nat ((off + length (b_clauses b)) * b_ncls b) <= int_max -> Z.of_nat (off + length (b_clauses b)) <= int_max ->
  exists h', h_set_clause_weights s (start ia) (Z.of_nat off) h = Some (tt, h') /\
    is_block budget_on counted i h' s
      (mkBlock (b_nlit b) (b_ncls b) (b_clauses b) ws (b_outputs b) (b_counts b) (b_votes b) (b_budget b)
               (b_s_inv b) (b_s_min1_inv b) (b_rng b) (b_fast b)) /\
    only [i_weights i] h h'.
Proof.
  intros bo ct i h s b ia off A ws B H NI C LA LC FC I1 I2.
  assert (NE : ia <> i_weights i) by (intros X; apply NI; unfold owned; rewrite X; cbn [In]; auto 6).
  pose proof H as H0. destruct H. destruct ib_shaped as (S1 & S2 & S3 & S4 & S5).
  destruct ib_weights as [P HC]. unfold h_set_clause_weights. rewrite ib_ncl, Nat2Z.id, <- LC.
  destruct (set_weights_loop (b_ncls b) off ia (i_weights i) s) with (ws := ws) (dd := @nil (list Z)) (dm := map Some (concat (b_weights b))) (A := A) (B := B) (h := h)
    as (h' & E & C' & U); auto.
  { cbn [length]. rewrite Nat.add_0_r, LC. exact I1. }
  { cbn [length]. rewrite Nat.add_0_r, LC. exact I2. }
  { rewrite map_length, (ProofsTMHeapC.concat_len _ (b_ncls b)) by exact S3. rewrite LC, S2. lia. }
  exists h'. split; [exact E|]. split; [|exact U].
  destruct (ProofsTMHeapC.nodup4 _ _ ib_distinct) as (D1 & D2 & D3 & D4 & D5 & D6 & D7).
  constructor; cbn [b_nlit b_ncls b_clauses b_weights b_outputs b_counts b_votes b_budget b_s_inv b_s_min1_inv b_rng b_fast]; auto.
  - red. cbn [b_nlit b_ncls b_clauses b_weights b_outputs b_votes]. auto 6.
  - destruct ib_clauses as [Q1 Q2]. split; auto. eapply ProofsTMHeapC.cells_one; eauto.
  - destruct ib_outputs as [Q1 Q2]. split; auto. eapply ProofsTMHeapC.cells_one; eauto.
  - destruct ib_votes as [Q1 Q2]. split; auto. eapply ProofsTMHeapC.cells_one; eauto.
  - intros X. destruct (ib_counts X) as (Q1 & k & Q2 & Q3 & Q4). split; auto. exists k.
    destruct (D7 X) as (_ & _ & _ & D74). split; [eapply ProofsTMHeapC.cells_one; eauto|auto].
Qed.

(** The buffer of the input block has room for an example. *)
Theorem C101_new_input : forall nlit h, exists inp h', h_new_input (Z.of_nat nlit) h = Some (inp, h') /\
  in_nlit inp = Z.of_nat nlit /\ in_cur inp = start (length h) /\ is_buffer h' (length h) nlit /\
  (forall id, (id < length h)%nat -> nth_error h' id = nth_error h id).
Proof. intros nlit h. destruct (new_input_ok nlit h) as (inp & h' & A & B & C & D & E & _). eauto 8. Qed.

(** ** C102 *)

(** A session: blocks initialised, trained, cleaned up.  Nothing undefined, the
    trained blocks are the list model's, and one allocation per block stays. *)
Theorem C102_session : forall fl std_of fast_of junk nlit ncls icur idata ilab inp f hb seed data idx h,
  Forall (fun ts => sized nlit ncls (snd ts)) hb -> 0 < seed ->
  icur <> idata -> icur <> ilab ->
  is_data h idata ilab icur inp nlit data -> fb_inv ncls f ->
  (forall d, In d data -> (snd d < ncls)%nat) -> (forall k, In k idx -> (k < length data)%nat) ->
  exists x bs mb h1 h', h_session fl std_of fast_of seed idx inp hb f h = Some ((x, bs), h') /\
    built std_of fast_of junk nlit ncls seed hb mb /\
    (let r := train_list block (list Z) (dense_train_ex (fl_budget fl)) (dense_upd (fl_budget fl) (fl_boost fl))
                nat fb_process (select (list Z) nat data idx) mb f in
     are_blocks (fl_budget fl) (match idx with [] => false | _ => true end)
       (fresh_list (fl_budget fl) (length h) (length hb)) h1 (hx_blocks x) (fst r) /\ hx_fb x = snd r) /\
    Forall (fun ts => released (fl_budget fl) (snd ts)) bs /\ length bs = length hb /\
    live h' = (live h + length hb)%nat /\
    (forall id, (id < length h)%nat -> id <> icur -> nth_error h' id = nth_error h id).
Proof. exact session_ok. Qed.

(** initialize makes four or five allocations; cleanup leaves one of them. *)
Theorem C102_cycle : forall budget_on std_of fast_of nlit ncls seed s h, sized nlit ncls s -> seed <> 0 ->
  exists s1 h1 s2 h2, h_initialize budget_on std_of fast_of seed s h = Some ((true, s1), h1) /\
    live h1 = (live h + (if budget_on then 5 else 4))%nat /\
    h_cleanup budget_on s1 h1 = Some (s2, h2) /\ live h2 = S (live h).
Proof.
  intros bo std_of fast_of nlit ncls seed s h Z SD.
  destruct (cycle_ok bo std_of fast_of nlit ncls seed s h Z SD) as (s1 & h1 & s2 & h2 & A & B & C & D & _). eauto 10.
Qed.

(** [k] cycles on one object leave [k] allocations behind. *)
Theorem C102_leak_grows : forall budget_on std_of fast_of nlit ncls seed k s h, sized nlit ncls s -> seed <> 0 ->
  exists s' h', h_cycles budget_on std_of fast_of seed k s h = Some (s', h') /\ live h' = (live h + k)%nat.
Proof. intros. eapply cycles_ok; eauto. Qed.

(** So cleanup does not undo initialize. *)
Theorem C102_release_refuted : ~ (forall budget_on std_of fast_of nlit ncls seed s h s1 h1 s2 h2,
  sized nlit ncls s -> h_initialize budget_on std_of fast_of seed s h = Some ((true, s1), h1) ->
  h_cleanup budget_on s1 h1 = Some (s2, h2) -> live h2 = live h).
Proof.
  intros X.
  assert (Z : sized 2 2 (h_construct 2 1 2 100 (1#4) (3#4) ex_rng ex_rng)).
  { red. cbn. split; [reflexivity|]. split; [reflexivity|]. split; [lia|]. red. unfold int_max. cbn. lia. }
  destruct (cycle_ok true (fun _ => ex_rng) (fun _ => ex_rng) 2 2 7 _ [] Z ltac:(lia)) as (s1 & h1 & s2 & h2 & A & _ & C & D & _).
  specialize (X _ _ _ _ _ _ _ _ _ _ _ _ Z A C). rewrite X in D. cbn in D. discriminate.
Qed.

(** A second cleanup does nothing. *)
Theorem C102_cleanup_twice : forall budget_on s h s1 h1, h_cleanup budget_on s h = Some (s1, h1) ->
  exists s2, h_cleanup budget_on s1 h1 = Some (s2, h1).
Proof.
  intros bo s h s1 h1 E. unfold h_cleanup in E.
  do 4 (unfold bind at 1 in E; match type of E with match ?x with _ => _ end = _ => destruct x as [[? ?]|]; [|discriminate] end).
  inversion E; subst. apply cleanup_null; try reflexivity. intros ->. reflexivity.
Qed.

(** Training and evaluating allocate and release nothing. *)
Theorem C102_running : forall fl out idx x h x' h',
  h_train_list fl idx x h = Some (x', h') \/ h_eval_list out idx x h = Some (x', h') -> live h' = live h.
Proof.
  intros fl out idx x h x' h' [E|E]; rewrite !live_kinds; [rewrite (keeps_train_list _ _ _ _ _ _ E)|rewrite (keeps_eval_list _ _ _ _ _ _ E)]; reflexivity.
Qed.

(** ** C103 *)

(** Sizes whose products leave int. *)
Theorem C103_clause_array : forall budget_on std_of fast_of seed s h, seed <> 0 ->
  0 <= hs_ncl s -> 0 <= hs_nlit s -> 2 ^ 31 - 1 < hs_ncl s * hs_nlit s * 2 ->
  h_initialize budget_on std_of fast_of seed s h = None.
Proof. intros. now apply size_clauses. Qed.

Theorem C103_weight_array : forall budget_on std_of fast_of seed s h, seed <> 0 ->
  0 <= hs_ncl s -> 0 <= hs_nlit s -> hs_ncl s * hs_nlit s * 2 <= 2 ^ 31 - 1 -> hs_ncl s <= 2 ^ 31 - 1 ->
  2 ^ 31 - 1 < hs_ncl s * hs_ncls s ->
  h_initialize budget_on std_of fast_of seed s h = None.
Proof. intros. now apply size_weights. Qed.

(** An example whose offset leaves int. *)
Theorem C103_example_offset : forall index inp h, 0 <= index -> 2 ^ 31 - 1 < index * in_nlit inp ->
  h_prepare index inp h = None.
Proof. intros. now apply data_index. Qed.

(** A label that is no class. *)
Theorem C103_label : forall fl nlit ncls icur idata ilab is counted h inp hb f mb data k lits label,
  are_blocks (fl_budget fl) counted is h hb mb -> is_data h idata ilab icur inp nlit data ->
  dims nlit ncls mb -> fb_inv ncls f -> icur <> idata -> icur <> ilab ->
  (forall id, In id [icur; idata; ilab] -> ~ In id (concat (map (owned (fl_budget fl)) is))) ->
  nth_error data k = Some (lits, label) -> (ncls <= label)%nat ->
  h_train_one fl k (mkHx inp hb f) h = None.
Proof.
  intros fl nlit ncls icur idata ilab is ct h inp hb f mb data k lits label [ND E] ID D FI N1 N2 NI EK L.
  eapply (bad_label fl nlit ncls icur idata ilab is N1 N2 ND); eauto.
  - apply NI. cbn [In]. auto.
  - apply NI. cbn [In]. auto.
Qed.

(** Seed 0: nothing is allocated, initialize says so, and loading a state into
    the object writes through a null pointer. *)
Theorem C103_seed_zero : forall budget_on std_of fast_of nlit ncl ncls budget si sm r f h arr off,
  0 < ncl ->
  exists s', h_initialize budget_on std_of fast_of 0 (h_construct nlit ncl ncls budget si sm r f) h = Some ((false, s'), h) /\
    h_set_clause_state s' arr off h = None.
Proof.
  intros. destruct (seed_zero budget_on std_of fast_of (h_construct nlit ncl ncls budget si sm r f) h) as (s' & E & P & _ & N & _).
  exists s'. split; [exact E|]. apply set_state_null; [exact P|]. rewrite N. exact H.
Qed.

(** ** Examples *)
Definition hx_lits : list Z := [1; 0; 0; 1].
(** numpy's data and labels, and the buffer of the input block. *)
Definition hx_heap : heap :=
  [Some (mkChunk KMalloc (map Some hx_lits)); Some (mkChunk KMalloc [Some 0; Some 1]); Some (mkChunk KMalloc (repeat (Some 0) 32))].
Definition hx_inp : hinput := mkIn 2 2 1 (start 0) (start 1) (start 2) null.
Definition hx_data : list (list Z * nat) := [([1; 0], 0%nat); ([0; 1], 1%nat)].
Definition hx_obj (n : Z) : hstate := h_construct 2 n 2 100 (1#4) (3#4) ex_rng ex_rng.
Definition hx_fb0 : fblock := new_fblock 2 10 ex_rng.

Example C101_example : exists s h, h_initialize true (fun _ => ex_rng) (fun _ => ex_rng) 7 (hx_obj 2) hx_heap = Some ((true, s), h) /\
  length h = 8%nat /\ fits 2 2 2 /\
  exists h2 s2, h_train_list (mkFl true false) [1; 0]%nat (mkHx hx_inp [(true, s)] hx_fb0) h = Some (s2, h2) /\ nth_error h2 3 <> nth_error h 3.
Proof.
  eexists. eexists. split; [vm_compute; reflexivity|]. split; [reflexivity|]. split; [red; unfold int_max; cbn; lia|].
  eexists. eexists. split; [vm_compute; reflexivity|]. vm_compute. discriminate.
Qed.
Example C101_data_example : is_data hx_heap 0 1 2 hx_inp 2 hx_data /\ fb_inv 2 hx_fb0 /\ sized 2 2 (hx_obj 3).
Proof.
  split; [|split; [split; reflexivity|]].
  - constructor; try reflexivity.
    + split; [reflexivity|]. exists KMalloc. reflexivity.
    + split; [reflexivity|]. exists KMalloc. reflexivity.
    + split; [reflexivity|]. exists (repeat (Some 0) 32). split; [exists KMalloc; reflexivity|cbn; lia].
    + repeat constructor.
    + unfold int_max. cbn. lia.
  - red. cbn. split; [reflexivity|]. split; [reflexivity|]. split; [lia|]. red. unfold int_max. cbn. lia.
Qed.
Example C102_example : exists r h, h_session (mkFl true true) (fun _ => ex_rng) (fun _ => ex_rng) 7 [0; 1; 0]%nat hx_inp
    [(true, hx_obj 2); (true, hx_obj 3)] hx_fb0 hx_heap = Some (r, h) /\ live hx_heap = 3%nat /\ live h = 5%nat /\ length h = 13%nat.
Proof. eexists. eexists. split; [vm_compute; reflexivity|]. auto. Qed.
Example C103_example : h_initialize false (fun _ => ex_rng) (fun _ => ex_rng) 7 (h_construct 50000 30000 2 100 (1#4) (3#4) ex_rng ex_rng) [] = None /\
  h_prepare 3000000 (mkIn 784 3000001 1 (start 0) (start 1) (start 2) null) hx_heap = None.
Proof. split; reflexivity. Qed.
(** The same objects just inside the bound: defined. *)
Example C103_inside : exists s h, h_initialize false (fun _ => ex_rng) (fun _ => ex_rng) 7 (h_construct 50 30 2 100 (1#4) (3#4) ex_rng ex_rng) [] = Some ((true, s), h).
Proof. eexists. eexists. vm_compute. reflexivity. Qed.

Print Assumptions C101_initialize.
Print Assumptions C101_train_outputs.
Print Assumptions C101_eval_outputs.
Print Assumptions C101_votes.
Print Assumptions C101_update.
Print Assumptions C101_train.
Print Assumptions C101_eval.
Print Assumptions C101_get_state.
Print Assumptions C101_set_state.
Print Assumptions C101_get_weights.
Print Assumptions C101_set_weights.
Print Assumptions C101_new_input.
Print Assumptions C102_session.
Print Assumptions C102_cycle.
Print Assumptions C102_leak_grows.
Print Assumptions C102_release_refuted.
Print Assumptions C102_cleanup_twice.
Print Assumptions C102_running.
Print Assumptions C103_clause_array.
Print Assumptions C103_weight_array.
Print Assumptions C103_example_offset.
Print Assumptions C103_label.
Print Assumptions C103_seed_zero.
