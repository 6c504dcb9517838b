(** Transfer of states between DenseState arrays and the flat block memory. *)
From Coq Require Import ZArith List Bool Lia.
From Verif Require Import Base BaseProofs Spec ModelRuleSet ModelDense ModelLayout.
Import ListNotations.
Open Scope nat_scope.

Lemma memcpy_length : forall dst doff src soff n,
  doff + n <= length dst -> soff + n <= length src -> length (memcpy dst doff src soff n) = length dst.
Proof.
  intros. unfold memcpy. rewrite !app_length, !firstn_length, !skipn_length. lia.
Qed.

Lemma nth_firstn_lt : forall (l : list Z) n k d, k < n -> nth k (firstn n l) d = nth k l d.
Proof.
  induction l as [|a l IH]; intros [|n] [|k] d H; simpl; auto; try lia. apply IH. lia.
Qed.

Lemma nth_skipn : forall (l : list Z) n k d, nth k (skipn n l) d = nth (n + k) l d.
Proof.
  induction l as [|a l IH]; intros [|n] k d; simpl; auto. now destruct k.
Qed.

Lemma memcpy_nth : forall dst doff src soff n k,
  doff + n <= length dst -> soff + n <= length src ->
  nth k (memcpy dst doff src soff n) 0%Z =
  if (doff <=? k) && (k <? doff + n) then nth (soff + (k - doff)) src 0%Z else nth k dst 0%Z.
Proof.
  intros dst doff src soff n k H1 H2. unfold memcpy.
  destruct (Nat.leb_spec doff k).
  - rewrite app_nth2; rewrite firstn_length; [|lia]. rewrite Nat.min_l by lia.
    destruct (Nat.ltb_spec k (doff + n)); simpl.
    + rewrite app_nth1; [|rewrite firstn_length, skipn_length; lia].
      rewrite nth_firstn_lt by lia. now rewrite nth_skipn.
    + rewrite app_nth2; rewrite firstn_length, skipn_length; [|lia].
      rewrite nth_skipn. f_equal. lia.
  - simpl. rewrite app_nth1; [|rewrite firstn_length; lia]. now rewrite nth_firstn_lt by lia.
Qed.

Lemma set_clause_state_spec : forall f src off,
  f_nlit f <= f_lmem f -> length (f_clauses f) = f_ncl f * (f_lmem f * 2) ->
  (off + f_ncl f) * (f_nlit f * 2) <= length src ->
  let m' := f_clauses (set_clause_state f src off) in
  length m' = length (f_clauses f) /\
  (forall i r, i < f_ncl f -> r < f_lmem f ->
     nth (i * (f_lmem f * 2) + r) m' 0%Z =
       (if r <? f_nlit f then nth ((i + off) * (f_nlit f * 2) + r) src 0%Z
        else nth (i * (f_lmem f * 2) + r) (f_clauses f) 0%Z) /\
     nth (i * (f_lmem f * 2) + f_lmem f + r) m' 0%Z =
       (if r <? f_nlit f then nth ((i + off) * (f_nlit f * 2) + f_nlit f + r) src 0%Z
        else nth (i * (f_lmem f * 2) + f_lmem f + r) (f_clauses f) 0%Z)).
Proof.
  intros f src off Hl Hm Hs. unfold set_clause_state. cbv zeta. cbn [f_clauses].
  assert (G : forall n, n <= f_ncl f ->
    let m' := for_loop n (fun i mem =>
      memcpy (memcpy mem (i * (f_lmem f * 2)) src ((i + off) * (f_nlit f * 2)) (f_nlit f))
             (i * (f_lmem f * 2) + f_lmem f) src ((i + off) * (f_nlit f * 2) + f_nlit f) (f_nlit f)) (f_clauses f) in
    length m' = length (f_clauses f) /\
    (forall k, n * (f_lmem f * 2) <= k -> nth k m' 0%Z = nth k (f_clauses f) 0%Z) /\
    (forall i r, i < n -> r < f_lmem f ->
     nth (i * (f_lmem f * 2) + r) m' 0%Z =
       (if r <? f_nlit f then nth ((i + off) * (f_nlit f * 2) + r) src 0%Z
        else nth (i * (f_lmem f * 2) + r) (f_clauses f) 0%Z) /\
     nth (i * (f_lmem f * 2) + f_lmem f + r) m' 0%Z =
       (if r <? f_nlit f then nth ((i + off) * (f_nlit f * 2) + f_nlit f + r) src 0%Z
        else nth (i * (f_lmem f * 2) + f_lmem f + r) (f_clauses f) 0%Z))).
  { induction n as [|n IH]; intros Hn; cbn [for_loop].
    - split; [|split]; auto. intros; lia.
    - destruct IH as [I1 [I2 I3]]; [lia|]. cbv zeta in *.
      set (m := for_loop n _ (f_clauses f)) in *. clearbody m.
      assert (B1 : n * (f_lmem f * 2) + f_lmem f * 2 <= length m) by (rewrite I1, Hm; nia).
      assert (B2 : (n + off) * (f_nlit f * 2) + f_nlit f * 2 <= length src) by nia.
      assert (L1 : length (memcpy m (n * (f_lmem f * 2)) src ((n + off) * (f_nlit f * 2)) (f_nlit f)) = length m)
        by (apply memcpy_length; lia).
      split; [|split].
      + rewrite memcpy_length; lia.
      + intros k Hk. rewrite memcpy_nth by lia.
        destruct (Nat.leb_spec (n * (f_lmem f * 2) + f_lmem f) k); destruct (Nat.ltb_spec k (n * (f_lmem f * 2) + f_lmem f + f_nlit f)); simpl; try lia.
        * rewrite memcpy_nth by lia. destruct (Nat.leb_spec (n * (f_lmem f * 2)) k); destruct (Nat.ltb_spec k (n * (f_lmem f * 2) + f_nlit f)); simpl; try lia; apply I2; lia.
      + intros i r Hi Hr. destruct (Nat.eq_dec i n) as [->|Hne].
        * split.
          -- rewrite memcpy_nth by lia.
             destruct (Nat.leb_spec (n * (f_lmem f * 2) + f_lmem f) (n * (f_lmem f * 2) + r)); [lia|]. simpl.
             rewrite memcpy_nth by lia.
             destruct (Nat.leb_spec (n * (f_lmem f * 2)) (n * (f_lmem f * 2) + r)); [|lia].
             destruct (Nat.ltb_spec r (f_nlit f)); destruct (Nat.ltb_spec (n * (f_lmem f * 2) + r) (n * (f_lmem f * 2) + f_nlit f)); simpl; try lia.
             ++ f_equal. lia.
             ++ apply I2. lia.
          -- rewrite memcpy_nth by lia.
             destruct (Nat.leb_spec (n * (f_lmem f * 2) + f_lmem f) (n * (f_lmem f * 2) + f_lmem f + r)); [|lia].
             destruct (Nat.ltb_spec r (f_nlit f)); destruct (Nat.ltb_spec (n * (f_lmem f * 2) + f_lmem f + r) (n * (f_lmem f * 2) + f_lmem f + f_nlit f)); simpl; try lia.
             ++ f_equal. lia.
             ++ rewrite memcpy_nth by lia.
                destruct (Nat.ltb_spec (n * (f_lmem f * 2) + f_lmem f + r) (n * (f_lmem f * 2) + f_nlit f)); [lia|].
                rewrite andb_false_r. apply I2. lia.
        * assert (Hlt : i * (f_lmem f * 2) + f_lmem f * 2 <= n * (f_lmem f * 2)) by nia.
          destruct (I3 i r) as [J1 J2]; [lia|lia|].
          split.
          -- rewrite memcpy_nth by lia.
             destruct (Nat.leb_spec (n * (f_lmem f * 2) + f_lmem f) (i * (f_lmem f * 2) + r)); [lia|]. simpl.
             rewrite memcpy_nth by lia.
             destruct (Nat.leb_spec (n * (f_lmem f * 2)) (i * (f_lmem f * 2) + r)); [lia|]. simpl. auto.
          -- rewrite memcpy_nth by lia.
             destruct (Nat.leb_spec (n * (f_lmem f * 2) + f_lmem f) (i * (f_lmem f * 2) + f_lmem f + r)); [lia|]. simpl.
             rewrite memcpy_nth by lia.
             destruct (Nat.leb_spec (n * (f_lmem f * 2)) (i * (f_lmem f * 2) + f_lmem f + r)); [lia|]. simpl. auto. }
  destruct (G (f_ncl f) (le_n _)) as [G1 [_ G3]]. split; auto.
Qed.

Lemma get_clause_state_spec : forall f dst off,
  f_nlit f <= f_lmem f -> length (f_clauses f) = f_ncl f * (f_lmem f * 2) ->
  (off + f_ncl f) * (f_nlit f * 2) <= length dst ->
  let d' := get_clause_state f dst off in
  length d' = length dst /\
  (forall k, k < off * (f_nlit f * 2) \/ (off + f_ncl f) * (f_nlit f * 2) <= k -> nth k d' 0%Z = nth k dst 0%Z) /\
  (forall i r, i < f_ncl f -> r < f_nlit f ->
     nth ((i + off) * (f_nlit f * 2) + r) d' 0%Z = nth (i * (f_lmem f * 2) + r) (f_clauses f) 0%Z /\
     nth ((i + off) * (f_nlit f * 2) + f_nlit f + r) d' 0%Z = nth (i * (f_lmem f * 2) + f_lmem f + r) (f_clauses f) 0%Z).
Proof.
  intros f dst off Hl Hm Hs. unfold get_clause_state. cbv zeta.
  assert (G : forall n, n <= f_ncl f ->
    let d' := for_loop n (fun i dst0 =>
      memcpy (memcpy dst0 ((i + off) * f_nlit f * 2) (f_clauses f) (i * f_lmem f * 2) (f_nlit f))
        ((i + off) * f_nlit f * 2 + f_nlit f) (f_clauses f) (i * f_lmem f * 2 + f_lmem f) (f_nlit f)) dst in
    length d' = length dst /\
    (forall k, k < off * (f_nlit f * 2) \/ (off + n) * (f_nlit f * 2) <= k -> nth k d' 0%Z = nth k dst 0%Z) /\
    (forall i r, i < n -> r < f_nlit f ->
     nth ((i + off) * (f_nlit f * 2) + r) d' 0%Z = nth (i * (f_lmem f * 2) + r) (f_clauses f) 0%Z /\
     nth ((i + off) * (f_nlit f * 2) + f_nlit f + r) d' 0%Z = nth (i * (f_lmem f * 2) + f_lmem f + r) (f_clauses f) 0%Z)).
  { induction n as [|n IH]; intros Hn; cbn [for_loop].
    - split; [|split]; auto. intros; lia.
    - destruct IH as [I1 [I2 I3]]; [lia|]. cbv zeta in *.
      set (m := for_loop n _ dst) in *. clearbody m.
      replace ((n + off) * f_nlit f * 2) with ((n + off) * (f_nlit f * 2)) by lia.
      replace (n * f_lmem f * 2) with (n * (f_lmem f * 2)) by lia.
      assert (B1 : (n + off) * (f_nlit f * 2) + f_nlit f * 2 <= length m) by (rewrite I1; nia).
      assert (B2 : n * (f_lmem f * 2) + f_lmem f * 2 <= length (f_clauses f)) by (rewrite Hm; nia).
      assert (B3 : off * (f_nlit f * 2) <= (n + off) * (f_nlit f * 2)) by nia.
      assert (B4 : (off + S n) * (f_nlit f * 2) = (n + off) * (f_nlit f * 2) + f_nlit f * 2) by lia.
      assert (L1 : length (memcpy m ((n + off) * (f_nlit f * 2)) (f_clauses f) (n * (f_lmem f * 2)) (f_nlit f)) = length m)
        by (apply memcpy_length; lia).
      set (D := (n + off) * (f_nlit f * 2)) in *. set (S0 := n * (f_lmem f * 2)) in *.
      split; [|split].
      + rewrite memcpy_length; lia.
      + intros k Hk. rewrite memcpy_nth by lia.
        destruct (Nat.leb_spec (D + f_nlit f) k); destruct (Nat.ltb_spec k (D + f_nlit f + f_nlit f)); simpl; try lia;
        (rewrite memcpy_nth by lia; destruct (Nat.leb_spec D k); destruct (Nat.ltb_spec k (D + f_nlit f)); simpl; try lia; apply I2; unfold D in *; lia).
      + intros i r Hi Hr. destruct (Nat.eq_dec i n) as [->|Hne].
        * fold D. fold S0. split.
          -- rewrite memcpy_nth by lia.
             destruct (Nat.leb_spec (D + f_nlit f) (D + r)); [lia|]. simpl.
             rewrite memcpy_nth by lia.
             destruct (Nat.leb_spec D (D + r)); [|lia].
             destruct (Nat.ltb_spec (D + r) (D + f_nlit f)); simpl; try lia. f_equal. lia.
          -- rewrite memcpy_nth by lia.
             destruct (Nat.leb_spec (D + f_nlit f) (D + f_nlit f + r)); [|lia].
             destruct (Nat.ltb_spec (D + f_nlit f + r) (D + f_nlit f + f_nlit f)); simpl; try lia. f_equal. lia.
        * assert (Hlt : (i + off) * (f_nlit f * 2) + f_nlit f * 2 <= D) by (unfold D; nia).
          destruct (I3 i r) as [J1 J2]; [lia|lia|].
          split.
          -- rewrite memcpy_nth by lia.
             destruct (Nat.leb_spec (D + f_nlit f) ((i + off) * (f_nlit f * 2) + r)); [lia|]. simpl.
             rewrite memcpy_nth by lia.
             destruct (Nat.leb_spec D ((i + off) * (f_nlit f * 2) + r)); [lia|]. simpl. auto.
          -- rewrite memcpy_nth by lia.
             destruct (Nat.leb_spec (D + f_nlit f) ((i + off) * (f_nlit f * 2) + f_nlit f + r)); [lia|]. simpl.
             rewrite memcpy_nth by lia.
             destruct (Nat.leb_spec D ((i + off) * (f_nlit f * 2) + f_nlit f + r)); [lia|]. simpl. auto. }
  destruct (G (f_ncl f) (le_n _)) as [G1 [G2 G3]]. split; [|split]; auto.
Qed.

Lemma set_clause_weights_spec : forall f src off,
  f_ncls f <= f_wmem f -> length (f_weights f) = f_ncl f * f_wmem f ->
  (off + f_ncl f) * f_ncls f <= length src ->
  let m' := f_weights (set_clause_weights f src off) in
  length m' = length (f_weights f) /\
  (forall i r, i < f_ncl f -> r < f_wmem f ->
     nth (i * f_wmem f + r) m' 0%Z =
       (if r <? f_ncls f then nth ((i + off) * f_ncls f + r) src 0%Z
        else nth (i * f_wmem f + r) (f_weights f) 0%Z)).
Proof.
  intros f src off Hl Hm Hs. unfold set_clause_weights. cbv zeta. cbn [f_weights].
  assert (G : forall n, n <= f_ncl f ->
    let m' := for_loop n (fun i mem =>
      memcpy mem (i * f_wmem f) src ((i + off) * f_ncls f) (f_ncls f)) (f_weights f) in
    length m' = length (f_weights f) /\
    (forall k, n * f_wmem f <= k -> nth k m' 0%Z = nth k (f_weights f) 0%Z) /\
    (forall i r, i < n -> r < f_wmem f ->
     nth (i * f_wmem f + r) m' 0%Z =
       (if r <? f_ncls f then nth ((i + off) * f_ncls f + r) src 0%Z
        else nth (i * f_wmem f + r) (f_weights f) 0%Z))).
  { induction n as [|n IH]; intros Hn; cbn [for_loop].
    - split; [|split]; auto. intros; lia.
    - destruct IH as [I1 [I2 I3]]; [lia|]. cbv zeta in *.
      set (m := for_loop n _ (f_weights f)) in *. clearbody m.
      assert (B1 : n * f_wmem f + f_wmem f <= length m) by (rewrite I1, Hm; nia).
      assert (B2 : (n + off) * f_ncls f + f_ncls f <= length src) by nia.
      split; [|split].
      + rewrite memcpy_length; lia.
      + intros k Hk. rewrite memcpy_nth by lia.
        destruct (Nat.leb_spec (n * f_wmem f) k); destruct (Nat.ltb_spec k (n * f_wmem f + f_ncls f)); simpl; try lia.
        apply I2. lia.
      + intros i r Hi Hr. rewrite memcpy_nth by lia. destruct (Nat.eq_dec i n) as [->|Hne].
        * destruct (Nat.leb_spec (n * f_wmem f) (n * f_wmem f + r)); [|lia].
          destruct (Nat.ltb_spec r (f_ncls f)); destruct (Nat.ltb_spec (n * f_wmem f + r) (n * f_wmem f + f_ncls f)); simpl; try lia.
          -- f_equal. lia.
          -- apply I2. lia.
        * assert (Hlt : i * f_wmem f + f_wmem f <= n * f_wmem f) by nia.
          destruct (Nat.leb_spec (n * f_wmem f) (i * f_wmem f + r)); [lia|]. simpl. apply I3; lia. }
  destruct (G (f_ncl f) (le_n _)) as [G1 [_ G3]]. split; auto.
Qed.

Lemma get_clause_weights_spec : forall f dst off,
  f_ncls f <= f_wmem f -> length (f_weights f) = f_ncl f * f_wmem f ->
  (off + f_ncl f) * f_ncls f <= length dst ->
  let d' := get_clause_weights f dst off in
  length d' = length dst /\
  (forall k, k < off * f_ncls f \/ (off + f_ncl f) * f_ncls f <= k -> nth k d' 0%Z = nth k dst 0%Z) /\
  (forall i r, i < f_ncl f -> r < f_ncls f ->
     nth ((i + off) * f_ncls f + r) d' 0%Z = nth (i * f_wmem f + r) (f_weights f) 0%Z).
Proof.
  intros f dst off Hl Hm Hs. unfold get_clause_weights. cbv zeta.
  assert (G : forall n, n <= f_ncl f ->
    let d' := for_loop n (fun i dst0 =>
      memcpy dst0 ((i + off) * f_ncls f) (f_weights f) (i * f_wmem f) (f_ncls f)) dst in
    length d' = length dst /\
    (forall k, k < off * f_ncls f \/ (off + n) * f_ncls f <= k -> nth k d' 0%Z = nth k dst 0%Z) /\
    (forall i r, i < n -> r < f_ncls f ->
     nth ((i + off) * f_ncls f + r) d' 0%Z = nth (i * f_wmem f + r) (f_weights f) 0%Z)).
  { induction n as [|n IH]; intros Hn; cbn [for_loop].
    - split; [|split]; auto. intros; lia.
    - destruct IH as [I1 [I2 I3]]; [lia|]. cbv zeta in *.
      set (m := for_loop n _ dst) in *. clearbody m.
      assert (B1 : (n + off) * f_ncls f + f_ncls f <= length m) by (rewrite I1; nia).
      assert (B2 : n * f_wmem f + f_wmem f <= length (f_weights f)) by (rewrite Hm; nia).
      split; [|split].
      + rewrite memcpy_length; lia.
      + intros k Hk. rewrite memcpy_nth by lia.
        destruct (Nat.leb_spec ((n + off) * f_ncls f) k); destruct (Nat.ltb_spec k ((n + off) * f_ncls f + f_ncls f)); simpl; try nia;
        apply I2; nia.
      + intros i r Hi Hr. rewrite memcpy_nth by lia. destruct (Nat.eq_dec i n) as [->|Hne].
        * destruct (Nat.leb_spec ((n + off) * f_ncls f) ((n + off) * f_ncls f + r)); [|lia].
          destruct (Nat.ltb_spec ((n + off) * f_ncls f + r) ((n + off) * f_ncls f + f_ncls f)); simpl; try lia.
          f_equal. lia.
        * assert (Hlt : (i + off) * f_ncls f + f_ncls f <= (n + off) * f_ncls f) by nia.
          destruct (Nat.leb_spec ((n + off) * f_ncls f) ((i + off) * f_ncls f + r)); [lia|]. simpl. apply I3; lia. }
  destruct (G (f_ncl f) (le_n _)) as [G1 [G2 G3]]. split; [|split]; auto.
Qed.

(** ** 2-d arrays *)

Lemma flatten_length : forall w m, rows_of w m -> length (flatten m) = length m * w.
Proof.
  unfold flatten. induction m as [|r m IH]; intros H; simpl; auto.
  inversion H; subst. rewrite app_length, IH; auto.
Qed.

Lemma nth_flatten : forall w m i r, rows_of w m -> i < length m -> r < w ->
  nth (i * w + r) (flatten m) 0%Z = nth r (nth i m []) 0%Z.
Proof.
  unfold flatten. induction m as [|row m IH]; intros i r H Hi Hr; simpl in *; [lia|].
  inversion H; subst. destruct i as [|i]; simpl.
  - now rewrite app_nth1.
  - rewrite app_nth2 by lia. rewrite <- IH; auto; [|lia]. f_equal. lia.
Qed.

Lemma unflatten_flatten : forall w m, rows_of w m -> unflatten w (length m) (flatten m) = m.
Proof.
  unfold flatten. induction m as [|r m IH]; intros H; simpl; auto.
  inversion H; subst. rewrite firstn_app, Nat.sub_diag, firstn_all. simpl. rewrite app_nil_r.
  f_equal. rewrite skipn_app, Nat.sub_diag, skipn_all. simpl. auto.
Qed.

Lemma list_ext0 : forall (a b : list Z), length a = length b ->
  (forall k, k < length a -> nth k a 0%Z = nth k b 0%Z) -> a = b.
Proof. intros. apply nth_ext with (d := 0%Z) (d' := 0%Z); auto. Qed.

Lemma slice_length : forall mem off n, off + n <= length mem -> length (slice mem off n) = n.
Proof. intros. unfold slice. rewrite firstn_length, skipn_length. lia. Qed.

Lemma slice_nth : forall mem off n k, k < n -> nth k (slice mem off n) 0%Z = nth (off + k) mem 0%Z.
Proof. intros. unfold slice. rewrite nth_firstn_lt by auto. apply nth_skipn. Qed.

(** ** Blocks *)

Record flat_wf (n ncls : nat) (f : flat) : Prop := {
  fw_nlit : f_nlit f = n;
  fw_ncls : f_ncls f = ncls;
  fw_lmem : n <= f_lmem f;
  fw_wmem : ncls <= f_wmem f;
  fw_clen : length (f_clauses f) = f_ncl f * (f_lmem f * 2);
  fw_wlen : length (f_weights f) = f_ncl f * f_wmem f
}.

Definition total_clauses (cbs : list flat) : nat := list_sum (map f_ncl cbs).

Definition split_row (n : nat) (row : list Z) : clause := mkClause (firstn n row) (skipn n row).

Definition saved (c w : list Z) (off : nat) (cb : flat) : flat :=
  set_clause_weights (set_clause_state cb c off) w off.

Lemma saved_dims : forall c w off cb,
  f_ncl (saved c w off cb) = f_ncl cb /\ f_nlit (saved c w off cb) = f_nlit cb /\
  f_lmem (saved c w off cb) = f_lmem cb /\ f_ncls (saved c w off cb) = f_ncls cb /\
  f_wmem (saved c w off cb) = f_wmem cb.
Proof. intros. repeat split. Qed.

Lemma saved_clauses : forall c w off cb, f_clauses (saved c w off cb) = f_clauses (set_clause_state cb c off).
Proof. reflexivity. Qed.

Lemma saved_weights : forall c w off cb, f_weights (saved c w off cb) = f_weights (set_clause_weights cb w off).
Proof. reflexivity. Qed.

Lemma saved_wf : forall n ncls c w off cb, flat_wf n ncls cb ->
  (off + f_ncl cb) * (n * 2) <= length c -> (off + f_ncl cb) * ncls <= length w ->
  flat_wf n ncls (saved c w off cb).
Proof.
  intros n ncls c w off cb [] Hc Hw. constructor; auto.
  - rewrite saved_clauses. destruct (set_clause_state_spec cb c off) as [E _]; try (subst; lia).
    rewrite E. auto.
  - rewrite saved_weights. destruct (set_clause_weights_spec cb w off) as [E _]; try (subst; lia).
    rewrite E. auto.
Qed.

Lemma view_saved : forall n ncls rows ws off cb, flat_wf n ncls cb ->
  rows_of (2 * n) rows -> rows_of ncls ws -> length rows = length ws -> off + f_ncl cb <= length rows ->
  view_clauses (saved (flatten rows) (flatten ws) off cb) =
    map (split_row n) (firstn (f_ncl cb) (skipn off rows)) /\
  view_all_weights (saved (flatten rows) (flatten ws) off cb) = firstn (f_ncl cb) (skipn off ws).
Proof.
  intros n ncls rows ws off cb W Hr Hw Hl Ho.
  assert (Lr : length (flatten rows) = length rows * (n * 2)) by (rewrite (flatten_length (2 * n)); auto; lia).
  assert (Lw : length (flatten ws) = length ws * ncls) by (now apply flatten_length).
  assert (Bc : (off + f_ncl cb) * (n * 2) <= length (flatten rows)) by (rewrite Lr; nia).
  assert (Bw : (off + f_ncl cb) * ncls <= length (flatten ws)) by (rewrite Lw; nia).
  pose proof (saved_wf n ncls (flatten rows) (flatten ws) off cb W Bc Bw) as W'.
  destruct (saved_dims (flatten rows) (flatten ws) off cb) as [D1 [D2 [D3 [D4 D5]]]].
  destruct W as [W1 W2 W3 W4 W5 W6]. destruct W' as [V1 V2 V3 V4 V5 V6].
  split.
  - unfold view_clauses. rewrite D1.
    apply nth_ext with (d := mkClause [] []) (d' := mkClause [] []).
    { rewrite !map_length, seq_length, firstn_length, skipn_length. lia. }
    intros i Hi. rewrite map_length, seq_length in Hi.
    rewrite nth_indep with (d' := view_clause (saved (flatten rows) (flatten ws) off cb) 0)
      by (rewrite map_length, seq_length; auto).
    rewrite (map_nth (view_clause (saved (flatten rows) (flatten ws) off cb))), seq_nth by auto. simpl.
    rewrite nth_indep with (d' := split_row n []) by (rewrite map_length, firstn_length, skipn_length; lia).
    rewrite (map_nth (split_row n)).
    assert (Hrow : nth i (firstn (f_ncl cb) (skipn off rows)) [] = nth (i + off) rows []).
    { rewrite <- (firstn_skipn off rows) at 2. rewrite app_nth2; rewrite firstn_length; [|lia].
      rewrite Nat.min_l by lia. replace (i + off - off) with i by lia.
      rewrite <- (firstn_skipn (f_ncl cb) (skipn off rows)) at 2. rewrite app_nth1; auto.
      rewrite firstn_length, skipn_length. lia. }
    rewrite Hrow. set (row := nth (i + off) rows []).
    assert (Lrow : length row = 2 * n). { apply (proj1 (Forall_forall _ _) Hr). apply nth_In. lia. }
    unfold view_clause, split_row. rewrite D2, D3, saved_clauses, W1.
    destruct (set_clause_state_spec cb (flatten rows) off) as [E F]; try (rewrite ?W1; lia). rewrite W1 in *.
    assert (Hb : i * (f_lmem cb * 2) + f_lmem cb * 2 <= length (f_clauses (set_clause_state cb (flatten rows) off)))
      by (rewrite E, W5; nia).
    f_equal.
    + apply list_ext0.
      * rewrite slice_length, firstn_length; lia.
      * intros k Hk. rewrite slice_length in Hk by lia. rewrite slice_nth by lia.
        destruct (F i k) as [F1 _]; [lia|lia|]. rewrite F1.
        destruct (Nat.ltb_spec k n); [|lia]. replace (n * 2) with (2 * n) by lia.
        rewrite nth_flatten by (auto; lia). fold row. now rewrite nth_firstn_lt by lia.
    + apply list_ext0.
      * rewrite slice_length, skipn_length; lia.
      * intros k Hk. rewrite slice_length in Hk by lia. rewrite slice_nth by lia.
        destruct (F i k) as [_ F1]; [lia|lia|]. rewrite F1.
        destruct (Nat.ltb_spec k n); [|lia]. replace (n * 2) with (2 * n) by lia.
        rewrite <- Nat.add_assoc.
        rewrite nth_flatten by (auto; lia). fold row. now rewrite nth_skipn.
  - unfold view_all_weights. rewrite D1.
    apply nth_ext with (d := []) (d' := []).
    { rewrite map_length, seq_length, firstn_length, skipn_length. lia. }
    intros i Hi. rewrite map_length, seq_length in Hi.
    rewrite nth_indep with (d' := view_weights (saved (flatten rows) (flatten ws) off cb) 0)
      by (rewrite map_length, seq_length; auto).
    rewrite (map_nth (view_weights (saved (flatten rows) (flatten ws) off cb))), seq_nth by auto. simpl.
    assert (Hrow : nth i (firstn (f_ncl cb) (skipn off ws)) [] = nth (i + off) ws []).
    { rewrite <- (firstn_skipn off ws) at 2. rewrite app_nth2; rewrite firstn_length; [|lia].
      rewrite Nat.min_l by lia. replace (i + off - off) with i by lia.
      rewrite <- (firstn_skipn (f_ncl cb) (skipn off ws)) at 2. rewrite app_nth1; auto.
      rewrite firstn_length, skipn_length. lia. }
    rewrite Hrow. set (row := nth (i + off) ws []).
    assert (Lrow : length row = ncls). { apply (proj1 (Forall_forall _ _) Hw). apply nth_In. lia. }
    unfold view_weights. rewrite D4, D5, saved_weights, W2.
    destruct (set_clause_weights_spec cb (flatten ws) off) as [E F]; try (rewrite ?W2; lia). rewrite W2 in *.
    assert (Hb : i * f_wmem cb + f_wmem cb <= length (f_weights (set_clause_weights cb (flatten ws) off)))
      by (rewrite E, W6; nia).
    apply list_ext0.
    + rewrite slice_length; lia.
    + intros k Hk. rewrite slice_length in Hk by lia. rewrite slice_nth by lia.
      rewrite (F i k) by lia.
      destruct (Nat.ltb_spec k ncls); [|lia]. rewrite nth_flatten by (auto; lia). reflexivity.
Qed.

(** ** Save followed by load *)

Lemma load_save_loop : forall n ncls cbs c w off dc dw, Forall (flat_wf n ncls) cbs ->
  (off + total_clauses cbs) * (n * 2) <= length c -> (off + total_clauses cbs) * ncls <= length w ->
  length dc = length c -> length dw = length w ->
  let r := load_loop (save_loop c w off cbs) off dc dw in
  length (fst r) = length dc /\ length (snd r) = length dw /\
  (forall k, nth k (fst r) 0%Z =
     if (off * (n * 2) <=? k) && (k <? (off + total_clauses cbs) * (n * 2)) then nth k c 0%Z else nth k dc 0%Z) /\
  (forall k, nth k (snd r) 0%Z =
     if (off * ncls <=? k) && (k <? (off + total_clauses cbs) * ncls) then nth k w 0%Z else nth k dw 0%Z).
Proof.
  intros n ncls cbs. induction cbs as [|cb cbs IH]; intros c w off dc dw HF Hc Hw Lc Lw; cbn [save_loop load_loop]; cbv zeta.
  - unfold total_clauses in *. simpl in *. repeat split; auto; intros k; rewrite Nat.add_0_r.
    + destruct (Nat.leb_spec (off * (n * 2)) k); destruct (Nat.ltb_spec k (off * (n * 2))); simpl; auto; lia.
    + destruct (Nat.leb_spec (off * ncls) k); destruct (Nat.ltb_spec k (off * ncls)); simpl; auto; lia.
  - inversion HF as [|? ? W HF']; subst. fold (saved c w off cb).
    assert (Ht : total_clauses (cb :: cbs) = f_ncl cb + total_clauses cbs) by reflexivity.
    rewrite Ht in *.
    assert (Bc : (off + f_ncl cb) * (n * 2) <= length c) by nia.
    assert (Bw : (off + f_ncl cb) * ncls <= length w) by nia.
    pose proof (saved_wf n ncls c w off cb W Bc Bw) as W'.
    destruct (saved_dims c w off cb) as [D1 [D2 [D3 [D4 D5]]]].
    destruct W' as [V1 V2 V3 V4 V5 V6]. destruct W as [W1 W2 W3 W4 W5 W6].
    destruct (get_clause_state_spec (saved c w off cb) dc off) as [G1 [G2 G3]]; try (rewrite ?V1, ?D1; lia).
    destruct (get_clause_weights_spec (saved c w off cb) dw off) as [G4 [G5 G6]]; try (rewrite ?V2, ?D1; lia).
    rewrite D1 in *.
    destruct (set_clause_state_spec cb c off) as [S1 S2]; try (rewrite ?W1; lia).
    destruct (set_clause_weights_spec cb w off) as [S3 S4]; try (rewrite ?W2; lia).
    rewrite V1, D3, saved_clauses in *. rewrite V2, D5, saved_weights in *. rewrite W1, W2 in *.
    set (dc' := get_clause_state (saved c w off cb) dc off) in *.
    set (dw' := get_clause_weights (saved c w off cb) dw off) in *.
    destruct (IH c w (off + f_ncl cb) dc' dw') as [I1 [I2 [I3 I4]]]; auto; try nia.
    split; [lia|]. split; [lia|]. split; intros k.
    + rewrite I3. rewrite <- Nat.add_assoc.
      destruct (Nat.leb_spec ((off + f_ncl cb) * (n * 2)) k); simpl.
      * destruct (Nat.leb_spec (off * (n * 2)) k); [|nia]. simpl.
        destruct (Nat.ltb_spec k ((off + (f_ncl cb + total_clauses cbs)) * (n * 2))); auto.
      * destruct (Nat.leb_spec (off * (n * 2)) k); simpl.
        -- destruct (Nat.ltb_spec k ((off + (f_ncl cb + total_clauses cbs)) * (n * 2))); [|nia].
           assert (Hn : n <> 0) by nia.
           set (i := k / (n * 2) - off). set (r := k mod (n * 2)).
           assert (Hk : k = (i + off) * (n * 2) + r /\ i < f_ncl cb /\ r < n * 2).
           { pose proof (Nat.div_mod k (n * 2)). pose proof (Nat.mod_upper_bound k (n * 2)).
             assert (off <= k / (n * 2)) by (apply Nat.div_le_lower_bound; lia).
             assert (k / (n * 2) < off + f_ncl cb) by (apply Nat.div_lt_upper_bound; lia).
             unfold i, r. split; [|lia]. replace (k / (n * 2) - off + off) with (k / (n * 2)) by lia. lia. }
           destruct Hk as [Hk [Hi Hr]]. rewrite Hk.
           destruct (Nat.lt_ge_cases r n).
           ++ destruct (G3 i r) as [G3a _]; auto. rewrite G3a.
              destruct (S2 i r) as [S2a _]; [lia|lia|]. rewrite S2a.
              destruct (Nat.ltb_spec r n); [auto|lia].
           ++ replace ((i + off) * (n * 2) + r) with ((i + off) * (n * 2) + n + (r - n)) by lia.
              destruct (G3 i (r - n)) as [_ G3a]; [lia|lia|]. rewrite G3a.
              destruct (S2 i (r - n)) as [_ S2a]; [lia|lia|]. rewrite S2a.
              destruct (Nat.ltb_spec (r - n) n); [auto|lia].
        -- apply G2. lia.
    + rewrite I4. rewrite <- Nat.add_assoc.
      destruct (Nat.leb_spec ((off + f_ncl cb) * ncls) k); simpl.
      * destruct (Nat.leb_spec (off * ncls) k); [|nia]. simpl.
        destruct (Nat.ltb_spec k ((off + (f_ncl cb + total_clauses cbs)) * ncls)); auto.
      * destruct (Nat.leb_spec (off * ncls) k); simpl.
        -- destruct (Nat.ltb_spec k ((off + (f_ncl cb + total_clauses cbs)) * ncls)); [|nia].
           assert (Hn : ncls <> 0) by nia.
           set (i := k / ncls - off). set (r := k mod ncls).
           assert (Hk : k = (i + off) * ncls + r /\ i < f_ncl cb /\ r < ncls).
           { pose proof (Nat.div_mod k ncls). pose proof (Nat.mod_upper_bound k ncls).
             assert (off <= k / ncls) by (apply Nat.div_le_lower_bound; lia).
             assert (k / ncls < off + f_ncl cb) by (apply Nat.div_lt_upper_bound; lia).
             unfold i, r. split; [|lia]. replace (k / ncls - off + off) with (k / ncls) by lia. lia. }
           destruct Hk as [Hk [Hi Hr]]. rewrite Hk.
           rewrite G6 by auto. rewrite S4 by lia.
           destruct (Nat.ltb_spec r ncls); [auto|lia].
        -- apply G5. lia.
Qed.

(** Shape of a state for a machine with [n] literals, [ncl] clauses. *)
Definition state_shape (n ncl ncls : nat) (s : dense_state) : Prop :=
  ds_ncols s = 2 * n /\ ds_nclasses s = ncls /\ length (ds_c s) = ncl /\ length (ds_w s) = ncl /\
  rows_of (2 * n) (ds_c s) /\ rows_of ncls (ds_w s).

Theorem load_save_state : forall n ncls cbs s d, Forall (flat_wf n ncls) cbs ->
  state_shape n (total_clauses cbs) ncls s -> state_shape n (total_clauses cbs) ncls d ->
  load_state_from_backend (save_state_in_backend s cbs) d = s.
Proof.
  intros n ncls cbs s d HF [S1 [S2 [S3 [S4 [S5 S6]]]]] [T1 [T2 [T3 [T4 [T5 T6]]]]].
  unfold load_state_from_backend, save_state_in_backend.
  assert (Lc : length (flatten (ds_c s)) = total_clauses cbs * (n * 2)) by (rewrite (flatten_length (2 * n)); auto; lia).
  assert (Lw : length (flatten (ds_w s)) = total_clauses cbs * ncls) by (rewrite (flatten_length ncls); auto; lia).
  assert (Ld : length (flatten (ds_c d)) = total_clauses cbs * (n * 2)) by (rewrite (flatten_length (2 * n)); auto; lia).
  assert (Le : length (flatten (ds_w d)) = total_clauses cbs * ncls) by (rewrite (flatten_length ncls); auto; lia).
  pose proof (load_save_loop n ncls cbs (flatten (ds_c s)) (flatten (ds_w s)) 0 (flatten (ds_c d)) (flatten (ds_w d)) HF) as H.
  destruct H as [H1 [H2 [H3 H4]]]; try (simpl; lia).
  destruct (load_loop _ 0 _ _) as [c' w']. simpl in H1, H2, H3, H4.
  assert (Ec : c' = flatten (ds_c s)).
  { apply list_ext0; [lia|]. intros k Hk. rewrite H3.
    destruct (Nat.ltb_spec k (total_clauses cbs * (n * 2))); [auto|lia]. }
  assert (Ew : w' = flatten (ds_w s)).
  { apply list_ext0; [lia|]. intros k Hk. rewrite H4.
    destruct (Nat.ltb_spec k (total_clauses cbs * ncls)); [auto|lia]. }
  subst c' w'. rewrite T1, T2, T3, T4.
  rewrite <- S3 at 1. rewrite <- S4.
  rewrite !unflatten_flatten by auto.
  destruct s; simpl in *; subst; reflexivity.
Qed.

Lemma skipn_add : forall A (l : list A) a b, skipn (a + b) l = skipn b (skipn a l).
Proof.
  induction l as [|x l IH]; intros [|a] b; simpl; auto. now rewrite skipn_nil.
Qed.

(** What each block sees after a save. *)
Theorem save_views : forall n ncls rows ws cbs off, Forall (flat_wf n ncls) cbs ->
  rows_of (2 * n) rows -> rows_of ncls ws -> length rows = length ws ->
  off + total_clauses cbs = length rows ->
  concat (map view_clauses (save_loop (flatten rows) (flatten ws) off cbs)) = map (split_row n) (skipn off rows) /\
  concat (map view_all_weights (save_loop (flatten rows) (flatten ws) off cbs)) = skipn off ws /\
  map f_ncl (save_loop (flatten rows) (flatten ws) off cbs) = map f_ncl cbs.
Proof.
  intros n ncls rows ws cbs. induction cbs as [|cb cbs IH]; intros off HF Hr Hw Hl Ho; cbn [save_loop map concat].
  - unfold total_clauses in Ho. simpl in Ho. rewrite !skipn_all2 by lia. auto.
  - inversion HF as [|? ? W HF']; subst.
    assert (Ht : total_clauses (cb :: cbs) = f_ncl cb + total_clauses cbs) by reflexivity. rewrite Ht in Ho.
    fold (saved (flatten rows) (flatten ws) off cb).
    destruct (view_saved n ncls rows ws off cb W Hr Hw Hl) as [V1 V2]; [lia|].
    destruct (IH (off + f_ncl cb)) as [I1 [I2 I3]]; auto; [lia|].
    rewrite V1, V2, I1, I2, I3.
    rewrite <- map_app. rewrite !skipn_add, !firstn_skipn. auto.
Qed.

(** ** Load followed by save: the blocks are restored exactly, padding included *)

Lemma load_loop_frame : forall n ncls cbs off c w, Forall (flat_wf n ncls) cbs ->
  (off + total_clauses cbs) * (n * 2) <= length c -> (off + total_clauses cbs) * ncls <= length w ->
  let r := load_loop cbs off c w in
  length (fst r) = length c /\ length (snd r) = length w /\
  (forall k, k < off * (n * 2) -> nth k (fst r) 0%Z = nth k c 0%Z) /\
  (forall k, k < off * ncls -> nth k (snd r) 0%Z = nth k w 0%Z).
Proof.
  intros n ncls cbs. induction cbs as [|cb cbs IH]; intros off c w HF Hc Hw; cbn [load_loop]; cbv zeta; auto.
  inversion HF as [|? ? W HF']; subst. destruct W as [W1 W2 W3 W4 W5 W6].
  assert (Ht : total_clauses (cb :: cbs) = f_ncl cb + total_clauses cbs) by reflexivity. rewrite Ht in *.
  destruct (get_clause_state_spec cb c off) as [G1 [G2 G3]]; try (rewrite ?W1; nia).
  destruct (get_clause_weights_spec cb w off) as [G4 [G5 G6]]; try (rewrite ?W2; nia).
  rewrite W1, W2 in *.
  destruct (IH (off + f_ncl cb) (get_clause_state cb c off) (get_clause_weights cb w off)) as [I1 [I2 [I3 I4]]]; auto; try nia.
  repeat split; try lia.
  - intros k Hk. rewrite I3 by nia. apply G2. auto.
  - intros k Hk. rewrite I4 by nia. apply G5. auto.
Qed.

Lemma mem_pos : forall k n w, k < n * w -> exists i r, k = i * w + r /\ i < n /\ r < w.
Proof.
  intros k n w H. assert (w <> 0) by nia. exists (k / w), (k mod w).
  pose proof (Nat.div_mod k w). pose proof (Nat.mod_upper_bound k w).
  repeat split; try lia. apply Nat.div_lt_upper_bound; lia.
Qed.

Theorem save_load_blocks : forall n ncls cbs off c w, Forall (flat_wf n ncls) cbs ->
  (off + total_clauses cbs) * (n * 2) <= length c -> (off + total_clauses cbs) * ncls <= length w ->
  save_loop (fst (load_loop cbs off c w)) (snd (load_loop cbs off c w)) off cbs = cbs.
Proof.
  intros n ncls cbs. induction cbs as [|cb cbs IH]; intros off c w HF Hc Hw; auto.
  cbn [load_loop save_loop].
  inversion HF as [|? ? W HF']; subst. pose proof W as W0. destruct W as [W1 W2 W3 W4 W5 W6].
  assert (Ht : total_clauses (cb :: cbs) = f_ncl cb + total_clauses cbs) by reflexivity. rewrite Ht in *.
  destruct (get_clause_state_spec cb c off) as [G1 [G2 G3]]; try (rewrite ?W1; nia).
  destruct (get_clause_weights_spec cb w off) as [G4 [G5 G6]]; try (rewrite ?W2; nia).
  rewrite W1, W2 in *.
  set (c1 := get_clause_state cb c off) in *. set (w1 := get_clause_weights cb w off) in *.
  destruct (load_loop_frame n ncls cbs (off + f_ncl cb) c1 w1) as [F1 [F2 [F3 F4]]]; auto; try nia.
  f_equal.
  2:{ apply IH; auto; nia. }
  destruct (load_loop cbs (off + f_ncl cb) c1 w1) as [c' w']. cbn [fst snd] in *.
  fold (saved c' w' off cb).
  assert (Ec : f_clauses (saved c' w' off cb) = f_clauses cb).
  { rewrite saved_clauses. destruct (set_clause_state_spec cb c' off) as [S1 S2]; try (rewrite ?W1; nia).
    rewrite W1 in *.
    apply list_ext0; auto. intros k Hk. rewrite S1, W5 in Hk. apply mem_pos in Hk.
    destruct Hk as [i [r [-> [Hi Hr]]]].
    destruct (Nat.lt_ge_cases r (f_lmem cb)).
    - destruct (S2 i r) as [S2a _]; auto. rewrite S2a.
      destruct (Nat.ltb_spec r n); auto. rewrite F3 by nia. apply G3; auto.
    - destruct (S2 i (r - f_lmem cb)) as [_ S2a]; [auto|lia|].
      replace (i * (f_lmem cb * 2) + r) with (i * (f_lmem cb * 2) + f_lmem cb + (r - f_lmem cb)) by lia.
      rewrite S2a. destruct (Nat.ltb_spec (r - f_lmem cb) n); auto.
      rewrite F3 by nia. apply G3; auto. }
  assert (Ew : f_weights (saved c' w' off cb) = f_weights cb).
  { rewrite saved_weights. destruct (set_clause_weights_spec cb w' off) as [S1 S2]; try (rewrite ?W2; nia).
    rewrite W2 in *.
    apply list_ext0; auto. intros k Hk. rewrite S1, W6 in Hk. apply mem_pos in Hk.
    destruct Hk as [i [r [-> [Hi Hr]]]].
    rewrite S2 by auto. destruct (Nat.ltb_spec r ncls); auto. rewrite F4 by nia. apply G6; auto. }
  destruct (saved_dims c' w' off cb) as [D1 [D2 [D3 [D4 D5]]]].
  destruct (saved c' w' off cb), cb; simpl in *; subst; reflexivity.
Qed.

Lemma save_loop_wf : forall n ncls cbs c w off, Forall (flat_wf n ncls) cbs ->
  (off + total_clauses cbs) * (n * 2) <= length c -> (off + total_clauses cbs) * ncls <= length w ->
  Forall (flat_wf n ncls) (save_loop c w off cbs).
Proof.
  intros n ncls cbs c w. induction cbs as [|cb cbs IH]; intros off HF Hc Hw; cbn [save_loop]; auto.
  assert (Ht : total_clauses (cb :: cbs) = f_ncl cb + total_clauses cbs) by reflexivity. rewrite Ht in *.
  inversion HF; subst. constructor.
  - apply saved_wf; auto; nia.
  - apply IH; auto; nia.
Qed.

Lemma view_clauses_wf : forall n ncls f, flat_wf n ncls f ->
  Forall (fun c => length (cl_pos c) = n /\ length (cl_neg c) = n) (view_clauses f) /\
  rows_of ncls (view_all_weights f) /\ length (view_clauses f) = length (view_all_weights f).
Proof.
  intros n ncls f [W1 W2 W3 W4 W5 W6]. split; [|split].
  - apply Forall_forall. intros c Hc. unfold view_clauses in Hc. apply in_map_iff in Hc.
    destruct Hc as [k [<- Hk]]. apply in_seq in Hk. unfold view_clause. simpl. rewrite W1.
    split; apply slice_length; rewrite W5; nia.
  - apply Forall_forall. intros c Hc. unfold view_all_weights in Hc. apply in_map_iff in Hc.
    destruct Hc as [k [<- Hk]]. apply in_seq in Hk. unfold view_weights. rewrite W2.
    apply slice_length; rewrite W6; nia.
  - unfold view_clauses, view_all_weights. now rewrite !map_length.
Qed.
