(** Index safety of the sparse block: loops and clause outputs. *)
From Coq Require Import ZArith List Bool QArith Lia ZifyBool.
From Verif Require Import Base BaseProofs Spec ModelDense ModelLayout ModelSparse ModelSparseImp SpecSparseImp.
Import ListNotations.
Open Scope Z_scope.

(** ** Accesses *)

Lemma ix_some : forall A (l : list A) k x, nth_error l k = Some x -> ix l k = Ret x.
Proof. intros A l k x H. unfold ix. rewrite H. reflexivity. Qed.
Lemma at_some : forall A (l : list A) k x, nth_error l k = Some x -> at_ l k = Ret x.
Proof. intros A l k x H. unfold at_. rewrite H. reflexivity. Qed.
Lemma nth_error_some : forall A (d : A) l k, (k < length l)%nat -> nth_error l k = Some (nth k l d).
Proof. intros A d l k H. apply nth_error_nth'; auto. Qed.
Lemma ix_nth : forall A (d : A) l k, (k < length l)%nat -> ix l k = Ret (nth k l d).
Proof. intros. apply ix_some, nth_error_some; auto. Qed.
Lemma at_nth : forall A (d : A) l k, (k < length l)%nat -> at_ l k = Ret (nth k l d).
Proof. intros. apply at_some, nth_error_some; auto. Qed.
Lemma ix_none : forall A (l : list A) k, (length l <= k)%nat -> ix l k = Wild.
Proof. intros A l k H. unfold ix. destruct (nth_error l k) eqn:E; auto. assert (nth_error l k <> None) by congruence.
  apply nth_error_Some in H0. lia. Qed.
Lemma set_ix_ok : forall A k (x : A) l, (k < length l)%nat -> set_ix k x l = Ret (set_nth k x l).
Proof. intros A k x l H. unfold set_ix. destruct (Nat.ltb_spec k (length l)); [reflexivity|lia]. Qed.
Lemma set_at_ok : forall A k (x : A) l, (k < length l)%nat -> set_at k x l = Ret (set_nth k x l).
Proof. intros A k x l H. unfold set_at. destruct (Nat.ltb_spec k (length l)); [reflexivity|lia]. Qed.
Lemma some_lt : forall A (l : list A) k x, nth_error l k = Some x -> (k < length l)%nat.
Proof. intros A l k x H. apply nth_error_Some. congruence. Qed.

(** ** Loops *)

Fixpoint first_some {A O} (f : A -> option O) (l : list A) : option O :=
  match l with [] => None | x :: t => match f x with Some o => Some o | None => first_some f t end end.

Lemma scan_list : forall A O (f : A -> option O) (step : nat -> R (option O)) (l : list A) i,
  (forall k x, nth_error l k = Some x -> step (i + k)%nat = Ret (f x)) ->
  scan_ix (length l) i step = Ret (first_some f l).
Proof.
  intros A O f step l. induction l as [|x l IH]; intros i H; cbn [length scan_ix first_some]; auto.
  assert (E := H 0%nat x eq_refl). rewrite Nat.add_0_r in E. rewrite E. cbn [bindR].
  destruct (f x); auto. apply IH. intros k y Hk. rewrite <- (H (S k) y Hk). f_equal. lia.
Qed.

Lemma combine_error : forall A B (l : list A) (m : list B) k x y, nth_error (combine l m) k = Some (x, y) ->
  nth_error l k = Some x /\ nth_error m k = Some y.
Proof.
  intros A B l. induction l as [|a l IH]; intros [|b m] [|k] x y H; cbn [combine nth_error] in *; try discriminate; auto.
  inversion H; subst. auto.
Qed.

Lemma scan_two : forall A B O (f : A -> B -> option O) (step : nat -> R (option O)) (l : list A) (m : list B),
  length m = length l ->
  (forall k x y, nth_error l k = Some x -> nth_error m k = Some y -> step k = Ret (f x y)) ->
  scan_ix (length l) 0 step = Ret (first_some (fun p => f (fst p) (snd p)) (combine l m)).
Proof.
  intros A B O f step l m HL H.
  replace (length l) with (length (combine l m)) by (rewrite combine_length; lia).
  apply scan_list. intros k [x y] Hk. apply combine_error in Hk. destruct Hk. cbn [fst snd plus]. auto.
Qed.

Lemma fold_list : forall A S (P : S -> Prop) (g : S -> A -> S) (body : nat -> S -> R S) (l : list A) i s,
  P s -> (forall k x s, nth_error l k = Some x -> P s -> body (i + k)%nat s = Ret (g s x) /\ P (g s x)) ->
  fold_ix (length l) i body s = Ret (fold_left g l s) /\ P (fold_left g l s).
Proof.
  intros A S P g body l. induction l as [|x l IH]; intros i s Hs H; cbn [length fold_ix fold_left]; auto.
  destruct (H 0%nat x s eq_refl Hs) as [E Hg]. rewrite Nat.add_0_r in E. rewrite E. cbn [bindR].
  apply IH; auto. intros k y t Hk Ht. replace (Datatypes.S i + k)%nat with (i + Datatypes.S k)%nat by lia. apply H; auto.
Qed.

Lemma fold_seq : forall S (P : S -> Prop) (g : nat -> S -> S) (body : nat -> S -> R S) n s,
  P s -> (forall k s, (k < n)%nat -> P s -> body k s = Ret (g k s) /\ P (g k s)) ->
  fold_ix n 0 body s = Ret (fold_left (fun s k => g k s) (seq 0 n) s) /\ P (fold_left (fun s k => g k s) (seq 0 n) s).
Proof.
  intros S P g body n s Hs H.
  pose proof (fold_list nat S P (fun s k => g k s) body (seq 0 n) 0 s Hs) as F. rewrite seq_length in F. apply F.
  intros k x t Hk Ht. assert (L := some_lt _ _ _ _ Hk). rewrite seq_length in L.
  rewrite (nth_error_some _ O) in Hk by (rewrite seq_length; auto). rewrite seq_nth in Hk by auto. inversion Hk; subst x. auto.
Qed.

Lemma set_mid : forall A (a b : list A) x v, set_nth (length a) v (a ++ x :: b) = a ++ v :: b.
Proof. intros A a. induction a as [|y a IH]; intros; cbn [length app set_nth]; auto. rewrite IH. reflexivity. Qed.
Lemma set_same : forall A (l : list A) k x, nth_error l k = Some x -> set_nth k x l = l.
Proof. intros A l. induction l as [|a l IH]; intros [|k] x H; cbn [nth_error set_nth] in *; try discriminate; auto.
  - inversion H; reflexivity. - f_equal. auto. Qed.

(** A loop that rewrites position k of a vector from row[k], threading the
    generator. *)
Fixpoint map_acc {A B T} (g : A -> B -> T -> B * T) (row : list A) (sts : list B) (r : T) : list B * T :=
  match row, sts with
  | a :: row', v :: sts' => let '(v', r) := g a v r in let '(t, r) := map_acc g row' sts' r in (v' :: t, r)
  | _, _ => (sts, r)
  end.
Lemma fold_inplace : forall A B T (g : A -> B -> T -> B * T) (body : nat -> list B * T -> R (list B * T)) row sts r,
  length sts = length row ->
  (forall k a v st r, nth_error row k = Some a -> nth_error st k = Some v -> length st = length row ->
     body k (st, r) = Ret (set_nth k (fst (g a v r)) st, snd (g a v r))) ->
  fold_ix (length row) 0 body (sts, r) = Ret (map_acc g row sts r).
Proof.
  intros A B T g body row sts r HL H.
  assert (K : forall rw st pre prow r, row = prow ++ rw -> length prow = length pre -> length st = length rw ->
    fold_ix (length rw) (length pre) body (pre ++ st, r) = Ret (pre ++ fst (map_acc g rw st r), snd (map_acc g rw st r))).
  { intros rw. induction rw as [|a rw IH]; intros [|v st] pre prow r0 E L1 L2; cbn [length] in L2; try lia;
      cbn [length fold_ix map_acc fst snd]; auto.
    rewrite (H (length pre) a v).
    - rewrite set_mid. cbn [bindR]. destruct (g a v r0) as [v' r1]. cbn [fst snd].
      specialize (IH st (pre ++ [v']) (prow ++ [a]) r1). rewrite !app_length in IH. cbn [length] in IH.
      rewrite !Nat.add_1_r in IH. rewrite <- !app_assoc in IH. cbn [app] in IH.
      rewrite IH; [|rewrite E; reflexivity|lia|lia].
      destruct (map_acc g rw st r1) as [t r2]. cbn [fst snd]. reflexivity.
    - rewrite E, nth_error_app2 by lia. rewrite L1, Nat.sub_diag. reflexivity.
    - rewrite nth_error_app2 by lia. rewrite Nat.sub_diag. reflexivity.
    - rewrite E, !app_length. cbn [length]. lia. }
  specialize (K row sts [] [] r eq_refl eq_refl HL). cbn [length app] in K. rewrite K. destruct (map_acc g row sts r). reflexivity.
Qed.
Lemma fold_inplace0 : forall A B (g : A -> B -> B) (body : nat -> list B -> R (list B)) row sts,
  length sts = length row ->
  (forall k a v st, nth_error row k = Some a -> nth_error st k = Some v -> length st = length row ->
     body k st = Ret (set_nth k (g a v) st)) ->
  fold_ix (length row) 0 body sts = Ret (map2 g row sts).
Proof.
  intros A B g body row sts HL H.
  assert (K : forall rw st pre prow, row = prow ++ rw -> length prow = length pre -> length st = length rw ->
    fold_ix (length rw) (length pre) body (pre ++ st) = Ret (pre ++ map2 g rw st)).
  { intros rw. induction rw as [|a rw IH]; intros [|v st] pre prow E L1 L2; cbn [length] in L2; try lia;
      cbn [length fold_ix map2]; auto.
    rewrite (H (length pre) a v).
    - rewrite set_mid. cbn [bindR].
      specialize (IH st (pre ++ [g a v]) (prow ++ [a])). rewrite !app_length in IH. cbn [length] in IH.
      rewrite !Nat.add_1_r in IH. rewrite <- !app_assoc in IH. cbn [app] in IH.
      rewrite IH; [reflexivity|rewrite E; reflexivity|lia|lia].
    - rewrite E, nth_error_app2 by lia. rewrite L1, Nat.sub_diag. reflexivity.
    - rewrite nth_error_app2 by lia. rewrite Nat.sub_diag. reflexivity.
    - rewrite E, !app_length. cbn [length]. lia. }
  specialize (K row sts [] [] eq_refl eq_refl HL). cbn [length app] in K. exact K.
Qed.
Lemma map_acc_length : forall A B T (g : A -> B -> T -> B * T) row sts r, length (fst (map_acc g row sts r)) = length sts.
Proof.
  intros A B T g row. induction row as [|a row IH]; intros [|v sts] r; cbn [map_acc fst length]; auto.
  destruct (g a v r) as [v' r1]. specialize (IH sts r1). destruct (map_acc g row sts r1). cbn [fst length] in *. lia.
Qed.

(** ** Clause outputs *)

Lemma imp_scan_pos_eq : forall ta lits, imp_scan_pos ta lits = Ret (scan_pos ta lits).
Proof.
  intros ta lits. unfold imp_scan_pos.
  rewrite (scan_list nat scan (fun l => if (ta <? l)%nat then Some Falsified else if (l <? ta)%nat then None else Some Found)).
  - cbn [bindR]. f_equal. induction lits as [|l t IH]; cbn [first_some scan_pos]; auto.
    destruct (ta <? l)%nat; auto. destruct (l <? ta)%nat; auto.
  - intros k x H. cbn [plus]. rewrite (at_some _ _ _ _ H). cbn [bindR]. destruct (ta <? x)%nat; auto. destruct (x <? ta)%nat; auto.
Qed.
Lemma imp_scan_neg_eq : forall ta lits, imp_scan_neg ta lits = Ret (scan_neg ta lits).
Proof.
  intros ta lits. unfold imp_scan_neg.
  rewrite (scan_list nat bool (fun l => if (ta =? l)%nat then Some true else if (l <? ta)%nat then None else Some false)).
  - cbn [bindR]. f_equal. induction lits as [|l t IH]; cbn [first_some scan_neg]; auto.
    destruct (ta =? l)%nat; auto. destruct (l <? ta)%nat; auto.
  - intros k x H. cbn [plus]. rewrite (at_some _ _ _ _ H). cbn [bindR]. destruct (ta =? x)%nat; auto. destruct (x <? ta)%nat; auto.
Qed.
Lemma imp_scan_pos_eval_eq : forall ta lits, imp_scan_pos_eval ta lits = Ret (scan_pos_eval ta lits).
Proof.
  intros ta lits. unfold imp_scan_pos_eval.
  rewrite (scan_list nat scan (fun l => if (ta =? l)%nat then Some Found else if (l <? ta)%nat then None else Some Falsified)).
  - cbn [bindR]. f_equal. induction lits as [|l t IH]; cbn [first_some scan_pos_eval]; auto.
    destruct (ta =? l)%nat; auto. destruct (l <? ta)%nat; auto.
  - intros k x H. cbn [plus]. rewrite (at_some _ _ _ _ H). cbn [bindR]. destruct (ta =? x)%nat; auto. destruct (x <? ta)%nat; auto.
Qed.

Lemma last_ix : forall (row : list nat), (0 < length row)%nat -> ix row (length row - 1) = Ret (last row O).
Proof.
  intros row H. rewrite (ix_nth _ O) by lia. f_equal. induction row as [|a row IH]; [cbn [length] in H; lia|].
  destruct row as [|b row]; [reflexivity|].
  change (last (a :: b :: row) O) with (last (b :: row) O). rewrite <- IH by (cbn [length]; lia).
  cbn [length]. replace (S (S (length row)) - 1)%nat with (S (S (length row) - 1)) by lia. reflexivity.
Qed.

Lemma imp_pos_eq : forall lits row sts, length sts = length row -> imp_pos lits row sts = Ret (pos_falsified (last row O) lits row sts).
Proof.
  intros lits row sts HL. unfold imp_pos.
  rewrite (scan_two nat Z unit (fun ta st => if st <? 0 then None else match scan_pos ta lits with
     | Falsified => Some tt | Found => None | Exhausted => if (ta =? last row O)%nat then Some tt else None end) _ row sts HL).
  - cbn [bindR]. f_equal. generalize (last row O) as back. revert sts HL.
    induction row as [|a row IH]; intros [|v sts] HL back; cbn [length] in HL; try lia; cbn [combine first_some pos_falsified fst snd]; auto.
    destruct (v <? 0); [apply IH; lia|]. destruct (scan_pos a lits); try reflexivity; try (apply IH; lia).
    destruct (a =? back)%nat; [reflexivity|apply IH; lia].
  - intros k x y Hx Hy. rewrite (ix_some _ _ _ _ Hy), (ix_some _ _ _ _ Hx). cbn [bindR]. destruct (y <? 0); auto.
    rewrite imp_scan_pos_eq. cbn [bindR]. destruct (scan_pos x lits); auto.
    rewrite last_ix by (apply some_lt in Hx; lia). cbn [bindR]. destruct (x =? last row O)%nat; auto.
Qed.
Lemma imp_pos_eval_eq : forall lits row sts, length sts = length row -> imp_pos_eval lits row sts = Ret (pos_falsified_eval (last row O) lits row sts).
Proof.
  intros lits row sts HL. unfold imp_pos_eval.
  rewrite (scan_two nat Z unit (fun ta st => if st <? 0 then None else match scan_pos_eval ta lits with
     | Falsified => Some tt | Found => None | Exhausted => if (ta =? last row O)%nat then Some tt else None end) _ row sts HL).
  - cbn [bindR]. f_equal. generalize (last row O) as back. revert sts HL.
    induction row as [|a row IH]; intros [|v sts] HL back; cbn [length] in HL; try lia; cbn [combine first_some pos_falsified_eval fst snd]; auto.
    destruct (v <? 0); [apply IH; lia|]. destruct (scan_pos_eval a lits); try reflexivity; try (apply IH; lia).
    destruct (a =? back)%nat; [reflexivity|apply IH; lia].
  - intros k x y Hx Hy. rewrite (ix_some _ _ _ _ Hy), (ix_some _ _ _ _ Hx). cbn [bindR]. destruct (y <? 0); auto.
    rewrite imp_scan_pos_eval_eq. cbn [bindR]. destruct (scan_pos_eval x lits); auto.
    rewrite last_ix by (apply some_lt in Hx; lia). cbn [bindR]. destruct (x =? last row O)%nat; auto.
Qed.
Lemma imp_neg_eq : forall lits row sts, length sts = length row -> imp_neg lits row sts = Ret (neg_falsified lits row sts).
Proof.
  intros lits row sts HL. unfold imp_neg.
  rewrite (scan_two nat Z unit (fun ta st => if st <? 0 then None else if scan_neg ta lits then Some tt else None) _ row sts HL).
  - cbn [bindR]. f_equal. revert sts HL.
    induction row as [|a row IH]; intros [|v sts] HL; cbn [length] in HL; try lia; cbn [combine first_some neg_falsified fst snd]; auto.
    destruct (v <? 0); [apply IH; lia|]. destruct (scan_neg a lits); auto.
  - intros k x y Hx Hy. rewrite (ix_some _ _ _ _ Hy), (ix_some _ _ _ _ Hx). cbn [bindR]. destruct (y <? 0); auto.
    rewrite imp_scan_neg_eq. cbn [bindR]. destruct (scan_neg x lits); auto.
Qed.
Lemma imp_count_eq : forall (row : list nat) sts, length sts = length row -> imp_count row sts = Ret (n_nonneg sts).
Proof.
  intros row sts HL. unfold imp_count. rewrite <- HL.
  destruct (fold_list Z Z (fun _ => True) (fun n st => if st >=? 0 then n + 1 else n)
    (fun ta_k n => bindR (ix sts ta_k) (fun st => Ret (if st >=? 0 then n + 1 else n))) sts 0 0 I) as [E _].
  - intros k x s H _. cbn [plus]. rewrite (ix_some _ _ _ _ H). cbn [bindR]. auto.
  - rewrite E. f_equal. clear E.
    assert (K : forall l z, fold_left (fun n st => if st >=? 0 then n + 1 else n) l z = z + n_nonneg l).
    { intros l. induction l as [|v l IH]; intros z; unfold n_nonneg; cbn [fold_left map zsum fold_right]; [cbn; lia|].
      rewrite IH. unfold n_nonneg. destruct (v >=? 0); cbn [b2z]; unfold zsum; cbn [fold_right]; lia. }
    rewrite K. lia.
Qed.

(** One row of the loops over the clauses that fill an array. *)
Lemma fold_fill : forall (f : nat -> Z) (g : nat -> Z) bo (body : nat -> simp -> R simp) s n,
  length (i_outputs s) = n -> (bo = true -> length (i_counts s) = n) ->
  (forall k o c, (k < n)%nat -> length o = n -> (bo = true -> length c = n) ->
     body k (i_set_outputs s o c) = Ret (i_set_outputs s (set_nth k (f k) o) (if bo then set_nth k (g k) c else c))) ->
  fold_ix n 0 body s = Ret (i_set_outputs s (map f (seq 0 n)) (if bo then map g (seq 0 n) else i_counts s)).
Proof.
  intros f g bo body s n Ho Hc H.
  assert (K : forall m i po pc o c, (i + m)%nat = n -> length po = i -> length o = m -> (bo = true -> length pc = i /\ length c = m) -> (bo = false -> pc = []) ->
    fold_ix m i body (i_set_outputs s (po ++ o) (pc ++ c)) =
    Ret (i_set_outputs s (po ++ map f (seq i m)) (if bo then pc ++ map g (seq i m) else c))).
  { intros m. induction m as [|m IH]; intros i po pc o c E L1 L2 LC LN; cbn [fold_ix seq map].
    - destruct o; [|discriminate L2]. destruct bo; [|rewrite (LN eq_refl); reflexivity].
      destruct (LC eq_refl) as [_ C]. destruct c; [|discriminate C]. reflexivity.
    - destruct o as [|x o]; [discriminate L2|]. cbn [length] in L2.
      rewrite H; [|lia|rewrite app_length; cbn [length]; lia|intro B; destruct (LC B); rewrite app_length; lia].
      cbn [bindR]. replace (set_nth i (f i) (po ++ x :: o)) with (po ++ f i :: o) by (rewrite <- (set_mid _ po o x (f i)), L1; reflexivity).
      destruct bo.
      + destruct (LC eq_refl) as [C1 C2]. destruct c as [|y c]; [discriminate C2|]. cbn [length] in C2.
        replace (set_nth i (g i) (pc ++ y :: c)) with (pc ++ g i :: c) by (rewrite <- (set_mid _ pc c y (g i)), C1; reflexivity).
        specialize (IH (S i) (po ++ [f i]) (pc ++ [g i]) o c). rewrite <- !app_assoc in IH. cbn [app] in IH.
        rewrite !app_length in IH. cbn [length] in IH. apply IH; try lia; try discriminate.
      + specialize (IH (S i) (po ++ [f i]) pc o c). rewrite <- !app_assoc in IH. cbn [app] in IH.
        rewrite !app_length in IH. cbn [length] in IH. apply IH; try lia; auto; try discriminate. }
  specialize (K n O [] [] (i_outputs s) (i_counts s)). cbn [app] in K.
  rewrite <- K; auto; try lia. destruct s; reflexivity.
Qed.

Section shaped.
Variables (bo : bool) (b : sblock).
Hypothesis Sh : shape bo b.
Lemma sh_vecs : forall k, (k < sp_ncl b)%nat ->
  ix (sp_rows b) k = Ret (prow_of b k) /\ ix (sp_rows b) (k + sp_ncl b) = Ret (nrow_of b k) /\
  ix (sp_states b) k = Ret (psts_of b k) /\ ix (sp_states b) (k + sp_ncl b) = Ret (nsts_of b k) /\
  length (psts_of b k) = length (prow_of b k) /\ length (nsts_of b k) = length (nrow_of b k).
Proof.
  intros k H. pose proof (sh_rows _ _ Sh) as S1. pose proof (sh_states _ _ Sh) as S2. unfold prow_of, nrow_of, psts_of, nsts_of.
  rewrite !(ix_nth _ []) by lia. repeat split; apply (sh_row _ _ Sh); lia.
Qed.

Lemma imp_set_eq : forall lits, imp_set bo lits (flat b) = Ret (flat (sp_train_output bo lits b)).
Proof.
  intros lits. unfold imp_set. cbn [flat i_ncl].
  pose (rs := fun k => sp_set_output lits (prow_of b k) (nrow_of b k) (psts_of b k) (nsts_of b k)).
  rewrite (fold_fill (fun k => fst (rs k)) (fun k => snd (rs k)) bo).
  - f_equal. unfold sp_train_output, rs. unfold sp_with_outputs, flat, i_set_outputs. cbn.
    rewrite !map_map. destruct bo; reflexivity.
  - apply Sh.
  - apply Sh.
  - intros k o c Hk Lo Lc. destruct (sh_vecs k Hk) as (A1 & A2 & A3 & A4 & A5 & A6).
    unfold imp_set_clause. cbn [flat i_set_outputs i_rows i_states i_ncl i_outputs i_counts].
    rewrite A1, A2, A3, A4. cbn [bindR]. rewrite set_ix_ok by lia. cbn [bindR].
    unfold rs, sp_set_output.
    destruct ((length (prow_of b k) =? 0)%nat && (length (nrow_of b k) =? 0)%nat).
    + cbn [fst snd]. destruct bo; [rewrite set_ix_ok by (rewrite Lc; auto)|]; reflexivity.
    + rewrite imp_pos_eq, imp_neg_eq by auto. cbn [bindR fst snd].
      assert (SS : forall x y (l : list Z), set_nth k x (set_nth k y l) = set_nth k x l).
      { intros x y l. clear. revert k. induction l as [|a l IH]; intros [|k]; cbn [set_nth]; auto. rewrite IH. reflexivity. }
      destruct (pos_falsified (last (prow_of b k) O) lits (prow_of b k) (psts_of b k)); cbn [orb bindR].
      * rewrite set_ix_ok by (rewrite set_nth_length; lia). cbn [bindR]. rewrite SS.
        destruct bo; [|reflexivity]. rewrite !imp_count_eq by auto. cbn [bindR]. rewrite set_ix_ok by (rewrite Lc; auto). reflexivity.
      * destruct (neg_falsified lits (nrow_of b k) (nsts_of b k)); cbn [bindR].
        -- rewrite set_ix_ok by (rewrite set_nth_length; lia). cbn [bindR]. rewrite SS.
           destruct bo; [|reflexivity]. rewrite !imp_count_eq by auto. cbn [bindR]. rewrite set_ix_ok by (rewrite Lc; auto). reflexivity.
        -- destruct bo; [|reflexivity]. rewrite !imp_count_eq by auto. cbn [bindR]. rewrite set_ix_ok by (rewrite Lc; auto). reflexivity.
Qed.

Lemma imp_eval_eq : forall lits, imp_eval lits (flat b) = Ret (flat (sp_eval_set lits b)).
Proof.
  intros lits. unfold imp_eval. cbn [flat i_ncl].
  rewrite (fold_fill (fun k => sp_eval_output lits (prow_of b k) (nrow_of b k) (psts_of b k) (nsts_of b k)) (fun _ => 0) false).
  - reflexivity.
  - apply Sh.
  - discriminate.
  - intros k o c Hk Lo _. destruct (sh_vecs k Hk) as (A1 & A2 & A3 & A4 & A5 & A6).
    unfold imp_eval_clause. cbn [flat i_set_outputs i_rows i_states i_ncl i_outputs i_counts].
    rewrite A1, A2, A3, A4. cbn [bindR]. rewrite set_ix_ok by lia. cbn [bindR].
    unfold sp_eval_output.
    assert (SS : forall x y (l : list Z), set_nth k x (set_nth k y l) = set_nth k x l).
    { intros x y l. clear. revert k. induction l as [|a l IH]; intros [|k]; cbn [set_nth]; auto. rewrite IH. reflexivity. }
    destruct ((length (prow_of b k) =? 0)%nat || (length (nrow_of b k) =? 0)%nat).
    + rewrite set_ix_ok by (rewrite set_nth_length; lia). cbn [bindR]. rewrite SS. reflexivity.
    + rewrite imp_pos_eval_eq, imp_neg_eq by auto. cbn [bindR].
      destruct (pos_falsified_eval (last (prow_of b k) O) lits (prow_of b k) (psts_of b k)); cbn [orb bindR].
      * rewrite set_ix_ok by (rewrite set_nth_length; lia). cbn [bindR]. rewrite SS. reflexivity.
      * destruct (neg_falsified lits (nrow_of b k) (nsts_of b k)); cbn [bindR]; auto.
        rewrite set_ix_ok by (rewrite set_nth_length; lia). cbn [bindR]. rewrite SS. reflexivity.
Qed.
End shaped.

(** ** Votes and the array of weights *)

Lemma concat_ix : forall A (d : A) m (ws : list (list A)), Forall (fun r => length r = m) ws -> forall k c, (k < length ws)%nat -> (c < m)%nat ->
  nth_error (concat ws) (k * m + c) = Some (nth c (nth k ws []) d).
Proof.
  intros A d m ws H. induction H as [|w ws Hw H IH]; intros k c Hk Hc; cbn [length] in Hk; [lia|].
  cbn [concat]. destruct k as [|k].
  - cbn [Nat.mul plus nth]. rewrite nth_error_app1 by lia. apply nth_error_some. lia.
  - cbn [nth]. rewrite nth_error_app2 by (cbn [Nat.mul]; lia).
    replace (S k * m + c - length w)%nat with (k * m + c)%nat by (cbn [Nat.mul]; lia). apply IH; lia.
Qed.
Lemma concat_set : forall A (d : A) m (ws : list (list A)), Forall (fun r => length r = m) ws -> forall k c x, (k < length ws)%nat -> (c < m)%nat ->
  set_nth (k * m + c) x (concat ws) = concat (set_nth k (set_nth c x (nth k ws [])) ws).
Proof.
  intros A d m ws H. induction H as [|w ws Hw H IH]; intros k c x Hk Hc; cbn [length] in Hk; [lia|].
  assert (S1 : forall (a b : list A) i v, (i < length a)%nat -> set_nth i v (a ++ b) = set_nth i v a ++ b).
  { intros a. induction a as [|y a IHa]; intros b [|i] v L; cbn [length app set_nth] in *; try lia; auto. rewrite IHa by lia. reflexivity. }
  assert (S2 : forall (a b : list A) i v, set_nth (length a + i) v (a ++ b) = a ++ set_nth i v b).
  { intros a. induction a as [|y a IHa]; intros b i v; cbn [length app set_nth plus] in *; auto. rewrite IHa. reflexivity. }
  destruct k as [|k]; cbn [concat nth set_nth].
  - cbn [Nat.mul plus]. apply S1. lia.
  - replace (S k * m + c)%nat with (length w + (k * m + c))%nat by (cbn [Nat.mul]; lia). rewrite S2. f_equal. apply IH; lia.
Qed.
Lemma concat_length_eq : forall A m (ws : list (list A)), Forall (fun r => length r = m) ws -> length (concat ws) = (length ws * m)%nat.
Proof. intros A m ws H. induction H as [|w ws Hw H IH]; cbn [concat length]; auto. rewrite app_length, IH, Hw. cbn [Nat.mul]. lia. Qed.
Lemma pos_lt : forall k c n m, (k < n)%nat -> (c < m)%nat -> (k * m + c < n * m)%nat.
Proof. intros. nia. Qed.

Lemma imp_votes_eq : forall b, length (sp_outputs b) = sp_ncl b -> length (sp_weights b) = sp_ncl b -> rows_of (sp_ncls b) (sp_weights b) ->
  length (sp_votes b) = sp_ncls b -> imp_votes (flat b) = Ret (flat (sp_count_votes b)).
Proof.
  intros b Ho Hw Hr Hv. unfold imp_votes. cbn [flat i_ncls i_ncl i_votes i_outputs i_weights].
  destruct (Nat.leb_spec (sp_ncls b) (length (sp_votes b))) as [L|L]; [|lia]. cbn [negb].
  rewrite (skipn_all2 (n := sp_ncls b)), app_nil_r by lia.
  destruct (fold_list (Z * list Z) (list Z) (fun v => length v = sp_ncls b)
    (fun v p => if fst p =? 1 then map2 (fun v t => wrap16 (v + t)) v (snd p) else v)
    (fun clause_k votes => bindR (ix (sp_outputs b) clause_k) (fun o =>
       if o =? 1 then fold_ix (sp_ncls b) 0 (fun class_k votes =>
         bindR (ix (concat (sp_weights b)) (clause_k * sp_ncls b + class_k)) (fun to_add =>
         bindR (ix votes class_k) (fun v => set_ix class_k (wrap16 (v + to_add)) votes))) votes else Ret votes))
    (combine (sp_outputs b) (sp_weights b)) 0 (repeat 0 (sp_ncls b))) as [E _].
  - apply repeat_length.
  - intros k [o w] v Hk Lv. apply combine_error in Hk. destruct Hk as [Hko Hkw]. cbn [plus fst snd].
    rewrite (ix_some _ _ _ _ Hko). cbn [bindR].
    assert (Lw : length w = sp_ncls b).
    { unfold rows_of in Hr. rewrite Forall_forall in Hr. apply Hr. apply (nth_error_In _ _ Hkw). }
    destruct (o =? 1); [|auto].
    assert (M : map2 (fun v t => wrap16 (v + t)) v w = map2 (fun t v => wrap16 (v + t)) w v).
    { clear. revert v. induction w as [|x w IH]; intros [|y v]; cbn [map2]; auto. rewrite IH. reflexivity. }
    rewrite M. split.
    + pose proof (fold_inplace0 Z Z (fun t v => wrap16 (v + t)) (fun class_k votes =>
         bindR (ix (concat (sp_weights b)) (k * sp_ncls b + class_k)) (fun to_add =>
         bindR (ix votes class_k) (fun v => set_ix class_k (wrap16 (v + to_add)) votes))) w v ltac:(lia)) as F.
      rewrite Lw in F. apply F. intros c a y st Ha Hy Ls. assert (Lc := some_lt _ _ _ _ Ha). assert (Lk := some_lt _ _ _ _ Hkw).
      rewrite (ix_some _ _ _ (nth c (nth k (sp_weights b) []) 0)) by (apply concat_ix; auto; lia).
      rewrite (nth_error_nth _ _ _ Hkw), (nth_error_nth _ _ _ Ha). cbn [bindR].
      rewrite (ix_some _ _ _ _ Hy). cbn [bindR]. apply set_ix_ok. lia.
    + revert Lv Lw. generalize (sp_ncls b). clear. revert v. induction w as [|x w IH]; intros [|y v] n Lv Lw; cbn [map2 length] in *; auto.
      destruct n; [discriminate|]. f_equal. apply IH; lia.
  - rewrite combine_length, Ho, Hw, Nat.min_id in E. rewrite E. cbn [bindR]. f_equal.
    unfold sp_count_votes, flat, sp_with_outputs, i_set_votes. cbn. f_equal.
    clear. generalize (repeat 0 (sp_ncls b)). generalize (sp_weights b). induction (sp_outputs b) as [|o os IH]; intros [|w ws] v; cbn [combine fold_left count_votes_loop fst snd]; auto.
Qed.
