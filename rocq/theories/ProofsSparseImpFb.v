(** Index safety of the sparse block: feedback, updates, histories. *)
From Coq Require Import ZArith List Bool QArith Lia ZifyBool.
From Verif Require Import Base BaseProofs Spec ModelDense ModelLayout ModelSparse ModelSparseImp SpecSparseImp ProofsHistory ProofsSparseImp.
Import ListNotations.
Open Scope Z_scope.

Lemma set_set : forall A k (x y : A) l, set_nth k x (set_nth k y l) = set_nth k x l.
Proof. intros A k x y l. revert k. induction l as [|a l IH]; intros [|k]; cbn [set_nth]; auto. rewrite IH. reflexivity. Qed.
Lemma set_get : forall A k (x d : A) l, (k < length l)%nat -> nth k (set_nth k x l) d = x.
Proof. intros A k x d l. revert k. induction l as [|a l IH]; intros [|k] H; cbn [set_nth nth length] in *; try lia; auto. apply IH. lia. Qed.

Lemma imp_mem_eq : forall x l, imp_mem x l = Ret (memb x l).
Proof.
  intros x l. unfold imp_mem.
  rewrite (scan_list nat unit (fun y => if (x =? y)%nat then Some tt else None)).
  - cbn [bindR]. f_equal. unfold memb. induction l as [|y t IH]; cbn [first_some existsb]; auto.
    destruct (x =? y)%nat; auto.
  - intros k y H. cbn [plus]. rewrite (at_some _ _ _ _ H). cbn [bindR]. destruct (x =? y)%nat; auto.
Qed.
Lemma imp_find_eq : forall x l, imp_find x l = Ret (index_of x l).
Proof.
  intros x l. unfold imp_find.
  assert (K : forall m i step, (forall k y, nth_error m k = Some y -> step (i + k)%nat = Ret (if (y =? x)%nat then Some (i + k)%nat else None)) ->
    scan_ix (length m) i step = Ret (option_map (fun k => (i + k)%nat) (index_of x m))).
  { intros m. induction m as [|y m IH]; intros i step H; cbn [length scan_ix index_of]; auto.
    pose proof (H 0%nat y eq_refl) as E. rewrite Nat.add_0_r in E. rewrite E. cbn [bindR].
    destruct (y =? x)%nat; [cbn [option_map]; rewrite Nat.add_0_r; reflexivity|].
    rewrite (IH (S i)). - f_equal. destruct (index_of x m); cbn [option_map]; auto. f_equal. lia.
    - intros k z Hk. replace (S i + k)%nat with (i + S k)%nat by lia. apply H. exact Hk. }
  rewrite (K l O). - f_equal. destruct (index_of x l); reflexivity.
  - intros k y H. cbn [plus]. rewrite (at_some _ _ _ _ H). cbn [bindR]. destruct (y =? x)%nat; reflexivity.
Qed.
Lemma index_of_lt : forall x l k, index_of x l = Some k -> (k < length l)%nat.
Proof.
  intros x l. induction l as [|y l IH]; intros k H; cbn [index_of length] in *; [discriminate|].
  destruct (y =? x)%nat; [inversion H; lia|]. destruct (index_of x l) as [j|]; [|discriminate]. inversion H. specialize (IH j eq_refl). lia.
Qed.

Lemma imp_update_al_eq : forall dynamic alsize al repl c lit, (c < length repl)%nat -> (nth c repl O < alsize)%nat ->
  let u := update_al dynamic alsize al (nth c repl O) lit in
  imp_update_al dynamic alsize al repl c lit = Ret (fst u, set_nth c (snd u) repl) /\ (snd u < alsize)%nat.
Proof.
  intros dynamic alsize al repl c lit Hc Hr. unfold imp_update_al, update_al.
  assert (Same : set_nth c (nth c repl O) repl = repl) by (apply set_same, nth_error_some; auto).
  rewrite !imp_mem_eq. cbn [bindR].
  destruct (Nat.ltb_spec (length al) alsize) as [L|L].
  - destruct (memb lit al); cbn [fst snd]; rewrite Same; auto.
  - destruct dynamic; [|cbn [fst snd]; rewrite Same; auto].
    destruct (memb lit al); [cbn [fst snd]; rewrite Same; auto|].
    rewrite (ix_nth _ O) by auto. cbn [bindR]. rewrite set_at_ok by lia. cbn [bindR].
    rewrite set_ix_ok by auto. cbn [bindR]. rewrite (ix_nth _ O) by (rewrite set_nth_length; auto). cbn [bindR].
    rewrite set_get by auto. cbn [fst snd].
    destruct (Nat.eqb_spec (S (nth c repl O)) alsize) as [E|E].
    + rewrite set_ix_ok by (rewrite set_nth_length; auto). cbn [bindR]. rewrite set_set. split; [reflexivity|lia].
    + cbn [bindR]. split; [reflexivity|lia].
Qed.

(** The state of Type Ia with the whole array al_replace_index. *)
Definition up (c : nat) (repl : list nat) (f : fb1a) : i1a :=
  mkI1 (f_pst f) (f_nst f) (f_al f) (set_nth c (f_repl f) repl) (f_rng f).

Record fits (lp ln alsize : nat) (f : fb1a) : Prop := {
  fi_p : length (f_pst f) = lp; fi_n : length (f_nst f) = ln; fi_r : (f_repl f < alsize)%nat
}.

Lemma imp_t1a_lit_eq : forall boost dynamic alsize si sm prow nrow c repl f lit,
  fits (length prow) (length nrow) alsize f -> (c < length repl)%nat ->
  imp_t1a_lit boost dynamic alsize si sm prow nrow c lit (up c repl f) =
    Ret (up c repl (t1a_lit boost dynamic alsize si sm prow nrow f lit)) /\
  fits (length prow) (length nrow) alsize (t1a_lit boost dynamic alsize si sm prow nrow f lit).
Proof.
  intros boost dynamic alsize si sm prow nrow c repl f lit F Hc. unfold imp_t1a_lit, t1a_lit.
  rewrite !imp_find_eq. cbn [bindR].
  match goal with |- context [match index_of lit nrow with Some _ => _ | None => ?g end] =>
    lazymatch g with Ret _ => fail | _ => idtac end end || idtac.
  pose (f1 := match index_of lit prow with
    | Some k =>
        let v := nth k (f_pst f) 0 in
        if v <? 127 then
          if boost then mkF (set_nth k (wrap8 (v + 1)) (f_pst f)) (f_nst f) (f_al f) (f_repl f) (f_rng f)
          else
            let '(d, r) := draw_le (f_rng f) sm in
            mkF (if d then set_nth k (wrap8 (v + 1)) (f_pst f) else f_pst f) (f_nst f) (f_al f) (f_repl f) r
        else f
    | None =>
        let '(al, rp) := update_al dynamic alsize (f_al f) (f_repl f) lit in
        mkF (f_pst f) (f_nst f) al rp (f_rng f)
    end).
  fold f1.
  assert (K : match index_of lit prow with
       | Some k =>
           bindR (at_ (j_pst (up c repl f)) k) (fun v =>
           if v <? 127 then
             if boost then bindR (set_at k (wrap8 (v + 1)) (j_pst (up c repl f))) (fun p => Ret (mkI1 p (j_nst (up c repl f)) (j_al (up c repl f)) (j_repl (up c repl f)) (j_rng (up c repl f))))
             else
               let '(d, r) := draw_le (j_rng (up c repl f)) sm in
               bindR (if d then set_at k (wrap8 (v + 1)) (j_pst (up c repl f)) else Ret (j_pst (up c repl f))) (fun p =>
               Ret (mkI1 p (j_nst (up c repl f)) (j_al (up c repl f)) (j_repl (up c repl f)) r))
           else Ret (up c repl f))
       | None =>
           bindR (imp_update_al dynamic alsize (j_al (up c repl f)) (j_repl (up c repl f)) c lit) (fun a =>
           Ret (mkI1 (j_pst (up c repl f)) (j_nst (up c repl f)) (fst a) (snd a) (j_rng (up c repl f))))
       end = Ret (up c repl f1) /\ fits (length prow) (length nrow) alsize f1).
  { unfold f1. destruct F as [F1 F2 F3]. destruct (index_of lit prow) as [k|] eqn:E.
    - apply index_of_lt in E. cbn [up j_pst j_nst j_al j_repl j_rng]. rewrite (at_nth _ 0) by lia. cbn [bindR].
      cbv zeta. destruct (nth k (f_pst f) 0 <? 127); [|split; [reflexivity|constructor; auto]].
      destruct boost.
      + rewrite set_at_ok by lia. split; [reflexivity|constructor; cbn [f_pst f_nst f_repl]; rewrite ?set_nth_length; auto].
      + destruct (draw_le (f_rng f) sm) as [d r]. destruct d.
        * rewrite set_at_ok by lia. split; [reflexivity|constructor; cbn [f_pst f_nst f_repl]; rewrite ?set_nth_length; auto].
        * split; [reflexivity|constructor; cbn [f_pst f_nst f_repl]; auto].
    - cbn [up j_pst j_nst j_al j_repl j_rng].
      destruct (imp_update_al_eq dynamic alsize (f_al f) (set_nth c (f_repl f) repl) c lit) as [U V];
        [rewrite set_nth_length; auto|rewrite set_get by auto; auto|].
      rewrite set_get in U, V by auto. rewrite U. cbn [bindR fst snd]. rewrite set_set.
      destruct (update_al dynamic alsize (f_al f) (f_repl f) lit) as [al rp]. cbn [fst snd] in *.
      split; [reflexivity|constructor; cbn [f_pst f_nst f_repl]; auto]. }
  destruct K as [K F1]. rewrite K. cbn [bindR]. clearbody f1. clear K F. destruct F1 as [F1 F2 F3].
  destruct (index_of lit nrow) as [k|] eqn:E; [|split; [reflexivity|constructor; auto]].
  apply index_of_lt in E. cbn [up j_pst j_nst j_al j_repl j_rng]. rewrite (at_nth _ 0) by lia. cbn [bindR]. cbv zeta.
  destruct (nth k (f_nst f1) 0 >? -127); [|split; [reflexivity|constructor; auto]].
  destruct (draw_le (f_rng f1) si) as [d r]. destruct d.
  - rewrite set_at_ok by lia. split; [reflexivity|constructor; cbn [f_pst f_nst f_repl]; rewrite ?set_nth_length; auto].
  - split; [reflexivity|constructor; cbn [f_pst f_nst f_repl]; auto].
Qed.

Definition g_down (si : Q) (lits : list nat) (ta : nat) (v : Z) (r : rng) : Z * rng :=
  if memb ta lits then (v, r)
  else if v >? -127 then let '(d, r) := draw_le r si in ((if d then wrap8 (v - 1) else v), r) else (v, r).
Lemma absent_down_acc : forall si lits row sts r, absent_down si lits row sts r = map_acc (g_down si lits) row sts r.
Proof. intros si lits row. induction row as [|a row IH]; intros [|v sts] r; cbn [absent_down map_acc]; auto.
  fold (g_down si lits a v r). destruct (g_down si lits a v r) as [v' r1]. rewrite IH. reflexivity. Qed.
Definition g_up (boost : bool) (sm : Q) (lits : list nat) (ta : nat) (v : Z) (r : rng) : Z * rng :=
  if memb ta lits then (v, r)
  else if v <? 127 then
    if boost then (wrap8 (v + 1), r)
    else let '(d, r) := draw_le r sm in ((if d then wrap8 (v + 1) else v), r)
  else (v, r).
Lemma absent_up_acc : forall boost sm lits row sts r, absent_up boost sm lits row sts r = map_acc (g_up boost sm lits) row sts r.
Proof. intros boost sm lits row. induction row as [|a row IH]; intros [|v sts] r; cbn [absent_up map_acc]; auto.
  fold (g_up boost sm lits a v r). destruct (g_up boost sm lits a v r) as [v' r1]. rewrite IH. reflexivity. Qed.

Lemma imp_absent_down_eq : forall si lits row sts r, length sts = length row ->
  imp_absent_down si lits row sts r = Ret (absent_down si lits row sts r) /\ length (fst (absent_down si lits row sts r)) = length row.
Proof.
  intros si lits row sts r HL. rewrite absent_down_acc, map_acc_length. split; auto. unfold imp_absent_down.
  apply fold_inplace; auto. intros k a v st r0 Ha Hv Ls. assert (L := some_lt _ _ _ _ Ha).
  rewrite (at_some _ _ _ _ Ha). cbn [bindR]. rewrite imp_mem_eq. cbn [bindR fst snd]. unfold g_down.
  destruct (memb a lits); [cbn [fst snd]; rewrite (set_same _ _ _ _ Hv); reflexivity|].
  rewrite (at_some _ _ _ _ Hv). cbn [bindR]. destruct (v >? -127); [|cbn [fst snd]; rewrite (set_same _ _ _ _ Hv); reflexivity].
  destruct (draw_le r0 si) as [d r1]. cbn [fst snd]. destruct d.
  - rewrite set_at_ok by lia. reflexivity.
  - cbn [bindR]. rewrite (set_same _ _ _ _ Hv). reflexivity.
Qed.
Lemma imp_absent_up_eq : forall boost sm lits row sts r, length sts = length row ->
  imp_absent_up boost sm lits row sts r = Ret (absent_up boost sm lits row sts r) /\ length (fst (absent_up boost sm lits row sts r)) = length row.
Proof.
  intros boost sm lits row sts r HL. rewrite absent_up_acc, map_acc_length. split; auto. unfold imp_absent_up.
  apply fold_inplace; auto. intros k a v st r0 Ha Hv Ls. assert (L := some_lt _ _ _ _ Ha).
  rewrite (at_some _ _ _ _ Ha). cbn [bindR]. rewrite imp_mem_eq. cbn [bindR fst snd]. unfold g_up.
  destruct (memb a lits); [cbn [fst snd]; rewrite (set_same _ _ _ _ Hv); reflexivity|].
  rewrite (at_some _ _ _ _ Hv). cbn [bindR]. destruct (v <? 127); [|cbn [fst snd]; rewrite (set_same _ _ _ _ Hv); reflexivity].
  destruct boost.
  - rewrite set_at_ok by lia. reflexivity.
  - destruct (draw_le r0 sm) as [d r1]. cbn [fst snd]. destruct d.
    + rewrite set_at_ok by lia. reflexivity.
    + cbn [bindR]. rewrite (set_same _ _ _ _ Hv). reflexivity.
Qed.

Lemma imp_t1a_eq : forall boost dynamic alsize si sm lits prow nrow c repl f,
  fits (length prow) (length nrow) alsize f -> (c < length repl)%nat ->
  imp_t1a boost dynamic alsize si sm lits prow nrow c (up c repl f) = Ret (up c repl (sp_t1a boost dynamic alsize si sm lits prow nrow f)) /\
  fits (length prow) (length nrow) alsize (sp_t1a boost dynamic alsize si sm lits prow nrow f).
Proof.
  intros boost dynamic alsize si sm lits prow nrow c repl f F Hc. unfold imp_t1a, sp_t1a.
  assert (K : forall l i f, fits (length prow) (length nrow) alsize f -> (forall k x, nth_error l k = Some x -> at_ lits (i + k) = Ret x) ->
    fold_ix (length l) i (fun lit_k f => bindR (at_ lits lit_k) (fun lit => imp_t1a_lit boost dynamic alsize si sm prow nrow c lit f)) (up c repl f) =
      Ret (up c repl (fold_left (t1a_lit boost dynamic alsize si sm prow nrow) l f)) /\
    fits (length prow) (length nrow) alsize (fold_left (t1a_lit boost dynamic alsize si sm prow nrow) l f)).
  { intros l. induction l as [|x l IH]; intros i g G H; cbn [length fold_ix fold_left]; auto.
    pose proof (H 0%nat x eq_refl) as E. rewrite Nat.add_0_r in E. rewrite E. cbn [bindR].
    destruct (imp_t1a_lit_eq boost dynamic alsize si sm prow nrow c repl g x G Hc) as [E1 G1]. rewrite E1. cbn [bindR].
    apply IH; auto. intros k y Hk. replace (S i + k)%nat with (i + S k)%nat by lia. apply H. exact Hk. }
  destruct (K lits O f F) as [E G]; [intros k x Hx; apply at_some; exact Hx|]. rewrite E. cbn [bindR]. clear K E.
  set (f1 := fold_left (t1a_lit boost dynamic alsize si sm prow nrow) lits f) in *. clearbody f1. destruct G as [G1 G2 G3].
  cbn [up j_pst j_nst j_al j_repl j_rng].
  destruct (imp_absent_down_eq si lits prow (f_pst f1) (f_rng f1) G1) as [E1 L1]. rewrite E1. cbn [bindR].
  destruct (absent_down si lits prow (f_pst f1) (f_rng f1)) as [ps r1]. cbn [fst snd] in *.
  destruct (imp_absent_up_eq boost sm lits nrow (f_nst f1) r1 G2) as [E2 L2]. rewrite E2. cbn [bindR].
  destruct (absent_up boost sm lits nrow (f_nst f1) r1) as [ns r2]. cbn [fst snd] in *.
  split; [reflexivity|constructor; auto].
Qed.

Definition g_t1b (si : Q) (_ : nat) (v : Z) (r : rng) : Z * rng :=
  let '(d, r) := draw_le r si in ((if d && (v >? -127) then wrap8 (v - 1) else v), r).
Lemma t1b_acc : forall si (row : list nat) sts r, length sts = length row -> sp_t1b_row si sts r = map_acc (g_t1b si) row sts r.
Proof. intros si row. induction row as [|a row IH]; intros [|v sts] r H; cbn [length] in H; try lia; cbn [sp_t1b_row map_acc]; auto.
  unfold g_t1b at 1. destruct (draw_le r si) as [d r1]. rewrite IH by lia. reflexivity. Qed.
Lemma imp_t1b_eq : forall si row sts r, length sts = length row ->
  imp_t1b si row sts r = Ret (sp_t1b_row si sts r) /\ length (fst (sp_t1b_row si sts r)) = length row.
Proof.
  intros si row sts r HL. rewrite (t1b_acc si row) by auto. rewrite map_acc_length. split; auto. unfold imp_t1b.
  apply fold_inplace; auto. intros k a v st r0 Ha Hv Ls. assert (L := some_lt _ _ _ _ Ha). cbn [fst snd]. unfold g_t1b.
  destruct (draw_le r0 si) as [d r1]. destruct d; cbn [andb fst snd].
  - rewrite (at_some _ _ _ _ Hv). cbn [bindR]. destruct (v >? -127).
    + rewrite set_at_ok by lia. reflexivity.
    + rewrite (set_same _ _ _ _ Hv). reflexivity.
  - rewrite (set_same _ _ _ _ Hv). reflexivity.
Qed.

Lemma map2_len : forall A B C (g : A -> B -> C) l m, length m = length l -> length (map2 g l m) = length l.
Proof. intros A B C g l. induction l as [|a l IH]; intros [|b m] H; cbn [map2 length] in *; try lia. rewrite IH; lia. Qed.

Lemma imp_t2_pos_eq : forall lits row sts, length sts = length row -> imp_t2_row false lits row sts = Ret (t2_pos lits row sts).
Proof.
  intros lits row sts HL. unfold imp_t2_row, t2_pos. apply fold_inplace0; auto. intros k a v st Ha Hv Ls. assert (L := some_lt _ _ _ _ Ha).
  rewrite (at_some _ _ _ _ Ha). cbn [bindR]. rewrite imp_mem_eq. cbn [bindR].
  destruct (memb a lits); cbn [Bool.eqb negb andb]; [rewrite (set_same _ _ _ _ Hv); reflexivity|].
  rewrite (at_some _ _ _ _ Hv). cbn [bindR]. destruct (v <? 0); [apply set_at_ok; lia|rewrite (set_same _ _ _ _ Hv); reflexivity].
Qed.
Lemma imp_t2_neg_eq : forall lits row sts, length sts = length row -> imp_t2_row true lits row sts = Ret (t2_neg lits row sts).
Proof.
  intros lits row sts HL. unfold imp_t2_row, t2_neg. apply fold_inplace0; auto. intros k a v st Ha Hv Ls. assert (L := some_lt _ _ _ _ Ha).
  rewrite (at_some _ _ _ _ Ha). cbn [bindR]. rewrite imp_mem_eq. cbn [bindR].
  destruct (memb a lits); cbn [Bool.eqb negb andb]; [|rewrite (set_same _ _ _ _ Hv); reflexivity].
  rewrite (at_some _ _ _ _ Hv). cbn [bindR]. destruct (v <? 0); [apply set_at_ok; lia|rewrite (set_same _ _ _ _ Hv); reflexivity].
Qed.

Definition even (s : rows2) : Prop := length (r_psts s) = length (r_prow s) /\ length (r_nsts s) = length (r_nrow s).
Lemma imp_t2_add_eq : forall csize thr lits a s, even s ->
  imp_t2_add csize thr lits a s = Ret (t2_add csize thr lits s a) /\ even (t2_add csize thr lits s a).
Proof.
  intros csize thr lits a s [E1 E2]. unfold imp_t2_add, t2_add. rewrite !imp_mem_eq. cbn [bindR].
  destruct (memb a lits); cbn [bindR].
  - destruct (memb a (r_nrow s)); [split; [auto|split; auto]|]. destruct (length (r_nrow s) <? csize)%nat; split; try split; auto.
    cbn [r_nsts r_nrow]. rewrite !app_length. cbn [length]. lia.
  - destruct (memb a (r_prow s)); [split; [auto|split; auto]|]. destruct (length (r_prow s) <? csize)%nat; split; try split; auto.
    cbn [r_psts r_prow]. rewrite !app_length. cbn [length]. lia.
Qed.
Lemma imp_t2_eq : forall csize thr al lits s, even s ->
  imp_t2 csize thr al lits s = Ret (sp_t2 csize thr al lits s) /\ even (sp_t2 csize thr al lits s).
Proof.
  intros csize thr al lits s [E1 E2]. unfold imp_t2, sp_t2. rewrite imp_t2_pos_eq, imp_t2_neg_eq by auto. cbn [bindR].
  apply (fold_list nat rows2 even (t2_add csize thr lits)).
  - split; cbn [r_psts r_prow r_nsts r_nrow]; unfold t2_pos, t2_neg; apply map2_len; auto.
  - intros k x t H E. cbn [plus]. rewrite (at_some _ _ _ _ H). cbn [bindR]. apply imp_t2_add_eq; auto.
Qed.

Lemma erase_len : forall A k (l : list A), (k < length l)%nat -> length (erase k l) = (length l - 1)%nat.
Proof. intros A k l H. unfold erase. rewrite app_length, firstn_length, skipn_length. lia. Qed.
Lemma imp_prune_eq : forall thr row sts, length sts = length row ->
  imp_prune thr row sts = Ret (prune_clause thr row sts) /\ length (snd (prune_clause thr row sts)) = length (fst (prune_clause thr row sts)).
Proof.
  intros thr row0 sts0. unfold imp_prune, prune_clause. generalize (length row0) at 2 3 4 5. generalize 0%nat. intros k fuel. revert k row0 sts0.
  induction fuel as [|fuel IH]; intros k row sts HL; cbn [imp_prune_loop prune_loop fst snd]; auto.
  destruct (Nat.ltb_spec k (length row)) as [L|L]; [|auto].
  rewrite (at_nth _ 0) by lia. cbn [bindR]. destruct (nth k sts 0 <? thr); [|auto].
  unfold erase_ix. destruct (Nat.ltb_spec k (length row)) as [_|]; [|lia]. cbn [bindR].
  destruct (Nat.ltb_spec k (length sts)) as [_|]; [|lia]. cbn [bindR]. apply IH. rewrite !erase_len by lia. lia.
Qed.

Lemma swap_at_eq : forall A (d : A) j l, (S j < length l)%nat -> swap_at_ j l = Ret (swap_at d j l) /\ length (swap_at d j l) = length l.
Proof.
  intros A d j l H. unfold swap_at_, swap_at. rewrite !(at_nth _ d) by lia. cbn [bindR]. rewrite set_at_ok by lia. cbn [bindR].
  rewrite set_at_ok by (rewrite set_nth_length; lia). rewrite !set_nth_length. auto.
Qed.
Definition eq_len (n : nat) (s : list nat * list Z * bool) : Prop := length (fst (fst s)) = n /\ length (snd (fst s)) = n.
Lemma imp_bubble_step_eq : forall n j s, eq_len n s -> (S j < n)%nat -> imp_bubble_step j s = Ret (bubble_step j s) /\ eq_len n (bubble_step j s).
Proof.
  intros n j [[row sts] sw] [E1 E2] H. cbn [fst snd] in *. unfold imp_bubble_step, bubble_step.
  rewrite !(at_nth _ O) by lia. cbn [bindR]. destruct (nth (S j) row O <? nth j row O)%nat; [|split; [auto|split; auto]].
  destruct (swap_at_eq nat O j row ltac:(lia)) as [W1 W2]. destruct (swap_at_eq Z 0 j sts ltac:(lia)) as [V1 V2].
  rewrite W1, V1. cbn [bindR]. split; [auto|split; cbn [fst snd]; lia].
Qed.
Lemma for_loop_seq : forall S (g : nat -> S -> S) n s, for_loop n g s = fold_left (fun s k => g k s) (seq 0 n) s.
Proof. intros S g n s. induction n as [|n IH]; auto. rewrite seq_S, fold_left_app. cbn [for_loop fold_left plus]. rewrite IH. reflexivity. Qed.
Lemma imp_bubble_eq : forall n fuel i s, eq_len n s -> imp_bubble fuel i s = Ret (bubble_loop fuel i s) /\ eq_len n (bubble_loop fuel i s).
Proof.
  intros n fuel. induction fuel as [|fuel IH]; intros i s E; cbn [imp_bubble bubble_loop]; auto.
  destruct (fold_seq _ (eq_len n) bubble_step imp_bubble_step (length (fst (fst s)) - i - 1) s E) as [F G].
  { intros k t Hk Ht. apply imp_bubble_step_eq; auto. destruct E as [E _]. lia. }
  rewrite F. cbn [bindR]. rewrite <- for_loop_seq in *. destruct (negb (snd (for_loop (length (fst (fst s)) - i - 1) bubble_step s))); auto.
Qed.
Lemma imp_sort_eq : forall row sts, length sts = length row ->
  imp_sort row sts = Ret (sort_clause row sts) /\ length (snd (sort_clause row sts)) = length (fst (sort_clause row sts)).
Proof.
  intros row sts HL. unfold imp_sort, sort_clause. destruct (Nat.eqb_spec (length row) 1) as [|N1]; [auto|].
  destruct (Nat.eqb_spec (length row) 2) as [N2|N2].
  - rewrite !(at_nth _ O) by lia. cbn [bindR]. destruct (nth 1 row O <? nth 0 row O)%nat; [|auto].
    destruct (swap_at_eq nat O 0 row ltac:(lia)) as [W1 W2]. destruct (swap_at_eq Z 0 0 sts ltac:(lia)) as [V1 V2].
    rewrite W1, V1. cbn [bindR fst snd]. split; [auto|lia].
  - destruct (imp_bubble_eq (length row) (length row) 0 (row, sts, false)) as [E [G1 G2]]; [split; auto|].
    rewrite E. cbn [bindR]. split; [auto|lia].
Qed.

(** ** Updates *)

Lemma shape_store : forall bo b k s c al repl w r, shape bo b -> (k < sp_ncl b)%nat -> even s -> (repl < sp_alsize b)%nat ->
  shape bo (sp_store b k s c al repl w r) /\ same_dims (sp_store b k s c al repl w r) b.
Proof.
  intros bo b k s c al repl w r [H1 H2 H3 H4 H5 H6 H7 H8 H9 H10 H11 H12] Hk [E1 E2] Hr. split; [|repeat split].
  constructor; cbn [sp_store sp_rows sp_states sp_ncl sp_ncls sp_al sp_repl sp_alsize sp_weights sp_outputs sp_counts sp_votes];
    rewrite ?set_nth_length; auto.
  - intros i Hi. destruct (Nat.eq_dec i (k + sp_ncl b)) as [->|N].
    + rewrite !set_get by (rewrite set_nth_length; lia). auto.
    + rewrite !(nth_set_nth_neq _ (k + sp_ncl b) i) by lia. destruct (Nat.eq_dec i k) as [->|N'].
      * rewrite !set_get by lia. auto.
      * rewrite !(nth_set_nth_neq _ k i) by lia. auto.
  - intros c' Hc'. destruct (Nat.eq_dec c' c) as [->|N]; [rewrite set_get by lia; auto|rewrite nth_set_nth_neq by lia; auto].
  - unfold rows_of in *. rewrite Forall_forall in *. intros x Hx. apply (In_nth _ _ []) in Hx. destruct Hx as (i & Hi & <-).
    rewrite set_nth_length in Hi. destruct (Nat.eq_dec i k) as [->|N].
    + rewrite set_get by lia. rewrite set_nth_length. apply H9. apply nth_In. lia.
    + rewrite nth_set_nth_neq by lia. apply H9. apply nth_In. lia.
Qed.

Lemma imp_clause_update_eq : forall bo boost dynamic lits k c t b, shape bo b -> (k < sp_ncl b)%nat -> (c < sp_ncls b)%nat ->
  imp_clause_update boost dynamic lits k c t (flat b) = Ret (flat (sp_clause_update boost dynamic lits k c t b)) /\
  shape bo (sp_clause_update boost dynamic lits k c t b) /\ same_dims (sp_clause_update boost dynamic lits k c t b) b.
Proof.
  intros bo boost dynamic lits k c t b Sh Hk Hc. destruct (sh_vecs bo b Sh k Hk) as (A1 & A2 & A3 & A4 & A5 & A6).
  pose proof Sh as [H1 H2 H3 H4 H5 H6 H7 H8 H9 H10 H11 H12].
  assert (Save : forall p n al rp w r, length (snd p) = length (fst p) -> length (snd n) = length (fst n) -> (rp < sp_alsize b)%nat ->
    bindR (set_ix k (fst p) (sp_rows b)) (fun rows => bindR (set_ix (k + sp_ncl b) (fst n) rows) (fun rows =>
    bindR (set_ix k (snd p) (sp_states b)) (fun states => bindR (set_ix (k + sp_ncl b) (snd n) states) (fun states =>
    bindR (set_ix c al (sp_al b)) (fun als =>
    bindR (set_ix (k * sp_ncls b + c) w (concat (sp_weights b))) (fun ws =>
    Ret (i_store (flat b) rows states als (set_nth c rp (sp_repl b)) ws r))))))) =
    Ret (flat (sp_store b k (mkR (fst p) (snd p) (fst n) (snd n)) c al rp w r)) /\
    shape bo (sp_store b k (mkR (fst p) (snd p) (fst n) (snd n)) c al rp w r) /\
    same_dims (sp_store b k (mkR (fst p) (snd p) (fst n) (snd n)) c al rp w r) b).
  { intros p n al rp w r Ep En Hr. split; [|apply shape_store; auto; split; auto].
    rewrite set_ix_ok by lia. cbn [bindR]. rewrite set_ix_ok by (rewrite set_nth_length; lia). cbn [bindR].
    rewrite set_ix_ok by lia. cbn [bindR]. rewrite set_ix_ok by (rewrite set_nth_length; lia). cbn [bindR].
    rewrite set_ix_ok by lia. cbn [bindR].
    rewrite set_ix_ok by (rewrite (concat_length_eq _ (sp_ncls b)), H8 by auto; apply pos_lt; auto). cbn [bindR].
    rewrite (concat_set Z 0 (sp_ncls b)) by (auto; lia). reflexivity. }
  unfold imp_clause_update, sp_clause_update.
  cbn [flat i_rows i_states i_ncl i_al i_outputs i_weights i_ncls i_alsize i_si i_sm i_repl i_fast i_thr i_csize].
  rewrite A1, A2, A3, A4. cbn [bindR]. rewrite (ix_nth _ []) by lia. cbn [bindR]. rewrite (ix_nth _ 0) by lia. cbn [bindR].
  rewrite (ix_some _ _ _ (nth c (nth k (sp_weights b) []) 0)) by (apply concat_ix; auto; lia). cbn [bindR].
  cbv zeta. cbn [r_prow r_psts r_nrow r_nsts].
  set (w := nth c (nth k (sp_weights b) []) 0). set (sg := if w >=? 0 then 1 else -1). set (out := nth k (sp_outputs b) 0).
  assert (Rp : set_nth c (nth c (sp_repl b) O) (sp_repl b) = sp_repl b) by (apply set_same, nth_error_some; lia).
  destruct (t * sg >? 0).
  - destruct (out =? 1).
    + pose (f0 := mkF (psts_of b k) (nsts_of b k) (nth c (sp_al b) []) (nth c (sp_repl b) O) (sp_fast b)).
      replace (mkI1 (psts_of b k) (nsts_of b k) (nth c (sp_al b) []) (sp_repl b) (sp_fast b)) with (up c (sp_repl b) f0)
        by (unfold up, f0; cbn [f_pst f_nst f_al f_repl f_rng]; rewrite Rp; reflexivity).
      destruct (imp_t1a_eq boost dynamic (sp_alsize b) (sp_si b) (sp_sm b) lits (prow_of b k) (nrow_of b k) c (sp_repl b) f0) as [E F];
        [constructor; cbn [f0 f_pst f_nst f_repl]; auto|lia|].
      rewrite E. cbn [bindR]. fold f0. set (f := sp_t1a boost dynamic (sp_alsize b) (sp_si b) (sp_sm b) lits (prow_of b k) (nrow_of b k) f0) in *.
      destruct F as [F1 F2 F3]. cbn [up j_pst j_nst j_al j_repl j_rng].
      destruct (imp_prune_eq (sp_thr b) (prow_of b k) (f_pst f) F1) as [P1 P2]. destruct (imp_prune_eq (sp_thr b) (nrow_of b k) (f_nst f) F2) as [N1 N2].
      rewrite P1, N1. cbn [bindR].
      pose proof (Save _ _ (f_al f) (f_repl f) (wrap16 (w + sg)) (f_rng f) P2 N2 F3) as G.
      unfold prune_rows. cbn [r_prow r_psts r_nrow r_nsts].
      destruct (prune_clause (sp_thr b) (prow_of b k) (f_pst f)) as [p ps]. destruct (prune_clause (sp_thr b) (nrow_of b k) (f_nst f)) as [q qs].
      exact G.
    + destruct (out =? 0); [|split; [reflexivity|split; [exact Sh|repeat split]]].
      destruct (imp_t1b_eq (sp_si b) (prow_of b k) (psts_of b k) (sp_fast b) A5) as [B1 B2]. rewrite B1. cbn [bindR].
      destruct (sp_t1b_row (sp_si b) (psts_of b k) (sp_fast b)) as [ps r1]. cbn [fst snd] in *.
      destruct (imp_t1b_eq (sp_si b) (nrow_of b k) (nsts_of b k) r1 A6) as [C1 C2]. rewrite C1. cbn [bindR].
      destruct (sp_t1b_row (sp_si b) (nsts_of b k) r1) as [ns r2]. cbn [fst snd] in *.
      destruct (imp_prune_eq (sp_thr b) (prow_of b k) ps B2) as [P1 P2]. destruct (imp_prune_eq (sp_thr b) (nrow_of b k) ns C2) as [N1 N2].
      rewrite P1, N1. cbn [bindR].
      pose proof (Save _ _ (nth c (sp_al b) []) (nth c (sp_repl b) O) w r2 P2 N2 (H7 c Hc)) as G. rewrite Rp in G.
      unfold prune_rows. cbn [r_prow r_psts r_nrow r_nsts].
      destruct (prune_clause (sp_thr b) (prow_of b k) ps) as [p pss]. destruct (prune_clause (sp_thr b) (nrow_of b k) ns) as [q qs].
      exact G.
  - destruct ((t * sg <? 0) && (out =? 1)); [|split; [reflexivity|split; [exact Sh|repeat split]]].
    destruct (imp_t2_eq (sp_csize b) (sp_thr b) (nth c (sp_al b) []) lits (mkR (prow_of b k) (psts_of b k) (nrow_of b k) (nsts_of b k))) as [E [V1 V2]];
      [split; auto|].
    rewrite E. cbn [bindR].
    set (s2 := sp_t2 (sp_csize b) (sp_thr b) (nth c (sp_al b) []) lits (mkR (prow_of b k) (psts_of b k) (nrow_of b k) (nsts_of b k))) in *.
    destruct (imp_sort_eq (r_prow s2) (r_psts s2) V1) as [P1 P2]. destruct (imp_sort_eq (r_nrow s2) (r_nsts s2) V2) as [N1 N2].
    rewrite P1, N1. cbn [bindR].
    pose proof (Save _ _ (nth c (sp_al b) []) (nth c (sp_repl b) O) (wrap16 (w - sg)) (sp_fast b) P2 N2 (H7 c Hc)) as G. rewrite Rp in G.
    unfold sort_rows.
    destruct (sort_clause (r_prow s2) (r_psts s2)) as [p ps]. destruct (sort_clause (r_nrow s2) (r_nsts s2)) as [q qs].
    exact G.
Qed.

Lemma shape_fast : forall bo b o r, shape bo b -> length o = sp_ncl b -> shape bo (sp_with_fast b o r) /\ same_dims (sp_with_fast b o r) b.
Proof. intros bo b o r [H1 H2 H3 H4 H5 H6 H7 H8 H9 H10 H11 H12] Ho. split; [|repeat split]. constructor; auto. Qed.
Lemma dims_trans : forall a b c, same_dims a b -> same_dims b c -> same_dims a c.
Proof. unfold same_dims. intros a b c (A1 & A2 & A3 & A4 & A5) (B1 & B2 & B3 & B4 & B5). repeat split; congruence. Qed.
Lemma dims_refl : forall a, same_dims a a.
Proof. intros. repeat split. Qed.

Lemma imp_update_clause_eq : forall bo boost dynamic lits pc pp nc np k b, shape bo b -> (k < sp_ncl b)%nat -> (pc < sp_ncls b)%nat -> (nc < sp_ncls b)%nat ->
  imp_update_clause bo boost dynamic lits pc pp nc np k (flat b) = Ret (flat (sp_update_clause bo boost dynamic lits pc pp nc np b k)) /\
  shape bo (sp_update_clause bo boost dynamic lits pc pp nc np b k) /\ same_dims (sp_update_clause bo boost dynamic lits pc pp nc np b k) b.
Proof.
  intros bo boost dynamic lits pc pp nc np k b Sh Hk Hp Hn. destruct (sh_vecs bo b Sh k Hk) as (A1 & A2 & A3 & A4 & A5 & A6).
  pose proof Sh as [H1 H2 H3 H4 H5 H6 H7 H8 H9 H10 H11 H12].
  unfold imp_update_clause, sp_update_clause. cbn [flat i_rows i_states i_ncl i_al i_weights i_ncls i_counts i_outputs i_budget].
  rewrite A1, A2, A3, A4. cbn [bindR]. rewrite !(ix_nth _ [] (sp_al b)) by lia. cbn [bindR].
  rewrite (ix_nth _ 0 (concat (sp_weights b))) by (rewrite (concat_length_eq _ (sp_ncls b)), H8 by auto; nia). cbn [bindR].
  set (outs := if bo && (nth k (sp_counts b) 0 >? sp_budget b) then set_nth k 0 (sp_outputs b) else sp_outputs b).
  assert (Lo : length outs = sp_ncl b) by (unfold outs; destruct (bo && _); rewrite ?set_nth_length; auto).
  assert (E : (if bo then bindR (ix (sp_counts b) k) (fun n => if n >? sp_budget b then set_ix k 0 (sp_outputs b) else Ret (sp_outputs b))
               else Ret (sp_outputs b)) = Ret outs).
  { unfold outs. destruct bo; auto. rewrite (ix_nth _ 0) by (rewrite H11; auto). cbn [bindR andb].
    destruct (nth k (sp_counts b) 0 >? sp_budget b); auto. apply set_ix_ok. lia. }
  rewrite E. cbn [bindR]. clear E. clearbody outs.
  change (i_fast (i_set_outputs (flat b) outs (sp_counts b))) with (sp_fast b). destruct (draw_lt (sp_fast b) pp) as [d r].
  change (i_set_fast (i_set_outputs (flat b) outs (sp_counts b)) r) with (flat (sp_with_fast b outs r)).
  destruct (shape_fast bo b outs r Sh Lo) as [S1 D1].
  assert (K : exists b1, (if d then imp_clause_update boost dynamic lits k pc 1 (flat (sp_with_fast b outs r)) else Ret (flat (sp_with_fast b outs r))) = Ret (flat b1) /\
     (if d then sp_clause_update boost dynamic lits k pc 1 (sp_with_fast b outs r) else sp_with_fast b outs r) = b1 /\ shape bo b1 /\ same_dims b1 b).
  { destruct d.
    - destruct (imp_clause_update_eq bo boost dynamic lits k pc 1 (sp_with_fast b outs r) S1 Hk Hp) as (E & S2 & D2).
      eexists. split; [exact E|]. split; [reflexivity|]. split; [exact S2|]. apply (dims_trans _ _ _ D2 D1).
    - eexists. split; [reflexivity|]. split; [reflexivity|]. auto. }
  destruct K as (b1 & K1 & K2 & S2 & D2). rewrite K1, K2. cbn [bindR]. clear K1 K2.
  change (i_fast (flat b1)) with (sp_fast b1). destruct (draw_lt (sp_fast b1) np) as [d2 r2].
  change (i_set_fast (flat b1) r2) with (flat (sp_with_fast b1 (sp_outputs b1) r2)).
  destruct (shape_fast bo b1 (sp_outputs b1) r2 S2 (sh_outputs _ _ S2)) as [S3 D3].
  assert (D4 := dims_trans _ _ _ D3 D2). destruct d2.
  - destruct (imp_clause_update_eq bo boost dynamic lits k nc (-1) (sp_with_fast b1 (sp_outputs b1) r2) S3) as (E & S5 & D5).
    + cbn [sp_with_fast sp_ncl]. destruct D2 as [D2 _]. lia.
    + cbn [sp_with_fast sp_ncls]. destruct D2 as [_ [D2 _]]. lia.
    + split; [exact E|]. split; [exact S5|]. apply (dims_trans _ _ _ D5 D4).
  - split; [reflexivity|]. split; auto.
Qed.

Lemma imp_train_update_eq : forall bo boost dynamic lits pc pp nc np b, shape bo b -> (pc < sp_ncls b)%nat -> (nc < sp_ncls b)%nat ->
  imp_train_update bo boost dynamic lits pc pp nc np (flat b) = Ret (flat (sp_train_update bo boost dynamic lits pc pp nc np b)) /\
  shape bo (sp_train_update bo boost dynamic lits pc pp nc np b) /\ same_dims (sp_train_update bo boost dynamic lits pc pp nc np b) b.
Proof.
  intros bo boost dynamic lits pc pp nc np b0 Sh Hp Hn. unfold imp_train_update, sp_train_update. cbn [flat i_ncl].
  assert (K : forall n i b, shape bo b -> same_dims b b0 -> (i + n <= sp_ncl b0)%nat ->
    fold_ix n i (imp_update_clause bo boost dynamic lits pc pp nc np) (flat b) =
      Ret (flat (fold_left (sp_update_clause bo boost dynamic lits pc pp nc np) (seq i n) b)) /\
    shape bo (fold_left (sp_update_clause bo boost dynamic lits pc pp nc np) (seq i n) b) /\
    same_dims (fold_left (sp_update_clause bo boost dynamic lits pc pp nc np) (seq i n) b) b0).
  { intros n. induction n as [|n IH]; intros i b S1 D1 L; cbn [fold_ix seq fold_left]; auto.
    pose proof D1 as (Dc & Ds & _).
    destruct (imp_update_clause_eq bo boost dynamic lits pc pp nc np i b S1) as (E & S2 & D2); [lia|lia|lia|].
    rewrite E. cbn [bindR]. apply IH; auto; [|lia]. apply (dims_trans _ _ _ D2 D1). }
  apply K; auto. apply dims_refl.
Qed.

Lemma shape_outputs : forall bo b o c v, shape bo b -> length o = sp_ncl b -> (bo = true -> length c = sp_ncl b) -> length v = sp_ncls b ->
  shape bo (sp_with_outputs b o c v) /\ same_dims (sp_with_outputs b o c v) b.
Proof. intros bo b o c v [H1 H2 H3 H4 H5 H6 H7 H8 H9 H10 H11 H12] Ho Hc Hv. split; [|repeat split]. constructor; auto. Qed.

Lemma votes_len : forall outs ws v n, rows_of n ws -> length v = n -> length (count_votes_loop outs ws v) = n.
Proof.
  intros outs. induction outs as [|o outs IH]; intros [|w ws] v n Hr Hv; cbn [count_votes_loop]; auto.
  pose proof (Forall_inv Hr) as W. apply Forall_inv_tail in Hr. cbv beta in W. apply IH; auto. destruct (o =? 1); auto.
  rewrite map2_len; lia.
Qed.

Lemma imp_train_ex_eq : forall bo lits b, shape bo b ->
  imp_train_ex bo lits (flat b) = Ret (flat (fst (sp_train_ex bo lits b))) /\ shape bo (fst (sp_train_ex bo lits b)) /\ same_dims (fst (sp_train_ex bo lits b)) b.
Proof.
  intros bo lits b Sh. unfold imp_train_ex, sp_train_ex. cbn [fst]. rewrite (imp_set_eq bo b Sh). cbn [bindR].
  assert (S1 : shape bo (sp_train_output bo lits b) /\ same_dims (sp_train_output bo lits b) b).
  { unfold sp_train_output. apply shape_outputs; auto.
    - rewrite !map_length, seq_length. reflexivity.
    - intros ->. rewrite !map_length, seq_length. reflexivity.
    - apply (sh_votes _ _ Sh). }
  destruct S1 as [S1 D1]. rewrite imp_votes_eq by apply S1. split; [reflexivity|].
  destruct (shape_outputs bo (sp_train_output bo lits b) (sp_outputs (sp_train_output bo lits b)) (sp_counts (sp_train_output bo lits b))
    (count_votes_loop (sp_outputs (sp_train_output bo lits b)) (sp_weights (sp_train_output bo lits b)) (repeat 0 (sp_ncls (sp_train_output bo lits b))))) as [S2 D2];
    try apply S1.
  - apply votes_len; [apply S1|apply repeat_length].
  - split; [exact S2|]. apply (dims_trans _ _ _ D2 D1).
Qed.
Lemma imp_eval_ex_eq : forall bo lits b, shape bo b ->
  imp_eval_ex lits (flat b) = Ret (flat (fst (sp_eval_ex lits b))) /\ shape bo (fst (sp_eval_ex lits b)) /\ same_dims (fst (sp_eval_ex lits b)) b.
Proof.
  intros bo lits b Sh. unfold imp_eval_ex, sp_eval_ex. cbn [fst]. rewrite (imp_eval_eq bo b Sh). cbn [bindR].
  assert (S1 : shape bo (sp_eval_set lits b) /\ same_dims (sp_eval_set lits b) b).
  { unfold sp_eval_set. apply shape_outputs; auto; [rewrite !map_length, seq_length; reflexivity|apply (sh_counts _ _ Sh)|apply (sh_votes _ _ Sh)]. }
  destruct S1 as [S1 D1]. rewrite imp_votes_eq by apply S1. split; [reflexivity|].
  destruct (shape_outputs bo (sp_eval_set lits b) (sp_outputs (sp_eval_set lits b)) (sp_counts (sp_eval_set lits b))
    (count_votes_loop (sp_outputs (sp_eval_set lits b)) (sp_weights (sp_eval_set lits b)) (repeat 0 (sp_ncls (sp_eval_set lits b))))) as [S2 D2];
    try apply S1.
  - apply votes_len; [apply S1|apply repeat_length].
  - split; [exact S2|]. apply (dims_trans _ _ _ D2 D1).
Qed.

Lemma imp_call_eq : forall bo boost dynamic c b, shape bo b -> call_ok (sp_ncls b) c ->
  imp_call bo boost dynamic (flat b) c = Ret (flat (sp_call bo boost dynamic b c)) /\
  shape bo (sp_call bo boost dynamic b c) /\ same_dims (sp_call bo boost dynamic b c) b.
Proof.
  intros bo boost dynamic [l|l|l pc pp nc np] b Sh Ok; cbn [imp_call sp_call].
  - apply imp_train_ex_eq; auto.
  - apply imp_eval_ex_eq; auto.
  - destruct Ok. apply imp_train_update_eq; auto.
Qed.
Lemma imp_calls_eq : forall bo boost dynamic cs b, shape bo b -> Forall (call_ok (sp_ncls b)) cs ->
  imp_calls bo boost dynamic cs (flat b) = Ret (flat (fold_left (sp_call bo boost dynamic) cs b)) /\
  shape bo (fold_left (sp_call bo boost dynamic) cs b) /\ same_dims (fold_left (sp_call bo boost dynamic) cs b) b.
Proof.
  intros bo boost dynamic cs. induction cs as [|c cs IH]; intros b Sh F; cbn [imp_calls fold_left].
  - split; [reflexivity|split; [exact Sh|apply dims_refl]].
  - destruct (imp_call_eq bo boost dynamic c b Sh (Forall_inv F)) as (E & S1 & D1). rewrite E. cbn [bindR].
    destruct (IH (sp_call bo boost dynamic b c) S1) as (E2 & S2 & D2).
    + destruct D1 as [_ [-> _]]. apply (Forall_inv_tail F).
    + split; [exact E2|split; [exact S2|apply (dims_trans _ _ _ D2 D1)]].
Qed.

(** ** A fresh block *)

Lemma init_weights_shape : forall ncls ncl r, length (fst (init_weights ncls ncl r)) = ncl /\ rows_of ncls (fst (init_weights ncls ncl r)).
Proof.
  intros ncls ncl r. pose proof (init_weights_spec ncls ncl r) as W. destruct (init_weights ncls ncl r) as [ws f]. cbn [fst].
  destruct W as (W1 & _ & W3). split; auto. unfold rows_of. apply Forall_forall. intros x Hx. apply (In_nth _ _ []) in Hx.
  destruct Hx as (k & Hk & <-). apply W3. lia.
Qed.
Lemma sp_initialize_shape : forall bo fast_of junk nlit ncl ncls csize alsize thr budget si sm seed b,
  sp_initialize bo fast_of junk nlit ncl ncls csize alsize thr budget si sm seed = Some b -> (1 <= alsize)%nat ->
  (bo = true -> length junk = ncl) -> shape bo b /\ sp_ncls b = ncls /\ sp_ncl b = ncl.
Proof.
  intros bo fast_of junk nlit ncl ncls csize alsize thr budget si sm seed b H Ha Hj. unfold sp_initialize in H.
  destruct (seed =? 0); [discriminate|]. destruct (bo && (budget <? 1)); [discriminate|].
  pose proof (init_weights_shape ncls ncl (fast_of seed)) as W. destruct (init_weights ncls ncl (fast_of seed)) as [ws f]. injection H as <-.
  cbn [fst] in W. destruct W as [W1 W2]. split; [|auto].
  constructor; cbn [sp_rows sp_states sp_ncl sp_ncls sp_al sp_repl sp_alsize sp_weights sp_outputs sp_counts sp_votes]; rewrite ?repeat_length; auto.
  - intros i Hi. rewrite !nth_repeat. reflexivity.
  - intros c Hc. rewrite nth_repeat. lia.
Qed.
