(** The convolutional kernels on the heap compute the list model. *)
From Coq Require Import ZArith List Bool QArith Lia ZifyBool.
From Verif Require Import Base ModelHeap ModelDense ModelFeedback ModelExecutor ModelConv ModelTMHeap ModelConvHeap SpecHeap SpecConvHeap
  ProofsHeap ProofsTMHeap ProofsTMHeapB ProofsTMHeapC ProofsTMHeapD ProofsTMHeapE.
Import ListNotations.
Open Scope Z_scope.

(** ** fill *)
Lemma fill_from_app : forall j a b k, fill_from j k (a ++ b) = fill_from j k a ++ fill_from j (k + length a) b.
Proof.
  induction a as [|x a IH]; intros b k; cbn [app fill_from length]; [now rewrite Nat.add_0_r|].
  rewrite IH. cbn [app]. do 3 f_equal. lia.
Qed.
Lemma fill_from_len : forall j a k, length (fill_from j k a) = length a.
Proof. induction a; intros; cbn [fill_from length]; auto. Qed.
Lemma fill_from_nth : forall j a k m x, nth_error a m = Some x -> nth m (fill_from j k a) 0 = seen j (k + m) x.
Proof.
  induction a as [|y a IH]; intros k m x N; [destruct m; discriminate|].
  destruct m; cbn [nth_error fill_from nth] in *; [injection N as <-; now rewrite Nat.add_0_r|].
  rewrite (IH (S k) m x N). f_equal. lia.
Qed.
Lemma fill_from_set : forall j a k m v, fill_from j k (set_nth m (Some v) a) = set_nth m v (fill_from j k a).
Proof. induction a as [|y a IH]; intros k m v; destruct m; cbn [set_nth fill_from seen]; auto. now rewrite IH. Qed.
Lemma fill_some : forall j vs k, fill_from j k (map Some vs) = vs.
Proof. induction vs; intros; cbn [map fill_from seen]; auto. now rewrite IHvs. Qed.

Lemma load_any_ok : forall strict j h id cs off i x, cells h id cs -> 0 <= off + i ->
  nth_error cs (Z.to_nat (off + i)) = Some x -> (strict = true -> x <> None) ->
  load_any strict j (Some (mkAddr id off)) i h = Some (match x with Some v => v | None => j end, h).
Proof.
  intros strict j h id cs off i x C B N St. unfold load_any.
  assert (Z.to_nat (off + i) < length cs)%nat by (apply nth_error_Some; congruence).
  erewrite bind_some by (eapply padd_ok; [eassumption|lia]).
  destruct C as [k K]. cbn [ad_id ad_off]. rewrite K. cbn [ch_cells].
  destruct (off + i <? 0) eqn:E; [lia|]. rewrite N. destruct x; [reflexivity|].
  destruct strict; [exfalso; now apply St|reflexivity].
Qed.

(** ** Literal loops: nothing is written *)
Section Loops.
  Variables (ic il : nat) (pre post : list Z) (lpre rest : list (option Z)).

  Lemma crun_step : forall h p q k, holds h ic (row_in pre post p q) -> (k < length p + length q)%nat ->
    padd (run ic pre k) 1 h = Some (run ic pre (S k), h).
  Proof.
    intros. unfold run. replace (Z.of_nat (length pre) + Z.of_nat (S k)) with (Z.of_nat (length pre) + Z.of_nat k + 1) by lia.
    eapply padd_ok; [exact H|]. unfold row_in. rewrite map_length, !app_length. lia.
  Qed.
  Lemma cload_pos : forall h pd p pr q, holds h ic (row_in pre post (pd ++ p :: pr) q) ->
    load (run ic pre (length pd)) h = Some (p, h).
  Proof. intros. eapply load_mid; [apply at_pos; exact H|]. rewrite app_length. lia. Qed.
  Lemma cload_neg : forall h p qd q qr, holds h ic (row_in pre post p (qd ++ q :: qr)) ->
    load (run ic pre (length p + length qd)) h = Some (q, h).
  Proof. intros. eapply load_mid; [apply at_neg; exact H|]. rewrite !app_length. lia. Qed.

  Definition ctest (a v k : Z) : M bool :=
    if a >=? 0 then l <- load_at (lp il lpre) k ;; ret (l =? v) else ret false.
  Lemma ctest_ok : forall a v ld l ls h, cells h il (lpre ++ map Some (ld ++ l :: ls) ++ rest) ->
    ctest a v (Z.of_nat (length ld)) h = Some ((a >=? 0) && (l =? v), h).
  Proof.
    intros a v ld l ls h C. unfold ctest. destruct (a >=? 0); [|reflexivity].
    unfold lp. erewrite bind_some by (eapply lit_load_at; exact C). reflexivity.
  Qed.

  Lemma cset_loop : forall bo ps pd qd qs ld ls count h,
    length pd = length ld -> length qd = length ld -> length ps = length ls -> length qs = length ls ->
    holds h ic (row_in pre post (pd ++ ps) (qd ++ qs)) ->
    cells h il (lpre ++ map Some (ld ++ ls) ++ rest) ->
    exists p1 p2 c',
      mfor (length ps) (Z.of_nat (length ld)) (h_cset_body bo (lp il lpre))
        (run ic pre (length ld), run ic pre (length (pd ++ ps) + length ld), count, true) h =
      Some ((p1, p2, c', match conv_patch_loop bo ps qs ls count with Some _ => true | None => false end), h) /\
      (forall n, conv_patch_loop bo ps qs ls count = Some n -> c' = n).
  Proof.
    intros bo ps. induction ps as [|p pr IH]; intros pd qd qs ld ls count h L1 L2 L3 L4 H C.
    - destruct ls; [|discriminate]. do 3 eexists. split; [reflexivity|]. intros n E. now injection E.
    - destruct ls as [|l ls]; [discriminate|]. destruct qs as [|q qr]; [discriminate|].
      cbn [conv_patch_loop length mfor].
      assert (LP : load (run ic pre (length ld)) h = Some (p, h)) by (rewrite <- L1; eapply cload_pos; exact H).
      assert (LQ : load (run ic pre (length (pd ++ p :: pr) + length ld)) h = Some (q, h))
        by (rewrite <- L2; eapply cload_neg; exact H).
      unfold h_cset_body at 1. unfold bind at 1 2. rewrite LP.
      fold (ctest p 0 (Z.of_nat (length ld))). unfold bind at 1. rewrite (ctest_ok p 0 ld l ls h C).
      destruct ((p >=? 0) && (l =? 0)) eqn:T1.
      { do 3 eexists. split; [reflexivity|]. discriminate. }
      cbv zeta. unfold bind at 1.
      rewrite (crun_step h (pd ++ p :: pr) (qd ++ q :: qr)) by (first [exact H|rewrite app_length; cbn [length]; lia]).
      unfold bind at 1. rewrite LQ.
      fold (ctest q 1 (Z.of_nat (length ld))). unfold bind at 1. rewrite (ctest_ok q 1 ld l ls h C).
      destruct ((q >=? 0) && (l =? 1)) eqn:T2.
      { do 3 eexists. split; [reflexivity|]. discriminate. }
      unfold bind at 1.
      rewrite (crun_step h (pd ++ p :: pr) (qd ++ q :: qr)) by (first [exact H|rewrite !app_length; cbn [length]; lia]).
      unfold ret at 1. cbn [fst snd].
      match goal with |- context [conv_patch_loop bo pr qr ls ?n] => set (n1 := n) end.
      destruct (IH (pd ++ [p]) (qd ++ [q]) qr (ld ++ [l]) ls n1 h) as (p1 & p2 & c' & E & F).
      + rewrite !app_length. cbn [length]. lia.
      + rewrite !app_length. cbn [length]. lia.
      + cbn [length] in L3. lia.
      + cbn [length] in L4. lia.
      + rewrite <- !app_assoc. exact H.
      + rewrite <- (app_assoc ld). exact C.
      + exists p1, p2, c'. split; [|exact F]. rewrite <- E.
        rewrite <- (app_assoc pd). cbn [app]. rewrite (app_length ld). cbn [length].
        replace (length ld + 1)%nat with (S (length ld)) by lia.
        replace (length (pd ++ p :: pr) + S (length ld))%nat with (S (length (pd ++ p :: pr) + length ld)) by lia.
        replace (Z.of_nat (S (length ld))) with (Z.of_nat (length ld) + 1) by lia. reflexivity.
  Qed.

  Lemma ceval_loop : forall ps pd qd qs ld ls em h,
    length pd = length ld -> length qd = length ld -> length ps = length ls -> length qs = length ls ->
    holds h ic (row_in pre post (pd ++ ps) (qd ++ qs)) ->
    cells h il (lpre ++ map Some (ld ++ ls) ++ rest) ->
    exists p1 p2 out em',
      mfor (length ps) (Z.of_nat (length ld)) (h_ceval_body (lp il lpre))
        (run ic pre (length ld), run ic pre (length (pd ++ ps) + length ld), true, em) h =
      Some ((p1, p2, out, em'), h) /\
      conv_eval_loop ps qs ls em = (if em' then false else out).
  Proof.
    intros ps. induction ps as [|p pr IH]; intros pd qd qs ld ls em h L1 L2 L3 L4 H C.
    - destruct ls; [|discriminate]. do 4 eexists. split; reflexivity.
    - destruct ls as [|l ls]; [discriminate|]. destruct qs as [|q qr]; [discriminate|].
      cbn [conv_eval_loop length mfor].
      assert (LP : load (run ic pre (length ld)) h = Some (p, h)) by (rewrite <- L1; eapply cload_pos; exact H).
      assert (LQ : load (run ic pre (length (pd ++ p :: pr) + length ld)) h = Some (q, h))
        by (rewrite <- L2; eapply cload_neg; exact H).
      unfold h_ceval_body at 1. unfold bind at 1 2. rewrite LP. cbv zeta.
      fold (ctest p 0 (Z.of_nat (length ld))). unfold bind at 1. rewrite (ctest_ok p 0 ld l ls h C).
      destruct ((p >=? 0) && (l =? 0)) eqn:T1.
      { do 4 eexists. split; [reflexivity|]. destruct (if p >=? 0 then false else em); reflexivity. }
      unfold bind at 1.
      rewrite (crun_step h (pd ++ p :: pr) (qd ++ q :: qr)) by (first [exact H|rewrite app_length; cbn [length]; lia]).
      unfold bind at 1. rewrite LQ.
      fold (ctest q 1 (Z.of_nat (length ld))). unfold bind at 1. rewrite (ctest_ok q 1 ld l ls h C).
      destruct ((q >=? 0) && (l =? 1)) eqn:T2.
      { do 4 eexists. split; [reflexivity|]. match goal with |- _ = (if ?b then _ else _) => destruct b end; reflexivity. }
      unfold bind at 1.
      rewrite (crun_step h (pd ++ p :: pr) (qd ++ q :: qr)) by (first [exact H|rewrite !app_length; cbn [length]; lia]).
      unfold ret at 1. cbn [fst snd].
      match goal with |- context [conv_eval_loop pr qr ls ?n] => set (n1 := n) end.
      destruct (IH (pd ++ [p]) (qd ++ [q]) qr (ld ++ [l]) ls n1 h) as (p1 & p2 & out & em' & E & F).
      + rewrite !app_length. cbn [length]. lia.
      + rewrite !app_length. cbn [length]. lia.
      + cbn [length] in L3. lia.
      + cbn [length] in L4. lia.
      + rewrite <- !app_assoc. exact H.
      + rewrite <- (app_assoc ld). exact C.
      + exists p1, p2, out, em'. split; [|exact F]. rewrite <- E.
        rewrite <- (app_assoc pd). cbn [app]. rewrite (app_length ld). cbn [length].
        replace (length ld + 1)%nat with (S (length ld)) by lia.
        replace (length (pd ++ p :: pr) + S (length ld))%nat with (S (length (pd ++ p :: pr) + length ld)) by lia.
        replace (Z.of_nat (S (length ld))) with (Z.of_nat (length ld) + 1) by lia. reflexivity.
  Qed.
End Loops.

(** ** Patches in the buffer *)
Lemma patch_split : forall nlit np lits k, length lits = (np * nlit)%nat -> (k < np)%nat ->
  exists a b, lits = a ++ patch nlit lits k ++ b /\ length a = (k * nlit)%nat /\ length (patch nlit lits k) = nlit.
Proof.
  intros nlit np lits k L K. exists (firstn (k * nlit) lits), (skipn nlit (skipn (k * nlit) lits)).
  assert (k * nlit + nlit <= np * nlit)%nat by (replace (k * nlit + nlit)%nat with (S k * nlit)%nat by lia; apply Nat.mul_le_mono_r; lia).
  unfold patch. rewrite firstn_skipn, firstn_skipn. split; [reflexivity|].
  rewrite !firstn_length, skipn_length. lia.
Qed.

Lemma other_ids : forall bo i ia ip il, ~ In il (conv_ids bo i ia ip) -> ~ In il (owned bo i) /\ il <> ia /\ il <> ip.
Proof. intros bo i ia ip il H. unfold conv_ids in H. cbn [In] in H. intuition. Qed.
Lemma conv_distinct : forall bo i ia ip, NoDup (ia :: ip :: owned bo i) ->
  ~ In ia (owned bo i) /\ ~ In ip (owned bo i) /\ ia <> ip /\ NoDup (owned bo i).
Proof.
  intros bo i ia ip N. inversion N as [|a1 l1 N1 R1]; subst. inversion R1 as [|a2 l2 N2 R2]; subst.
  cbn [In] in N1. intuition.
Qed.

Section Kernels.
  Variables (bo : bool) (i : ids) (c : hconv) (nlit ncl ncls np ia ip : nat) (j : junk).
  Hypothesis W : wf_obj bo i (hc_s c) nlit ncl ncls.
  Hypothesis ND : NoDup (ia :: ip :: owned bo i).
  Hypothesis Hnp : hc_np c = Z.of_nat np.
  Hypothesis Hfit : Z.of_nat (np * nlit) <= int_max.
  Hypothesis Pa : hc_active c = start ia.
  Hypothesis Pp : hc_ppc c = start ip.
  Variable il : nat.
  Hypothesis Hil : ~ In il (conv_ids bo i ia ip).
  Variables (lits : list Z) (rest : list (option Z)).
  Hypothesis Llits : length lits = (np * nlit)%nat.

  Lemma at_patch : forall h k, cells h il (map Some lits ++ rest) -> (k < np)%nat ->
    exists lpre rest', cells h il (lpre ++ map Some (patch nlit lits k) ++ rest') /\ length lpre = (k * nlit)%nat /\
      length (patch nlit lits k) = nlit /\
      (forall (B : Type) (K : ptr -> M B), (o <- imul (Z.of_nat k) (hs_nlit (hc_s c)) ;; q <- padd (start il) o ;; K q) h = K (lp il lpre) h).
  Proof.
    intros h k C K. destruct (patch_split nlit np lits k Llits K) as (a & b & E & La & Lp).
    assert (k * nlit + nlit <= np * nlit)%nat by (replace (k * nlit + nlit)%nat with (S k * nlit)%nat by lia; apply Nat.mul_le_mono_r; lia).
    exists (map Some a), (map Some b ++ rest).
    assert (C' : cells h il (map Some a ++ map Some (patch nlit lits k) ++ map Some b ++ rest)).
    { rewrite E in C at 1. rewrite !map_app, <- !app_assoc in C. exact C. }
    split; [exact C'|]. split; [now rewrite map_length|]. split; [exact Lp|].
    intros B K0. rewrite (wo_nlit _ _ _ _ _ _ W). erewrite bind_some by (apply imul_ok; lia).
    unfold start, lp. rewrite map_length, La. rewrite Nat2Z.inj_mul.
    erewrite bind_some by (eapply padd_ok; [exact C|]; rewrite app_length, map_length; lia).
    rewrite Z.add_0_l. reflexivity.
  Qed.

  Definition st_out (st : list nat) : Z := match st with [] => 0 | _ => 1 end.

  Lemma cset_patch_ok : forall h cd cl cs od o os k st pcs,
    (k < np)%nat -> Forall (clen nlit) (cd ++ cl :: cs) -> length (cd ++ cl :: cs) = ncl -> length od = length cd ->
    holds h (i_clauses i) (flat_clauses (cd ++ cl :: cs)) ->
    holds h (i_outputs i) (od ++ o :: os) -> o = st_out st ->
    cells h ip pcs -> length pcs = np ->
    cells h il (map Some lits ++ rest) ->
    exists st' pcs' h',
      conv_patch_step bo nlit lits cl (st, fill (j_ppc j) pcs) k = (st', fill (j_ppc j) pcs') /\
      h_cset_patch bo (start il) c (Z.of_nat (length cd)) (Z.of_nat k) (map Z.of_nat st) h = Some (map Z.of_nat st', h') /\
      holds h' (i_outputs i) (od ++ st_out st' :: os) /\ cells h' ip pcs' /\ length pcs' = np /\
      (forall m a, nth_error pcs m = Some (Some a) -> exists b, nth_error pcs' m = Some (Some b)) /\
      (Forall (fun k => (k < np)%nat) st -> Forall (fun k => (k < np)%nat) st') /\
      only [i_outputs i; ip] h h'.
  Proof.
    intros h cd cl cs od o os k st pcs K F L LO HC HO EO CP LP C.
    pose proof (nodup4 _ _ (wo_distinct _ _ _ _ _ _ W)) as (D1 & D2 & D3 & D4 & D5 & D6 & D7).
    destruct (conv_distinct _ _ _ _ ND) as (X1 & X2 & X3 & _).
    destruct (il_ne bo i ip X2) as (Y1 & Y2 & Y3 & Y4 & Y5).
    assert (Fc : clen nlit cl) by (apply Forall_app in F; destruct F as [_ F]; now inversion F).
    destruct Fc as [Lpos Lneg].
    destruct (at_patch h k C K) as (lpre & rest' & C' & Ll & Lpt & E0).
    unfold h_cset_patch.
    erewrite bind_some by (eapply (h_halves_ok bo i (hc_s c) nlit ncl ncls W); eauto).
    assert (HCr := HC). rewrite flat_mid in HCr.
    destruct (cset_loop (i_clauses i) il (flat_clauses cd) (flat_clauses cs) lpre rest' bo (cl_pos cl) [] [] (cl_neg cl) []
                (patch nlit lits k) 0 h) as (p1 & p2 & c' & E1 & E2);
      [reflexivity|reflexivity|congruence|congruence|exact HCr|exact C'|].
    cbn [app length] in E1. rewrite Lpos, Nat.add_0_r in E1.
    rewrite E0. cbn [fst snd].
    rewrite (wo_nlit _ _ _ _ _ _ W), Nat2Z.id.
    erewrite bind_some by exact E1.
    unfold conv_patch_step.
    destruct (conv_patch_loop bo (cl_pos cl) (cl_neg cl) (patch nlit lits k) 0) as [n|] eqn:EL.
    - rewrite (E2 n eq_refl) in *. rewrite (wo_po _ _ _ _ _ _ W), Pp.
      destruct (store_at_mid h (i_outputs i) od o os 0 (Z.of_nat (length cd)) 1 HO) as (h1 & S1 & H1 & U1); [nlia|].
      unfold start at 1. erewrite bind_some by exact S1.
      assert (CP1 : cells h1 ip pcs) by (eapply cells_one; [exact U1|auto|exact CP]).
      destruct (store_at_ok h1 ip pcs 0 (Z.of_nat k) n CP1) as (h2 & S2 & H2 & U2); [nlia|].
      unfold start at 1. erewrite bind_some by exact S2.
      rewrite Z.add_0_l, Nat2Z.id in H2.
      exists (st ++ [k]), (set_nth k (Some n) pcs), h2.
      split; [unfold fill; now rewrite fill_from_set|]. split; [unfold ret; now rewrite map_app|].
      split; [|split; [exact H2|split; [rewrite hset_length; exact LP|split; [|split]]]].
      + replace (st_out (st ++ [k])) with 1 by (destruct st; reflexivity).
        eapply cells_one; [exact U2|auto|exact H1].
      + intros m a N. destruct (Nat.eq_dec k m) as [<-|NE].
        * exists n. apply hnth_set_same. nlia.
        * exists a. rewrite hnth_set_other; auto.
      + intros FS. apply Forall_app. split; auto.
      + eapply only_trans; eapply only1; eauto; cbn [In]; auto.
    - exists st, pcs, h. subst o. split; [reflexivity|]. split; [reflexivity|].
      split; [auto|]. split; [auto|]. split; [auto|]. split; [eauto|]. split; [auto|apply only_refl].
  Qed.

  Lemma cset_patches_ok : forall n k h cd cl cs od os st pcs,
    (k + n <= np)%nat -> Forall (clen nlit) (cd ++ cl :: cs) -> length (cd ++ cl :: cs) = ncl -> length od = length cd ->
    holds h (i_clauses i) (flat_clauses (cd ++ cl :: cs)) ->
    holds h (i_outputs i) (od ++ st_out st :: os) ->
    cells h ip pcs -> length pcs = np ->
    cells h il (map Some lits ++ rest) ->
    exists st' pcs' h',
      fold_left (conv_patch_step bo nlit lits cl) (seq k n) (st, fill (j_ppc j) pcs) = (st', fill (j_ppc j) pcs') /\
      mloop n (Z.of_nat k) (h_cset_patch bo (start il) c (Z.of_nat (length cd))) (map Z.of_nat st) h =
        Some (map Z.of_nat st', h') /\
      holds h' (i_outputs i) (od ++ st_out st' :: os) /\ cells h' ip pcs' /\ length pcs' = np /\
      (forall m a, nth_error pcs m = Some (Some a) -> exists b, nth_error pcs' m = Some (Some b)) /\
      (Forall (fun k => (k < np)%nat) st -> Forall (fun k => (k < np)%nat) st') /\
      only [i_outputs i; ip] h h'.
  Proof.
    pose proof (nodup4 _ _ (wo_distinct _ _ _ _ _ _ W)) as (D1 & D2 & D3 & D4 & D5 & D6 & D7).
    destruct (conv_distinct _ _ _ _ ND) as (X1 & X2 & X3 & _).
    destruct (il_ne bo i ip X2) as (Y1 & Y2 & Y3 & Y4 & Y5).
    destruct (other_ids _ _ _ _ _ Hil) as (I0 & I6 & I7). destruct (il_ne bo i il I0) as (I1 & I2 & I3 & I4 & I5).
    induction n as [|n IH]; intros k h cd cl cs od os st pcs K F L LO HC HO CP LP C.
    - exists st, pcs, h. split; [reflexivity|]. split; [reflexivity|].
      split; [auto|]. split; [auto|]. split; [auto|]. split; [eauto|]. split; [auto|apply only_refl].
    - destruct (cset_patch_ok h cd cl cs od (st_out st) os k st pcs) as (st1 & pcs1 & h1 & T1 & E1 & H1 & C1 & L1 & M1 & F1 & U1); auto; [nlia|].
      destruct (IH (S k) h1 cd cl cs od os st1 pcs1) as (st2 & pcs2 & h2 & T2 & E2 & H2 & C2 & L2 & M2 & F2 & U2); auto.
      + nlia.
      + eapply only_cells; [exact U1| |exact HC]. cbn [In]. intuition congruence.
      + eapply only_cells; [exact U1| |exact C]. cbn [In]. intuition congruence.
      + exists st2, pcs2, h2. cbn [seq fold_left mloop]. rewrite T1, T2. split; [reflexivity|].
        split; [erewrite bind_some by exact E1; replace (Z.of_nat k + 1) with (Z.of_nat (S k)) by nlia; exact E2|].
        split; [auto|]. split; [auto|]. split; [auto|]. split.
        * intros m a N. destruct (M1 m a N) as [b N1]. eauto.
        * split; [auto|eapply only_trans; eauto].
  Qed.

  (** the allocations setting outputs may change *)
  Definition cset_ids : list nat := i_outputs i :: ip :: ia :: (if bo then [i_counts i] else []).

  Lemma pick_lt : forall n r, (0 < n)%nat -> (fst (pick_index n r) < n)%nat.
  Proof. intros n r N. unfold pick_index. destruct (next_u r) as [u r']. cbn [fst]. nlia. Qed.

  Lemma cset_clause_ok : forall strict h cd cl cs od o os aa x ab na y nb pcs r,
    Forall (clen nlit) (cd ++ cl :: cs) -> length (cd ++ cl :: cs) = ncl -> length od = length cd -> length aa = length cd ->
    holds h (i_clauses i) (flat_clauses (cd ++ cl :: cs)) ->
    holds h (i_outputs i) (od ++ o :: os) ->
    cells h ia (aa ++ x :: ab) -> in_patches np x ->
    (bo = true -> length na = length cd /\ cells h (i_counts i) (na ++ y :: nb)) ->
    cells h ip pcs -> length pcs = np -> (strict = true -> bo = true -> forall m, nth_error pcs m <> Some None) ->
    cells h il (map Some lits ++ rest) ->
    forall ap, seen (fun k => Z.of_nat (j_active j k)) (length cd) x = Z.of_nat ap ->
    exists o' ap' x' y' pcs' r' h',
      conv_clause_output bo nlit np lits cl ap (seen (j_counts j) (length cd) y) (fill (j_ppc j) pcs) r =
        (o', ap', seen (j_counts j) (length cd) y', fill (j_ppc j) pcs', r') /\
      h_cset_clause strict bo j (start il) c (Z.of_nat (length cd)) r h = Some (r', h') /\
      holds h' (i_outputs i) (od ++ o' :: os) /\
      cells h' ia (aa ++ x' :: ab) /\ in_patches np x' /\ seen (fun k => Z.of_nat (j_active j k)) (length cd) x' = Z.of_nat ap' /\
      (o' = 1 -> x' <> None) /\ (x <> None -> x' <> None) /\
      (bo = true -> cells h' (i_counts i) (na ++ y' :: nb)) /\ (y <> None -> y' <> None) /\
      cells h' ip pcs' /\ length pcs' = np /\
      (forall m a, nth_error pcs m = Some (Some a) -> exists b, nth_error pcs' m = Some (Some b)) /\
      only cset_ids h h'.
  Proof.
    intros strict h cd cl cs od o os aa x ab na y nb pcs r F L LO LA HC HO CA IX HN CP LP HS C ap EA.
    pose proof (nodup4 _ _ (wo_distinct _ _ _ _ _ _ W)) as (D1 & D2 & D3 & D4 & D5 & D6 & D7).
    destruct (conv_distinct _ _ _ _ ND) as (X1 & X2 & X3 & _).
    destruct (il_ne bo i ip X2) as (Y1 & Y2 & Y3 & Y4 & Y5).
    destruct (il_ne bo i ia X1) as (Z1 & Z2 & Z3 & Z4 & Z5).
    destruct (other_ids _ _ _ _ _ Hil) as (I0 & I6 & I7). destruct (il_ne bo i il I0) as (I1 & I2 & I3 & I4 & I5).
    unfold h_cset_clause. rewrite (wo_po _ _ _ _ _ _ W).
    destruct (store_at_mid h (i_outputs i) od o os 0 (Z.of_nat (length cd)) 0 HO) as (h1 & E1 & H1 & U1); [exact (f_equal Z.of_nat (eq_sym LO))|].
    unfold start at 1. erewrite bind_some by exact E1.
    destruct (cset_patches_ok np 0 h1 cd cl cs od os [] pcs) as (st & pcs2 & h2 & T2 & E2 & H2 & C2 & L2 & M2 & F2 & U2); auto.
    { eapply cells_one; [exact U1|auto|exact HC]. }
    { eapply cells_one; [exact U1|auto|exact CP]. }
    { eapply cells_one; [exact U1|auto|exact C]. }
    rewrite Hnp, Nat2Z.id. cbn [map] in E2. change (Z.of_nat 0) with 0 in E2. erewrite bind_some by exact E2.
    unfold conv_clause_output, conv_patches. rewrite T2.
    assert (CA2 : cells h2 ia (aa ++ x :: ab)).
    { eapply only_cells; [exact U2| |eapply cells_one; [exact U1|auto|exact CA]]. cbn [In]. intuition congruence. }
    assert (HN2 : bo = true -> length na = length cd /\ cells h2 (i_counts i) (na ++ y :: nb)).
    { intros B. destruct (HN B) as [N1 N2]. destruct (D7 B) as (D71 & D72 & D73 & D74). split; [auto|].
      eapply only_cells; [exact U2| |eapply cells_one; [exact U1|auto|exact N2]]. cbn [In]. specialize (Y5 B). intuition congruence. }
    assert (U12 : only cset_ids h h2).
    { eapply only_trans; [eapply only1; [exact U1|unfold cset_ids; cbn [In]; auto]|].
      eapply only_incl; [exact U2|]. intros z [E|[E|[]]]; unfold cset_ids; cbn [In]; auto. }
    destruct st as [|k0 st0] eqn:EST.
    - exists 0, ap, x, y, pcs2, r, h2. split; [reflexivity|]. split; [reflexivity|]. split; [exact H2|].
      split; [exact CA2|]. split; [exact IX|]. split; [exact EA|]. split; [discriminate|]. split; [auto|].
      split; [intros B; now destruct (HN2 B)|]. split; [auto|]. split; [exact C2|]. split; [exact L2|]. split; [exact M2|exact U12].
    - rewrite <- EST in *.
      replace (match map Z.of_nat st with [] => ret r | _ :: _ =>
                 let '(i0, r0) := pick_index (length (map Z.of_nat st)) r in
                 match nth_error (map Z.of_nat st) i0 with
                 | Some p => store_at (hc_active c) (Z.of_nat (length cd)) p ;;;
                     (if bo then n <- load_any strict (j_ppc j i0) (hc_ppc c) (Z.of_nat i0) ;;
                                 store_at (hs_counts (hc_s c)) (Z.of_nat (length cd)) n else ret tt) ;;; ret r0
                 | None => undef end end)
        with (let '(i0, r0) := pick_index (length (map Z.of_nat st)) r in
                 match nth_error (map Z.of_nat st) i0 with
                 | Some p => store_at (hc_active c) (Z.of_nat (length cd)) p ;;;
                     (if bo then n <- load_any strict (j_ppc j i0) (hc_ppc c) (Z.of_nat i0) ;;
                                 store_at (hs_counts (hc_s c)) (Z.of_nat (length cd)) n else ret tt) ;;; ret r0
                 | None => undef end) by (rewrite EST; reflexivity).
      replace (match st with [] => (0, ap, seen (j_counts j) (length cd) y, fill (j_ppc j) pcs2, r) | _ :: _ =>
                 let '(i0, r0) := pick_index (length st) r in
                 (1, nth i0 st O, if bo then nth i0 (fill (j_ppc j) pcs2) 0 else seen (j_counts j) (length cd) y, fill (j_ppc j) pcs2, r0) end)
        with (let '(i0, r0) := pick_index (length st) r in
                 (1, nth i0 st O, if bo then nth i0 (fill (j_ppc j) pcs2) 0 else seen (j_counts j) (length cd) y, fill (j_ppc j) pcs2, r0))
        by (rewrite EST; reflexivity).
      assert (PL : (0 < length st)%nat) by (rewrite EST; cbn [length]; nlia).
      rewrite map_length. pose proof (pick_lt (length st) r PL) as PK. destruct (pick_index (length st) r) as [k r1]. cbn [fst] in PK.
      assert (FS : Forall (fun m => (m < np)%nat) st) by (apply F2; constructor).
      assert (LS : (length st <= np)%nat).
      { (* every patch is stored at most once: the loop visits np patches *)
        clear - T2. unfold fill in T2. revert T2.
        assert (G : forall n k0 acc l p l' p', fold_left (conv_patch_step bo nlit lits cl) (seq k0 n) (l, p) = (l', p') ->
                  acc = length l -> (length l' <= acc + n)%nat).
        { clear. induction n as [|n IH]; intros k0 acc l p l' p' E A; cbn [seq fold_left] in E.
          - injection E as <- <-. nlia.
          - destruct (conv_patch_step bo nlit lits cl (l, p) k0) as [l1 p1] eqn:ES.
            assert (length l1 <= S acc)%nat.
            { unfold conv_patch_step in ES. destruct (conv_patch_loop _ _ _ _ _); injection ES as <- <-; rewrite ?app_length; cbn [length]; nlia. }
            specialize (IH (S k0) (length l1) l1 p1 l' p' E eq_refl). nlia. }
        intros T. specialize (G _ _ 0%nat _ _ _ _ T eq_refl). nlia. }
      rewrite (map_nth_error Z.of_nat k st (nth_error_nth' st 0%nat PK)).
      rewrite Pa.
      destruct (store_cell_mid h2 ia aa x ab 0 (Z.of_nat (length cd)) (Z.of_nat (nth k st 0%nat)) CA2) as (h3 & E3 & H3 & U3); [nlia|].
      unfold start at 1. erewrite bind_some by exact E3.
      assert (CP3 : cells h3 ip pcs2) by (eapply cells_one; [exact U3|auto|exact C2]).
      assert (HO3 : holds h3 (i_outputs i) (od ++ 1 :: os)).
      { replace 1 with (st_out st) by (rewrite EST; reflexivity). eapply cells_one; [exact U3|auto|exact H2]. }
      assert (INK : in_patches np (Some (Z.of_nat (nth k st 0%nat)))).
      { cbn [in_patches]. rewrite Forall_forall in FS. specialize (FS _ (nth_In st 0%nat PK)). nlia. }
      destruct bo eqn:B.
      + destruct (HN2 eq_refl) as [N1 N2]. destruct (D7 eq_refl) as (D71 & D72 & D73 & D74).
        assert (CN3 : cells h3 (i_counts i) (na ++ y :: nb)) by (eapply cells_one; [exact U3|specialize (Z5 eq_refl); auto|exact N2]).
        destruct (nth_error pcs2 k) as [z|] eqn:NZ.
        2: { apply nth_error_None in NZ. nlia. }
        assert (LD : load_any strict (j_ppc j k) (hc_ppc c) (Z.of_nat k) h3 = Some (nth k (fill (j_ppc j) pcs2) 0, h3)).
        { rewrite Pp. unfold start. erewrite load_any_ok; [|exact CP3|nlia|rewrite Z.add_0_l, Nat2Z.id; exact NZ|].
          - f_equal. f_equal. unfold fill. rewrite (fill_from_nth _ _ _ _ _ NZ). reflexivity.
          - intros ST. intro EZ. subst z.
            destruct (nth_error pcs k) as [[a|]|] eqn:NP.
            + destruct (M2 k a NP) as [b NB]. congruence.
            + exact (HS ST eq_refl k NP).
            + apply nth_error_None in NP. nlia. }
        destruct (store_cell_mid h3 (i_counts i) na y nb 0 (Z.of_nat (length cd)) (nth k (fill (j_ppc j) pcs2) 0) CN3) as (h4 & E4 & H4 & U4); [nlia|].
        exists 1, (nth k st 0%nat), (Some (Z.of_nat (nth k st 0%nat))), (Some (nth k (fill (j_ppc j) pcs2) 0)), pcs2, r1, h4.
        split; [reflexivity|]. split.
        { unfold bind at 1 2. rewrite LD. rewrite (wo_pl _ _ _ _ _ _ W eq_refl). unfold start. rewrite E4. reflexivity. }
        split; [eapply cells_one; [exact U4|auto|exact HO3]|].
        split; [eapply cells_one; [exact U4|specialize (Z5 eq_refl); auto|exact H3]|].
        split; [exact INK|]. split; [reflexivity|]. split; [discriminate|]. split; [discriminate|].
        split; [intros _; exact H4|]. split; [discriminate|].
        split; [eapply cells_one; [exact U4|specialize (Y5 eq_refl); auto|exact CP3]|]. split; [exact L2|]. split; [exact M2|].
        eapply only_trans; [exact U12|]. eapply only_trans; eapply only1; eauto; unfold cset_ids; rewrite ?B; cbn [In]; auto.
      + exists 1, (nth k st 0%nat), (Some (Z.of_nat (nth k st 0%nat))), y, pcs2, r1, h3.
        split; [reflexivity|]. split; [reflexivity|].
        split; [exact HO3|]. split; [exact H3|]. split; [exact INK|]. split; [reflexivity|]. split; [discriminate|]. split; [discriminate|].
        split; [discriminate|]. split; [auto|]. split; [exact CP3|]. split; [exact L2|]. split; [exact M2|].
        eapply only_trans; [exact U12|]. eapply only1; [exact U3|]. unfold cset_ids; cbn [In]; auto.
  Qed.
End Kernels.
