(** The kernels of the scalar machine on the heap compute the list model. *)
From Coq Require Import ZArith List Bool QArith Lia ZifyBool.
From Verif Require Import Base ModelHeap ModelDense ModelFeedback ModelTMHeap SpecHeap ProofsHeap.
Import ListNotations.
Open Scope Z_scope.

Ltac listeq := repeat rewrite <- app_assoc; cbn [app]; reflexivity.

Lemma lit_load : forall h il ld l ls rest,
  cells h il (map Some (ld ++ l :: ls) ++ rest) ->
  load_at (start il) (Z.of_nat (length ld)) h = Some (l, h).
Proof.
  intros h il ld l ls rest C. eapply load_at_ok; [exact C|lia|].
  replace (Z.to_nat (0 + Z.of_nat (length ld))) with (length (map Some ld)) by (rewrite map_length; lia).
  rewrite map_app, <- app_assoc. cbn [map app]. apply hnth_mid.
Qed.

(** ... and at some place of the buffer. *)
Lemma lit_load_at : forall h il lpre ld l ls rest,
  cells h il (lpre ++ map Some (ld ++ l :: ls) ++ rest) ->
  load_at (Some (mkAddr il (Z.of_nat (length lpre)))) (Z.of_nat (length ld)) h = Some (l, h).
Proof.
  intros h il lpre ld l ls rest C. eapply load_at_ok; [exact C|lia|].
  replace (Z.to_nat (Z.of_nat (length lpre) + Z.of_nat (length ld))) with (length (lpre ++ map Some ld)) by (rewrite app_length, map_length; lia).
  rewrite map_app, <- app_assoc, app_assoc. cbn [map app]. apply hnth_mid.
Qed.

(** ** Single automata *)
Lemma h_inc_ok : forall h id a x b off k, holds h id (a ++ x :: b) -> off + k = Z.of_nat (length a) ->
  exists h', h_inc (Some (mkAddr id off)) k h = Some (tt, h') /\ holds h' id (a ++ inc_sat x :: b) /\ only [id] h h'.
Proof.
  intros. unfold h_inc. erewrite bind_some by (eapply load_at_mid; eauto).
  unfold inc_sat. destruct (x <? 127).
  - eapply store_at_mid; eauto.
  - exists h. split; [reflexivity|]. split; [auto|apply only_refl].
Qed.
Lemma h_dec_ok : forall h id a x b off k, holds h id (a ++ x :: b) -> off + k = Z.of_nat (length a) ->
  exists h', h_dec (Some (mkAddr id off)) k h = Some (tt, h') /\ holds h' id (a ++ dec_sat x :: b) /\ only [id] h h'.
Proof.
  intros. unfold h_dec. erewrite bind_some by (eapply load_at_mid; eauto).
  unfold dec_sat. destruct (x >? -127).
  - eapply store_at_mid; eauto.
  - exists h. split; [reflexivity|]. split; [auto|apply only_refl].
Qed.
Lemma h_inc0_ok : forall h id a x b off k, holds h id (a ++ x :: b) -> off + k = Z.of_nat (length a) ->
  exists h', h_inc0 (Some (mkAddr id off)) k h = Some (tt, h') /\
    holds h' id (a ++ (if x <? 0 then wrap8 (x + 1) else x) :: b) /\ only [id] h h'.
Proof.
  intros. unfold h_inc0. erewrite bind_some by (eapply load_at_mid; eauto).
  destruct (x <? 0).
  - eapply store_at_mid; eauto.
  - exists h. split; [reflexivity|]. split; [auto|apply only_refl].
Qed.
(** ... under a condition. *)
Lemma cond_ok : forall (d : bool) m (f : Z -> Z) h id a x b,
  (exists h', m h = Some (tt, h') /\ holds h' id (a ++ f x :: b) /\ only [id] h h') ->
  holds h id (a ++ x :: b) ->
  exists h', (if d then m else ret tt) h = Some (tt, h') /\
    holds h' id (a ++ (if d then f x else x) :: b) /\ only [id] h h'.
Proof.
  intros d m f h id a x b (h' & E & H & U) H0. destruct d.
  - exists h'. auto.
  - exists h. split; [reflexivity|]. split; [auto|apply only_refl].
Qed.

(** A row between its neighbours. *)
Definition row_in (pre post p q : list Z) : list Z := pre ++ p ++ q ++ post.

Section Row.
  Variables (id il : nat) (pre post : list Z) (lpre : list (option Z)).
  Hypothesis Hne : id <> il.
  (** The literals: behind [lpre]. *)
  Definition lp : ptr := Some (mkAddr il (Z.of_nat (length lpre))).
  Definition rp : ptr := Some (mkAddr id (Z.of_nat (length pre))).
  Definition np (n : nat) : ptr := Some (mkAddr id (Z.of_nat (length pre) + Z.of_nat n)).

  Lemma at_pos : forall h pd p pr q, holds h id (row_in pre post (pd ++ p :: pr) q) ->
    holds h id ((pre ++ pd) ++ p :: (pr ++ q ++ post)).
  Proof. intros. replace ((pre ++ pd) ++ p :: pr ++ q ++ post) with (row_in pre post (pd ++ p :: pr) q); auto. unfold row_in. listeq. Qed.
  Lemma of_pos : forall h pd p pr q, holds h id ((pre ++ pd) ++ p :: (pr ++ q ++ post)) ->
    holds h id (row_in pre post (pd ++ p :: pr) q).
  Proof. intros. replace (row_in pre post (pd ++ p :: pr) q) with ((pre ++ pd) ++ p :: pr ++ q ++ post); auto. unfold row_in. listeq. Qed.
  Lemma at_neg : forall h p qd q qr, holds h id (row_in pre post p (qd ++ q :: qr)) ->
    holds h id ((pre ++ p ++ qd) ++ q :: (qr ++ post)).
  Proof. intros. replace ((pre ++ p ++ qd) ++ q :: qr ++ post) with (row_in pre post p (qd ++ q :: qr)); auto. unfold row_in. listeq. Qed.
  Lemma of_neg : forall h p qd q qr, holds h id ((pre ++ p ++ qd) ++ q :: (qr ++ post)) ->
    holds h id (row_in pre post p (qd ++ q :: qr)).
  Proof. intros. replace (row_in pre post p (qd ++ q :: qr)) with ((pre ++ p ++ qd) ++ q :: qr ++ post); auto. unfold row_in. listeq. Qed.

  (** An operation on the positive / negated automaton number |pd|. *)
  Definition opspec (m : ptr -> Z -> M unit) (f : Z -> Z) : Prop :=
    forall h a x b off k, holds h id (a ++ x :: b) -> off + k = Z.of_nat (length a) ->
      exists h', m (Some (mkAddr id off)) k h = Some (tt, h') /\ holds h' id (a ++ f x :: b) /\ only [id] h h'.

  Lemma op_pos : forall (d : bool) m f h pd p pr q, opspec m f ->
    holds h id (row_in pre post (pd ++ p :: pr) q) ->
    exists h', (if d then m rp (Z.of_nat (length pd)) else ret tt) h = Some (tt, h') /\
      holds h' id (row_in pre post (pd ++ (if d then f p else p) :: pr) q) /\ only [id] h h'.
  Proof.
    intros d m f h pd p pr q O H.
    destruct (cond_ok d (m rp (Z.of_nat (length pd))) f h id (pre ++ pd) p (pr ++ q ++ post)) as (h' & E & A & U).
    - apply O; [now apply at_pos|]. rewrite app_length. lia.
    - now apply at_pos.
    - exists h'. split; [exact E|]. split; [now apply of_pos|auto].
  Qed.
  Lemma op_neg : forall (d : bool) m f h p qd q qr n, opspec m f -> length p = n ->
    holds h id (row_in pre post p (qd ++ q :: qr)) ->
    exists h', (if d then m (np n) (Z.of_nat (length qd)) else ret tt) h = Some (tt, h') /\
      holds h' id (row_in pre post p (qd ++ (if d then f q else q) :: qr)) /\ only [id] h h'.
  Proof.
    intros d m f h p qd q qr n O L H.
    destruct (cond_ok d (m (np n) (Z.of_nat (length qd))) f h id (pre ++ p ++ qd) q (qr ++ post)) as (h' & E & A & U).
    - apply O; [now apply at_neg|]. rewrite !app_length. lia.
    - now apply at_neg.
    - exists h'. split; [exact E|]. split; [now apply of_neg|auto].
  Qed.

  Lemma inc_spec : opspec h_inc inc_sat.
  Proof. red. intros. now apply h_inc_ok. Qed.
  Lemma dec_spec : opspec h_dec dec_sat.
  Proof. red. intros. now apply h_dec_ok. Qed.
  Lemma inc0_spec : opspec h_inc0 (fun x => if x <? 0 then wrap8 (x + 1) else x).
  Proof. red. intros. now apply h_inc0_ok. Qed.

  (** Type Ia *)
  Lemma t1a_step : forall boost s pd p pr qd q qr ld l ls rest r h n,
    length pd = length ld -> length qd = length ld -> length (pd ++ p :: pr) = n ->
    holds h id (row_in pre post (pd ++ p :: pr) (qd ++ q :: qr)) ->
    cells h il (lpre ++ map Some (ld ++ l :: ls) ++ rest) ->
    exists p1 q1 r1 h1,
      h_t1a_body boost s rp (np n) lp (Z.of_nat (length ld)) r h = Some (r1, h1) /\
      holds h1 id (row_in pre post (pd ++ p1 :: pr) (qd ++ q1 :: qr)) /\ only [id] h h1 /\
      type1a boost (hs_s_inv s) (hs_s_min1_inv s) (p :: pr) (q :: qr) (l :: ls) r =
      (let '(ps, qs, r') := type1a boost (hs_s_inv s) (hs_s_min1_inv s) pr qr ls r1 in
       (p1 :: ps, q1 :: qs, r')).
  Proof.
    intros boost s pd p pr qd q qr ld l ls rest r h n L1 L2 LN H C.
    unfold h_t1a_body. erewrite bind_some by (eapply lit_load_at; eauto).
    cbn [type1a]. destruct (l =? 1) eqn:E1.
    - destruct boost.
      + destruct (op_pos true _ _ h pd p pr (qd ++ q :: qr) inc_spec H) as (h1 & R1 & H1 & U1).
        cbv iota in R1. rewrite L1 in R1.
        destruct (draw_le r (hs_s_inv s)) as [d r2] eqn:D.
        destruct (op_neg d _ _ h1 (pd ++ inc_sat p :: pr) qd q qr n dec_spec) as (h2 & R2 & H2 & U2);
          [rewrite <- LN, !app_length; reflexivity|exact H1|].
        rewrite L2 in R2.
        exists (inc_sat p), (if d then dec_sat q else q), r2, h2.
        split; [|split; [exact H2|split; [eapply only_trans; eauto|reflexivity]]].
        unfold bind at 1. unfold bind at 1. rewrite R1. unfold ret at 1.
        rewrite D. unfold bind. rewrite R2. reflexivity.
      + destruct (draw_le r (hs_s_min1_inv s)) as [d0 r0] eqn:D0.
        destruct (op_pos d0 _ _ h pd p pr (qd ++ q :: qr) inc_spec H) as (h1 & R1 & H1 & U1).
        rewrite L1 in R1.
        destruct (draw_le r0 (hs_s_inv s)) as [d r2] eqn:D.
        destruct (op_neg d _ _ h1 (pd ++ (if d0 then inc_sat p else p) :: pr) qd q qr n dec_spec) as (h2 & R2 & H2 & U2);
          [rewrite <- LN, !app_length; reflexivity|exact H1|].
        rewrite L2 in R2.
        exists (if d0 then inc_sat p else p), (if d then dec_sat q else q), r2, h2.
        split; [|split; [exact H2|split; [eapply only_trans; eauto|reflexivity]]].
        unfold bind at 1. unfold bind at 1. rewrite R1. unfold ret at 1.
        rewrite D. unfold bind. rewrite R2. reflexivity.
    - destruct (draw_le r (hs_s_inv s)) as [d0 r0] eqn:D0.
      destruct (op_pos d0 _ _ h pd p pr (qd ++ q :: qr) dec_spec H) as (h1 & R1 & H1 & U1).
      rewrite L1 in R1.
      destruct (draw_le r0 (hs_s_min1_inv s)) as [d r2] eqn:D.
      destruct (op_neg d _ _ h1 (pd ++ (if d0 then dec_sat p else p) :: pr) qd q qr n inc_spec) as (h2 & R2 & H2 & U2);
        [rewrite <- LN, !app_length; reflexivity|exact H1|].
      rewrite L2 in R2.
      exists (if d0 then dec_sat p else p), (if d then inc_sat q else q), r2, h2.
      split; [|split; [exact H2|split; [eapply only_trans; eauto|reflexivity]]].
      unfold bind at 1. rewrite R1.
      unfold bind. rewrite R2. reflexivity.
  Qed.

  Lemma not_id : ~ In il [id].
  Proof. intros [E|[]]. now apply Hne. Qed.

  Lemma t1a_loop : forall boost s ps pd qd qs ld ls rest r h n,
    length pd = length ld -> length qd = length ld -> length ps = length ls -> length qs = length ls ->
    length (pd ++ ps) = n ->
    holds h id (row_in pre post (pd ++ ps) (qd ++ qs)) ->
    cells h il (lpre ++ map Some (ld ++ ls) ++ rest) ->
    exists ps' qs' r' h', type1a boost (hs_s_inv s) (hs_s_min1_inv s) ps qs ls r = (ps', qs', r') /\
      mloop (length ps) (Z.of_nat (length ld)) (h_t1a_body boost s rp (np n) lp) r h = Some (r', h') /\
      holds h' id (row_in pre post (pd ++ ps') (qd ++ qs')) /\ only [id] h h'.
  Proof.
    intros boost s ps. induction ps as [|p pr IH]; intros pd qd qs ld ls rest r h n L1 L2 L3 L4 LN H C.
    - destruct ls; [|discriminate]. destruct qs; [|discriminate].
      exists [], [], r, h. split; [reflexivity|]. split; [reflexivity|]. split; [auto|apply only_refl].
    - destruct ls as [|l ls]; [discriminate|]. destruct qs as [|q qr]; [discriminate|].
      destruct (t1a_step boost s pd p pr qd q qr ld l ls rest r h n) as (p1 & q1 & r1 & h1 & E & H1 & U1 & T); auto.
      destruct (IH (pd ++ [p1]) (qd ++ [q1]) qr (ld ++ [l]) ls rest r1 h1 n) as (ps' & qs' & r' & h' & T' & E' & H' & U').
      + rewrite !app_length. cbn [length]. lia.
      + rewrite !app_length. cbn [length]. lia.
      + cbn [length] in L3. lia.
      + cbn [length] in L4. lia.
      + rewrite <- LN, !app_length. cbn [length]. lia.
      + rewrite <- !app_assoc. exact H1.
      + rewrite <- (app_assoc ld). cbn [app]. eapply only_cells; [exact U1|apply not_id|exact C].
      + exists (p1 :: ps'), (q1 :: qs'), r', h'. split; [rewrite T, T'; reflexivity|]. split; [|split].
        * cbn [length mloop]. erewrite bind_some by exact E.
          rewrite app_length in E'. cbn [length] in E'.
          replace (Z.of_nat (length ld) + 1) with (Z.of_nat (length ld + 1)) by lia. exact E'.
        * rewrite <- !app_assoc in H'. exact H'.
        * eapply only_trans; eauto.
  Qed.

  (** Type Ib *)
  Lemma t1b_step : forall s pd p pr qd q qr r h n k,
    length pd = k -> length qd = k -> length (pd ++ p :: pr) = n ->
    holds h id (row_in pre post (pd ++ p :: pr) (qd ++ q :: qr)) ->
    exists p1 q1 r1 h1,
      h_t1b_body s rp (np n) (Z.of_nat k) r h = Some (r1, h1) /\
      holds h1 id (row_in pre post (pd ++ p1 :: pr) (qd ++ q1 :: qr)) /\ only [id] h h1 /\
      type1b (hs_s_inv s) (p :: pr) (q :: qr) r =
      (let '(ps, qs, r') := type1b (hs_s_inv s) pr qr r1 in (p1 :: ps, q1 :: qs, r')).
  Proof.
    intros s pd p pr qd q qr r h n k L1 L2 LN H.
    unfold h_t1b_body. cbn [type1b].
    destruct (draw_le r (hs_s_inv s)) as [d0 r0] eqn:D0.
    destruct (op_pos d0 _ _ h pd p pr (qd ++ q :: qr) dec_spec H) as (h1 & R1 & H1 & U1).
    rewrite L1 in R1.
    destruct (draw_le r0 (hs_s_inv s)) as [d r2] eqn:D.
    destruct (op_neg d _ _ h1 (pd ++ (if d0 then dec_sat p else p) :: pr) qd q qr n dec_spec) as (h2 & R2 & H2 & U2);
      [rewrite <- LN, !app_length; reflexivity|exact H1|].
    rewrite L2 in R2.
    exists (if d0 then dec_sat p else p), (if d then dec_sat q else q), r2, h2.
    split; [|split; [exact H2|split; [eapply only_trans; eauto|reflexivity]]].
    unfold bind at 1. rewrite R1.
    unfold bind. rewrite R2. reflexivity.
  Qed.

  Lemma t1b_loop : forall s ps pd qd qs r h n k,
    length pd = k -> length qd = k -> length qs = length ps ->
    length (pd ++ ps) = n ->
    holds h id (row_in pre post (pd ++ ps) (qd ++ qs)) ->
    exists ps' qs' r' h', type1b (hs_s_inv s) ps qs r = (ps', qs', r') /\
      mloop (length ps) (Z.of_nat k) (h_t1b_body s rp (np n)) r h = Some (r', h') /\
      holds h' id (row_in pre post (pd ++ ps') (qd ++ qs')) /\ only [id] h h'.
  Proof.
    intros s ps. induction ps as [|p pr IH]; intros pd qd qs r h n k L1 L2 L3 LN H.
    - destruct qs; [|discriminate].
      exists [], [], r, h. split; [reflexivity|]. split; [reflexivity|]. split; [auto|apply only_refl].
    - destruct qs as [|q qr]; [discriminate|].
      destruct (t1b_step s pd p pr qd q qr r h n k) as (p1 & q1 & r1 & h1 & E & H1 & U1 & T); auto.
      destruct (IH (pd ++ [p1]) (qd ++ [q1]) qr r1 h1 n (S k)) as (ps' & qs' & r' & h' & T' & E' & H' & U').
      + rewrite !app_length. cbn [length]. lia.
      + rewrite !app_length. cbn [length]. lia.
      + cbn [length] in L3. lia.
      + rewrite <- LN, !app_length. cbn [length]. lia.
      + rewrite <- !app_assoc. exact H1.
      + exists (p1 :: ps'), (q1 :: qs'), r', h'. split; [rewrite T, T'; reflexivity|]. split; [|split].
        * cbn [length mloop]. erewrite bind_some by exact E.
          replace (Z.of_nat k + 1) with (Z.of_nat (S k)) by lia. exact E'.
        * rewrite <- !app_assoc in H'. exact H'.
        * eapply only_trans; eauto.
  Qed.

  (** Type II *)
  Lemma t2_step : forall pd p pr qd q qr ld l ls rest h n,
    length pd = length ld -> length qd = length ld -> length (pd ++ p :: pr) = n ->
    holds h id (row_in pre post (pd ++ p :: pr) (qd ++ q :: qr)) ->
    cells h il (lpre ++ map Some (ld ++ l :: ls) ++ rest) ->
    exists p1 q1 h1,
      h_t2_body rp (np n) lp (Z.of_nat (length ld)) tt h = Some (tt, h1) /\
      holds h1 id (row_in pre post (pd ++ p1 :: pr) (qd ++ q1 :: qr)) /\ only [id] h h1 /\
      type2 (p :: pr) (q :: qr) (l :: ls) =
      (let '(ps, qs) := type2 pr qr ls in (p1 :: ps, q1 :: qs)).
  Proof.
    intros pd p pr qd q qr ld l ls rest h n L1 L2 LN H C.
    unfold h_t2_body. erewrite bind_some by (eapply lit_load_at; eauto). cbn [type2].
    destruct (l =? 0) eqn:E.
    - destruct (op_pos true _ _ h pd p pr (qd ++ q :: qr) inc0_spec H) as (h1 & R1 & H1 & U1).
      cbv iota in R1. rewrite L1 in R1.
      exists (if p <? 0 then wrap8 (p + 1) else p), q, h1.
      split; [exact R1|]. split; [exact H1|]. split; [exact U1|]. destruct (type2 pr qr ls). reflexivity.
    - destruct (op_neg true _ _ h (pd ++ p :: pr) qd q qr n inc0_spec LN H) as (h1 & R1 & H1 & U1).
      cbv iota in R1. rewrite L2 in R1.
      exists p, (if q <? 0 then wrap8 (q + 1) else q), h1.
      split; [exact R1|]. split; [exact H1|]. split; [exact U1|]. destruct (type2 pr qr ls). reflexivity.
  Qed.

  Lemma t2_loop : forall ps pd qd qs ld ls rest h n,
    length pd = length ld -> length qd = length ld -> length ps = length ls -> length qs = length ls ->
    length (pd ++ ps) = n ->
    holds h id (row_in pre post (pd ++ ps) (qd ++ qs)) ->
    cells h il (lpre ++ map Some (ld ++ ls) ++ rest) ->
    exists ps' qs' h', type2 ps qs ls = (ps', qs') /\
      mloop (length ps) (Z.of_nat (length ld)) (h_t2_body rp (np n) lp) tt h = Some (tt, h') /\
      holds h' id (row_in pre post (pd ++ ps') (qd ++ qs')) /\ only [id] h h'.
  Proof.
    intros ps. induction ps as [|p pr IH]; intros pd qd qs ld ls rest h n L1 L2 L3 L4 LN H C.
    - destruct ls; [|discriminate]. destruct qs; [|discriminate].
      exists [], [], h. split; [reflexivity|]. split; [reflexivity|]. split; [auto|apply only_refl].
    - destruct ls as [|l ls]; [discriminate|]. destruct qs as [|q qr]; [discriminate|].
      destruct (t2_step pd p pr qd q qr ld l ls rest h n) as (p1 & q1 & h1 & E & H1 & U1 & T); auto.
      destruct (IH (pd ++ [p1]) (qd ++ [q1]) qr (ld ++ [l]) ls rest h1 n) as (ps' & qs' & h' & T' & E' & H' & U').
      + rewrite !app_length. cbn [length]. lia.
      + rewrite !app_length. cbn [length]. lia.
      + cbn [length] in L3. lia.
      + cbn [length] in L4. lia.
      + rewrite <- LN, !app_length. cbn [length]. lia.
      + rewrite <- !app_assoc. exact H1.
      + rewrite <- (app_assoc ld). cbn [app]. eapply only_cells; [exact U1|apply not_id|exact C].
      + exists (p1 :: ps'), (q1 :: qs'), h'. split; [rewrite T, T'; reflexivity|]. split; [|split].
        * cbn [length mloop]. erewrite bind_some by exact E.
          rewrite app_length in E'. cbn [length] in E'.
          replace (Z.of_nat (length ld) + 1) with (Z.of_nat (length ld + 1)) by lia. exact E'.
        * rewrite <- !app_assoc in H'. exact H'.
        * eapply only_trans; eauto.
  Qed.

  (** The pointer to the negated half. *)
  Lemma neg_ptr : forall h p q n, holds h id (row_in pre post p q) -> length p = n ->
    padd rp (Z.of_nat n) h = Some (np n, h).
  Proof.
    intros. unfold rp, np. eapply padd_ok; [exact H|].
    unfold row_in. rewrite map_length, !app_length. lia.
  Qed.

  Lemma h_type1a_ok : forall boost s p q lits rest r h,
    hs_nlit s = Z.of_nat (length p) -> length q = length p -> length lits = length p ->
    holds h id (row_in pre post p q) -> cells h il (lpre ++ map Some lits ++ rest) ->
    exists p' q' r' h', type1a boost (hs_s_inv s) (hs_s_min1_inv s) p q lits r = (p', q', r') /\
      h_type1a boost s rp lp r h = Some (r', h') /\
      holds h' id (row_in pre post p' q') /\ only [id] h h'.
  Proof.
    intros boost s p q lits rest r h N LQ LL H C.
    destruct (t1a_loop boost s p [] [] q [] lits rest r h (length p)) as (p' & q' & r' & h' & T & E & H' & U); auto; try congruence.
    exists p', q', r', h'. split; [exact T|]. split; [|split; [exact H'|exact U]].
    unfold h_type1a. rewrite N. erewrite bind_some by (eapply neg_ptr; eauto). rewrite Nat2Z.id. exact E.
  Qed.
  Lemma h_type1b_ok : forall s p q r h,
    hs_nlit s = Z.of_nat (length p) -> length q = length p ->
    holds h id (row_in pre post p q) ->
    exists p' q' r' h', type1b (hs_s_inv s) p q r = (p', q', r') /\
      h_type1b s rp r h = Some (r', h') /\
      holds h' id (row_in pre post p' q') /\ only [id] h h'.
  Proof.
    intros s p q r h N LQ H.
    destruct (t1b_loop s p [] [] q r h (length p) O) as (p' & q' & r' & h' & T & E & H' & U); auto.
    exists p', q', r', h'. split; [exact T|]. split; [|split; [exact H'|exact U]].
    unfold h_type1b. rewrite N. erewrite bind_some by (eapply neg_ptr; eauto). rewrite Nat2Z.id. exact E.
  Qed.
  Lemma h_type2_ok : forall s p q lits rest h,
    hs_nlit s = Z.of_nat (length p) -> length q = length p -> length lits = length p ->
    holds h id (row_in pre post p q) -> cells h il (lpre ++ map Some lits ++ rest) ->
    exists p' q' h', type2 p q lits = (p', q') /\
      h_type2 s rp lp h = Some (tt, h') /\
      holds h' id (row_in pre post p' q') /\ only [id] h h'.
  Proof.
    intros s p q lits rest h N LQ LL H C.
    destruct (t2_loop p [] [] q [] lits rest h (length p)) as (p' & q' & h' & T & E & H' & U); auto; try congruence.
    exists p', q', h'. split; [exact T|]. split; [|split; [exact H'|exact U]].
    unfold h_type2. rewrite N. erewrite bind_some by (eapply neg_ptr; eauto). rewrite Nat2Z.id. exact E.
  Qed.
End Row.

(** Lengths are kept by the feedback functions. *)
Lemma type1a_len : forall boost a b p q l r p' q' r',
  type1a boost a b p q l r = (p', q', r') -> length p' = length p /\ length q' = length q.
Proof.
  induction p as [|x p IH]; intros q l r p' q' r' E.
  - cbn in E. injection E as <- <- <-. auto.
  - destruct q as [|y q]; [cbn in E; injection E as <- <- <-; auto|].
    destruct l as [|z l]; [cbn in E; injection E as <- <- <-; auto|].
    cbn [type1a] in E. destruct (z =? 1).
    + destruct boost.
      * destruct (draw_le r a) as [d r2]. destruct (type1a true a b p q l r2) as [[ps qs] r3] eqn:T.
        injection E as <- <- <-. apply IH in T. cbn [length]. lia.
      * destruct (draw_le r b) as [d0 r0]. destruct (draw_le r0 a) as [d r2].
        destruct (type1a false a b p q l r2) as [[ps qs] r3] eqn:T.
        injection E as <- <- <-. apply IH in T. cbn [length]. lia.
    + destruct (draw_le r a) as [d0 r0]. destruct (draw_le r0 b) as [d r2].
      destruct (type1a boost a b p q l r2) as [[ps qs] r3] eqn:T.
      injection E as <- <- <-. apply IH in T. cbn [length]. lia.
Qed.
Lemma type1b_len : forall a p q r p' q' r',
  type1b a p q r = (p', q', r') -> length p' = length p /\ length q' = length q.
Proof.
  induction p as [|x p IH]; intros q r p' q' r' E.
  - cbn in E. injection E as <- <- <-. auto.
  - destruct q as [|y q]; [cbn in E; injection E as <- <- <-; auto|].
    cbn [type1b] in E. destruct (draw_le r a) as [d0 r0]. destruct (draw_le r0 a) as [d r2].
    destruct (type1b a p q r2) as [[ps qs] r3] eqn:T.
    injection E as <- <- <-. apply IH in T. cbn [length]. lia.
Qed.
Lemma type2_len : forall p q l p' q',
  type2 p q l = (p', q') -> length p' = length p /\ length q' = length q.
Proof.
  induction p as [|x p IH]; intros q l p' q' E.
  - cbn in E. injection E as <- <-. auto.
  - destruct q as [|y q]; [cbn in E; injection E as <- <-; auto|].
    destruct l as [|z l]; [cbn in E; injection E as <- <-; auto|].
    cbn [type2] in E. destruct (type2 p q l) as [ps qs] eqn:T. apply IH in T.
    destruct (z =? 0); injection E as <- <-; cbn [length]; lia.
Qed.
