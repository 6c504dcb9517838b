(** One block on the heap: examples, update, prepare, votes. *)
From Coq Require Import ZArith List Bool QArith Lia ZifyBool.
From Verif Require Import Base ModelHeap ModelDense ModelFeedback ModelTMHeap SpecHeap ProofsHeap ProofsTMHeap ProofsTMHeapB ProofsTMHeapC ProofsTMHeapD.
From Verif Require ProofsPoolExec ProofsFeedback.
Import ListNotations.
Open Scope Z_scope.

Lemma is_block_frame : forall bo ct i h h' s b l, is_block bo ct i h s b -> only l h h' ->
  (forall id, In id l -> ~ In id (owned bo i)) -> is_block bo ct i h' s b.
Proof.
  intros bo ct i h h' s b l H U N.
  assert (K : forall id cs, In id (owned bo i) -> cells h id cs -> cells h' id cs).
  { intros id cs I C. eapply only_cells; [exact U| |exact C]. intros X. exact (N _ X I). }
  destruct H. constructor; auto.
  - destruct ib_clauses as [A B]. split; auto. apply K; auto. unfold owned; cbn [In]; auto.
  - destruct ib_outputs as [A B]. split; auto. apply K; auto. unfold owned; cbn [In]; auto.
  - destruct ib_votes as [A B]. split; auto. apply K; auto. unfold owned; cbn [In]; auto.
  - destruct ib_weights as [A B]. split; auto. apply K; auto. unfold owned; cbn [In]; auto.
  - intros B. destruct (ib_counts B) as (A & cs & C1 & C2 & C3). split; auto. exists cs.
    split; [|split; auto]. apply K; auto. unfold owned. rewrite B. cbn [In]; auto 6.
Qed.

Lemma shaped_clen : forall b, shaped b -> Forall (clen (b_nlit b)) (b_clauses b).
Proof. intros b (A & _). exact A. Qed.

Lemma out_ids_owned : forall bo i, incl (out_ids bo i) (owned bo i).
Proof. intros bo i x. unfold out_ids, owned. destruct bo; cbn [In]; intuition. Qed.

Lemma train_output_ok : forall bo ct i h s b il lits, is_block bo ct i h s b ->
  ~ In il (owned bo i) -> buffer_holds h il lits -> length lits = b_nlit b ->
  exists h', h_train_set_output bo (start il) s h = Some (tt, h') /\
    is_block bo true i h' s (train_set_clause_output bo lits b) /\ only (out_ids bo i) h h'.
Proof.
  intros bo ct i h s b il lits H Hil [rest C] L. pose proof (is_block_obj _ _ _ _ _ _ H) as W.
  pose proof (nodup4 _ _ (wo_distinct _ _ _ _ _ _ W)) as (D1 & D2 & D3 & D4 & D5 & D6 & D7).
  pose proof H as H0. destruct H. destruct ib_shaped as (S1 & S2 & S3 & S4 & S5).
  destruct ib_clauses as [PC HC]. destruct ib_outputs as [PO HO]. destruct ib_votes as [PV HV]. destruct ib_weights as [PW HW].
  destruct (train_loop_ok bo i s _ _ _ W il Hil lits rest L (b_clauses b) [] [] (b_outputs b)
              [] (if bo then match nth_error h (i_counts i) with Some (Some c) => ch_cells c | _ => [] end else []) h)
    as (h' & E & H' & N' & U); auto.
  { intros B. rewrite B. destruct (ib_counts B) as (_ & cs & C1 & C2 & _). destruct C1 as [k K]. rewrite K. cbn [ch_cells].
    split; [reflexivity|]. split; [exact C2|]. exists k. exact K. }
  exists h'. split; [|split; [|exact U]].
  - unfold h_train_set_output. rewrite ib_ncl, Nat2Z.id. exact E.
  - assert (K : forall id cs, id <> i_outputs i -> (bo = true -> id <> i_counts i) -> cells h id cs -> cells h' id cs).
    { intros. eapply only_cells; [exact U| |eassumption]. now apply out_ids_other. }
    unfold train_set_clause_output. constructor; cbn [b_nlit b_ncls b_clauses b_weights b_outputs b_counts b_votes b_budget b_s_inv b_s_min1_inv b_rng b_fast]; auto.
    + red. cbn [b_nlit b_ncls b_clauses b_weights b_outputs b_votes]. rewrite !map_length. auto.
    + split; auto. apply K; auto. intros B. now destruct (D7 B).
    + split; auto. apply K; auto. intros B. now destruct (D7 B) as (_ & _ & ? & _).
    + split; auto. apply K; auto. intros B. now destruct (D7 B) as (_ & _ & _ & ?).
    + intros B. rewrite B in *. split; [now destruct (ib_counts eq_refl)|].
      exists (map Some (map snd (map (set_output true lits) (b_clauses b)))).
      split; [now apply N'|]. rewrite !map_length. auto.
Qed.

Lemma eval_output_ok : forall bo ct i h s b il lits, is_block bo ct i h s b ->
  ~ In il (owned bo i) -> buffer_holds h il lits -> length lits = b_nlit b ->
  exists h', h_eval_set_output (start il) s h = Some (tt, h') /\
    is_block bo ct i h' s (eval_set_clause_output lits b) /\ only [i_outputs i] h h'.
Proof.
  intros bo ct i h s b il lits H Hil [rest C] L. pose proof (is_block_obj _ _ _ _ _ _ H) as W.
  pose proof (nodup4 _ _ (wo_distinct _ _ _ _ _ _ W)) as (D1 & D2 & D3 & D4 & D5 & D6 & D7).
  pose proof H as H0. destruct H. destruct ib_shaped as (S1 & S2 & S3 & S4 & S5).
  destruct ib_clauses as [PC HC]. destruct ib_outputs as [PO HO]. destruct ib_votes as [PV HV]. destruct ib_weights as [PW HW].
  destruct (eval_loop_ok bo i s _ _ _ W il Hil lits rest L (b_clauses b) [] [] (b_outputs b) h)
    as (h' & E & H' & U); auto.
  exists h'. split; [|split; [|exact U]].
  - unfold h_eval_set_output. rewrite ib_ncl, Nat2Z.id. exact E.
  - assert (K : forall id cs, i_outputs i <> id -> cells h id cs -> cells h' id cs).
    { intros. eapply cells_one; eauto. }
    unfold eval_set_clause_output. constructor; cbn [b_nlit b_ncls b_clauses b_weights b_outputs b_counts b_votes b_budget b_s_inv b_s_min1_inv b_rng b_fast]; auto.
    + red. cbn [b_nlit b_ncls b_clauses b_weights b_outputs b_votes]. rewrite !map_length. auto.
    + split; auto. apply K; auto.
    + split; auto. apply K; auto.
    + split; auto. apply K; auto.
    + intros B. destruct (ib_counts B) as (A & cs & C1 & C2 & C3). split; auto. exists cs. split; auto.
      apply K; auto. now destruct (D7 B) as (_ & ? & _).
Qed.

Lemma count_len : forall os ws vs n, Forall (fun w => length w = n) ws -> length vs = n ->
  length (count_votes_loop os ws vs) = n.
Proof.
  induction os as [|o os IH]; intros ws vs n F L; [exact L|]. destruct ws as [|w ws]; [exact L|].
  inversion F; subst. cbn [count_votes_loop]. apply IH; auto. destruct (o =? 1); auto.
  rewrite map2_len; congruence.
Qed.

Lemma votes_ok : forall bo ct i h s b, is_block bo ct i h s b ->
  exists h', h_count_votes s h = Some (tt, h') /\
    is_block bo ct i h' s (count_votes b) /\ only [i_votes i] h h'.
Proof.
  intros bo ct i h s b H. pose proof (is_block_obj _ _ _ _ _ _ H) as W.
  pose proof (nodup4 _ _ (wo_distinct _ _ _ _ _ _ W)) as (D1 & D2 & D3 & D4 & D5 & D6 & D7).
  pose proof H as H0. destruct H. destruct ib_shaped as (S1 & S2 & S3 & S4 & S5).
  destruct ib_clauses as [PC HC]. destruct ib_outputs as [PO HO]. destruct ib_votes as [PV HV]. destruct ib_weights as [PW HW].
  destruct (count_votes_ok bo i s _ _ _ W (b_outputs b) (b_weights b) (b_votes b) h) as (h' & E & H' & U); auto; try congruence.
  exists h'. split; [exact E|split; [|exact U]].
  assert (K : forall id cs, i_votes i <> id -> cells h id cs -> cells h' id cs).
  { intros. eapply cells_one; eauto. }
  unfold count_votes. constructor; cbn [b_nlit b_ncls b_clauses b_weights b_outputs b_counts b_votes b_budget b_s_inv b_s_min1_inv b_rng b_fast]; auto.
  - red. cbn [b_nlit b_ncls b_clauses b_weights b_outputs b_votes].
    split; [auto|]. split; [auto|]. split; [auto|]. split; [auto|]. apply count_len; auto. apply repeat_length.
  - split; auto. apply K; auto.
  - split; auto. apply K; auto.
  - split; auto. apply K; auto.
  - intros B. destruct (ib_counts B) as (A & cs & C1 & C2 & C3). split; auto. exists cs. split; auto.
    apply K; auto. now destruct (D7 B) as (_ & _ & ? & _).
Qed.

Lemma upd_owned : forall bo i, incl (upd_ids i) (owned bo i).
Proof. intros bo i x. unfold upd_ids, owned. cbn [In]. intuition. Qed.

Lemma update_ok : forall bo ct boost i h s b il lits pc pp nc np, is_block bo ct i h s b ->
  (bo = true -> ct = true) ->
  ~ In il (owned bo i) -> buffer_holds h il lits -> length lits = b_nlit b ->
  (pc < b_ncls b)%nat -> (nc < b_ncls b)%nat ->
  exists s' h', h_train_update bo boost (start il) (Z.of_nat pc) pp (Z.of_nat nc) np s h = Some (s', h') /\
    is_block bo ct i h' s' (train_update bo boost lits pc pp nc np b) /\ only (upd_ids i) h h'.
Proof.
  intros bo ct boost i h s b il lits pc pp nc np H CT Hil [rest C] L Lp Ln.
  pose proof (is_block_obj _ _ _ _ _ _ H) as W.
  pose proof (nodup4 _ _ (wo_distinct _ _ _ _ _ _ W)) as (D1 & D2 & D3 & D4 & D5 & D6 & D7).
  pose proof H as H0. destruct H. destruct ib_shaped as (S1 & S2 & S3 & S4 & S5).
  pose proof ib_fits as (F1 & F2 & F3 & F4 & F5).
  destruct ib_clauses as [PC HC]. destruct ib_outputs as [PO HO]. destruct ib_votes as [PV HV]. destruct ib_weights as [PW HW].
  destruct (update_loop_ok bo i s _ _ _ W il Hil lits rest L boost pc pp nc np (b_clauses b) [] [] (b_weights b) [] (b_outputs b)
              [] (b_counts b) h (b_rng b) (b_fast b))
    as (cs' & wss' & os' & r' & f' & h' & T & E & G1 & G2 & G3 & G4 & G5 & HC' & HW' & HO' & U); auto; try congruence.
  { intros B. destruct (ib_counts B) as (_ & cs & C1 & C2 & C3). destruct (C3 (CT B)) as [E1 E2].
    split; [reflexivity|]. split; [congruence|]. red. cbn [app]. rewrite <- E1. exact C1. }
  unfold train_update. rewrite <- ib_budget, <- ib_s_inv, <- ib_s_min1. rewrite T.
  unfold h_train_update. rewrite ib_nlit.
  eexists. exists h'. split; [|split; [|exact U]].
  - erewrite bind_some by (apply imul_ok; nlia).
    rewrite ib_ncl, Nat2Z.id, ib_rng, ib_fast.
    replace (Z.of_nat (b_nlit b) * 2) with (Z.of_nat (b_nlit b * 2)) by nlia.
    erewrite bind_some by exact E. cbn [fst snd]. reflexivity.
  - assert (K : forall id cs, id <> i_clauses i -> id <> i_outputs i -> id <> i_weights i -> cells h id cs -> cells h' id cs).
    { intros. eapply only_cells; [exact U| |eassumption]. now apply upd_other. }
    constructor; cbn [b_nlit b_ncls b_clauses b_weights b_outputs b_counts b_votes b_budget b_s_inv b_s_min1_inv b_rng b_fast
      hs_ncl hs_ncls hs_wmem hs_nlit hs_lmem hs_clauses hs_outputs hs_votes hs_weights hs_counts hs_budget hs_s_inv hs_s_min1_inv hs_rng hs_fast hs_init]; auto; try congruence.
    + red. cbn [b_nlit b_ncls b_clauses b_weights b_outputs b_votes]. split; [exact G1|]. split; [congruence|]. split; [auto|]. split; [congruence|auto].
    + split; auto. apply K; auto.
    + intros B. destruct (ib_counts B) as (A & cs & C1 & C2 & C3). split; auto. exists cs.
      destruct (D7 B) as (D71 & D72 & D73 & D74).
      split; [apply K; auto|]. rewrite G2. auto.
Qed.

(** ** register_votes *)
Lemma add_votes_0 : forall votes v, add_votes 0 votes v = votes.
Proof. intros. unfold add_votes. destruct v; reflexivity. Qed.
Lemma add_votes_len : forall n votes v, (n <= length v)%nat -> (n <= length votes)%nat ->
  length (add_votes n votes v) = length votes.
Proof.
  induction n; intros votes v L1 L2; [now rewrite add_votes_0|].
  destruct votes; [cbn in L2; lia|]. destruct v; [cbn in L1; lia|].
  unfold add_votes in *. cbn [firstn skipn map2 app length] in *. rewrite IHn; lia.
Qed.
Lemma add_votes_long : forall n votes v, length v = n -> add_votes (length v) votes v = add_votes n votes v.
Proof. intros. now subst. Qed.

Lemma register_loop : forall vs vd votes iv h, holds h iv (vd ++ vs) -> (length (vd ++ vs) <= length votes)%nat ->
  mloop (length vs) (Z.of_nat (length vd))
    (fun i ws => x <- load_at (start iv) i ;;
                 match nth_error ws (Z.to_nat i) with
                 | Some y => ret (set_nth (Z.to_nat i) (wrap16 (y + x)) ws)
                 | None => undef
                 end) (add_votes (length vd) votes (vd ++ vs)) h =
  Some (add_votes (length (vd ++ vs)) votes (vd ++ vs), h).
Proof.
  induction vs as [|v vs IH]; intros vd votes iv h H L.
  - rewrite app_nil_r. reflexivity.
  - cbn [length mloop]. unfold bind at 1. unfold start at 1.
    erewrite bind_some by (eapply load_at_mid; [exact H|lia]).
    rewrite Nat2Z.id.
    assert (LA : length (add_votes (length vd) votes (vd ++ v :: vs)) = length votes)
      by (apply add_votes_len; rewrite app_length in *; cbn [length] in *; lia).
    rewrite (nth_error_nth' _ 0) by (rewrite LA; rewrite app_length in L; cbn [length] in L; lia).
    unfold ret at 1. cbv beta iota.
    replace (vd ++ v :: vs) with ((vd ++ [v]) ++ vs) in * by now rewrite <- app_assoc.
    specialize (IH (vd ++ [v]) votes iv h H L).
    rewrite <- IH. rewrite (app_length vd [v]). cbn [length].
    replace (Z.of_nat (length vd) + 1) with (Z.of_nat (length vd + 1)) by lia.
    f_equal. rewrite Nat.add_1_r. 
    replace v with (nth (length vd) ((vd ++ [v]) ++ vs) 0) at 2
      by (rewrite <- app_assoc; cbn [app]; rewrite app_nth2 by lia; now rewrite Nat.sub_diag).
    apply ProofsPoolExec.add_votes_S.
    + rewrite !app_length in L. cbn [length] in L. lia.
    + rewrite !app_length. cbn [length]. lia.
Qed.

Lemma register_ok : forall iv vs f h, holds h iv vs -> length vs = fb_ncls f -> (fb_ncls f <= length (fb_votes f))%nat ->
  h_register (start iv) f h = Some (fb_register vs f, h).
Proof.
  intros iv vs f h H L1 L2. unfold h_register.
  pose proof (register_loop vs [] (fb_votes f) iv h H) as R. cbn [app length] in R.
  rewrite add_votes_0, L1 in R. erewrite bind_some by (apply R; exact L2). reflexivity.
Qed.

(** ** memcpy *)
Lemma mcopy_loop : forall sm dd dm ss so doff id is h da db sa sb,
  id <> is ->
  cells h id (da ++ map Some dd ++ dm ++ db) -> cells h is (sa ++ map Some (ss ++ sm) ++ sb) ->
  length dm = length sm -> length dd = length ss ->
  doff = Z.of_nat (length da) -> so = Z.of_nat (length sa) ->
  exists h', mloop (length sm) (Z.of_nat (length dd))
      (fun k _ => v <- load_at (Some (mkAddr is so)) k ;; store_at (Some (mkAddr id doff)) k v) tt h = Some (tt, h') /\
    cells h' id (da ++ map Some (dd ++ sm) ++ db) /\ only [id] h h'.
Proof.
  induction sm as [|x sm IH]; intros dd dm ss so doff id is h da db sa sb N CD CS L1 L2 E1 E2.
  - destruct dm; [|discriminate]. exists h. split; [reflexivity|]. rewrite app_nil_r. split; [exact CD|apply only_refl].
  - destruct dm as [|y dm]; [discriminate|]. cbn [length mloop].
    assert (LD : load_at (Some (mkAddr is so)) (Z.of_nat (length dd)) h = Some (x, h)).
    { eapply load_at_ok; [exact CS|lia|].
      replace (Z.to_nat (so + Z.of_nat (length dd))) with (length (sa ++ map Some ss)) by (rewrite app_length, map_length; lia).
      rewrite map_app. cbn [map]. replace (sa ++ (map Some ss ++ Some x :: map Some sm) ++ sb)
        with ((sa ++ map Some ss) ++ Some x :: (map Some sm ++ sb)) by listeq. apply hnth_mid. }
    destruct (store_cell_mid h id (da ++ map Some dd) y (dm ++ db) doff (Z.of_nat (length dd)) x) as (h1 & E & C1 & U1).
    + replace ((da ++ map Some dd) ++ y :: dm ++ db) with (da ++ map Some dd ++ (y :: dm) ++ db) by listeq. exact CD.
    + rewrite app_length, map_length. lia.
    + destruct (IH (dd ++ [x]) dm (ss ++ [x]) so doff id is h1 da db sa sb) as (h' & E' & C' & U'); auto.
      * rewrite map_app. cbn [map].
        replace (da ++ (map Some dd ++ [Some x]) ++ dm ++ db) with ((da ++ map Some dd) ++ Some x :: dm ++ db) by listeq. exact C1.
      * eapply cells_one; [exact U1|auto|]. rewrite <- app_assoc. exact CS.
      * rewrite !app_length. cbn [length]. lia.
      * exists h'. split; [|split; [rewrite <- app_assoc in C'; exact C'|eapply only_trans; eauto]].
        unfold bind at 1. erewrite bind_some by exact LD. rewrite E.
        rewrite app_length in E'. cbn [length] in E'.
        replace (Z.of_nat (length dd) + 1) with (Z.of_nat (length dd + 1)) by lia. exact E'.
Qed.

Lemma mcopy_ok : forall sm dm id is h da db sa sb d so n,
  id <> is -> cells h id (da ++ dm ++ db) -> cells h is (sa ++ map Some sm ++ sb) ->
  length dm = length sm -> d = Z.of_nat (length da) -> so = Z.of_nat (length sa) -> n = Z.of_nat (length sm) ->
  exists h', mcopy (start id) d (start is) so n h = Some (tt, h') /\
    cells h' id (da ++ map Some sm ++ db) /\ only [id] h h'.
Proof.
  intros sm dm id is h da db sa sb d so n N CD CS L E1 E2 E3. unfold mcopy, start.
  erewrite bind_some by (eapply padd_ok; [exact CD|rewrite !app_length; lia]).
  erewrite bind_some by (eapply padd_ok; [exact CS|rewrite !app_length; lia]).
  rewrite E3, Nat2Z.id.
  eapply (mcopy_loop sm [] dm [] (0 + so) (0 + d) id is h da db sa sb); auto; lia.
Qed.
