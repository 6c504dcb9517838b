(** A whole training session on the heap. *)
From Coq Require Import ZArith List Bool QArith Lia ZifyBool.
From Verif Require Import Base ModelHeap ModelDense ModelFeedback ModelExecutor ModelDenseExec ModelTMHeap ModelHeapRun SpecHeap ProofsHeap
  ProofsTMHeap ProofsTMHeapB ProofsTMHeapC ProofsTMHeapD ProofsTMHeapE ProofsTMHeapF ProofsTMHeapG.
Import ListNotations.
Open Scope Z_scope.

Definition nlive (ks : list (option kind)) : nat :=
  length (filter (fun k => match k with Some _ => true | None => false end) ks).
Lemma nlive_app : forall a b, nlive (a ++ b) = (nlive a + nlive b)%nat.
Proof. intros. unfold nlive. now rewrite filter_app, app_length. Qed.
Lemma nlive_set : forall ks id k, nth_error ks id = Some (Some k) -> S (nlive (set_nth id None ks)) = nlive ks.
Proof.
  unfold nlive. induction ks as [|x ks IH]; intros id k E; [destruct id; discriminate|].
  destruct id; cbn [nth_error set_nth filter] in *.
  - inversion E; subst. reflexivity.
  - destruct x; cbn [length]; erewrite <- IH by eauto; reflexivity.
Qed.
Lemma nlive_fresh : forall bo, nlive (fresh_kinds bo) = per bo.
Proof. destruct bo; reflexivity. Qed.

Lemma fresh_owned : forall bo n id, In id (owned bo (fresh_ids n)) -> (n <= id < n + per bo)%nat.
Proof. intros bo n id I. unfold owned, fresh_ids in I. destruct bo; cbn in I; cbn [per]; lia. Qed.
Lemma fresh_nodup1 : forall bo n, NoDup (owned bo (fresh_ids n)).
Proof.
  intros. unfold owned. cbn [fresh_ids i_clauses i_outputs i_votes i_weights i_counts].
  destruct bo; repeat (apply NoDup_cons; [cbn [In]; lia|]); apply NoDup_nil.
Qed.
Lemma fresh_list_in : forall bo k n id, In id (concat (map (owned bo) (fresh_list bo n k))) -> (n <= id < n + k * per bo)%nat.
Proof.
  intros bo. induction k; intros n id I; cbn [fresh_list map concat] in I; [contradiction|].
  apply in_app_or in I. destruct I as [I|I]; [apply fresh_owned in I; lia|apply IHk in I; lia].
Qed.
Lemma nodup_app_intro : forall A (a b : list A), NoDup a -> NoDup b -> (forall x, In x a -> ~ In x b) -> NoDup (a ++ b).
Proof.
  induction a as [|x a IH]; intros b NA NB D; cbn [app]; [exact NB|].
  inversion NA; subst. constructor.
  - intros I. apply in_app_or in I. destruct I as [I|I]; [contradiction|]. exact (D x (or_introl eq_refl) I).
  - apply IH; auto. intros y I. apply D. now right.
Qed.
Lemma fresh_nodup : forall bo k n, NoDup (concat (map (owned bo) (fresh_list bo n k))).
Proof.
  intros bo. induction k; intros n; cbn [fresh_list map concat]; [constructor|].
  apply nodup_app_intro; [apply fresh_nodup1|apply IHk|].
  intros x I J. apply fresh_owned in I. apply fresh_list_in in J. lia.
Qed.

Lemma is_block_ext : forall bo ct i h h' s b, is_block bo ct i h s b ->
  (forall id, In id (owned bo i) -> nth_error h' id = nth_error h id) -> is_block bo ct i h' s b.
Proof.
  intros bo ct i h h' s b H N.
  assert (K : forall id cs, In id (owned bo i) -> cells h id cs -> cells h' id cs).
  { intros id cs I [k C]. exists k. now rewrite N. }
  assert (O1 : In (i_clauses i) (owned bo i)) by (unfold owned; cbn [In]; auto).
  assert (O2 : In (i_outputs i) (owned bo i)) by (unfold owned; cbn [In]; auto).
  assert (O3 : In (i_votes i) (owned bo i)) by (unfold owned; cbn [In]; auto).
  assert (O4 : In (i_weights i) (owned bo i)) by (unfold owned; cbn [In]; auto 6).
  destruct H. constructor; auto.
  - destruct ib_clauses. split; auto. now apply K.
  - destruct ib_outputs. split; auto. now apply K.
  - destruct ib_votes. split; auto. now apply K.
  - destruct ib_weights. split; auto. now apply K.
  - intros B. destruct (ib_counts B) as (P & cs & C & L & X). split; auto. exists cs. split; [|split; auto].
    apply K; auto. unfold owned. rewrite B. cbn [In]. auto 8.
Qed.

Lemma init_blocks_ok : forall bo std_of fast_of junk nlit ncls hb seed h,
  Forall (fun ts => sized nlit ncls (snd ts)) hb -> 0 < seed ->
  exists hb' mb h', h_init_blocks bo std_of fast_of seed hb h = Some (hb', h') /\
    built std_of fast_of junk nlit ncls seed hb mb /\
    each_block bo false h' (fresh_list bo (length h) (length hb)) hb' mb /\
    dims nlit ncls mb /\
    (forall id, (id < length h)%nat -> nth_error h' id = nth_error h id) /\
    (exists ks, kinds h' = kinds h ++ ks /\ nlive ks = (length hb * per bo)%nat /\ length ks = (length hb * per bo)%nat /\
       Forall (eq (Some KNew)) ks).
Proof.
  intros bo std_of fast_of junk nlit ncls. induction hb as [|[t s] hb IH]; intros seed h F SD.
  - exists [], [], h. split; [reflexivity|]. split; [exact I|]. split; [exact I|]. split; [constructor|]. split; [auto|].
    exists []. rewrite app_nil_r. split; [auto|]. split; [auto|]. split; [auto|constructor].
  - inversion F as [|? ? (S1 & S2 & S3 & S4) F']; subst. cbn [snd] in *.
    destruct (initialize_ok bo std_of fast_of nlit (Z.to_nat (hs_ncl s)) ncls (hs_budget s) (hs_s_inv s) (hs_s_min1_inv s) seed junk s h)
      as (b & s1 & h1 & I1 & E1 & B1 & _ & _ & _ & _ & K1 & Q1); auto; try lia.
    assert (L1 : length h1 = (length h + per bo)%nat).
    { apply (f_equal (@length _)) in Q1. unfold kinds in Q1. rewrite app_length, !map_length in Q1. rewrite Q1. destruct bo; reflexivity. }
    destruct (IH (seed + 1) h1 F' ltac:(lia)) as (hb' & mb & h2 & E2 & BU & EB & D & K2 & ks & Q2 & N2 & N3 & N4).
    exists ((t, s1) :: hb'), ((t, b) :: mb), h2. cbn [h_init_blocks length fresh_list].
    erewrite bind_some by exact E1. cbn [snd]. erewrite bind_some by exact E2. split; [reflexivity|].
    split; [cbn [built]; auto|]. split.
    { cbn [each_block]. split; [reflexivity|]. split.
      - eapply is_block_ext; [exact B1|]. intros id I. apply fresh_owned in I. apply K2. lia.
      - rewrite L1 in EB. exact EB. }
    split.
    { constructor; auto. cbn [snd]. unfold initialize in I1. destruct (seed =? 0); [discriminate|].
      destruct (init_clauses _ _ _). destruct (init_weights _ _ _). injection I1 as <-. auto. }
    split.
    { intros id L. rewrite K2 by lia. now apply K1. }
    exists (fresh_kinds bo ++ ks). rewrite Q2, Q1, <- app_assoc. split; [reflexivity|].
    rewrite nlive_app, nlive_fresh, N2, app_length, N3. split; [lia|]. split; [destruct bo; cbn [fresh_kinds app length per]; lia|].
    apply Forall_app. split; [|exact N4]. destruct bo; repeat constructor.
Qed.

(** The pointers cleanup releases. *)
Definition own_ptrs (bo : bool) (i : ids) (s : hstate) : Prop :=
  hs_clauses s = start (i_clauses i) /\ hs_votes s = start (i_votes i) /\ hs_weights s = start (i_weights i) /\
  (bo = true -> hs_counts s = start (i_counts i)).
Fixpoint all_ptrs (bo : bool) (is : list ids) (hb : list (bool * hstate)) : Prop :=
  match is, hb with
  | [], [] => True
  | i :: is', (t, s) :: hb' => own_ptrs bo i s /\ all_ptrs bo is' hb'
  | _, _ => False
  end.
Lemma each_ptrs : forall bo ct h is hb mb, each_block bo ct h is hb mb -> all_ptrs bo is hb.
Proof.
  intros bo ct h. induction is as [|i is IH]; intros [|[t s] hb] [|[t' b] mb] E; cbn [each_block all_ptrs] in *; auto; try contradiction.
  destruct E as (_ & H & E). split; [|eapply IH; eauto]. destruct H. unfold own_ptrs.
  split; [apply ib_clauses|]. split; [apply ib_votes|]. split; [apply ib_weights|]. intros B. apply (ib_counts B).
Qed.

Lemma cleanup_blocks_ok : forall bo is hb h,
  NoDup (concat (map (owned bo) is)) -> all_ptrs bo is hb ->
  (forall id, In id (concat (map (owned bo) is)) -> kind_at h id = Some (Some KNew)) ->
  exists hb' h', h_cleanup_blocks bo hb h = Some (hb', h') /\
    (nlive (kinds h') + length hb * (per bo - 1) = nlive (kinds h))%nat /\
    Forall (fun ts => released bo (snd ts)) hb' /\ length hb' = length hb /\
    (forall id, ~ In id (concat (map (owned bo) is)) -> nth_error h' id = nth_error h id).
Proof.
  intros bo. induction is as [|i is IH]; intros [|[t s] hb] h N P K; cbn [all_ptrs] in P; try contradiction.
  - exists [], h. split; [reflexivity|]. split; [cbn [length]; lia|]. split; [constructor|]. split; auto.
  - destruct P as ((P1 & P2 & P3 & P4) & P). cbn [map concat] in *.
    apply nodup_app in N. destruct N as (N1 & N2 & N3).
    assert (KO : forall id, In id (owned bo i) -> kind_at h id = Some (Some KNew)) by (intros; apply K, in_or_app; auto).
    assert (O1 : In (i_clauses i) (owned bo i)) by (unfold owned; cbn [In]; auto).
    assert (O3 : In (i_votes i) (owned bo i)) by (unfold owned; cbn [In]; auto).
    assert (O4 : In (i_weights i) (owned bo i)) by (unfold owned; cbn [In]; auto 6).
    assert (O5 : bo = true -> In (i_counts i) (owned bo i)) by (intros ->; unfold owned; cbn [In]; auto 8).
    destruct (cleanup_ok bo i s h N1 P1 P2 P3 P4) as (s1 & h1 & E1 & Q1 & A1 & A2 & A3 & A4 & A5 & A6 & A7 & A8 & A9 & FR & LN); auto.
    destruct (IH hb h1 N2 P) as (hb' & h2 & E2 & Q2 & R2 & L2 & F2).
    { intros id I. unfold kind_at, kinds. rewrite nth_error_map.
      rewrite FR by (intros J; exact (N3 _ J I)). rewrite <- nth_error_map. apply K, in_or_app; auto. }
    exists ((t, s1) :: hb'), h2. cbn [h_cleanup_blocks]. erewrite bind_some by exact E1. erewrite bind_some by exact E2.
    split; [reflexivity|].
    assert (QL : (nlive (kinds h1) + (per bo - 1) = nlive (kinds h))%nat).
    { destruct (nodup4 _ _ N1) as (D1 & D2 & D3 & D4 & D5 & D6 & D7).
      pose proof (nlive_set (kinds h) (i_clauses i) KNew (KO _ O1)) as S1.
      pose proof (nlive_set (set_nth (i_clauses i) None (kinds h)) (i_votes i) KNew) as S2.
      rewrite hnth_set_other in S2 by auto. specialize (S2 (KO _ O3)).
      pose proof (nlive_set (set_nth (i_votes i) None (set_nth (i_clauses i) None (kinds h))) (i_weights i) KNew) as S3.
      rewrite !hnth_set_other in S3 by auto. specialize (S3 (KO _ O4)).
      rewrite Q1. cbv zeta. destruct bo; cbn [per]; [|lia].
      destruct (D7 eq_refl) as (D71 & D72 & D73 & D74).
      pose proof (nlive_set (set_nth (i_weights i) None (set_nth (i_votes i) None (set_nth (i_clauses i) None (kinds h)))) (i_counts i) KNew) as S4.
      rewrite !hnth_set_other in S4 by auto. specialize (S4 (KO _ (O5 eq_refl))). lia. }
    split; [cbn [length]; lia|]. split.
    { constructor; auto. cbn [snd]. unfold released. split; [auto|]. split; [auto|]. split; [auto|]. split; [intros ->; auto|auto]. }
    split; [cbn [length]; lia|].
    intros id NI. rewrite F2, FR; auto; intros X; apply NI, in_or_app; auto.
Qed.

Lemma kinds_prefix : forall h h' id, kinds h' = kinds h -> kind_at h' id = kind_at h id.
Proof. intros h h' id E. unfold kind_at. now rewrite E. Qed.

Lemma is_data_ext : forall idata ilab icur nlit h h' inp data, is_data h idata ilab icur inp nlit data ->
  (forall id, (id < length h)%nat -> nth_error h' id = nth_error h id) -> is_data h' idata ilab icur inp nlit data.
Proof.
  intros idata ilab icur nlit h h' inp data D K.
  assert (KC : forall id cs, cells h id cs -> cells h' id cs).
  { intros id cs C. pose proof (cells_lt _ _ _ C). destruct C as [k C]. exists k. now rewrite K. }
  destruct D. constructor; auto.
  - destruct id_data. split; auto. now apply KC.
  - destruct id_labels. split; auto. now apply KC.
  - destruct id_cur as (A & cs & C & L). split; auto. exists cs. split; auto.
Qed.

Lemma session_ok : forall fl std_of fast_of junk nlit ncls icur idata ilab inp f hb seed data idx h,
  Forall (fun ts => sized nlit ncls (snd ts)) hb -> 0 < seed ->
  icur <> idata -> icur <> ilab ->
  is_data h idata ilab icur inp nlit data -> fb_inv ncls f ->
  (forall d, In d data -> (snd d < ncls)%nat) -> (forall k, In k idx -> (k < length data)%nat) ->
  exists x bs mb h1 h', h_session fl std_of fast_of seed idx inp hb f h = Some ((x, bs), h') /\
    built std_of fast_of junk nlit ncls seed hb mb /\
    (let r := train_list block (list Z) (dense_train_ex (fl_budget fl)) (dense_upd (fl_budget fl) (fl_boost fl))
                nat fb_process (select (list Z) nat data idx) mb f in
     are_blocks (fl_budget fl) (match idx with [] => false | _ => true end)
       (fresh_list (fl_budget fl) (length h) (length hb)) h1 (hx_blocks x) (fst r) /\ hx_fb x = snd r) /\
    Forall (fun ts => released (fl_budget fl) (snd ts)) bs /\ length bs = length hb /\
    live h' = (live h + length hb)%nat /\
    (forall id, (id < length h)%nat -> id <> icur -> nth_error h' id = nth_error h id).
Proof.
  intros fl std_of fast_of junk nlit ncls icur idata ilab inp f hb seed data idx h F SD N1 N2 ID FI LAB IX.
  destruct (init_blocks_ok (fl_budget fl) std_of fast_of junk nlit ncls hb seed h F SD)
    as (hb1 & mb & h1 & E1 & BU & EB & D & K1 & ks & Q1 & QN & QL & QF).
  assert (LT : forall id cs, cells h id cs -> ~ In id (concat (map (owned (fl_budget fl)) (fresh_list (fl_budget fl) (length h) (length hb))))).
  { intros id cs C I. apply cells_lt in C. apply fresh_list_in in I. lia. }
  assert (X1 : ~ In icur (concat (map (owned (fl_budget fl)) (fresh_list (fl_budget fl) (length h) (length hb))))).
  { destruct (id_cur _ _ _ _ _ _ _ ID) as (_ & cs & C & _). eapply LT; eauto. }
  assert (X2 : ~ In idata (concat (map (owned (fl_budget fl)) (fresh_list (fl_budget fl) (length h) (length hb))))).
  { destruct (id_data _ _ _ _ _ _ _ ID) as (_ & C). eapply LT; eauto. }
  assert (X3 : ~ In ilab (concat (map (owned (fl_budget fl)) (fresh_list (fl_budget fl) (length h) (length hb))))).
  { destruct (id_labels _ _ _ _ _ _ _ ID) as (_ & C). eapply LT; eauto. }
  pose proof (fresh_nodup (fl_budget fl) (length hb) (length h)) as ND.
  destruct (train_list_ok fl nlit ncls icur idata ilab N1 N2 _ ND X1 X2 X3 data LAB idx false h1 inp hb1 f mb IX EB
             (is_data_ext _ _ _ _ _ _ _ _ ID K1) D FI) as (x & h2 & E2 & EB2 & EF & ID2 & D2 & FI2 & U2).
  pose proof (keeps_train_list _ _ _ _ _ _ E2) as K2.
  destruct (cleanup_blocks_ok (fl_budget fl) _ (hx_blocks x) h2 ND (each_ptrs _ _ _ _ _ _ EB2)) as (bs & h3 & E3 & Q3 & R3 & L3 & F3).
  { intros id I. rewrite (kinds_prefix _ _ _ K2). unfold kind_at. rewrite Q1. apply fresh_list_in in I.
    assert (LK : length (kinds h) = length h) by apply map_length.
    rewrite nth_error_app2 by lia.
    destruct (nth_error ks (id - length (kinds h))) as [k|] eqn:EK; [|apply nth_error_None in EK; lia].
    apply nth_error_In in EK. rewrite Forall_forall in QF. now rewrite (QF _ EK). }
  assert (LB : length (hx_blocks x) = length hb).
  { assert (G : forall bo ct h is hb mb, each_block bo ct h is hb mb -> length hb = length is).
    { clear. intros bo ct h. induction is as [|i is IH]; intros [|[t s] hb] [|[t' b] mb] E; cbn [each_block] in E; try contradiction; auto.
      cbn [length]. f_equal. eapply IH. apply E. }
    rewrite (G _ _ _ _ _ _ EB2). clear. generalize (length h). induction (length hb); intros; cbn [fresh_list length]; auto. }
  exists x, bs, mb, h2, h3. unfold h_session. erewrite bind_some by exact E1. erewrite bind_some by exact E2.
  erewrite bind_some by exact E3. split; [reflexivity|]. split; [exact BU|]. split; [cbv zeta; split; [split; [exact ND|exact EB2]|exact EF]|].
  split; [exact R3|]. split; [congruence|]. split.
  - rewrite !live_kinds. fold (nlive (kinds h3)). fold (nlive (kinds h)). rewrite K2, Q1, nlive_app, QN, LB in Q3.
    destruct (fl_budget fl); cbn [per] in Q3; lia.
  - intros id L NC. rewrite F3 by (intros I; apply fresh_list_in in I; lia).
    destruct U2 as [_ U2]. rewrite U2; [now apply K1|]. intros [I|I]; [congruence|]. apply fresh_list_in in I. lia.
Qed.
