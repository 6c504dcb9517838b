(** Allocation balance of the clause blocks. *)
From Coq Require Import ZArith List Bool Lia.
From Verif Require Import ModelLifecycle SpecLifecycle.
Import ListNotations.

Lemma slot_eqb_eq : forall a b, slot_eqb a b = true <-> a = b.
Proof. intros [] []; cbn; split; intros; congruence. Qed.
Lemma slot_eqb_refl : forall a, slot_eqb a a = true.
Proof. intros []; reflexivity. Qed.
Lemma slot_dec : forall a b : slot, {a = b} + {a <> b}.
Proof. decide equality. Qed.

(** The kind of memory behind a member. *)
Definition kind_of (b : backend) (s : slot) : mkind :=
  match b with
  | BScalar | BSparse | BConv => MNew
  | BAvx2 | BNeon | BConvAvx2 => match s with SCounts | SPatches | SPatchCounts => MNew | _ => MAligned end
  end.

Definition consistent (b : backend) (l : list (slot * mkind)) : Prop := Forall (fun sk => snd sk = kind_of b (fst sk)) l.

Lemma init_consistent : forall b p, consistent b (init_allocs b p).
Proof. intros [] [[] [] []]; repeat constructor. Qed.
Lemma frees_consistent : forall b p, consistent b (cleanup_frees b p).
Proof. intros [] [[] [] []]; repeat constructor. Qed.

Definition memb (s : slot) (l : list (slot * mkind)) : bool := existsb (fun sk => slot_eqb s (fst sk)) l.

Definition ok (b : backend) (st : lstate) : Prop :=
  NoDup (map fst (ls_live st)) /\ (forall i k, In (i, k) (ls_live st) -> i < ls_next st) /\
  (forall s i, ls_ptr st s = Some i -> In (i, kind_of b s) (ls_live st)) /\
  (forall s s' i, ls_ptr st s = Some i -> ls_ptr st s' = Some i -> s = s').

Lemma alloc_ok : forall b s st, ok b st -> ok b (alloc (s, kind_of b s) st).
Proof.
  intros b s st (H1 & H2 & H3 & H4). unfold alloc, ok. cbn [ls_live ls_next ls_ptr fst snd map].
  assert (P : forall s i, ls_ptr st s = Some i -> i < ls_next st) by (intros s0 i E; eapply H2; apply H3; exact E).
  split; [|split; [|split]].
  - constructor; auto. intros HI. apply in_map_iff in HI. destruct HI as ([i k] & E & HI). cbn in E. subst i.
    apply H2 in HI. lia.
  - intros i k [E|HI]; [inversion E; subst; lia|]. apply H2 in HI. lia.
  - intros s0 i. unfold set_ptr. destruct (slot_eqb s0 s) eqn:E.
    + apply slot_eqb_eq in E. subst s0. intros Q. inversion Q; subst. left. reflexivity.
    + intros Q. right. apply H3. auto.
  - intros s0 s1 i. unfold set_ptr. destruct (slot_eqb s0 s) eqn:E0; destruct (slot_eqb s1 s) eqn:E1; intros Q0 Q1.
    + apply slot_eqb_eq in E0. apply slot_eqb_eq in E1. congruence.
    + inversion Q0; subst. apply P in Q1. lia.
    + inversion Q1; subst. apply P in Q0. lia.
    + eapply H4; eauto.
Qed.

Lemma allocs_ok : forall b l st, consistent b l -> ok b st ->
  let st' := fold_left (fun st sk => alloc sk st) l st in
  ok b st' /\ length (ls_live st') = length (ls_live st) + length l /\
  (forall s, ls_ptr st' s <> None <-> memb s l = true \/ ls_ptr st s <> None).
Proof.
  intros b l. induction l as [|[s k] l IH]; intros st C H; cbv zeta; cbn [fold_left].
  - split; auto. split; [cbn; lia|]. intros s. cbn. intuition discriminate.
  - inversion C as [|? ? C1 C2]; subst. cbn in C1. subst k.
    destruct (IH (alloc (s, kind_of b s) st) C2 (alloc_ok b s st H)) as (A1 & A2 & A3).
    split; auto. split; [rewrite A2; cbn; lia|]. intros s0. rewrite A3. cbn [alloc ls_ptr fst memb existsb].
    unfold set_ptr. rewrite orb_true_iff. fold (memb s0 l).
    destruct (slot_eqb s0 s) eqn:E; intuition (try discriminate; auto).
Qed.

Lemma remove_live_in : forall i k l, NoDup (map fst l) -> In (i, k) l ->
  exists l', remove_live i k l = Some l' /\ S (length l') = length l /\ NoDup (map fst l') /\
    (forall j k', In (j, k') l' <-> In (j, k') l /\ j <> i).
Proof.
  intros i k l. induction l as [|[j k'] l IH]; intros ND HI; [destruct HI|]. cbn [map fst] in ND. inversion ND as [|? ? N1 N2]; subst.
  cbn [remove_live]. destruct HI as [E|HI].
  - inversion E; subst. rewrite Nat.eqb_refl. assert (K : mkind_eqb k k = true) by (destruct k; reflexivity). rewrite K.
    exists l. split; auto. split; [reflexivity|]. split; auto. intros j0 k0. split.
    + intros HJ. split; [right; auto|]. intros ->. apply N1. apply in_map_iff. exists (i, k0). auto.
    + intros [[E0|HJ] Hne]; auto. inversion E0; subst. congruence.
  - assert (Hne : i <> j) by (intros ->; apply N1; apply in_map_iff; exists (j, k); auto).
    apply Nat.eqb_neq in Hne as Hb. rewrite Hb. destruct (IH N2 HI) as (l' & A1 & A2 & A3 & A4). rewrite A1.
    exists ((j, k') :: l'). split; auto. split; [cbn; lia|]. split.
    + cbn [map fst]. constructor; auto. intros HJ. apply in_map_iff in HJ. destruct HJ as ([j0 k0] & E & HJ). cbn in E. subst j0.
      apply A4 in HJ. destruct HJ as [HJ _]. apply N1. apply in_map_iff. exists (j, k0). auto.
    + intros j0 k0. cbn [In]. rewrite A4. split.
      * intros [E|[HJ Hn]]; [inversion E; subst; split; auto|split; auto].
      * intros [[E|HJ] Hn]; auto.
Qed.

Lemma release_ok : forall b s st, ok b st ->
  exists st', release (s, kind_of b s) st = Some st' /\ ok b st' /\
    length (ls_live st) = length (ls_live st') + (if ls_ptr st s then 1 else 0) /\
    (forall x, ls_ptr st' x = if slot_eqb x s then None else ls_ptr st x).
Proof.
  intros b s st H. destruct H as (H1 & H2 & H3 & H4). unfold release. cbn [fst snd].
  destruct (ls_ptr st s) as [i|] eqn:E.
  - destruct (remove_live_in i (kind_of b s) (ls_live st) H1 (H3 _ _ E)) as (l' & A1 & A2 & A3 & A4). rewrite A1.
    eexists. split; [reflexivity|]. cbn [ls_live ls_ptr ls_next]. split; [|split].
    + unfold ok. cbn [ls_live ls_ptr ls_next]. split; auto. split; [|split].
      * intros j k HJ. apply A4 in HJ. destruct HJ as [HJ _]. eapply H2; eauto.
      * intros x j. unfold set_ptr. destruct (slot_eqb x s) eqn:Ex; [discriminate|]. intros Q. apply A4. split; [apply H3; auto|].
        intros ->. assert (x = s) by (eapply H4; eauto). subst x. rewrite slot_eqb_refl in Ex. discriminate.
      * intros x y j. unfold set_ptr. destruct (slot_eqb x s); destruct (slot_eqb y s); try discriminate. apply H4.
    + rewrite <- A2. lia.
    + intros x. reflexivity.
  - exists st. split; auto. split; [unfold ok; auto|]. split; [lia|]. intros x. destruct (slot_eqb x s) eqn:Ex; auto.
    apply slot_eqb_eq in Ex. subst x. auto.
Qed.

(** Number of members in [l] that are not null. *)
Definition held (st : lstate) (l : list (slot * mkind)) : nat :=
  length (filter (fun sk => match ls_ptr st (fst sk) with Some _ => true | None => false end) l).

Lemma releases_ok : forall b l st, consistent b l -> NoDup (map fst l) -> ok b st ->
  exists st', releases l st = Some st' /\ ok b st' /\ length (ls_live st) = length (ls_live st') + held st l /\
    (forall x, ls_ptr st' x = if memb x l then None else ls_ptr st x).
Proof.
  intros b l. induction l as [|[s k] l IH]; intros st C ND H; cbn [releases].
  - exists st. refine (conj eq_refl (conj H (conj _ _))); [cbn; lia|]. auto.
  - inversion C as [|? ? C1 C2]; subst. cbn in C1. subst k. cbn [map fst] in ND. inversion ND as [|? ? N1 N2]; subst.
    destruct (release_ok b s st H) as (st1 & A1 & A2 & A3 & A4). rewrite A1.
    destruct (IH st1 C2 N2 A2) as (st2 & B1 & B2 & B3 & B4). exists st2. split; auto. split; auto. split.
    + rewrite A3, B3. unfold held. cbn [filter fst].
      assert (G : filter (fun sk : slot * mkind => match ls_ptr st1 (fst sk) with Some _ => true | None => false end) l =
                  filter (fun sk : slot * mkind => match ls_ptr st (fst sk) with Some _ => true | None => false end) l).
      { apply filter_ext_in. intros [x k] Hx. cbn [fst]. rewrite A4. destruct (slot_eqb x s) eqn:E; auto.
        apply slot_eqb_eq in E. subst x. exfalso. apply N1. apply in_map_iff. exists (s, k). auto. }
      rewrite G. destruct (ls_ptr st s); cbn [length]; lia.
    + intros x. rewrite B4, A4. cbn [memb existsb fst]. fold (memb x l).
      destruct (slot_eqb x s); destruct (memb x l); reflexivity.
Qed.

Lemma frees_nodup : forall b p, NoDup (map fst (cleanup_frees b p)).
Proof.
  intros [] [[] [] []]; cbn; repeat (constructor; [cbn; intuition discriminate|]); constructor.
Qed.

(** ** Sequences of calls *)

(** Members held: everything initialize sets, or at most clause_outputs. *)
Definition holds (b : backend) (p : lparams) (up : bool) (st : lstate) : Prop :=
  forall s, s <> SOutputs -> (ls_ptr st s <> None <-> up = true /\ memb s (init_allocs b p) = true).

Lemma held_up : forall b p st, holds b p true st -> held st (cleanup_frees b p) = pred (length (init_allocs b p)).
Proof.
  intros b p st H. unfold held.
  assert (G : filter (fun sk : slot * mkind => match ls_ptr st (fst sk) with Some _ => true | None => false end) (cleanup_frees b p) =
              filter (fun sk : slot * mkind => memb (fst sk) (init_allocs b p)) (cleanup_frees b p)).
  { apply filter_ext_in. intros [s k] HI. cbn [fst].
    assert (Hs : s <> SOutputs).
    { clear - HI. destruct b, p as [[] [] []]; cbn in HI; intuition congruence. }
    specialize (H s Hs). destruct (ls_ptr st s) as [i|]; destruct (memb s (init_allocs b p)); auto.
    - destruct H as [H _]. destruct H; [discriminate|]. discriminate.
    - destruct H as [_ H]. exfalso. apply H; auto. }
  rewrite G. destruct b, p as [[] [] []]; reflexivity.
Qed.

Lemma held_down : forall b p st, holds b p false st -> held st (cleanup_frees b p) = 0.
Proof.
  intros b p st H. unfold held.
  assert (G : filter (fun sk : slot * mkind => match ls_ptr st (fst sk) with Some _ => true | None => false end) (cleanup_frees b p) = []).
  { assert (A : forall l, (forall sk, In sk l -> fst sk <> SOutputs) ->
      filter (fun sk : slot * mkind => match ls_ptr st (fst sk) with Some _ => true | None => false end) l = []).
    { induction l as [|[s k] l IH]; intros HA; cbn [filter fst]; auto.
      assert (Hs : s <> SOutputs) by (apply (HA (s, k)); left; reflexivity).
      specialize (H s Hs). destruct (ls_ptr st s) as [i|].
      - destruct H as [H _]. destruct H; discriminate.
      - apply IH. intros sk HI. apply HA. right. auto. }
    apply A. intros [s k] HI. cbn [fst]. clear - HI. destruct b, p as [[] [] []]; cbn in HI; intuition congruence. }
  rewrite G. reflexivity.
Qed.

Fixpoint up_after (up : bool) (cs : list call) : bool :=
  match cs with
  | [] => up
  | CInit false :: cs' => up_after true cs'
  | CInit true :: cs' => up_after up cs'
  | CCleanup :: cs' => up_after false cs'
  end.

Lemma with_init_ok : forall b v st, ok b st -> ok b (with_init v st).
Proof. intros b v st H. exact H. Qed.

Lemma calls_ok : forall b p cs st up, ok b st -> holds b p up st ->
  exists st', do_calls b p cs st = Some st' /\ ok b st' /\ holds b p (up_after up cs) st' /\
    length (ls_live st') + pred (length (init_allocs b p)) * cleanups up cs =
    length (ls_live st) + length (init_allocs b p) * inits cs.
Proof.
  intros b p cs. induction cs as [|c cs IH]; intros st up H HH; cbn [do_calls].
  - exists st. cbn. split; auto. split; auto. split; auto. lia.
  - destruct c as [[]|]; cbn [do_call].
    + destruct (IH (with_init false st) up H HH) as (st' & A1 & A2 & A3 & A4). exists st'. auto.
    + destruct (allocs_ok b (init_allocs b p) st (init_consistent b p) H) as (A1 & A2 & A3). cbv zeta in A1, A2, A3.
      remember (fold_left (fun st sk => alloc sk st) (init_allocs b p) st) as st1 eqn:E1.
      assert (HH1 : holds b p true (with_init (init_result b p) st1)).
      { intros s Hs. cbn [with_init ls_ptr]. rewrite A3. specialize (HH s Hs). rewrite HH. split.
        - intros [M|[_ M]]; auto.
        - intros [_ M]; auto. }
      destruct (IH _ true (with_init_ok b (init_result b p) st1 A1) HH1) as (st' & B1 & B2 & B3 & B4).
      exists st'. cbn [up_after inits cleanups]. split; auto. split; auto. split; auto.
      cbn [with_init ls_live] in B4. rewrite A2 in B4. lia.
    + destruct (releases_ok b (cleanup_frees b p) st (frees_consistent b p) (frees_nodup b p) H) as (st1 & A1 & A2 & A3 & A4).
      rewrite A1.
      assert (HH1 : holds b p false (with_init false st1)).
      { intros s Hs. cbn [with_init ls_ptr]. rewrite A4. specialize (HH s Hs).
        destruct (memb s (cleanup_frees b p)) eqn:M.
        - split; [congruence|]. intros [Q _]. discriminate.
        - rewrite HH. split; [|intros [Q _]; discriminate]. intros [_ M2]. exfalso.
          clear - M M2 Hs. destruct b, p as [[] [] []]; destruct s; cbn in M, M2; congruence. }
      destruct (IH _ false (with_init_ok b false st1 A2) HH1) as (st' & B1 & B2 & B3 & B4).
      exists st'. cbn [up_after inits cleanups]. split; auto. split; auto. split; auto.
      cbn [with_init ls_live] in B4.
      assert (HD : held st (cleanup_frees b p) = if up then pred (length (init_allocs b p)) else 0).
      { destruct up; [apply held_up|apply held_down]; auto. }
      rewrite HD in A3. destruct up; nia.
Qed.

Lemma new_object_ok : forall b live next, NoDup (map fst live) -> (forall i k, In (i, k) live -> i < next) ->
  ok b (new_object live next) /\ (forall p, holds b p false (new_object live next)).
Proof.
  intros b live next H1 H2. split.
  - split; auto. split; auto. split; cbn; discriminate.
  - intros p s Hs. cbn. split; [congruence|]. intros [Q _]. discriminate.
Qed.

Lemma cycles_counts : forall k, inits (cycles k) = k /\ (forall up, cleanups up (cycles k) = k).
Proof.
  induction k as [|k [IH1 IH2]]; [auto|]. cbn [cycles inits cleanups]. split; [congruence|]. intros _. rewrite IH2. reflexivity.
Qed.

(** ** Sizes *)

Lemma safe_size_spec : forall align mem, (0 < align)%Z -> (0 <= mem)%Z ->
  (mem <= safe_size align mem /\ safe_size align mem mod align = 0 /\ 0 < safe_size align mem /\
   safe_size align mem < mem + align \/ (mem = 0 /\ safe_size align mem = align))%Z.
Proof.
  intros align mem Ha Hm. unfold safe_size. destruct (Z.ltb_spec mem align) as [L|L].
  - destruct (Z.eq_dec mem 0) as [->|]; [right; auto|left].
    rewrite Z_mod_same_full. lia.
  - left. pose proof (Z.mod_pos_bound mem align Ha) as B. destruct (Z.ltb_spec 0 (mem mod align)) as [M|M].
    + assert (E : (mem + (align - mem mod align) = (mem / align + 1) * align)%Z).
      { pose proof (Z.div_mod mem align ltac:(lia)). nia. }
      split; [lia|]. split; [rewrite E; apply Z_mod_mult|]. lia.
    + assert (mem mod align = 0)%Z by lia. lia.
Qed.
