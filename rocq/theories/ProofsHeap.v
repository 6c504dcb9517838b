(** Basic facts about the heap. *)
From Coq Require Import ZArith List Bool QArith Lia ZifyBool.
From Verif Require Import Base ModelHeap ModelDense ModelFeedback ModelTMHeap SpecHeap.
Import ListNotations.
Open Scope Z_scope.

Lemma hset_length : forall A i (v : A) l, length (set_nth i v l) = length l.
Proof. induction i; destruct l; simpl; auto. Qed.
Lemma hset_mid : forall A (a : list A) x y b, set_nth (length a) y (a ++ x :: b) = a ++ y :: b.
Proof. induction a; simpl; intros; auto. now rewrite IHa. Qed.
Lemma hnth_mid : forall A (a : list A) x b, nth_error (a ++ x :: b) (length a) = Some x.
Proof. induction a; simpl; auto. Qed.
Lemma hnth_set_same : forall A i (v : A) l, (i < length l)%nat -> nth_error (set_nth i v l) i = Some v.
Proof. induction i; destruct l; simpl; intros; auto; try lia. apply IHi. lia. Qed.
Lemma hnth_set_other : forall A i j (v : A) l, i <> j -> nth_error (set_nth i v l) j = nth_error l j.
Proof. induction i; destruct l, j; simpl; intros; auto; try congruence. Qed.
Lemma hset_map : forall A B (f : A -> B) i v l, set_nth i (f v) (map f l) = map f (set_nth i v l).
Proof. induction i; destruct l; simpl; auto. now rewrite IHi. Qed.

Lemma bind_some : forall A B (m : M A) (f : A -> M B) h a h',
  m h = Some (a, h') -> bind m f h = f a h'.
Proof. unfold bind. intros. now rewrite H. Qed.
Lemma bind_ret : forall A B (a : A) (f : A -> M B) h, bind (ret a) f h = f a h.
Proof. reflexivity. Qed.

(** ** only *)
Lemma only_refl : forall l h, only l h h.
Proof. split; auto. Qed.
Lemma only_trans : forall l h1 h2 h3, only l h1 h2 -> only l h2 h3 -> only l h1 h3.
Proof. intros l h1 h2 h3 [A1 A2] [B1 B2]. split; [lia|]. intros. rewrite B2, A2; auto. Qed.
Lemma only_incl : forall l l' h h', only l h h' -> incl l l' -> only l' h h'.
Proof. intros l l' h h' [A B] I. split; auto. Qed.
Lemma only_cells : forall l h h' id cs, only l h h' -> ~ In id l -> cells h id cs -> cells h' id cs.
Proof. intros l h h' id cs [_ B] N [k K]. exists k. rewrite B; auto. Qed.

(** ** accesses *)
Lemma cells_lt : forall h id cs, cells h id cs -> (id < length h)%nat.
Proof. intros h id cs [k K]. apply nth_error_Some. congruence. Qed.
Lemma cells_fun : forall h id a b, cells h id a -> cells h id b -> a = b.
Proof. intros h id a b [k K] [k' K']. congruence. Qed.

Lemma padd_ok : forall h id cs off d, cells h id cs -> 0 <= off + d <= Z.of_nat (length cs) ->
  padd (Some (mkAddr id off)) d h = Some (Some (mkAddr id (off + d)), h).
Proof.
  intros h id cs off d [k K] B. unfold padd. cbn [ad_id ad_off]. rewrite K. cbn [ch_cells].
  destruct ((0 <=? off + d) && (off + d <=? Z.of_nat (length cs))) eqn:E; auto. lia.
Qed.

Lemma load_ok : forall h id cs off v, cells h id cs -> 0 <= off ->
  nth_error cs (Z.to_nat off) = Some (Some v) ->
  load (Some (mkAddr id off)) h = Some (v, h).
Proof.
  intros h id cs off v [k K] B N. unfold load. cbn [ad_id ad_off]. rewrite K. cbn [ch_cells].
  destruct (off <? 0) eqn:E; [lia|]. now rewrite N.
Qed.

Lemma store_ok : forall h id cs off v, cells h id cs -> 0 <= off < Z.of_nat (length cs) ->
  exists h', store (Some (mkAddr id off)) v h = Some (tt, h') /\
    cells h' id (set_nth (Z.to_nat off) (Some v) cs) /\ only [id] h h'.
Proof.
  intros h id cs off v C B. pose proof (cells_lt _ _ _ C) as L. destruct C as [k K].
  unfold store. cbn [ad_id ad_off]. rewrite K. cbn [ch_cells ch_kind].
  destruct ((0 <=? off) && (off <? Z.of_nat (length cs))) eqn:E; [|lia].
  eexists. split; [reflexivity|]. split.
  - exists k. now rewrite hnth_set_same.
  - split; [apply hset_length|]. intros i I. apply hnth_set_other. intro. subst. apply I. now left.
Qed.

Lemma load_at_ok : forall h id cs off i v, cells h id cs -> 0 <= off + i ->
  nth_error cs (Z.to_nat (off + i)) = Some (Some v) ->
  load_at (Some (mkAddr id off)) i h = Some (v, h).
Proof.
  intros h id cs off i v C B N. unfold load_at.
  assert (Z.to_nat (off + i) < length cs)%nat by (apply nth_error_Some; congruence).
  erewrite bind_some by (eapply padd_ok; [eassumption|lia]).
  eapply load_ok; eauto.
Qed.

Lemma store_at_ok : forall h id cs off i v, cells h id cs -> 0 <= off + i < Z.of_nat (length cs) ->
  exists h', store_at (Some (mkAddr id off)) i v h = Some (tt, h') /\
    cells h' id (set_nth (Z.to_nat (off + i)) (Some v) cs) /\ only [id] h h'.
Proof.
  intros h id cs off i v C B. unfold store_at.
  erewrite bind_some by (eapply padd_ok; [eassumption|lia]).
  now apply store_ok.
Qed.

(** Accesses in the middle of a fully written array. *)
Lemma load_mid : forall h id a x b off, holds h id (a ++ x :: b) -> off = Z.of_nat (length a) ->
  load (Some (mkAddr id off)) h = Some (x, h).
Proof.
  intros. subst. eapply load_ok; [eassumption|lia|].
  rewrite Nat2Z.id, map_app. cbn [map]. rewrite <- (map_length Some a). apply hnth_mid.
Qed.
Lemma load_at_mid : forall h id a x b off i, holds h id (a ++ x :: b) -> off + i = Z.of_nat (length a) ->
  load_at (Some (mkAddr id off)) i h = Some (x, h).
Proof.
  intros. eapply load_at_ok; [eassumption|lia|].
  rewrite H0, Nat2Z.id, map_app. cbn [map]. rewrite <- (map_length Some a). apply hnth_mid.
Qed.
Lemma store_mid : forall h id a x b off v, holds h id (a ++ x :: b) -> off = Z.of_nat (length a) ->
  exists h', store (Some (mkAddr id off)) v h = Some (tt, h') /\ holds h' id (a ++ v :: b) /\ only [id] h h'.
Proof.
  intros. subst. destruct (store_ok h id _ (Z.of_nat (length a)) v H) as (h' & S & C & U).
  - rewrite map_length, app_length. cbn [length]. lia.
  - exists h'. split; auto. split; auto. unfold holds. rewrite Nat2Z.id, hset_map, hset_mid in C. exact C.
Qed.
Lemma store_at_mid : forall h id a x b off i v, holds h id (a ++ x :: b) -> off + i = Z.of_nat (length a) ->
  exists h', store_at (Some (mkAddr id off)) i v h = Some (tt, h') /\ holds h' id (a ++ v :: b) /\ only [id] h h'.
Proof.
  intros. unfold store_at.
  erewrite bind_some by (eapply padd_ok; [exact H|rewrite map_length, app_length; cbn [length]; lia]).
  eapply store_mid; eauto.
Qed.

(** ** int arithmetic *)
Lemma chk_ok : forall z h, 0 <= z <= int_max -> chk z h = Some (z, h).
Proof. unfold chk, int_max. intros. destruct ((-2147483648 <=? z) && (z <=? 2147483647)) eqn:E; auto. lia. Qed.
Lemma imul_ok : forall a b h, 0 <= a * b <= int_max -> imul a b h = Some (a * b, h).
Proof. intros. now apply chk_ok. Qed.
Lemma iadd_ok : forall a b h, 0 <= a + b <= int_max -> iadd a b h = Some (a + b, h).
Proof. intros. now apply chk_ok. Qed.

(** ** loops *)
Lemma mloop_inv : forall A (I : Z -> A -> heap -> Prop) (body : Z -> A -> M A) n k a h,
  (forall j a h, k <= j < k + Z.of_nat n -> I j a h ->
     exists a' h', body j a h = Some (a', h') /\ I (j + 1) a' h') ->
  I k a h ->
  exists a' h', mloop n k body a h = Some (a', h') /\ I (k + Z.of_nat n) a' h'.
Proof.
  intros A I body n. induction n; intros k a h B H.
  - exists a, h. split; [reflexivity|]. now rewrite Z.add_0_r.
  - destruct (B k a h) as (a1 & h1 & E & I1); [lia|auto|].
    destruct (IHn (k + 1) a1 h1) as (a2 & h2 & E2 & I2).
    + intros j b g J. apply B. lia.
    + auto.
    + exists a2, h2. split.
      * cbn [mloop]. erewrite bind_some by exact E. exact E2.
      * replace (k + Z.of_nat (S n)) with (k + 1 + Z.of_nat n) by lia. exact I2.
Qed.

Lemma skipn_step : forall A m (l : list A) x t, skipn m l = x :: t -> skipn (S m) l = t.
Proof. induction m; destruct l; simpl; intros; try discriminate; [now inversion H|]. apply IHm in H. exact H. Qed.

(** memset *)
Lemma mset_ok : forall h id cs n v, cells h id cs -> (n <= length cs)%nat ->
  exists h', mset (start id) v (Z.of_nat n) h = Some (tt, h') /\
    cells h' id (repeat (Some v) n ++ skipn n cs) /\ only [id] h h'.
Proof.
  intros h id cs n v C L. unfold mset. rewrite Nat2Z.id.
  destruct (mloop_inv unit (fun j _ h' => exists m, j = Z.of_nat m /\
              cells h' id (repeat (Some v) m ++ skipn m cs) /\ only [id] h h')
              (fun k _ => store_at (start id) k v) n 0 tt h) as (a & h' & E & m & Em & C' & U).
  - intros j a g J (m & -> & C' & U).
    destruct (store_at_ok g id _ 0 (Z.of_nat m) v C') as (g' & E & C2 & U2).
    + rewrite app_length, repeat_length, skipn_length. lia.
    + exists tt, g'. split; [exact E|]. exists (S m). split; [lia|].
      split; [|eapply only_trans; eauto].
      replace (Z.to_nat (0 + Z.of_nat m)) with (length (repeat (Some v) m)) in C2 by (rewrite repeat_length; lia).
      destruct (skipn m cs) as [|x t] eqn:K.
      { assert (length (skipn m cs) = 0%nat) by now rewrite K. rewrite skipn_length in H. lia. }
      rewrite hset_mid in C2.
      replace (skipn (S m) cs) with t.
      * change (repeat (Some v) (S m)) with (Some v :: repeat (Some v) m).
        rewrite repeat_cons, <- app_assoc. exact C2.
      * symmetry. eapply skipn_step; eauto.
  - exists 0%nat. split; auto. split; [exact C|apply only_refl].
  - destruct a. exists h'. split; [exact E|]. replace m with n in C' by lia. auto.
Qed.
