From Coq Require Import ZArith List Bool QArith Lia Permutation.
From Verif Require Import Base.
Import ListNotations.
Open Scope Z_scope.

Lemma wrap_small : forall b z, 0 < b ->
  - 2 ^ (b - 1) <= z < 2 ^ (b - 1) -> wrap b z = z.
Proof.
  intros b z Hb Hz. unfold wrap.
  assert (H : 2 ^ b = 2 * 2 ^ (b - 1)).
  { replace b with (Z.succ (b - 1)) at 1 by lia. rewrite Z.pow_succ_r by lia. lia. }
  rewrite Z.mod_small; lia.
Qed.

Lemma wrap_range : forall b z, 0 < b ->
  - 2 ^ (b - 1) <= wrap b z < 2 ^ (b - 1).
Proof.
  intros b z Hb. unfold wrap.
  assert (H : 2 ^ b = 2 * 2 ^ (b - 1)).
  { replace b with (Z.succ (b - 1)) at 1 by lia. rewrite Z.pow_succ_r by lia. lia. }
  assert (0 < 2 ^ (b - 1)) by (apply Z.pow_pos_nonneg; lia).
  pose proof (Z.mod_pos_bound (z + 2 ^ (b - 1)) (2 ^ b)). lia.
Qed.

Lemma wrap_mod : forall b z, 0 < b -> (wrap b z) mod 2 ^ b = z mod 2 ^ b.
Proof.
  intros b z Hb. unfold wrap.
  rewrite Zminus_mod_idemp_l. f_equal. lia.
Qed.

Lemma wrap_eq_iff : forall b x y, 0 < b ->
  wrap b x = wrap b y <-> x mod 2 ^ b = y mod 2 ^ b.
Proof.
  intros b x y Hb. split; intro H.
  - rewrite <- (wrap_mod b x), <- (wrap_mod b y) by lia. now rewrite H.
  - unfold wrap. rewrite <- Zplus_mod_idemp_l, H, Zplus_mod_idemp_l. reflexivity.
Qed.

Lemma wrap_wrap : forall b x, 0 < b -> wrap b (wrap b x) = wrap b x.
Proof. intros. apply wrap_eq_iff; auto. now apply wrap_mod. Qed.

Lemma wrap_add_l : forall b x y, 0 < b -> wrap b (wrap b x + y) = wrap b (x + y).
Proof.
  intros. apply wrap_eq_iff; auto.
  rewrite <- Zplus_mod_idemp_l, wrap_mod, Zplus_mod_idemp_l by lia. reflexivity.
Qed.

Lemma wrap_add_r : forall b x y, 0 < b -> wrap b (x + wrap b y) = wrap b (x + y).
Proof. intros. rewrite (Z.add_comm x), wrap_add_l, (Z.add_comm y); auto. Qed.

Lemma wrap16_small : forall z, is_int16 z -> wrap16 z = z.
Proof. unfold is_int16, wrap16. intros. apply wrap_small; simpl; lia. Qed.

Lemma wrap32_small : forall z, is_int32 z -> wrap32 z = z.
Proof. unfold is_int32, wrap32. intros. apply wrap_small; simpl; lia. Qed.

Lemma wrap8_small : forall z, is_int8 z -> wrap8 z = z.
Proof. unfold is_int8, wrap8. intros. apply wrap_small; simpl; lia. Qed.

Lemma wrap16_range : forall z, is_int16 (wrap16 z).
Proof.
  intros. unfold is_int16, wrap16. pose proof (wrap_range 16 z ltac:(lia)) as H.
  simpl in H. lia.
Qed.

Lemma wrap8_range : forall z, is_int8 (wrap8 z).
Proof.
  intros. unfold is_int8, wrap8. pose proof (wrap_range 8 z ltac:(lia)) as H.
  simpl in H. lia.
Qed.

Lemma wrap16_add_l : forall x y, wrap16 (wrap16 x + y) = wrap16 (x + y).
Proof. intros. apply wrap_add_l. lia. Qed.
Lemma wrap16_add_r : forall x y, wrap16 (x + wrap16 y) = wrap16 (x + y).
Proof. intros. apply wrap_add_r. lia. Qed.
Lemma wrap16_wrap16 : forall x, wrap16 (wrap16 x) = wrap16 x.
Proof. intros. apply wrap_wrap. lia. Qed.
Lemma wrap32_add_l : forall x y, wrap32 (wrap32 x + y) = wrap32 (x + y).
Proof. intros. apply wrap_add_l. lia. Qed.
Lemma wrap16_mod : forall x, wrap16 x mod 65536 = x mod 65536.
Proof. intros. apply (wrap_mod 16). lia. Qed.
Lemma wrap16_eq_iff : forall x y, wrap16 x = wrap16 y <-> x mod 65536 = y mod 65536.
Proof. intros. apply (wrap_eq_iff 16). lia. Qed.

(** ** Lists *)

Lemma set_nth_length : forall A i (v : A) l, length (set_nth i v l) = length l.
Proof.
  intros A i v l; revert i; induction l as [|h t IH]; intros [|i]; simpl; auto.
Qed.

Lemma nth_error_set_nth_eq : forall A i (v : A) l,
  (i < length l)%nat -> nth_error (set_nth i v l) i = Some v.
Proof.
  intros A i v l; revert i; induction l as [|h t IH]; intros [|i] H; simpl in *; try lia; auto.
  apply IH; lia.
Qed.

Lemma nth_error_set_nth_neq : forall A i j (v : A) l,
  i <> j -> nth_error (set_nth i v l) j = nth_error l j.
Proof.
  intros A i j v l; revert i j; induction l as [|h t IH]; intros [|i] [|j] H; simpl; auto; try congruence.
Qed.

Lemma nth_set_nth_eq : forall A i (v d : A) l,
  (i < length l)%nat -> nth i (set_nth i v l) d = v.
Proof.
  intros A i v d l; revert i; induction l as [|h t IH]; intros [|i] H; simpl in *; try lia; auto.
  apply IH; lia.
Qed.

Lemma nth_set_nth_neq : forall A i j (v d : A) l,
  i <> j -> nth j (set_nth i v l) d = nth j l d.
Proof.
  intros A i j v d l; revert i j; induction l as [|h t IH]; intros [|i] [|j] H; simpl; auto; try congruence.
Qed.

Lemma set_nth_out : forall A i (v : A) l, (length l <= i)%nat -> set_nth i v l = l.
Proof.
  intros A i v l; revert i; induction l as [|h t IH]; intros [|i] H; simpl in *; auto; try lia.
  f_equal; apply IH; lia.
Qed.

Lemma map2_length : forall A B C (f : A -> B -> C) l1 l2,
  length (map2 f l1 l2) = Nat.min (length l1) (length l2).
Proof.
  intros A B C f l1; induction l1 as [|a t IH]; intros [|b u]; simpl; auto.
Qed.

Lemma nth_map2 : forall A B C (f : A -> B -> C) l1 l2 i da db dc,
  (i < length l1)%nat -> (i < length l2)%nat ->
  nth i (map2 f l1 l2) dc = f (nth i l1 da) (nth i l2 db).
Proof.
  intros A B C f l1; induction l1 as [|a t IH]; intros [|b u] [|i] da db dc H1 H2;
    simpl in *; try lia; auto.
  apply IH; lia.
Qed.

Lemma zsum_app : forall a b, zsum (a ++ b) = zsum a + zsum b.
Proof. induction a; simpl; intros; auto. rewrite IHa. lia. Qed.

Lemma zsum_perm : forall a b, Permutation a b -> zsum a = zsum b.
Proof. induction 1; simpl; lia. Qed.

Lemma zsum_map_app : forall A (f : A -> Z) a b,
  zsum (map f (a ++ b)) = zsum (map f a) + zsum (map f b).
Proof. intros. now rewrite map_app, zsum_app. Qed.
