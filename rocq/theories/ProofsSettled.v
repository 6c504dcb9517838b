(** Training on examples that are decided: any kind of block. *)
From Coq Require Import ZArith List Bool QArith Lia Lqa.
From Verif Require Import Base BaseProofs Spec SpecSettled ModelInference ModelFeedback ModelExecutor ProofsInference ProofsExecutor ProofsRuleSet
  ProofsEval ProofsFeedback.
Import ListNotations.
Open Scope Z_scope.

Lemma never_below_next : forall p r, never_below p r -> never_below p (snd (next_u r)).
Proof. intros p r H i. unfold next_u. cbn. specialize (H (S i)). rewrite Nat.add_succ_r in H. exact H. Qed.
Lemma never_below_head : forall p q r, never_below p r -> (q <= p)%Q -> Qlt_bool (fst (next_u r)) q = false.
Proof.
  intros p q r H L. apply Qlt_bool_false. eapply Qle_trans; [exact L|]. specialize (H O). rewrite Nat.add_0_r in H. exact H.
Qed.

Lemma eps_pos : (0 <= eps)%Q. Proof. vm_compute. discriminate. Qed.

Lemma pos_prob_settled : forall T v, (0 < T)%Q -> (T <= inject_Z v)%Q -> (pos_prob T v == 0)%Q.
Proof.
  intros T v H L. unfold pos_prob. rewrite (clampQ_top _ _ H L). field. intros E. rewrite E in H. now apply Qlt_irrefl in H.
Qed.
Lemma neg_prob_settled : forall T v, (0 < T)%Q -> (inject_Z v <= - T)%Q -> (neg_prob T v == eps)%Q.
Proof.
  intros T v H L. unfold neg_prob. rewrite (clampQ_bot _ _ H L). field. intros E. rewrite E in H. now apply Qlt_irrefl in H.
Qed.

(** What a feedback block makes of decided votes. *)
Definition calm (T : Q) (ncls : nat) (process : nat -> fblock -> fblock) : Prop :=
  forall l f, fb_ready ncls f -> fb_thr f = T -> decided T ncls l (fun c => nth c (fb_votes f) 0) ->
    let g := process l f in
    fb_ready ncls g /\ fb_thr g = T /\ (fb_pp g <= 0)%Q /\ (fb_np g <= eps)%Q /\ fb_correct g = fb_correct f + 1 /\ fb_total g = fb_total f + 1.

Lemma decided_argmax : forall T ncls l votes, (0 < T)%Q -> length votes = ncls -> decided T ncls l (fun c => nth c votes 0) -> argmax votes = l.
Proof.
  intros T ncls l votes HT L [D1 [D2 D3]]. assert (NE : votes <> []) by (intros ->; cbn in L; lia).
  assert (G : forall c, (c < ncls)%nat -> c <> l -> nth c votes 0 < nth l votes 0).
  { intros c Hc N. specialize (D3 c Hc N). rewrite Zlt_Qlt. eapply Qle_lt_trans; [exact D3|]. eapply Qlt_le_trans; [|exact D2].
    lra. }
  apply (first_argmax_unique votes); [now apply argmax_spec|]. split; [lia|]. split.
  - intros j Hj. destruct (Nat.eq_dec j l) as [->|N]; [lia|]. specialize (G j). lia.
  - intros j Hj. apply G; lia.
Qed.

Lemma fb_process_calm : forall T ncls, (0 < T)%Q -> calm T ncls fb_process.
Proof.
  intros T ncls HT l f [R1 R2] ET D. cbv zeta. unfold fb_process. rewrite R1, ET. rewrite firstn_all2 by lia.
  destruct (sample_discrete _ _) as [neg r]. cbn [fb_ncls fb_votes fb_thr fb_pp fb_np fb_correct fb_total].
  pose proof (decided_argmax T ncls l _ HT R2 D) as A. destruct D as [D1 [D2 D3]].
  split; [split; auto|]. split; [reflexivity|]. split.
  { rewrite pos_prob_settled by auto. apply Qle_refl. }
  split; [|split; [|reflexivity]].
  - assert (F : Forall (fun q => (q <= eps)%Q) (set_nth l 0%Q (map (neg_prob T) (fb_votes f)))).
    { assert (G : forall k votes, (forall c, (c < length votes)%nat -> (k + c)%nat <> l -> (inject_Z (nth c votes 0%Z) <= - T)%Q) -> (k <= l)%nat ->
        Forall (fun q => (q <= eps)%Q) (set_nth (l - k) 0%Q (map (neg_prob T) votes))).
      { clear - HT. intros k votes. revert k. induction votes as [|v votes IH]; intros k H Hk; cbn [map].
        - destruct (l - k)%nat; constructor.
        - destruct (l - k)%nat as [|j] eqn:E; cbn [set_nth].
          + constructor; [exact eps_pos|]. apply Forall_forall. intros q Hq. apply in_map_iff in Hq. destruct Hq as [w [<- Hw]].
            apply (In_nth _ _ 0) in Hw. destruct Hw as [c [Hc <-]]. rewrite neg_prob_settled; [apply Qle_refl|exact HT|].
            apply (H (S c)); cbn [length]; lia.
          + constructor.
            * rewrite neg_prob_settled; [apply Qle_refl|exact HT|]. apply (H O); cbn [length]; lia.
            * replace j with (l - S k)%nat by lia. apply IH; [|lia]. intros c Hc N. apply (H (S c)); cbn [length]; lia. }
      specialize (G O (fb_votes f)). rewrite Nat.sub_0_r in G. apply G; [|lia]. intros c Hc N. apply D3; lia. }
    destruct (Nat.lt_ge_cases neg (length (set_nth l 0%Q (map (neg_prob T) (fb_votes f))))) as [Hn|Hn].
    + rewrite Forall_forall in F. apply F, nth_In. exact Hn.
    + rewrite nth_overflow by exact Hn. exact eps_pos.
  - rewrite predicted_class_argmax, A, Nat.eqb_refl. reflexivity.
Qed.

Section Settled.
  Variables B E K : Type.
  Variable train_ex : E -> B -> B * list Z.
  Variable update : E -> nat -> Q -> nat -> Q -> B -> B.
  Variable process : nat -> fblock -> fblock.
  Variable kept : B -> K.
  Variable inv : B -> Prop.
  Variable good : E -> Prop.
  Variable ncls : nat.
  Variable T : Q.
  Hypothesis T_pos : (0 < T)%Q.
  Hypothesis Hproc : calm T ncls process.
  Hypothesis Htr : forall e b, good e -> inv b -> inv (fst (train_ex e b)) /\ kept (fst (train_ex e b)) = kept b /\ length (snd (train_ex e b)) = ncls.
  Hypothesis Hvotes : forall e b1 b2, good e -> inv b1 -> inv b2 -> kept b1 = kept b2 -> snd (train_ex e b1) = snd (train_ex e b2).
  Hypothesis Hup : forall e pc pp nc np b, good e -> inv b -> (pp <= 0)%Q -> (np <= eps)%Q ->
    inv (update e pc pp nc np b) /\ kept (update e pc pp nc np b) = kept b.

  Definition held (bs : list (bool * B)) : list (bool * K) := map (fun tb : bool * B => (fst tb, kept (snd tb))) bs.
  Definition fine (bs : list (bool * B)) : Prop := Forall (fun tb => inv (snd tb)) bs.
  Definition sum_votes (e : E) (bs : list (bool * B)) (c : nat) : Z := zsum (map (fun tb => nth c (snd (train_ex e (snd tb))) 0) bs).

  Lemma held_votes : forall e bs1 bs2 c, good e -> fine bs1 -> fine bs2 -> held bs1 = held bs2 -> sum_votes e bs1 c = sum_votes e bs2 c.
  Proof.
    intros e bs1 bs2 c G F1. revert bs2. unfold sum_votes, held. induction F1 as [|[t b] bs1 I1 F1 IH]; intros [|[t2 b2] bs2] F2 H; cbn [map] in *; try discriminate; auto.
    inversion F2; subst. cbn [snd fst] in *. injection H as J1 J2 J3. rewrite (Hvotes e b b2) by auto. cbn [zsum]. f_equal. now apply IH.
  Qed.

  Lemma run_kept : forall e bs fb, good e -> fine bs -> fb_ready ncls fb ->
    fine (fst (run_examples B E train_ex e bs fb)) /\ held (fst (run_examples B E train_ex e bs fb)) = held bs /\
    fb_ready ncls (snd (run_examples B E train_ex e bs fb)) /\ fb_thr (snd (run_examples B E train_ex e bs fb)) = fb_thr fb /\
    fb_correct (snd (run_examples B E train_ex e bs fb)) = fb_correct fb /\ fb_total (snd (run_examples B E train_ex e bs fb)) = fb_total fb /\
    (forall c, (c < ncls)%nat -> wrap16 (nth c (fb_votes fb) 0) = nth c (fb_votes fb) 0 ->
      nth c (fb_votes (snd (run_examples B E train_ex e bs fb))) 0 = wrap16 (nth c (fb_votes fb) 0 + sum_votes e bs c)).
  Proof.
    intros e bs fb G F. revert fb. induction F as [|[t b] bs I F IH]; intros fb [R1 R2]; cbn [run_examples].
    - unfold sum_votes. cbn. do 6 (split; [auto; constructor; auto|]). intros c Hc W. now rewrite Z.add_0_r.
    - cbn [snd] in I. destruct (Htr e b G I) as [A1 [A2 A3]].
      assert (R' : fb_ready ncls (fb_register (snd (train_ex e b)) fb)).
      { split; cbn; [exact R1|]. rewrite add_votes_length; lia. }
      specialize (IH _ R'). unfold sum_votes. cbn [map snd zsum]. destruct (train_ex e b) as [b1 v]. cbn [fst snd] in *.
      destruct (run_examples B E train_ex e bs (fb_register v fb)) as [bs2 fb2]. cbn [fst snd] in *.
      destruct IH as [I1 [I2 [I3 [I4 [I5 [I6 I7]]]]]].
      split; [constructor; auto|]. split; [unfold held in *; cbn [map fst snd]; now rewrite I2, A2|]. split; [exact I3|].
      split; [exact I4|]. split; [exact I5|]. split; [exact I6|]. intros c Hc W.
      assert (N : nth c (fb_votes (fb_register v fb)) 0 = wrap16 (nth c (fb_votes fb) 0 + nth c v 0)).
      { cbn [fb_register fb_votes]. apply add_votes_nth; lia. }
      rewrite I7 by (auto; rewrite N; apply wrap16_wrap16). rewrite N, wrap16_add_l. f_equal. unfold sum_votes. lia.
  Qed.

  (** The example is decided by the votes the blocks register. *)
  Definition settled (bs : list (bool * B)) (d : E * nat) : Prop :=
    good (fst d) /\ decided T ncls (snd d) (fun c => wrap16 (sum_votes (fst d) bs c)).

  Lemma settled_held : forall bs1 bs2 d, fine bs1 -> fine bs2 -> held bs1 = held bs2 -> settled bs1 d -> settled bs2 d.
  Proof.
    intros bs1 bs2 d F1 F2 H [G [D1 [D2 D3]]]. split; [exact G|]. split; [exact D1|]. split.
    - rewrite <- (held_votes (fst d) bs1 bs2) by auto. exact D2.
    - intros c Hc N. rewrite <- (held_votes (fst d) bs1 bs2) by auto. now apply D3.
  Qed.

  Lemma train_one_settled : forall d bs fb, fine bs -> fb_ready ncls fb -> fb_thr fb = T -> settled bs d ->
    let '(bs', fb') := train_one B E train_ex update nat process d bs fb in
    fine bs' /\ held bs' = held bs /\ fb_ready ncls fb' /\ fb_thr fb' = T /\ fb_correct fb' = fb_correct fb + 1 /\ fb_total fb' = fb_total fb + 1.
  Proof.
    intros [e l] bs fb F R ET [G D]. cbn [fst snd] in *. unfold train_one. cbn [fst snd].
    destruct (run_kept e bs (fb_reset fb) G F (fb_reset_ready _ _ R)) as [A1 [A2 [A3 [A4 [A5 [A6 A7]]]]]].
    destruct (run_examples B E train_ex e bs (fb_reset fb)) as [bs1 fb1]. cbn [fst snd] in *.
    assert (Z0 : forall c, nth c (fb_votes (fb_reset fb)) 0 = 0) by (intros; cbn; apply nth_repeat0).
    assert (V : forall c, (c < ncls)%nat -> nth c (fb_votes fb1) 0 = wrap16 (sum_votes e bs c)).
    { intros c Hc. rewrite A7 by (auto; rewrite Z0; reflexivity). now rewrite Z0. }
    cbn in A4, A5, A6. destruct D as [D1 [D2 D3]].
    destruct (Hproc l fb1 A3) as [P1 [P2 [P3 [P4 [P5 P6]]]]]; [congruence| |].
    { split; [exact D1|]. split; [now rewrite V by auto|]. intros c Hc N. rewrite V by auto. now apply D3. }
    assert (U : fine (run_updates B E update e (process l fb1) bs1) /\ held (run_updates B E update e (process l fb1) bs1) = held bs1).
    { clear - A1 P3 P4 Hup G. unfold run_updates, held. induction A1 as [|[t b] bs I A IH]; cbn [map]; [split; [constructor|reflexivity]|].
      destruct IH as [I1 I2]. cbn [snd] in I. destruct t; cbn [fst snd].
      - destruct (Hup e (fb_pos (process l fb1)) (fb_pp (process l fb1)) (fb_neg (process l fb1)) (fb_np (process l fb1)) b G I P3 P4) as [U1 U2].
        split; [constructor; auto|]. rewrite I2, U2. reflexivity.
      - split; [constructor; auto|]. rewrite I2. reflexivity. }
    destruct U as [U1 U2]. split; [exact U1|]. split; [congruence|]. split; [exact P1|]. split; [exact P2|]. split; congruence.
  Qed.

  Lemma train_list_settled : forall ds bs fb, fine bs -> fb_ready ncls fb -> fb_thr fb = T -> Forall (settled bs) ds ->
    let '(bs', fb') := train_list B E train_ex update nat process ds bs fb in
    fine bs' /\ held bs' = held bs /\ fb_ready ncls fb' /\ fb_thr fb' = T /\
    fb_correct fb' = fb_correct fb + Z.of_nat (length ds) /\ fb_total fb' = fb_total fb + Z.of_nat (length ds).
  Proof.
    induction ds as [|d ds IH]; intros bs fb F R ET S; cbn [train_list].
    - cbn [length Z.of_nat]. do 4 (split; [auto|]). lia.
    - inversion S as [|? ? S1 S2]; subst. pose proof (train_one_settled d bs fb F R ET S1) as H.
      destruct (train_one B E train_ex update nat process d bs fb) as [bs1 fb1]. destruct H as [H1 [H2 [H3 [H4 [H5 H6]]]]].
      specialize (IH bs1 fb1 H1 H3 H4). destruct (train_list B E train_ex update nat process ds bs1 fb1) as [bs2 fb2].
      destruct IH as [I1 [I2 [I3 [I4 [I5 I6]]]]].
      { eapply Forall_impl; [|exact S2]. intros d' Hd. apply (settled_held bs bs1); auto. }
      split; [exact I1|]. split; [congruence|]. split; [exact I3|]. split; [exact I4|]. cbn [length]. lia.
  Qed.

  (** The accuracies of [k] epochs, and the executor after them. *)
  Fixpoint epochs (k : nat) (data : list (E * nat)) (x : exec B) : list Q * exec B :=
    match k with
    | O => ([], x)
    | S k' => let '(a, x) := train_epoch B E train_ex update nat process data x in
              let '(l, x) := epochs k' data x in (a :: l, x)
    end.

  Lemma epoch_settled : forall data x, fine (x_blocks x) -> fb_ready ncls (x_fb x) -> fb_thr (x_fb x) = T -> Forall (settled (x_blocks x)) data ->
    let '(a, x') := train_epoch B E train_ex update nat process data x in
    fine (x_blocks x') /\ held (x_blocks x') = held (x_blocks x) /\ fb_ready ncls (x_fb x') /\ fb_thr (x_fb x') = T /\ (data <> [] -> a == 1)%Q.
  Proof.
    intros data x F R ET S. unfold train_epoch, train_slice. cbn [Nat.eqb x_rng x_blocks x_fb x_index].
    pose proof (shuffle_perm (seq 0 (length data)) (x_rng x)) as SP.
    destruct (shuffle (seq 0 (length data)) (x_rng x)) as [idx r]. cbn [fst] in SP. cbn [skipn].
    rewrite Nat.sub_0_r. rewrite firstn_all2 by (rewrite (Permutation.Permutation_length SP), seq_length; lia).
    assert (PD : Permutation.Permutation (select E nat data idx) data).
    { etransitivity; [apply select_perm; exact SP|]. pose proof (select_seq E nat data []) as Q. cbn [app length] in Q. rewrite Q. reflexivity. }
    pose proof (train_list_settled (select E nat data idx) (x_blocks x) (fb_reset_counter (x_fb x)) F) as H.
    destruct (train_list B E train_ex update nat process (select E nat data idx) (x_blocks x) (fb_reset_counter (x_fb x))) as [bs fb].
    destruct H as [H1 [H2 [H3 [H4 [H5 H6]]]]]; [exact R|exact ET|eapply Permutation.Permutation_Forall; [apply Permutation.Permutation_sym; exact PD|exact S]|].
    cbn [x_blocks x_fb]. split; [exact H1|]. split; [exact H2|]. split; [exact H3|]. split; [exact H4|]. intros NE.
    rewrite (Permutation.Permutation_length PD) in H5, H6. cbn in H5, H6. unfold fb_accuracy. rewrite H5, H6.
    assert (L : (0 < length data)%nat) by (destruct data; [contradiction|cbn; lia]).
    destruct (Z.gtb_spec (Z.of_nat (length data)) 0) as [_|]; [|lia]. unfold Qdiv. apply Qmult_inv_r.
    unfold Qeq. cbn. lia.
  Qed.

  Lemma epochs_settled : forall k data x, fine (x_blocks x) -> fb_ready ncls (x_fb x) -> fb_thr (x_fb x) = T -> Forall (settled (x_blocks x)) data ->
    let '(l, x') := epochs k data x in
    held (x_blocks x') = held (x_blocks x) /\ (data <> [] -> Forall (fun a => a == 1)%Q l).
  Proof.
    induction k as [|k IH]; intros data x F R ET S; cbn [epochs]; [split; [reflexivity|constructor]|].
    pose proof (epoch_settled data x F R ET S) as H. destruct (train_epoch B E train_ex update nat process data x) as [a x1].
    destruct H as [H1 [H2 [H3 [H4 H5]]]]. specialize (IH data x1 H1 H3 H4). destruct (epochs k data x1) as [l x2]. destruct IH as [I1 I2].
    { eapply Forall_impl; [|exact S]. intros d' Hd. apply (settled_held (x_blocks x) (x_blocks x1)); auto. }
    split; [congruence|]. intros NE. constructor; auto.
  Qed.
End Settled.

Lemma epochs_length : forall B E train_ex update process k (data : list (E * nat)) (x : exec B),
  length (fst (epochs B E train_ex update process k data x)) = k.
Proof.
  intros B E train_ex update process. induction k as [|k IH]; intros data x; cbn [epochs]; auto.
  destruct (train_epoch B E train_ex update nat process data x) as [a x1]. specialize (IH data x1). destruct (epochs B E train_ex update process k data x1). cbn in *. congruence.
Qed.

Lemma clampQ_below : forall v T, (0 < T)%Q -> (v < T)%Q -> (clampQ v T < T)%Q.
Proof.
  intros v T HT HV. unfold clampQ. destruct (Qlt_bool v (- T)) eqn:E1; [lra|].
  destruct (Qlt_bool T v) eqn:E2; [apply Qlt_bool_iff in E2; lra|exact HV].
Qed.
