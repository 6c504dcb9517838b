(** Multi-label training. *)
From Coq Require Import ZArith List Bool QArith Lia Permutation.
From Verif Require Import Base BaseProofs Spec ModelInference ModelDense ModelFeedback ModelExecutor ModelDenseExec
  ModelMulti SpecMulti ProofsInference ProofsRuleSet ProofsEval ProofsFeedback ProofsExecutor ProofsDenseExec.
Import ListNotations.
Open Scope Z_scope.

(** ** Reading labels *)

Lemma labs_ok : forall mem base n k, (base + k + n <= length mem)%nat ->
  labs mem base k n = Some (firstn n (skipn (base + k) mem)).
Proof.
  induction n as [|n IH]; intros k H; cbn [labs]; auto. unfold lab.
  rewrite (IH (S k)) by lia.
  destruct (nth_error mem (base + k)) as [l|] eqn:E; [|apply nth_error_None in E; lia].
  assert (S1 : skipn (base + k) mem = l :: skipn (base + S k) mem).
  { clear - E. rewrite Nat.add_succ_r. remember (base + k)%nat as j. clear Heqj. revert mem E.
    induction j as [|j IH]; intros [|a mem] E; try discriminate; cbn in *; [congruence|]. apply IH; auto. }
  rewrite S1. reflexivity.
Qed.

Lemma labs_none : forall mem base n k, (length mem < base + k + n)%nat -> (0 < n)%nat -> labs mem base k n = None.
Proof.
  induction n as [|n IH]; intros k H Hn; [lia|]. cbn [labs]. unfold lab.
  destruct (nth_error mem (base + k)) as [l|] eqn:E; auto.
  assert (base + k < length mem)%nat by (apply nth_error_Some; congruence).
  rewrite IH by lia. auto.
Qed.

Lemma nth_label_row : forall mem base n k, (k < n)%nat -> (base + n <= length mem)%nat ->
  lab mem base k = Some (nth k (firstn n (skipn base mem)) 0).
Proof.
  intros mem base n k Hk H. unfold lab.
  rewrite (nth_error_nth' mem 0) by lia. f_equal.
  rewrite <- (firstn_skipn base mem) at 1. rewrite app_nth2 by (rewrite firstn_length; lia).
  rewrite firstn_length. replace (base + k - Nat.min base (length mem))%nat with k by lia.
  rewrite <- (firstn_skipn n (skipn base mem)) at 1. rewrite app_nth1; auto.
  rewrite firstn_length, skipn_length. lia.
Qed.

(** ** process *)

Definition lift (o : option fblock) : mres fblock := match o with Some f => Val f | None => Spin end.

Lemma draw_class_lt : forall n r c r', (0 < n)%nat -> draw_class n r = (c, r') -> (c < n)%nat.
Proof. intros n r c r' Hn H. unfold draw_class in H. destruct (next_u r) as [u r1]. inversion H; subst. lia. Qed.

Theorem mlp_in_range : forall fuel mem base f, (0 < fb_ncls f)%nat -> (base + fb_ncls f <= length mem)%nat ->
  mlp_process fuel mem base f = lift (fbm_process fuel (firstn (fb_ncls f) (skipn base mem)) f).
Proof.
  intros fuel mem base f Hn H. unfold mlp_process, fbm_process.
  destruct (draw_class (fb_ncls f) (fb_rng f)) as [p0 r] eqn:Ed.
  pose proof (draw_class_lt _ _ _ _ Hn Ed) as Hp.
  destruct (draw_other fuel (fb_ncls f) p0 r) as [[q0 r1]|] eqn:Eo; [|reflexivity].
  destruct (draw_other_spec _ _ _ _ _ _ Hn Eo) as [Hq Hne].
  rewrite (nth_label_row mem base (fb_ncls f) p0) by auto.
  rewrite (nth_label_row mem base (fb_ncls f) q0) by auto.
  rewrite labs_ok by lia. rewrite Nat.add_0_r. reflexivity.
Qed.

Theorem mlp_out_of_range : forall fuel mem base f f', (0 < fb_ncls f)%nat -> (length mem < base + fb_ncls f)%nat ->
  mlp_process fuel mem base f <> Val f'.
Proof.
  intros fuel mem base f f' Hn H. unfold mlp_process.
  destruct (draw_class (fb_ncls f) (fb_rng f)) as [p0 r].
  destruct (draw_other fuel (fb_ncls f) p0 r) as [[q0 r1]|]; [|discriminate].
  rewrite labs_none by lia.
  destruct (lab mem base p0); [destruct (lab mem base q0)|]; discriminate.
Qed.

Theorem mlp_one : forall fuel mem base f, fb_ncls f = 1%nat -> mlp_process fuel mem base f = Spin.
Proof.
  intros fuel mem base f H. unfold mlp_process. rewrite H.
  destruct (draw_class 1 (fb_rng f)) as [p0 r] eqn:Ed.
  assert (p0 < 1)%nat by (eapply draw_class_lt; [|exact Ed]; lia).
  replace p0 with O by lia. rewrite draw_other_stuck. reflexivity.
Qed.

Lemma mlp_ncls : forall fuel mem base f f', mlp_process fuel mem base f = Val f' ->
  fb_ncls f' = fb_ncls f /\ fb_votes f' = fb_votes f /\ fb_thr f' = fb_thr f.
Proof.
  intros fuel mem base f f' H. unfold mlp_process in H.
  destruct (draw_class (fb_ncls f) (fb_rng f)) as [p0 r].
  destruct (draw_other fuel (fb_ncls f) p0 r) as [[q0 r1]|]; [|discriminate].
  destruct (lab mem base p0); [|discriminate]. destruct (lab mem base q0); [|discriminate].
  destruct (labs mem base 0 (fb_ncls f)); [|discriminate]. inversion H; subst. cbn. auto.
Qed.

Lemma fbm_keeps : forall fuel ls f f', fbm_process fuel ls f = Some f' ->
  fb_ncls f' = fb_ncls f /\ fb_votes f' = fb_votes f /\ fb_thr f' = fb_thr f /\
  fb_pp f' = pos_prob (fb_thr f) (nth (fb_pos f') (fb_votes f) 0) /\
  fb_np f' = ((fb_thr f + clampQ (inject_Z (nth (fb_neg f') (fb_votes f) 0%Z)) (fb_thr f)) / (2 * fb_thr f))%Q /\
  fb_correct f' = fb_correct f + ml_correct ls (firstn (fb_ncls f) (fb_votes f)) (skipn (fb_ncls f) (fb_votes f)) /\
  fb_total f' = fb_total f + Z.of_nat (fb_ncls f).
Proof.
  intros fuel ls f f' H. unfold fbm_process in H.
  destruct (draw_class (fb_ncls f) (fb_rng f)) as [p0 r].
  destruct (draw_other fuel (fb_ncls f) p0 r) as [[q0 r1]|]; [|discriminate].
  inversion H; subst. cbn. repeat split; reflexivity.
Qed.

(** ** Registered votes *)

Section Votes.
  Variables B E : Type.

  (** Votes of the blocks on one example. *)
  Definition block_votes (train_ex : E -> B -> B * list Z) (e : E) (bs : list (bool * B)) : list (list Z) :=
    map (fun tb => snd (train_ex e (snd tb))) bs.

  Lemma run_examples_fb : forall train_ex e bs fb,
    snd (run_examples B E train_ex e bs fb) = fold_left (fun f v => fb_register v f) (block_votes train_ex e bs) fb.
  Proof.
    intros train_ex e bs. induction bs as [|[t b] bs IH]; intros fb; cbn [run_examples block_votes map fold_left]; auto.
    cbn [snd]. destruct (train_ex e b) as [b1 v] eqn:Ev. cbn [snd].
    rewrite <- IH. destruct (run_examples B E train_ex e bs (fb_register v fb)). reflexivity.
  Qed.

  Lemma run_examples_bs : forall train_ex e bs fb,
    fst (run_examples B E train_ex e bs fb) = map (fun tb => (fst tb, fst (train_ex e (snd tb)))) bs.
  Proof.
    intros train_ex e bs. induction bs as [|[t b] bs IH]; intros fb; cbn [run_examples map]; auto.
    cbn [snd fst]. specialize (IH (fb_register (snd (train_ex e b)) fb)).
    destruct (train_ex e b) as [b1 v] eqn:Ev. cbn [snd fst] in *.
    rewrite <- IH. destruct (run_examples B E train_ex e bs (fb_register v fb)). reflexivity.
  Qed.
End Votes.

Definition with_votes (f : fblock) (v : list Z) : fblock :=
  mkFb (fb_ncls f) (fb_thr f) v (fb_probs f) (fb_pos f) (fb_neg f) (fb_pp f) (fb_np f) (fb_correct f) (fb_total f)
       (fb_rng f).

Lemma fold_register : forall vs f,
  fold_left (fun f v => fb_register v f) vs f = with_votes f (fold_left (fun a v => add_votes (fb_ncls f) a v) vs (fb_votes f)).
Proof.
  induction vs as [|v vs IH]; intros f; cbn [fold_left]; [destruct f; reflexivity|].
  rewrite IH. reflexivity.
Qed.

Lemma add_votes_split : forall n on off v, length on = n ->
  add_votes n (on ++ off) v = map2 (fun a b => wrap16 (a + b)) on v ++ off.
Proof.
  intros n on off v H. unfold add_votes. rewrite firstn_app, skipn_app, H, Nat.sub_diag, firstn_all2, skipn_all2 by lia.
  cbn. rewrite app_nil_r. reflexivity.
Qed.

Lemma fold_add_split : forall n vs on off, length on = n -> Forall (fun v => (n <= length v)%nat) vs ->
  exists on', fold_left (fun a v => add_votes n a v) vs (on ++ off) = on' ++ off /\ length on' = n /\
    forall c, (c < n)%nat -> wrap16 (nth c on 0) = nth c on 0 ->
      nth c on' 0 = wrap16 (nth c on 0 + zsum (map (fun v => nth c v 0) vs)).
Proof.
  intros n vs. induction vs as [|v vs IH]; intros on off H F; cbn [fold_left map zsum].
  - exists on. split; auto. split; auto. intros c Hc W. rewrite Z.add_0_r. auto.
  - rewrite add_votes_split by auto. inversion F as [|? ? F1 F2]; subst.
    destruct (IH (map2 (fun a b => wrap16 (a + b)) on v) off) as (on' & A1 & A2 & A3).
    + rewrite map2_length. lia.
    + auto.
    + exists on'. split; auto. split; auto. intros c Hc W. rewrite A3; auto.
      * rewrite nth_map2 with (da := 0) (db := 0) by lia. rewrite wrap16_add_l. f_equal. lia.
      * rewrite nth_map2 with (da := 0) (db := 0) by lia. apply wrap16_wrap16.
Qed.

Lemma fold_add_same : forall n vs1 vs2 a, map (firstn n) vs1 = map (firstn n) vs2 -> (n <= length a)%nat ->
  Forall (fun v => (n <= length v)%nat) vs1 -> Forall (fun v => (n <= length v)%nat) vs2 ->
  fold_left (fun a v => add_votes n a v) vs1 a = fold_left (fun a v => add_votes n a v) vs2 a.
Proof.
  intros n vs1. induction vs1 as [|v1 vs1 IH]; intros [|v2 vs2] a H L F1 F2; cbn [map fold_left] in *; try discriminate; auto.
  injection H as H1 H2. inversion F1; inversion F2; subst.
  assert (Q : add_votes n a v1 = add_votes n a v2).
  { unfold add_votes. f_equal.
    assert (G : forall (l v : list Z), (length l <= n)%nat ->
      map2 (fun x y => wrap16 (x + y)) l v = map2 (fun x y => wrap16 (x + y)) l (firstn n v)).
    { clear. intros l. revert n. induction l as [|x l IH]; intros n [|y v] H; cbn; auto.
      - destruct n; reflexivity.
      - destruct n as [|n]; [cbn in H; lia|]. cbn. f_equal. apply IH. cbn in H. lia. }
    rewrite (G _ v1), (G _ v2) by (rewrite firstn_length; lia). rewrite H1. reflexivity. }
  rewrite Q. apply IH; auto. rewrite add_votes_length; auto.
Qed.

(** The votes after the blocks have run on an example, starting from reset. *)
Lemma example_votes : forall B E (train_ex : E -> B -> B * list Z) e bs fb n,
  fb_ncls fb = n -> length (fb_votes fb) = (2 * n)%nat ->
  Forall (fun v => (n <= length v)%nat) (block_votes B E train_ex e bs) ->
  exists on, snd (run_examples B E train_ex e bs (fb_reset fb)) = with_votes fb (on ++ repeat 0 n) /\ length on = n /\
    forall c, (c < n)%nat -> nth c on 0 = wrap16 (zsum (map (fun v => nth c v 0) (block_votes B E train_ex e bs))).
Proof.
  intros B E train_ex e bs fb n Hn Hl F. rewrite run_examples_fb, fold_register.
  cbn [fb_reset fb_ncls fb_votes]. rewrite Hn, Hl.
  replace (repeat 0 (2 * n)) with (repeat 0 n ++ repeat 0 n)
    by (rewrite <- repeat_app; f_equal; lia).
  destruct (fold_add_split n (block_votes B E train_ex e bs) (repeat 0 n) (repeat 0 n)) as (on & A1 & A2 & A3); auto.
  { apply repeat_length. }
  exists on. rewrite A1. split; [reflexivity|]. split; auto. intros c Hc. rewrite A3; auto; rewrite nth_repeat0; reflexivity.
Qed.

Lemma run_examples_eq : forall B E train_ex e bs fb,
  run_examples B E train_ex e bs fb =
  (map (fun tb => (fst tb, fst (train_ex e (snd tb)))) bs, snd (run_examples B E train_ex e bs fb)).
Proof. intros. rewrite <- (run_examples_bs B E train_ex e bs fb). apply surjective_pairing. Qed.

(** ** Dense blocks *)

Lemma dense_votes_len : forall bo n e bs, blocks_multi n bs ->
  Forall (fun v => length v = (2 * n)%nat) (block_votes block (list Z) (dense_train_ex bo) e bs).
Proof.
  intros bo n e bs H. unfold block_votes. apply Forall_map. eapply Forall_impl; [|exact H].
  intros tb Hb. apply (dense_train_good bo (2 * n) e (snd tb) Hb).
Qed.

Lemma dense_votes_ge : forall bo n e bs, blocks_multi n bs ->
  Forall (fun v => (n <= length v)%nat) (block_votes block (list Z) (dense_train_ex bo) e bs).
Proof. intros bo n e bs H. eapply Forall_impl; [|apply (dense_votes_len bo n e bs H)]. cbn. intros; lia. Qed.

Definition ml_step bo boost := ml_one block (list Z) (dense_train_ex bo) (dense_upd bo boost).
Definition ml_steps bo boost := ml_list block (list Z) (dense_train_ex bo) (dense_upd bo boost).

Lemma ml_step_inv : forall bo boost fuel exs mem nlab i bs fb n bs' fb',
  fb_multi n fb -> blocks_multi n bs -> ml_step bo boost fuel exs mem nlab i bs fb = Val (bs', fb') ->
  fb_multi n fb' /\ blocks_multi n bs' /\ fb_thr fb' = fb_thr fb /\
  exists e f, nth_error exs i = Some e /\
    f = snd (run_examples block (list Z) (dense_train_ex bo) e bs (fb_reset fb)) /\
    mlp_process fuel mem (i * nlab) f = Val fb'.
Proof.
  intros bo boost fuel exs mem nlab i bs fb n bs' fb' [Hn Hl] Hb H. unfold ml_step, ml_one in H.
  destruct (nth_error exs i) as [e|] eqn:Ee; [|discriminate].
  rewrite run_examples_eq in H.
  destruct (example_votes block (list Z) (dense_train_ex bo) e bs fb n Hn Hl (dense_votes_ge bo n e bs Hb)) as (on & A1 & A2 & A3).
  remember (snd (run_examples block (list Z) (dense_train_ex bo) e bs (fb_reset fb))) as f eqn:Ef.
  destruct (mlp_process fuel mem (i * nlab) f) as [f1| |] eqn:Ep; try discriminate.
  inversion H; subst bs' fb'. clear H.
  destruct (mlp_ncls _ _ _ _ _ Ep) as (B1 & B2 & B3).
  split; [|split; [|split]].
  - split; [rewrite B1, A1; exact Hn|]. rewrite B2, A1. cbn [with_votes fb_votes]. rewrite app_length, repeat_length. lia.
  - unfold blocks_multi, run_updates. rewrite map_map. apply Forall_map. eapply Forall_impl; [|exact Hb].
    intros [t b] Hi. cbn [fst snd] in *.
    assert (G : dense_inv (2 * n) (fst (dense_train_ex bo e b))) by (apply (dense_train_good bo (2 * n) e b Hi)).
    destruct t; cbn [snd]; auto. apply dense_upd_good. auto.
  - rewrite B3, A1. reflexivity.
  - exists e, f. auto.
Qed.

Lemma ml_steps_inv : forall bo boost fuel exs mem nlab idx bs fb n bs' fb',
  fb_multi n fb -> blocks_multi n bs -> ml_steps bo boost fuel exs mem nlab idx bs fb = Val (bs', fb') ->
  fb_multi n fb' /\ blocks_multi n bs' /\ fb_thr fb' = fb_thr fb.
Proof.
  intros bo boost fuel exs mem nlab idx. induction idx as [|i idx IH]; intros bs fb n bs' fb' Hf Hb H; unfold ml_steps in H; cbn [ml_list] in H.
  - inversion H; subst. auto.
  - destruct (ml_one _ _ _ _ fuel exs mem nlab i bs fb) as [[bs1 fb1]| |] eqn:E1; try discriminate.
    destruct (ml_step_inv bo boost _ _ _ _ _ _ _ n _ _ Hf Hb E1) as (A1 & A2 & A3 & _).
    destruct (IH bs1 fb1 n bs' fb' A1 A2 H) as (B1 & B2 & B3). split; auto. split; auto. congruence.
Qed.

(** ** What one example does *)

Lemma nth_on_off : forall n on c, length on = n -> (n <= c)%nat -> nth c (on ++ repeat 0 n) 0 = 0.
Proof. intros n on c H Hc. rewrite app_nth2 by lia. apply nth_repeat0. Qed.

Lemma half_pos : forall T, (0 < T)%Q -> (pos_prob T 0 == 1 # 2)%Q.
Proof.
  intros T H. unfold pos_prob, clampQ.
  assert (A : Qlt_bool (inject_Z 0) (- T) = false).
  { unfold Qlt_bool. apply Bool.negb_false_iff, Qle_bool_iff. change (inject_Z 0) with 0%Q.
    apply (Qplus_le_l _ _ T). ring_simplify. apply Qlt_le_weak; auto. }
  assert (A2 : Qlt_bool T (inject_Z 0) = false).
  { unfold Qlt_bool. apply Bool.negb_false_iff, Qle_bool_iff. apply Qlt_le_weak; auto. }
  rewrite A, A2. change (inject_Z 0) with 0%Q. field. intro Z0. rewrite Z0 in H. discriminate.
Qed.

Lemma half_neg : forall T, (0 < T)%Q -> ((T + clampQ (inject_Z 0) T) / (2 * T) == 1 # 2)%Q.
Proof.
  intros T H. unfold clampQ.
  assert (A : Qlt_bool (inject_Z 0) (- T) = false).
  { unfold Qlt_bool. apply Bool.negb_false_iff, Qle_bool_iff. change (inject_Z 0) with 0%Q.
    apply (Qplus_le_l _ _ T). ring_simplify. apply Qlt_le_weak; auto. }
  assert (A2 : Qlt_bool T (inject_Z 0) = false).
  { unfold Qlt_bool. apply Bool.negb_false_iff, Qle_bool_iff. apply Qlt_le_weak; auto. }
  rewrite A, A2. change (inject_Z 0) with 0%Q. field. intro Z0. rewrite Z0 in H. discriminate.
Qed.

Lemma mlp_probs : forall fuel mem base f f', mlp_process fuel mem base f = Val f' ->
  fb_pp f' = pos_prob (fb_thr f) (nth (fb_pos f') (fb_votes f) 0) /\
  fb_np f' = ((fb_thr f + clampQ (inject_Z (nth (fb_neg f') (fb_votes f) 0%Z)) (fb_thr f)) / (2 * fb_thr f))%Q.
Proof.
  intros fuel mem base f f' H. unfold mlp_process in H.
  destruct (draw_class (fb_ncls f) (fb_rng f)) as [p0 r].
  destruct (draw_other fuel (fb_ncls f) p0 r) as [[q0 r1]|]; [|discriminate].
  destruct (lab mem base p0); [|discriminate]. destruct (lab mem base q0); [|discriminate].
  destruct (labs mem base 0 (fb_ncls f)); [|discriminate]. inversion H; subst. cbn. auto.
Qed.

Theorem ml_step_votes : forall bo boost fuel exs mem nlab i bs fb n bs' fb' e,
  fb_multi n fb -> blocks_multi n bs -> ml_step bo boost fuel exs mem nlab i bs fb = Val (bs', fb') ->
  nth_error exs i = Some e ->
  (forall c, (c < n)%nat ->
     nth c (fb_votes fb') 0 = wrap16 (zsum (map (fun tb => nth c (snd (dense_train_ex bo e (snd tb))) 0) bs))) /\
  (forall c, (n <= c)%nat -> nth c (fb_votes fb') 0 = 0).
Proof.
  intros bo boost fuel exs mem nlab i bs fb n bs' fb' e Hf Hb H He.
  destruct (ml_step_inv bo boost fuel exs mem nlab i bs fb n bs' fb' Hf Hb H) as (_ & _ & _ & e' & f & E1 & E2 & E3).
  assert (e' = e) by congruence. subst e'.
  destruct (mlp_ncls _ _ _ _ _ E3) as (_ & V & _). destruct Hf as [Hn Hl].
  destruct (example_votes block (list Z) (dense_train_ex bo) e bs fb n Hn Hl (dense_votes_ge bo n e bs Hb)) as (on & A1 & A2 & A3).
  rewrite V, E2, A1. cbn [with_votes fb_votes]. split; intros c Hc.
  - rewrite app_nth1 by lia. rewrite A3 by auto. unfold block_votes. rewrite map_map. reflexivity.
  - apply nth_on_off; auto.
Qed.

Theorem ml_step_probs : forall bo boost fuel exs mem nlab i bs fb n bs' fb',
  fb_multi n fb -> blocks_multi n bs -> (0 < fb_thr fb)%Q ->
  ml_step bo boost fuel exs mem nlab i bs fb = Val (bs', fb') ->
  ((fb_pos fb' < n)%nat -> fb_pp fb' = pos_prob (fb_thr fb) (nth (fb_pos fb') (fb_votes fb') 0)) /\
  ((n <= fb_pos fb')%nat -> (fb_pp fb' == 1 # 2)%Q) /\ ((n <= fb_neg fb')%nat -> (fb_np fb' == 1 # 2)%Q).
Proof.
  intros bo boost fuel exs mem nlab i bs fb n bs' fb' Hf Hb HT H.
  destruct (ml_step_inv bo boost fuel exs mem nlab i bs fb n bs' fb' Hf Hb H) as (_ & _ & HT' & e & f & E1 & E2 & E3).
  destruct (ml_step_votes bo boost fuel exs mem nlab i bs fb n bs' fb' e Hf Hb H E1) as [_ V2].
  destruct (mlp_probs _ _ _ _ _ E3) as [P1 P2]. destruct (mlp_ncls _ _ _ _ _ E3) as (_ & V & T3).
  rewrite <- V in P1, P2. rewrite <- T3, HT' in P1, P2. split; [|split].
  - auto.
  - intros Hc. rewrite P1, V2 by auto. apply half_pos; auto.
  - intros Hc. rewrite P2, V2 by auto. apply half_neg; auto.
Qed.

Lemma ml_correct_zero : forall ls on, length ls = length on ->
  ml_correct ls on (repeat 0 (length on)) =
  Z.of_nat (length (filter (fun k => rightb (nth k ls 0) (nth k on 0) 0) (seq 0 (length on)))).
Proof.
  induction ls as [|l ls IH]; intros [|v on] H; try discriminate; [reflexivity|].
  cbn [length repeat ml_correct]. rewrite IH by (cbn in H; congruence).
  cbn [seq filter nth]. rewrite <- seq_shift.
  assert (G : forall (f : nat -> bool) l, length (filter f (map S l)) = length (filter (fun k => f (S k)) l)).
  { clear. intros f l. induction l as [|x l IH]; cbn; auto. destruct (f (S x)); cbn; congruence. }
  assert (W : (if l =? 1 then (if v >=? 0 then 1 else 0) else (if v <? 0 then 1 else 0)) =
              Z.of_nat (if rightb l v 0 then 1 else 0)).
  { unfold rightb. destruct (l =? 1).
    - rewrite Z.geb_leb. destruct (0 <=? v); reflexivity.
    - destruct (v <? 0); reflexivity. }
  rewrite W. destruct (rightb l v 0); cbn [length]; rewrite G; cbn [nth]; lia.
Qed.

Theorem ml_step_accuracy : forall bo boost fuel exs mem i bs fb n bs' fb',
  (0 < n)%nat -> fb_multi n fb -> blocks_multi n bs -> (i * n + n <= length mem)%nat ->
  ml_step bo boost fuel exs mem n i bs fb = Val (bs', fb') ->
  fb_total fb' = fb_total fb + Z.of_nat n /\
  fb_correct fb' = fb_correct fb +
    Z.of_nat (length (filter (fun k => rightb (nth k (label_row n mem i) 0) (nth k (fb_votes fb') 0) 0) (seq 0 n))).
Proof.
  intros bo boost fuel exs mem i bs fb n bs' fb' Hn0 Hf Hb HM H.
  destruct (ml_step_inv bo boost fuel exs mem n i bs fb n bs' fb' Hf Hb H) as (_ & _ & _ & e & f & E1 & E2 & E3).
  destruct Hf as [Hn Hl].
  destruct (example_votes block (list Z) (dense_train_ex bo) e bs fb n Hn Hl (dense_votes_ge bo n e bs Hb)) as (on & A1 & A2 & A3).
  rewrite A1 in E2. subst f.
  rewrite mlp_in_range in E3; [|cbn; lia|cbn; lia]. cbn [with_votes fb_ncls] in E3. rewrite Hn in E3.
  unfold lift in E3.
  destruct (fbm_process fuel (firstn n (skipn (i * n) mem)) _) as [f'|] eqn:Ef; [|discriminate].
  inversion E3; subst f'. destruct (fbm_keeps _ _ _ _ Ef) as (_ & V & _ & _ & _ & C1 & C2).
  cbn [with_votes fb_ncls fb_votes fb_correct fb_total] in *. split; [rewrite C2; congruence|].
  rewrite C1, V, Hn. f_equal.
  rewrite (firstn_app n on), (skipn_app n on), A2, Nat.sub_diag, (@firstn_all2 _ n on), (@skipn_all2 _ n on) by lia.
  cbn [firstn skipn app]. rewrite app_nil_r. unfold label_row. replace (repeat 0 n) with (repeat 0 (length on)) by (rewrite A2; reflexivity).
  rewrite ml_correct_zero by (rewrite firstn_length, skipn_length; lia). rewrite A2. f_equal. f_equal.
  apply filter_ext_in. intros k Hk. apply in_seq in Hk. rewrite app_nth1 by lia. reflexivity.
Qed.

(** ** Blind to the OFF weights *)

Lemma firstn_map2 : forall A B C (f : A -> B -> C) n a b, firstn n (map2 f a b) = map2 f (firstn n a) (firstn n b).
Proof.
  induction n as [|n IH]; intros [|x a] [|y b]; cbn; auto. f_equal. auto.
Qed.

Lemma count_votes_firstn : forall n outs ws votes,
  firstn n (count_votes_loop outs ws votes) = count_votes_loop outs (map (firstn n) ws) (firstn n votes).
Proof.
  induction outs as [|o outs IH]; intros [|w ws] votes; cbn [count_votes_loop map]; auto.
  rewrite IH. destruct (o =? 1); auto. rewrite firstn_map2. reflexivity.
Qed.

Lemma same_on_votes : forall bo n e b1 b2, same_on n b1 b2 ->
  firstn n (snd (dense_train_ex bo e b1)) = firstn n (snd (dense_train_ex bo e b2)).
Proof.
  intros bo n e [] [] H. unfold same_on in H. cbn in H. destruct H as (H1 & H2 & H3 & H4 & H5 & H6 & H7 & H8). subst.
  unfold dense_train_ex, count_votes, train_set_clause_output. cbn. rewrite !count_votes_firstn, H4. reflexivity.
Qed.

Theorem ml_step_blind : forall bo boost fuel exs mem nlab i bs1 bs2 fb n,
  fb_multi n fb -> blocks_multi n bs1 -> blocks_multi n bs2 ->
  Forall2 (fun tb1 tb2 : bool * block => same_on n (snd tb1) (snd tb2)) bs1 bs2 ->
  match ml_step bo boost fuel exs mem nlab i bs1 fb, ml_step bo boost fuel exs mem nlab i bs2 fb with
  | Val (_, f1), Val (_, f2) => f1 = f2
  | Spin, Spin | Wild, Wild => True
  | _, _ => False
  end.
Proof.
  intros bo boost fuel exs mem nlab i bs1 bs2 fb n [Hn Hl] B1 B2 HS. unfold ml_step, ml_one.
  destruct (nth_error exs i) as [e|]; auto.
  rewrite (run_examples_eq _ _ _ e bs1), (run_examples_eq _ _ _ e bs2).
  assert (Q : snd (run_examples block (list Z) (dense_train_ex bo) e bs1 (fb_reset fb)) =
              snd (run_examples block (list Z) (dense_train_ex bo) e bs2 (fb_reset fb))).
  { rewrite !run_examples_fb, !fold_register. f_equal. cbn [fb_reset fb_ncls fb_votes]. rewrite Hn.
    apply fold_add_same.
    - unfold block_votes. clear B1 B2. rewrite !map_map. induction HS as [|x y l1 l2 HS1 HS2 IH]; cbn [map]; auto.
      rewrite IH. f_equal. apply same_on_votes; auto.
    - rewrite repeat_length. lia.
    - apply dense_votes_ge; auto.
    - apply dense_votes_ge; auto. }
  rewrite Q. destruct (mlp_process fuel mem (i * nlab) _); auto.
Qed.

(** ** Epochs and train() *)

Lemma ml_step_safe : forall bo boost fuel exs mem i bs fb n, (0 < n)%nat -> fb_multi n fb -> blocks_multi n bs ->
  (i < length exs)%nat -> length mem = (length exs * n)%nat -> ml_step bo boost fuel exs mem n i bs fb <> Wild.
Proof.
  intros bo boost fuel exs mem i bs fb n Hn0 [Hn Hl] Hb Hi HM. unfold ml_step, ml_one.
  destruct (nth_error exs i) as [e|] eqn:E; [|apply nth_error_None in E; lia].
  rewrite run_examples_eq.
  destruct (example_votes block (list Z) (dense_train_ex bo) e bs fb n Hn Hl (dense_votes_ge bo n e bs Hb)) as (on & A1 & A2 & A3).
  rewrite A1. rewrite mlp_in_range.
  - destruct (fbm_process _ _ _); discriminate.
  - cbn. lia.
  - cbn [with_votes fb_ncls]. rewrite Hn, HM. nia.
Qed.

Lemma ml_steps_safe : forall bo boost fuel exs mem n idx bs fb, (0 < n)%nat -> fb_multi n fb -> blocks_multi n bs ->
  Forall (fun i => (i < length exs)%nat) idx -> length mem = (length exs * n)%nat ->
  ml_steps bo boost fuel exs mem n idx bs fb <> Wild.
Proof.
  intros bo boost fuel exs mem n idx. induction idx as [|i idx IH]; intros bs fb H0 Hf Hb HI HM; unfold ml_steps; cbn [ml_list]; [discriminate|].
  pose proof (Forall_inv HI) as H1. apply Forall_inv_tail in HI.
  pose proof (ml_step_safe bo boost fuel exs mem i bs fb n H0 Hf Hb H1 HM) as S1. unfold ml_step in S1.
  destruct (ml_one _ _ _ _ fuel exs mem n i bs fb) as [[bs1 fb1]| |] eqn:E1; try congruence.
  destruct (ml_step_inv bo boost _ _ _ _ _ _ _ n _ _ Hf Hb E1) as (A1 & A2 & _). apply IH; auto.
Qed.

Lemma ml_one_short : forall B E (tr : E -> B -> B * list Z) up fuel exs mem nlab i bs fb v,
  (0 < fb_ncls fb)%nat -> (length mem < i * nlab + fb_ncls fb)%nat -> ml_one B E tr up fuel exs mem nlab i bs fb <> Val v.
Proof.
  intros B E tr up fuel exs mem nlab i bs fb v H0 H. unfold ml_one.
  destruct (nth_error exs i) as [e|]; [|discriminate]. rewrite run_examples_eq, run_examples_fb, fold_register.
  match goal with |- context [mlp_process ?a ?b ?c ?d] =>
    pose proof (mlp_out_of_range a b c d) as M; destruct (mlp_process a b c d) as [f1| |] eqn:Em; try discriminate end.
  exfalso. apply (M f1); cbn; auto.
Qed.

Lemma ml_one_ncls : forall B E (tr : E -> B -> B * list Z) up fuel exs mem nlab i bs fb bs' fb',
  ml_one B E tr up fuel exs mem nlab i bs fb = Val (bs', fb') -> fb_ncls fb' = fb_ncls fb.
Proof.
  intros B E tr up fuel exs mem nlab i bs fb bs' fb' H. unfold ml_one in H.
  destruct (nth_error exs i) as [e|]; [|discriminate]. rewrite run_examples_eq, run_examples_fb, fold_register in H.
  match type of H with context [mlp_process ?a ?b ?c ?d] => destruct (mlp_process a b c d) as [f1| |] eqn:Em; try discriminate end.
  inversion H; subst. destruct (mlp_ncls _ _ _ _ _ Em) as (A & _). rewrite A. reflexivity.
Qed.

Lemma ml_list_short : forall B E (tr : E -> B -> B * list Z) up fuel exs mem nlab j idx bs fb v, In j idx ->
  (0 < fb_ncls fb)%nat -> (length mem < j * nlab + fb_ncls fb)%nat -> ml_list B E tr up fuel exs mem nlab idx bs fb <> Val v.
Proof.
  intros B E tr up fuel exs mem nlab j idx. induction idx as [|i idx IH]; intros bs fb v HI H0 H; [destruct HI|]. cbn [ml_list]. destruct HI as [HI|HI].
  - subst i. pose proof (ml_one_short B E tr up fuel exs mem nlab j bs fb) as M.
    destruct (ml_one B E tr up fuel exs mem nlab j bs fb) as [a| |]; try discriminate. exfalso. apply (M a); auto.
  - destruct (ml_one B E tr up fuel exs mem nlab i bs fb) as [[b1 f1]| |] eqn:E1; try discriminate.
    pose proof (ml_one_ncls _ _ _ _ _ _ _ _ _ _ _ _ _ E1) as N. apply IH; auto; rewrite N; auto.
Qed.

Lemma shuffle_in : forall m r i, (i < m)%nat -> In i (fst (shuffle (seq 0 m) r)).
Proof.
  intros m r i H. apply (Permutation_in i (Permutation_sym (shuffle_perm (seq 0 m) r))). apply in_seq. lia.
Qed.
Lemma shuffle_lt : forall m r, Forall (fun i => (i < m)%nat) (fst (shuffle (seq 0 m) r)).
Proof.
  intros m r. apply Forall_forall. intros i H. apply (Permutation_in i (shuffle_perm (seq 0 m) r)) in H. apply in_seq in H. lia.
Qed.

(** Fewer labels per example than classes: no epoch completes. *)
Theorem ml_epoch_short : forall B E (tr : E -> B -> B * list Z) up fuel exs mem nlab x v,
  (0 < length exs)%nat -> length mem = (length exs * nlab)%nat -> (nlab < fb_ncls (x_fb x))%nat ->
  ml_epoch B E tr up fuel exs mem nlab x <> Val v.
Proof.
  intros B E tr up fuel exs mem nlab x v H0 HM HN. unfold ml_epoch.
  pose proof (shuffle_in (length exs) (x_rng x) (length exs - 1) ltac:(lia)) as HI.
  destruct (shuffle (seq 0 (length exs)) (x_rng x)) as [idx r]. cbn [fst] in HI.
  pose proof (ml_list_short B E tr up fuel exs mem nlab (length exs - 1) idx (x_blocks x) (fb_reset_counter (x_fb x))) as M.
  destruct (ml_list B E tr up fuel exs mem nlab idx (x_blocks x) (fb_reset_counter (x_fb x))) as [[b1 f1]| |]; try discriminate.
  exfalso. apply (M (b1, f1)); auto; cbn [fb_reset_counter fb_ncls].
  - lia.
  - rewrite HM. destruct (length exs) as [|m]; [lia|]. replace (S m - 1)%nat with m by lia.
    cbn [Nat.mul]. lia.
Qed.

(** One class: no epoch on data completes, whatever the number of draws. *)
Theorem ml_epoch_one : forall B E (tr : E -> B -> B * list Z) up fuel exs mem nlab x,
  (0 < length exs)%nat -> fb_ncls (x_fb x) = 1%nat -> ml_epoch B E tr up fuel exs mem nlab x = Spin.
Proof.
  intros B E tr up fuel exs mem nlab x H0 H. unfold ml_epoch.
  pose proof (shuffle_perm (seq 0 (length exs)) (x_rng x)) as P.
  pose proof (shuffle_lt (length exs) (x_rng x)) as L.
  destruct (shuffle (seq 0 (length exs)) (x_rng x)) as [idx r]. cbn [fst] in *.
  destruct idx as [|i idx]; [apply Permutation_length in P; rewrite seq_length in P; cbn in P; lia|].
  cbn [ml_list]. unfold ml_one. inversion L; subst.
  destruct (nth_error exs i) as [e|] eqn:Ee; [|apply nth_error_None in Ee; lia].
  rewrite run_examples_eq, run_examples_fb, fold_register. rewrite mlp_one; auto.
Qed.

Theorem ml_epoch_safe : forall bo boost fuel exs mem n x, (0 < n)%nat -> fb_multi n (x_fb x) -> blocks_multi n (x_blocks x) ->
  length mem = (length exs * n)%nat ->
  ml_epoch block (list Z) (dense_train_ex bo) (dense_upd bo boost) fuel exs mem n x <> Wild.
Proof.
  intros bo boost fuel exs mem n x H0 Hf Hb HM. unfold ml_epoch.
  pose proof (shuffle_lt (length exs) (x_rng x)) as L.
  destruct (shuffle (seq 0 (length exs)) (x_rng x)) as [idx r]. cbn [fst] in L.
  assert (Hf' : fb_multi n (fb_reset_counter (x_fb x))) by exact Hf.
  pose proof (ml_steps_safe bo boost fuel exs mem n idx (x_blocks x) _ H0 Hf' Hb L HM) as S1. unfold ml_steps in S1.
  destruct (ml_list _ _ _ _ fuel exs mem n idx (x_blocks x) _) as [[b1 f1]| |]; congruence.
Qed.
