(** Two executors whose blocks answer alike stay alike.  [R] relates blocks
    between examples, [R1] blocks between train_example and train_update. *)
From Coq Require Import ZArith Arith List Bool QArith Lia.
From Verif Require Import Base ModelFeedback ModelExecutor ProofsAvx2Hist.
Import ListNotations.

Lemma Forall2_len : forall A1 A2 (Q : A1 -> A2 -> Prop) l1 l2, Forall2 Q l1 l2 -> length l1 = length l2.
Proof. intros A1 A2 Q l1 l2 H. induction H; cbn [length]; auto. Qed.

Section Sim.
  Variables B1 B2 E1 E2 : Type.
  Variables tr1 ev1 : E1 -> B1 -> B1 * list Z.
  Variables tr2 ev2 : E2 -> B2 -> B2 * list Z.
  Variable up1 : E1 -> nat -> Q -> nat -> Q -> B1 -> B1.
  Variable up2 : E2 -> nat -> Q -> nat -> Q -> B2 -> B2.
  Variable L : Type.
  Variable process : L -> fblock -> fblock.
  Variables R R1 : B1 -> B2 -> Prop.
  Variable RE : E1 -> E2 -> Prop.
  Hypothesis train_R : forall e1 e2 b1 b2, RE e1 e2 -> R b1 b2 -> R1 (fst (tr1 e1 b1)) (fst (tr2 e2 b2)) /\ snd (tr1 e1 b1) = snd (tr2 e2 b2).
  Hypothesis weaken_R : forall b1 b2, R1 b1 b2 -> R b1 b2.
  Hypothesis update_R : forall e1 e2 pc pp nc np b1 b2, RE e1 e2 -> R1 b1 b2 -> R (up1 e1 pc pp nc np b1) (up2 e2 pc pp nc np b2).
  Hypothesis eval_R : forall e1 e2 b1 b2, RE e1 e2 -> R b1 b2 -> R (fst (ev1 e1 b1)) (fst (ev2 e2 b2)) /\ snd (ev1 e1 b1) = snd (ev2 e2 b2).

  Definition alike (S : B1 -> B2 -> Prop) (t1 : bool * B1) (t2 : bool * B2) : Prop := fst t1 = fst t2 /\ S (snd t1) (snd t2).
  Definition same_example (d1 : E1 * L) (d2 : E2 * L) : Prop := RE (fst d1) (fst d2) /\ snd d1 = snd d2.

  Lemma run_examples_sim : forall (S S' : B1 -> B2 -> Prop) f1 f2 e1 e2 bs1 bs2 fb,
    (forall b1 b2, S b1 b2 -> S' (fst (f1 e1 b1)) (fst (f2 e2 b2)) /\ snd (f1 e1 b1) = snd (f2 e2 b2)) ->
    Forall2 (alike S) bs1 bs2 ->
    Forall2 (alike S') (fst (run_examples B1 E1 f1 e1 bs1 fb)) (fst (run_examples B2 E2 f2 e2 bs2 fb)) /\
    snd (run_examples B1 E1 f1 e1 bs1 fb) = snd (run_examples B2 E2 f2 e2 bs2 fb).
  Proof.
    intros S S' f1 f2 e1 e2 bs1 bs2 fb HS HF. revert fb. induction HF as [|[t1 b1] [t2 b2] bs1 bs2 [H1 H2] HF IH]; intros fb; cbn [run_examples].
    - split; [constructor|reflexivity].
    - cbn [fst snd] in H1, H2. destruct (HS b1 b2 H2) as [A1 A2]. destruct (f1 e1 b1) as [b1' v1]. destruct (f2 e2 b2) as [b2' v2]. cbn [fst snd] in A1, A2. subst v2 t2.
      specialize (IH (fb_register v1 fb)).
      destruct (run_examples B1 E1 f1 e1 bs1 (fb_register v1 fb)) as [x1 y1]. destruct (run_examples B2 E2 f2 e2 bs2 (fb_register v1 fb)) as [x2 y2].
      cbn [fst snd] in *. destruct IH as [I1 I2]. split; [constructor; [split; auto|auto]|auto].
  Qed.

  Lemma train_one_sim : forall d1 d2 bs1 bs2 fb, same_example d1 d2 -> Forall2 (alike R) bs1 bs2 ->
    Forall2 (alike R) (fst (train_one B1 E1 tr1 up1 L process d1 bs1 fb)) (fst (train_one B2 E2 tr2 up2 L process d2 bs2 fb)) /\
    snd (train_one B1 E1 tr1 up1 L process d1 bs1 fb) = snd (train_one B2 E2 tr2 up2 L process d2 bs2 fb).
  Proof.
    intros [e1 l1] [e2 l2] bs1 bs2 fb [He Hl] HF. cbn [fst snd] in He, Hl. subst l2. unfold train_one. cbn [fst snd].
    destruct (run_examples_sim R R1 tr1 tr2 e1 e2 bs1 bs2 (fb_reset fb) (fun b1 b2 => train_R e1 e2 b1 b2 He) HF) as [A1 A2].
    destruct (run_examples B1 E1 tr1 e1 bs1 (fb_reset fb)) as [x1 y1]. destruct (run_examples B2 E2 tr2 e2 bs2 (fb_reset fb)) as [x2 y2].
    cbn [fst snd] in *. subst y2. split; [|reflexivity]. unfold run_updates.
    induction A1 as [|[t1 b1] [t2 b2] x1 x2 [H1 H2] A1 IH]; cbn [map]; constructor; auto.
    cbn [fst snd] in H1, H2. subst t2. destruct t1; split; cbn [fst snd]; auto.
  Qed.

  Lemma train_list_sim : forall ds1 ds2, Forall2 same_example ds1 ds2 -> forall bs1 bs2 fb, Forall2 (alike R) bs1 bs2 ->
    Forall2 (alike R) (fst (train_list B1 E1 tr1 up1 L process ds1 bs1 fb)) (fst (train_list B2 E2 tr2 up2 L process ds2 bs2 fb)) /\
    snd (train_list B1 E1 tr1 up1 L process ds1 bs1 fb) = snd (train_list B2 E2 tr2 up2 L process ds2 bs2 fb).
  Proof.
    intros ds1 ds2 HD. induction HD as [|d1 d2 ds1 ds2 H1 HD IH]; intros bs1 bs2 fb HF; cbn [train_list]; [auto|].
    destruct (train_one_sim d1 d2 bs1 bs2 fb H1 HF) as [A1 A2].
    destruct (train_one B1 E1 tr1 up1 L process d1 bs1 fb) as [x1 y1]. destruct (train_one B2 E2 tr2 up2 L process d2 bs2 fb) as [x2 y2].
    cbn [fst snd] in *. subst y2. apply IH. exact A1.
  Qed.

  Lemma nth_error_sim : forall ds1 ds2 i, Forall2 same_example ds1 ds2 ->
    match nth_error ds1 i, nth_error ds2 i with Some d1, Some d2 => same_example d1 d2 | None, None => True | _, _ => False end.
  Proof. intros ds1 ds2 i H. revert i. induction H as [|a1 a2 l1 l2 K H IH]; intros [|i]; cbn [nth_error]; auto. apply IH. Qed.

  Lemma select_sim : forall ds1 ds2 idx, Forall2 same_example ds1 ds2 -> Forall2 same_example (select E1 L ds1 idx) (select E2 L ds2 idx).
  Proof.
    intros ds1 ds2 idx H. unfold select. induction idx as [|i idx IH]; cbn [flat_map]; [constructor|].
    pose proof (nth_error_sim ds1 ds2 i H) as N. destruct (nth_error ds1 i), (nth_error ds2 i); try easy. constructor; auto.
  Qed.

  Definition exec_alike (x1 : exec B1) (x2 : exec B2) : Prop :=
    Forall2 (alike R) (x_blocks x1) (x_blocks x2) /\ x_fb x1 = x_fb x2 /\ x_index x1 = x_index x2 /\ x_rng x1 = x_rng x2.

  Theorem train_epoch_sim : forall ds1 ds2 x1 x2, Forall2 same_example ds1 ds2 -> exec_alike x1 x2 ->
    exec_alike (snd (train_epoch B1 E1 tr1 up1 L process ds1 x1)) (snd (train_epoch B2 E2 tr2 up2 L process ds2 x2)) /\
    fst (train_epoch B1 E1 tr1 up1 L process ds1 x1) = fst (train_epoch B2 E2 tr2 up2 L process ds2 x2).
  Proof.
    intros ds1 ds2 x1 x2 HD [H1 [H2 [H3 H4]]]. unfold train_epoch, train_slice. cbn [x_blocks x_fb x_index x_rng Nat.eqb].
    rewrite <- (Forall2_len _ _ _ _ _ HD), <- H2, <- H4. destruct (shuffle (seq 0 (length ds1)) (x_rng x1)) as [idx r].
    destruct (train_list_sim _ _ (select_sim ds1 ds2 (firstn (length ds1 - 0) (skipn 0 idx)) HD) (x_blocks x1) (x_blocks x2) (fb_reset_counter (x_fb x1)) H1) as [A1 A2].
    destruct (train_list B1 _ _ _ _ _ _ _ _) as [u1 w1]. destruct (train_list B2 _ _ _ _ _ _ _ _) as [u2 w2]. cbn [fst snd] in *. subst w2.
    split; [|reflexivity]. unfold exec_alike. cbn [x_blocks x_fb x_index x_rng]. auto.
  Qed.

  Lemma eval_list_sim : forall es1 es2, Forall2 RE es1 es2 -> forall bs1 bs2 fb, Forall2 (alike R) bs1 bs2 ->
    let '(ys1, cs1, fb1) := eval_list B1 E1 ev1 es1 bs1 fb in
    let '(ys2, cs2, fb2) := eval_list B2 E2 ev2 es2 bs2 fb in
    ys1 = ys2 /\ Forall2 (alike R) cs1 cs2 /\ fb1 = fb2.
  Proof.
    intros es1 es2 HD. induction HD as [|e1 e2 es1 es2 H1 HD IH]; intros bs1 bs2 fb HF; cbn [eval_list]; [auto|].
    destruct (run_examples_sim R R ev1 ev2 e1 e2 bs1 bs2 (fb_reset fb) (fun b1 b2 => eval_R e1 e2 b1 b2 H1) HF) as [A1 A2].
    destruct (run_examples B1 E1 ev1 e1 bs1 (fb_reset fb)) as [x1 y1]. destruct (run_examples B2 E2 ev2 e2 bs2 (fb_reset fb)) as [x2 y2].
    cbn [fst snd] in *. subst y2. specialize (IH x1 x2 y1 A1).
    destruct (eval_list B1 E1 ev1 es1 x1 y1) as [[u1 v1] w1]. destruct (eval_list B2 E2 ev2 es2 x2 y1) as [[u2 v2] w2].
    destruct IH as [-> [I2 I3]]. auto.
  Qed.

  Theorem eval_predict_sim : forall ds1 ds2 out x1 x2, Forall2 same_example ds1 ds2 -> exec_alike x1 x2 ->
    fst (eval_predict B1 E1 ev1 L ds1 out x1) = fst (eval_predict B2 E2 ev2 L ds2 out x2) /\
    exec_alike (snd (eval_predict B1 E1 ev1 L ds1 out x1)) (snd (eval_predict B2 E2 ev2 L ds2 out x2)).
  Proof.
    intros ds1 ds2 out x1 x2 HD HX. pose proof HX as [H1 [H2 [H3 H4]]]. unfold eval_predict. rewrite <- (Forall2_len _ _ _ _ _ HD).
    destruct (negb (Nat.eqb (length out) (length ds1))); [split; [reflexivity|exact HX]|].
    assert (HE : Forall2 RE (map fst ds1) (map fst ds2)) by (clear -HD; induction HD as [|? ? ? ? [K _] ? IH]; cbn [map]; constructor; auto).
    pose proof (eval_list_sim _ _ HE (x_blocks x1) (x_blocks x2) (x_fb x1) H1) as A. rewrite <- H2, <- H3, <- H4.
    destruct (eval_list B1 _ _ _ _ _) as [[u1 v1] w1]. destruct (eval_list B2 _ _ _ _ _) as [[u2 v2] w2].
    destruct A as [-> [I2 ->]]. split; [reflexivity|]. unfold exec_alike. cbn [x_blocks x_fb x_index x_rng snd]. auto.
  Qed.

  Definition same_call (c1 : gcall E1 L) (c2 : gcall E2 L) : Prop :=
    match c1, c2 with
    | GTrain _ _ d1, GTrain _ _ d2 => Forall2 same_example d1 d2
    | GEval _ _ d1 o1, GEval _ _ d2 o2 => Forall2 same_example d1 d2 /\ o1 = o2
    | _, _ => False
    end.

  Theorem grun_sim : forall cs1 cs2, Forall2 same_call cs1 cs2 -> forall x1 x2, exec_alike x1 x2 ->
    exec_alike (grun B1 E1 tr1 ev1 up1 L process cs1 x1) (grun B2 E2 tr2 ev2 up2 L process cs2 x2).
  Proof.
    intros cs1 cs2 HC. induction HC as [|c1 c2 cs1 cs2 H1 HC IH]; intros x1 x2 HX; cbn [grun]; auto.
    destruct c1 as [d1|d1 o1], c2 as [d2|d2 o2]; cbn [same_call] in H1; try easy; apply IH.
    - apply train_epoch_sim; auto.
    - destruct H1 as [H1 ->]. apply eval_predict_sim; auto.
  Qed.
End Sim.

(** The same with one executor: an invariant that holds between examples, with a
    stronger one between train_example and train_update. *)
Section Keep2.
  Variables B E : Type.
  Variables train_ex eval_ex : E -> B -> B * list Z.
  Variable update : E -> nat -> Q -> nat -> Q -> B -> B.
  Variable L : Type.
  Variable process : L -> fblock -> fblock.
  Variables P P1 : B -> Prop.
  Variable Eok : E -> Prop.
  Hypothesis train_P : forall e b, Eok e -> P b -> P1 (fst (train_ex e b)).
  Hypothesis weaken_P : forall b, P1 b -> P b.
  Hypothesis update_P : forall e pc pp nc np b, Eok e -> P1 b -> P (update e pc pp nc np b).
  Hypothesis eval_P : forall e b, Eok e -> P b -> P (fst (eval_ex e b)).

  Lemma Forall2_diag : forall A (Q1 : A -> Prop) (Q2 : A -> A -> Prop) l, (forall a, Q1 a -> Q2 a a) -> Forall Q1 l -> Forall2 Q2 l l.
  Proof. intros A Q1 Q2 l H HF. induction HF; constructor; auto. Qed.

  Theorem grun_keep2 : forall cs x, Forall (fun c => Forall (fun d => Eok (fst d)) (gdata E L c)) cs -> Forall (fun tb => P (snd tb)) (x_blocks x) ->
    Forall (fun tb => P (snd tb)) (x_blocks (grun B E train_ex eval_ex update L process cs x)).
  Proof.
    intros cs x HC HB.
    destruct (grun_sim B B E E train_ex eval_ex train_ex eval_ex update update L process
      (fun a b => a = b /\ P a) (fun a b => a = b /\ P1 a) (fun a b => a = b /\ Eok a)) with (cs1 := cs) (cs2 := cs) (x1 := x) (x2 := x) as [A _].
    - intros e1 e2 b1 b2 [-> He] [-> Hb]. auto.
    - intros b1 b2 [-> Hb]. auto.
    - intros e1 e2 pc pp nc np b1 b2 [-> He] [-> Hb]. auto.
    - intros e1 e2 b1 b2 [-> He] [-> Hb]. auto.
    - apply (Forall2_diag _ (fun c => Forall (fun d => Eok (fst d)) (gdata E L c))); auto.
      intros [d|d o] HD; cbn [gdata] in HD; cbn [same_call].
      + apply (Forall2_diag _ (fun d => Eok (fst d))); auto. intros a Ha. split; auto.
      + split; [|reflexivity]. apply (Forall2_diag _ (fun d => Eok (fst d))); auto. intros a Ha. split; auto.
    - unfold exec_alike. split; [|auto]. apply (Forall2_diag _ (fun tb => P (snd tb))); auto. intros a Ha. split; auto.
    - remember (x_blocks (grun B E train_ex eval_ex update L process cs x)) as l. clear -A. 
      revert A. generalize l at 2. induction l as [|a l IH]; intros m H; inversion H as [|? ? ? ? [_ [_ K]]]; subst; constructor; eauto.
  Qed.
End Keep2.
