(** Executors: schedule independence, epoch permutation and accuracy. *)
From Coq Require Import ZArith List Bool QArith Lia Permutation.
From Verif Require Import Base BaseProofs ModelInference ModelFeedback ModelExecutor ProofsInference.
Import ListNotations.
Open Scope Z_scope.

Lemma Forall2_length : forall A B (R : A -> B -> Prop) l1 l2, Forall2 R l1 l2 -> length l1 = length l2.
Proof. intros A B R l1 l2 H. induction H; simpl; auto. Qed.

(** ** Registering votes in any order *)

Definition fb_ok (ncls : nat) (f : fblock) : Prop := fb_ncls f = ncls /\ (ncls <= length (fb_votes f))%nat.

Lemma map2_comm3 : forall (a v1 v2 : list Z), length v1 = length a -> length v2 = length a ->
  map2 (fun x y => wrap16 (x + y)) (map2 (fun x y => wrap16 (x + y)) a v1) v2 =
  map2 (fun x y => wrap16 (x + y)) (map2 (fun x y => wrap16 (x + y)) a v2) v1.
Proof.
  induction a as [|x a IH]; intros [|y v1] [|z v2] H1 H2; simpl in *; try lia; auto.
  f_equal; [|apply IH; lia].
  rewrite !wrap16_add_l. f_equal. lia.
Qed.

Lemma add_votes_length' : forall n votes v, (n <= length votes)%nat -> length v = n ->
  length (add_votes n votes v) = length votes.
Proof. intros. unfold add_votes. rewrite app_length, map2_length, firstn_length, skipn_length. lia. Qed.

Lemma add_votes_comm : forall n votes v1 v2, (n <= length votes)%nat -> length v1 = n -> length v2 = n ->
  add_votes n (add_votes n votes v1) v2 = add_votes n (add_votes n votes v2) v1.
Proof.
  intros n votes v1 v2 H H1 H2.
  assert (K : forall v, length v = n ->
    firstn n (add_votes n votes v) = map2 (fun a b => wrap16 (a + b)) (firstn n votes) v /\
    skipn n (add_votes n votes v) = skipn n votes).
  { intros v Hv. unfold add_votes.
    assert (L : length (map2 (fun a b => wrap16 (a + b)) (firstn n votes) v) = n)
      by (rewrite map2_length, firstn_length; lia).
    set (m := map2 _ _ _) in *.
    rewrite firstn_app, skipn_app, L, Nat.sub_diag.
    rewrite (firstn_all2 m) by lia. rewrite (skipn_all2 m) by lia.
    simpl. rewrite app_nil_r. auto. }
  destruct (K v1 H1) as [A1 A2]. destruct (K v2 H2) as [B1 B2].
  change (map2 (fun a b => wrap16 (a + b)) (firstn n (add_votes n votes v1)) v2 ++ skipn n (add_votes n votes v1) =
          map2 (fun a b => wrap16 (a + b)) (firstn n (add_votes n votes v2)) v1 ++ skipn n (add_votes n votes v2)).
  rewrite A1, A2, B1, B2. f_equal.
  apply map2_comm3; rewrite firstn_length; lia.
Qed.

Lemma register_ok : forall ncls v f, fb_ok ncls f -> length v = ncls -> fb_ok ncls (fb_register v f).
Proof. intros ncls v f [H1 H2] Hv. subst. split; simpl; auto. rewrite add_votes_length'; auto. Qed.

Lemma register_comm : forall ncls v1 v2 f, fb_ok ncls f -> length v1 = ncls -> length v2 = ncls ->
  fb_register v1 (fb_register v2 f) = fb_register v2 (fb_register v1 f).
Proof. intros ncls v1 v2 f [H1 H2] L1 L2. subst. unfold fb_register. simpl. f_equal. apply add_votes_comm; auto. Qed.

Definition reg_list (vs : list (list Z)) (f : fblock) : fblock := fold_left (fun f v => fb_register v f) vs f.

Lemma reg_list_ok : forall ncls vs f, fb_ok ncls f -> Forall (fun v => length v = ncls) vs -> fb_ok ncls (reg_list vs f).
Proof.
  intros ncls vs. induction vs as [|v vs IH]; intros f H HF; simpl; auto.
  inversion HF; subst. apply IH; auto. apply register_ok; auto.
Qed.

Lemma reg_list_front : forall ncls vs v f, fb_ok ncls f -> Forall (fun v => length v = ncls) (v :: vs) ->
  reg_list vs (fb_register v f) = fb_register v (reg_list vs f).
Proof.
  intros ncls vs. induction vs as [|u vs IH]; intros v f H HF; simpl; auto.
  inversion HF as [|? ? Hv HF']; subst. inversion HF' as [|? ? Hu HF'']; subst.
  rewrite (register_comm (length v)) by auto. apply IH; auto. apply register_ok; auto.
Qed.

Lemma reg_list_insert : forall ncls vs1 v vs2 f, fb_ok ncls f -> Forall (fun v => length v = ncls) (vs1 ++ v :: vs2) ->
  reg_list (vs1 ++ v :: vs2) f = fb_register v (reg_list (vs1 ++ vs2) f).
Proof.
  intros ncls vs1 v vs2 f H HF. unfold reg_list. rewrite !fold_left_app. simpl.
  apply Forall_app in HF. destruct HF as [HF1 HF2].
  apply (reg_list_front ncls); auto. apply (reg_list_ok ncls); auto.
Qed.

Section Sched.
  Variables B E : Type.
  Variable ncls : nat.
  Variable inv : B -> Prop.
  Variable train_ex eval_ex : E -> B -> B * list Z.
  Variable update : E -> nat -> Q -> nat -> Q -> B -> B.
  Variable L : Type.
  Variable process : L -> fblock -> fblock.

  Definition good_ex (f : E -> B -> B * list Z) : Prop :=
    forall e b, inv b -> inv (fst (f e b)) /\ length (snd (f e b)) = ncls.
  Hypothesis train_good : good_ex train_ex.
  Hypothesis eval_good : good_ex eval_ex.
  Hypothesis update_good : forall e p pp n np b, inv b -> inv (update e p pp n np b).
  Hypothesis process_good : forall l f, fb_ok ncls f -> fb_ok ncls (process l f).

  Definition all_inv (bs : list (bool * B)) : Prop := Forall (fun tb => inv (snd tb)) bs.

  (** Sequential loop in closed form. *)
  Lemma run_examples_closed : forall f e bs fb,
    run_examples B E f e bs fb =
    (map (fun tb : bool * B => (fst tb, fst (f e (snd tb)))) bs, reg_list (map (fun tb : bool * B => snd (f e (snd tb))) bs) fb).
  Proof.
    intros f e bs. induction bs as [|[t b] bs IH]; intros fb; simpl; auto.
    destruct (f e b) as [b1 v]. rewrite IH. reflexivity.
  Qed.

  Definition task_of (f : E -> B -> B * list Z) (e : E) (tb : bool * B) (k : task B) : Prop :=
    k = Todo B (fst tb) (snd tb) \/
    k = Counted B (fst tb) (fst (f e (snd tb))) (snd (f e (snd tb))) \/
    k = Done B (fst tb) (fst (f e (snd tb))).

  (** Votes of the blocks whose task is done. *)
  Fixpoint done_votes (f : E -> B -> B * list Z) (e : E) (bs : list (bool * B)) (ks : list (task B)) : list (list Z) :=
    match bs, ks with
    | tb :: bs', Done _ _ _ :: ks' => snd (f e (snd tb)) :: done_votes f e bs' ks'
    | _ :: bs', _ :: ks' => done_votes f e bs' ks'
    | _, _ => []
    end.

  Lemma done_votes_app : forall f e bs1 bs2 ks1 ks2, length bs1 = length ks1 ->
    done_votes f e (bs1 ++ bs2) (ks1 ++ ks2) = done_votes f e bs1 ks1 ++ done_votes f e bs2 ks2.
  Proof.
    intros f e bs1. induction bs1 as [|tb bs1 IH]; intros bs2 [|k ks1] ks2 H; simpl in *; try lia; auto.
    destruct k; simpl; rewrite IH by lia; auto.
  Qed.

  Lemma done_votes_width : forall f e bs ks, good_ex f -> all_inv bs ->
    Forall (fun v => length v = ncls) (done_votes f e bs ks).
  Proof.
    intros f e bs. induction bs as [|tb bs IH]; intros ks G I; simpl; auto.
    inversion I; subst. destruct ks as [|k ks]; auto. destruct k; auto.
    constructor; auto. apply G; auto.
  Qed.

  Definition phase_inv (f : E -> B -> B * list Z) (e : E) (bs : list (bool * B)) (fb0 : fblock)
    (st : list (task B) * fblock) : Prop :=
    Forall2 (task_of f e) bs (fst st) /\ snd st = reg_list (done_votes f e bs (fst st)) fb0.

  Lemma phase_inv_init : forall f e bs fb0, phase_inv f e bs fb0 (queued B bs, fb0).
  Proof.
    intros f e bs fb0. unfold phase_inv. simpl. split.
    - induction bs as [|tb bs IH]; simpl; constructor; auto. left. auto.
    - assert (K : done_votes f e bs (queued B bs) = []) by (induction bs; simpl; auto).
      rewrite K. reflexivity.
  Qed.

  Lemma phase_inv_step : forall f e bs fb0 s1 s2, good_ex f -> all_inv bs -> fb_ok ncls fb0 ->
    phase_inv f e bs fb0 s1 -> phase_step B E f e s1 s2 -> phase_inv f e bs fb0 s2.
  Proof.
    intros f e bs fb0 s1 s2 G I Hok [H1 H2] Hs. unfold phase_inv.
    inversion Hs; subst; cbn [fst snd] in *.
    - apply Forall2_app_inv_r in H1. destruct H1 as [bs1 [bs2 [A1 [A2 A3]]]].
      inversion A2 as [|tb ? bs3 ? C1 C2]; subst.
      destruct C1 as [C1|[C1|C1]]; inversion C1; subst.
      split.
      + apply Forall2_app; auto. constructor; auto. right. left. auto.
      + rewrite !done_votes_app by (apply Forall2_length in A1; auto). reflexivity.
    - apply Forall2_app_inv_r in H1. destruct H1 as [bs1 [bs2 [A1 [A2 A3]]]].
      inversion A2 as [|tb ? bs3 ? C1 C2]; subst.
      destruct C1 as [C1|[C1|C1]]; inversion C1; subst.
      split.
      + apply Forall2_app; auto. constructor; auto. right. right. auto.
      + assert (Le : length bs1 = length pre) by (apply Forall2_length in A1; auto).
        pose proof (done_votes_width f e (bs1 ++ tb :: bs3) (pre ++ Done B (fst tb) (fst (f e (snd tb))) :: post) G I) as W.
        rewrite !done_votes_app in * by auto. simpl in *.
        symmetry. apply (reg_list_insert ncls); auto.
  Qed.

  Lemma phase_inv_steps : forall f e bs fb0 s1 s2, good_ex f -> all_inv bs -> fb_ok ncls fb0 ->
    phase_inv f e bs fb0 s1 -> phase_steps B E f e s1 s2 -> phase_inv f e bs fb0 s2.
  Proof.
    intros f e bs fb0 s1 s2 G I Hok H Hs. induction Hs; auto.
    apply IHHs. eapply phase_inv_step; eauto.
  Qed.

  (** Any schedule that finishes gives the sequential result. *)
  Theorem phase_deterministic : forall f e bs fb bs1 fb1, good_ex f -> all_inv bs -> fb_ok ncls fb ->
    phase_steps B E f e (queued B bs, fb) (finished B bs1, fb1) ->
    run_examples B E f e bs fb = (bs1, fb1).
  Proof.
    intros f e bs fb bs1 fb1 G I Hok Hs.
    pose proof (phase_inv_steps f e bs fb _ _ G I Hok (phase_inv_init f e bs fb) Hs) as [H1 H2].
    cbn [fst snd] in *. rewrite run_examples_closed. f_equal.
    - clear - H1. revert bs1 H1. induction bs as [|tb bs IH]; intros [|tb1 bs1] H; simpl in *; inversion H; subst; auto.
      rewrite (IH bs1) by auto. f_equal. destruct tb1.
      destruct H3 as [C|[C|C]]; inversion C; subst; auto.
    - rewrite H2. f_equal. clear - H1. revert bs1 H1.
      induction bs as [|tb bs IH]; intros [|tb1 bs1] H; simpl in *; inversion H; subst; auto.
      rewrite (IH bs1) by auto. auto.
  Qed.

  (** Work left: two steps per queued task. *)
  Definition task_left (k : task B) : nat := match k with Todo _ _ _ => 2 | Counted _ _ _ _ => 1 | Done _ _ _ => 0 end.
  Definition work_left (ks : list (task B)) : nat := list_sum (map task_left ks).

  Lemma work_left_step : forall f e s1 s2, phase_step B E f e s1 s2 -> work_left (fst s1) = S (work_left (fst s2)).
  Proof.
    intros f e s1 s2 H. unfold work_left. inversion H; subst; simpl; rewrite !map_app, !list_sum_app; simpl; lia.
  Qed.

  Lemma work_progress : forall f e ks fb, work_left ks <> O -> exists s2, phase_step B E f e (ks, fb) s2.
  Proof.
    intros f e ks fb H.
    assert (K : exists pre k post, ks = pre ++ k :: post /\ task_left k <> O).
    { induction ks as [|k ks IH]; [unfold work_left in H; simpl in H; lia|].
      destruct (Nat.eq_dec (task_left k) 0) as [Z|Z].
      - destruct IH as [pre [k' [post [E1 E2]]]].
        + unfold work_left in *. simpl in H. lia.
        + exists (k :: pre), k', post. subst. auto.
      - exists [], k, ks. auto. }
    destruct K as [pre [k [post [-> Hk]]]]. destruct k as [t b|t b v|t b]; simpl in Hk; try lia.
    - eexists. apply PCompute.
    - eexists. apply PRegister.
  Qed.

  Lemma work_done : forall ks, work_left ks = O -> exists bs, ks = finished B bs.
  Proof.
    induction ks as [|k ks IH]; intros H; [exists []; auto|].
    unfold work_left in H. simpl in H. destruct IH as [bs Hb]; [unfold work_left; lia|].
    destruct k as [t b|t b v|t b]; simpl in H; try lia.
    exists ((t, b) :: bs). subst. auto.
  Qed.

  (** Every partial schedule can be completed, and none runs for ever. *)
  Theorem phase_completes : forall f e n ks fb, work_left ks = n ->
    exists bs1 fb1, phase_steps B E f e (ks, fb) (finished B bs1, fb1).
  Proof.
    intros f e n. induction n as [|n IH]; intros ks fb H.
    - destruct (work_done ks H) as [bs ->]. exists bs, fb. constructor.
    - destruct (work_progress f e ks fb) as [[ks2 fb2] Hs]; [lia|].
      pose proof (work_left_step _ _ _ _ Hs) as W. simpl in W.
      destruct (IH ks2 fb2) as [bs1 [fb1 K]]; [lia|].
      exists bs1, fb1. econstructor; eauto.
  Qed.

  (** ** Update phase *)

  Definition upd_of (e : E) (fb : fblock) (tb : bool * B) : bool * B :=
    let (t, b) := tb in if t then (t, update e (fb_pos fb) (fb_pp fb) (fb_neg fb) (fb_np fb) b) else (t, b).

  Definition upd_rel (e : E) (fb : fblock) (tb : bool * B) (k : task B) : Prop :=
    (fst tb = true /\ k = Todo B true (snd tb)) \/ k = Done B (fst tb) (snd (upd_of e fb tb)).

  Theorem update_deterministic : forall e fb bs bs2,
    upd_steps B E update e fb (upd_queued B bs) (finished B bs2) ->
    run_updates B E update e fb bs = bs2.
  Proof.
    intros e fb bs bs2 H.
    assert (K : forall s1 s2, upd_steps B E update e fb s1 s2 ->
      Forall2 (upd_rel e fb) bs s1 -> Forall2 (upd_rel e fb) bs s2).
    { intros s1 s2 Hs. induction Hs as [|s1 s2 s3 Hs Hss IH]; auto. intros F. apply IH. clear IH Hss.
      inversion Hs; subst. apply Forall2_app_inv_r in F. destruct F as [b1 [b2 [A1 [A2 A3]]]].
      inversion A2 as [|tb ? b3 ? C1 C2]; subst. apply Forall2_app; auto. constructor; auto.
      destruct tb as [t b']. right. destruct C1 as [[C0 C1]|C1]; simpl in *; [|inversion C1].
      inversion C1; subst. simpl. reflexivity. }
    assert (I : Forall2 (upd_rel e fb) bs (upd_queued B bs)).
    { clear. induction bs as [|[t b] bs IH]; simpl; constructor; auto.
      destruct t; simpl; [left|right]; auto. }
    pose proof (K _ _ H I) as F. clear - F. unfold run_updates.
    revert bs2 F. induction bs as [|[t b] bs IH]; intros [|[t1 b1] bs2] F; simpl in *; inversion F; subst; auto.
    rewrite (IH bs2) by auto. f_equal. destruct H2 as [[_ C]|C]; inversion C; subst.
    destruct t; auto.
  Qed.

  Theorem update_completes : forall e fb bs,
    upd_steps B E update e fb (upd_queued B bs) (finished B (run_updates B E update e fb bs)).
  Proof.
    intros e fb bs.
    assert (K : forall pre, upd_steps B E update e fb (pre ++ upd_queued B bs)
                              (pre ++ finished B (run_updates B E update e fb bs))).
    { induction bs as [|[t b] bs IH]; intros pre; simpl.
      - constructor.
      - destruct t; simpl.
        + eapply UCons; [apply UUpdate|].
          set (d := Done B true _). specialize (IH (pre ++ [d])). rewrite <- !app_assoc in IH. exact IH.
        + set (d := Done B false _). specialize (IH (pre ++ [d])). rewrite <- !app_assoc in IH. exact IH. }
    exact (K []).
  Qed.

  (** ** Whole runs *)

  Lemma reset_ok : forall f, fb_ok ncls f -> fb_ok ncls (fb_reset f).
  Proof. intros f [H1 H2]. split; simpl; auto. rewrite repeat_length. auto. Qed.

  Lemma run_examples_inv : forall f e bs fb, good_ex f -> all_inv bs -> fb_ok ncls fb ->
    all_inv (fst (run_examples B E f e bs fb)) /\ fb_ok ncls (snd (run_examples B E f e bs fb)).
  Proof.
    intros f e bs fb G I Hok. rewrite run_examples_closed. simpl. split.
    - unfold all_inv in *. rewrite Forall_map. eapply Forall_impl; [|apply I]. intros tb H. simpl. apply G; auto.
    - apply reg_list_ok; auto. rewrite Forall_map. eapply Forall_impl; [|apply I]. intros tb H. apply G; auto.
  Qed.

  Lemma run_updates_inv : forall e fb bs, all_inv bs -> all_inv (run_updates B E update e fb bs).
  Proof.
    intros e fb bs I. unfold run_updates, all_inv in *. rewrite Forall_map. eapply Forall_impl; [|apply I].
    intros [t b] H. destruct t; simpl in *; auto.
  Qed.

  Lemma train_one_inv : forall d bs fb, all_inv bs -> fb_ok ncls fb ->
    all_inv (fst (train_one B E train_ex update L process d bs fb)) /\
    fb_ok ncls (snd (train_one B E train_ex update L process d bs fb)).
  Proof.
    intros d bs fb I Hok. unfold train_one.
    pose proof (run_examples_inv train_ex (fst d) bs (fb_reset fb) train_good I (reset_ok _ Hok)) as [I1 O1].
    destruct (run_examples B E train_ex (fst d) bs (fb_reset fb)) as [bs1 fb1]. simpl in *. split.
    - apply run_updates_inv; auto.
    - apply process_good; auto.
  Qed.

  Theorem mt_train_one_det : forall d bs fb s2, all_inv bs -> fb_ok ncls fb ->
    mt_train_one B E train_ex update L process d (bs, fb) s2 ->
    train_one B E train_ex update L process d bs fb = s2.
  Proof.
    intros d bs fb s2 I Hok H. inversion H; subst. unfold train_one.
    rewrite (phase_deterministic train_ex (fst d) bs (fb_reset fb) bs1 fb1); auto.
    - f_equal. apply update_deterministic. auto.
    - apply reset_ok; auto.
  Qed.

  Theorem mt_train_list_det : forall ds s1 s2, mt_train_list B E train_ex update L process ds s1 s2 ->
    all_inv (fst s1) -> fb_ok ncls (snd s1) ->
    train_list B E train_ex update L process ds (fst s1) (snd s1) = s2.
  Proof.
    intros ds s1 s2 H. induction H as [s|d ds [bs fb] [bs2 fb2] s3 H1 H2 IH]; intros I Hok; simpl in *.
    - destruct s; auto.
    - pose proof (mt_train_one_det d bs fb _ I Hok H1) as Q.
      pose proof (train_one_inv d bs fb I Hok) as [I1 O1]. rewrite Q in *. apply IH; auto.
  Qed.

  Theorem mt_train_epoch_det : forall data x r, all_inv (x_blocks x) -> fb_ok ncls (x_fb x) ->
    mt_train_epoch B E train_ex update L process data x r ->
    train_epoch B E train_ex update L process data x = r.
  Proof.
    intros data x r I Hok H. inversion H; subst. unfold train_epoch, train_slice. simpl.
    rewrite H0. rewrite Nat.sub_0_r.
    pose proof (mt_train_list_det _ _ _ H1 I) as K. simpl in K. rewrite K; auto.
  Qed.

  Theorem mt_eval_list_det : forall es s r, mt_eval_list B E eval_ex es s r ->
    all_inv (fst s) -> fb_ok ncls (snd s) ->
    eval_list B E eval_ex es (fst s) (snd s) = r.
  Proof.
    intros es s r H. induction H; intros I Hok; simpl in *; auto.
    pose proof (phase_deterministic eval_ex e bs (fb_reset fb) bs1 fb1 eval_good I (reset_ok _ Hok) H) as Q.
    pose proof (run_examples_inv eval_ex e bs (fb_reset fb) eval_good I (reset_ok _ Hok)) as [I1 O1].
    rewrite Q in *. simpl in *. rewrite IHmt_eval_list by auto. reflexivity.
  Qed.

  (** Existence: the parallel run can always finish. *)
  Lemma phase_reaches : forall f e bs fb, good_ex f -> all_inv bs -> fb_ok ncls fb ->
    phase_steps B E f e (queued B bs, fb)
      (finished B (fst (run_examples B E f e bs fb)), snd (run_examples B E f e bs fb)).
  Proof.
    intros f e bs fb G I Hok.
    destruct (phase_completes f e _ (queued B bs) fb eq_refl) as [bs1 [fb1 K]].
    rewrite (phase_deterministic f e bs fb bs1 fb1) by auto. exact K.
  Qed.

  Theorem mt_train_one_exists : forall d bs fb, all_inv bs -> fb_ok ncls fb ->
    mt_train_one B E train_ex update L process d (bs, fb) (train_one B E train_ex update L process d bs fb).
  Proof.
    intros d bs fb I Hok. unfold train_one.
    pose proof (phase_reaches train_ex (fst d) bs (fb_reset fb) train_good I (reset_ok _ Hok)) as K.
    destruct (run_examples B E train_ex (fst d) bs (fb_reset fb)) as [bs1 fb1]. simpl in *.
    econstructor; [apply K|]. apply update_completes.
  Qed.

  Theorem mt_train_list_exists : forall ds bs fb, all_inv bs -> fb_ok ncls fb ->
    mt_train_list B E train_ex update L process ds (bs, fb) (train_list B E train_ex update L process ds bs fb).
  Proof.
    induction ds as [|d ds IH]; intros bs fb I Hok; simpl; [constructor|].
    pose proof (mt_train_one_exists d bs fb I Hok) as K.
    pose proof (train_one_inv d bs fb I Hok) as [I1 O1].
    destruct (train_one B E train_ex update L process d bs fb) as [bs1 fb1].
    econstructor; [apply K|]. apply IH; auto.
  Qed.

  Theorem mt_train_epoch_exists : forall data x, all_inv (x_blocks x) -> fb_ok ncls (x_fb x) ->
    mt_train_epoch B E train_ex update L process data x (train_epoch B E train_ex update L process data x).
  Proof.
    intros data x I Hok. unfold train_epoch, train_slice. simpl.
    destruct (shuffle (seq 0 (length data)) (x_rng x)) as [idx r] eqn:Es. rewrite Nat.sub_0_r.
    pose proof (mt_train_list_exists (select E L data (firstn (length data) idx)) (x_blocks x)
                  (fb_reset_counter (x_fb x)) I Hok) as K.
    destruct (train_list _ _ _ _ _ _ _ _ _) as [bs fb]. simpl. econstructor; eauto.
  Qed.

  Theorem mt_eval_list_exists : forall es bs fb, all_inv bs -> fb_ok ncls fb ->
    mt_eval_list B E eval_ex es (bs, fb) (eval_list B E eval_ex es bs fb).
  Proof.
    induction es as [|e es IH]; intros bs fb I Hok; simpl; [constructor|].
    pose proof (phase_reaches eval_ex e bs (fb_reset fb) eval_good I (reset_ok _ Hok)) as K.
    pose proof (run_examples_inv eval_ex e bs (fb_reset fb) eval_good I (reset_ok _ Hok)) as [I1 O1].
    destruct (run_examples B E eval_ex e bs (fb_reset fb)) as [bs1 fb1]. simpl in *.
    specialize (IH bs1 fb1 I1 O1). destruct (eval_list B E eval_ex es bs1 fb1) as [[ys bs2] fb2].
    econstructor; eauto.
  Qed.
End Sched.

(** ** Shuffling *)

Lemma set_nth_length : forall A (l : list A) i v, length (set_nth i v l) = length l.
Proof. induction l as [|h t IH]; intros [|i] v; simpl; auto. Qed.

Lemma set_nth_perm : forall (l : list nat) i v, (i < length l)%nat ->
  Permutation (nth i l O :: set_nth i v l) (v :: l).
Proof.
  induction l as [|h t IH]; intros [|i] v H; simpl in *; try lia.
  - constructor.
  - specialize (IH i v ltac:(lia)).
    transitivity (h :: nth i t O :: set_nth i v t); [constructor|].
    transitivity (h :: v :: t); [constructor; auto|constructor].
Qed.

Lemma set_nth_same : forall (l : list nat) i v, (i < length l)%nat -> nth i (set_nth i v l) O = v.
Proof. induction l as [|h t IH]; intros [|i] v H; simpl in *; try lia; auto. apply IH. lia. Qed.
Lemma set_nth_other : forall (l : list nat) i j v, i <> j -> nth j (set_nth i v l) O = nth j l O.
Proof. induction l as [|h t IH]; intros [|i] [|j] v H; simpl; auto; try lia. Qed.

Lemma swap_perm : forall l i j, (i < length l)%nat -> (j < length l)%nat -> Permutation (swap i j l) l.
Proof.
  intros l i j Hi Hj. unfold swap.
  set (a := nth i l O). set (b := nth j l O).
  pose proof (set_nth_perm l i b Hi) as P1. fold a in P1.
  assert (Hj' : (j < length (set_nth i b l))%nat) by (rewrite set_nth_length; auto).
  pose proof (set_nth_perm (set_nth i b l) j a Hj') as P2.
  assert (N : nth j (set_nth i b l) O = b).
  { destruct (Nat.eq_dec i j) as [->|Hne].
    - apply set_nth_same; auto.
    - apply set_nth_other; auto. }
  rewrite N in P2. apply (Permutation_cons_inv (a := b)).
  transitivity (a :: set_nth i b l); auto.
Qed.

Lemma shuffle_from_perm : forall k i l r, (i + k <= length l)%nat -> Permutation (fst (shuffle_from i k l r)) l.
Proof.
  induction k as [|k IH]; intros i l r H; [apply Permutation_refl|].
  cbn [shuffle_from next_int]. unfold next_int.
  set (j := Nat.modulo (ir_src r (ir_pos r)) (S i)).
  assert (Hj : (j < S i)%nat) by (apply Nat.mod_upper_bound; lia).
  assert (P : Permutation (swap i j l) l) by (apply swap_perm; lia).
  transitivity (swap i j l); auto. apply IH. apply Permutation_length in P. lia.
Qed.

Theorem shuffle_perm : forall l r, Permutation (fst (shuffle l r)) l.
Proof. intros l r. unfold shuffle. destruct l; [constructor|]. apply shuffle_from_perm. simpl. lia. Qed.


(** ** One epoch *)

Lemma select_seq : forall E L (data : list (E * L)) pre,
  select E L (pre ++ data) (seq (length pre) (length data)) = data.
Proof.
  intros E L data. induction data as [|d data IH]; intros pre; simpl; auto.
  rewrite nth_error_app2 by lia. rewrite Nat.sub_diag. simpl. f_equal.
  specialize (IH (pre ++ [d])). rewrite <- app_assoc in IH. rewrite app_length in IH. simpl in IH.
  rewrite Nat.add_1_r in IH. exact IH.
Qed.

Lemma select_perm : forall E L (data : list (E * L)) i1 i2, Permutation i1 i2 ->
  Permutation (select E L data i1) (select E L data i2).
Proof. intros. unfold select. apply Permutation_flat_map. auto. Qed.

(** The examples used by one epoch, in order. *)
Definition epoch_order {E L B} (data : list (E * L)) (x : exec B) : list (E * L) :=
  select E L data (firstn (length data) (fst (shuffle (seq 0 (length data)) (x_rng x)))).

Theorem epoch_order_perm : forall E L B (data : list (E * L)) (x : exec B),
  Permutation (epoch_order data x) data.
Proof.
  intros E L B data x. unfold epoch_order.
  pose proof (shuffle_perm (seq 0 (length data)) (x_rng x)) as P.
  pose proof (Permutation_length P) as Le. rewrite seq_length in Le.
  rewrite firstn_all2 by lia.
  transitivity (select E L data (seq 0 (length data))).
  - apply select_perm. auto.
  - pose proof (select_seq E L data []) as S. simpl in S. rewrite S. auto.
Qed.

Section Epoch.
  Variables B E : Type.
  Variable train_ex : E -> B -> B * list Z.
  Variable update : E -> nat -> Q -> nat -> Q -> B -> B.

  (** Number of steps whose first-best class equals the label, along the
      training trajectory. *)
  Fixpoint hits (ds : list (E * nat)) (bs : list (bool * B)) (fb : fblock) : Z :=
    match ds with
    | [] => 0
    | d :: ds' =>
        let fb1 := snd (run_examples B E train_ex (fst d) bs (fb_reset fb)) in
        let s := train_one B E train_ex update nat fb_process d bs fb in
        (if Nat.eqb (fb_predict fb1) (snd d) then 1 else 0) + hits ds' (fst s) (snd s)
    end.

  Lemma predicted_class_argmax : forall votes, predicted_class votes = argmax votes.
  Proof.
    intros [|v t]; unfold predicted_class, argmax; auto. simpl hd. cbn [argmax_loop].
    assert (K : (v >? v) = false) by lia. rewrite K. reflexivity.
  Qed.

  Lemma process_counts : forall l f,
    fb_correct (fb_process l f) = fb_correct f + (if Nat.eqb (fb_predict f) l then 1 else 0) /\
    fb_total (fb_process l f) = fb_total f + 1.
  Proof.
    intros l f. unfold fb_process. destruct (sample_discrete _ _) as [neg r]. simpl.
    rewrite predicted_class_argmax. unfold fb_predict. destruct (Nat.eqb _ l); lia.
  Qed.

  Lemma run_examples_counts : forall f e bs fb,
    fb_correct (snd (run_examples B E f e bs fb)) = fb_correct fb /\
    fb_total (snd (run_examples B E f e bs fb)) = fb_total fb.
  Proof.
    intros f e bs. induction bs as [|[t b] bs IH]; intros fb; simpl; auto.
    destruct (f e b) as [b1 v]. specialize (IH (fb_register v fb)).
    destruct (run_examples B E f e bs (fb_register v fb)). simpl in *. auto.
  Qed.

  Lemma train_list_counts : forall ds bs fb,
    let s := train_list B E train_ex update nat fb_process ds bs fb in
    fb_correct (snd s) = fb_correct fb + hits ds bs fb /\
    fb_total (snd s) = fb_total fb + Z.of_nat (length ds).
  Proof.
    induction ds as [|d ds IH]; intros bs fb; cbn [train_list hits length]; [simpl; lia|].
    destruct (train_one B E train_ex update nat fb_process d bs fb) as [bs1 fb1] eqn:Et.
    specialize (IH bs1 fb1). cbv zeta in *. cbn [fst snd]. destruct IH as [I1 I2]. rewrite I1, I2.
    unfold train_one in Et. pose proof (run_examples_counts train_ex (fst d) bs (fb_reset fb)) as [C1 C2].
    destruct (run_examples B E train_ex (fst d) bs (fb_reset fb)) as [bs2 fb2]. cbn [fst snd] in *.
    inversion Et; subst. destruct (process_counts (snd d) fb2) as [P1 P2]. rewrite P1, P2, C1, C2.
    simpl fb_correct. simpl fb_total. lia.
  Qed.

  Lemma hits_bound : forall ds bs fb, 0 <= hits ds bs fb <= Z.of_nat (length ds).
  Proof.
    induction ds as [|d ds IH]; intros bs fb; cbn [hits length]; [simpl; lia|].
    cbv zeta. specialize (IH (fst (train_one B E train_ex update nat fb_process d bs fb))
                             (snd (train_one B E train_ex update nat fb_process d bs fb))).
    destruct (Nat.eqb _ _); lia.
  Qed.

  Theorem epoch_accuracy : forall data x, data <> [] ->
    let h := hits (epoch_order data x) (x_blocks x) (fb_reset_counter (x_fb x)) in
    (fst (train_epoch B E train_ex update nat fb_process data x) == inject_Z h / inject_Z (Z.of_nat (length data)))%Q /\
    0 <= h <= Z.of_nat (length data).
  Proof.
    intros data x Hd h.
    pose proof (epoch_order_perm E nat B data x) as P. pose proof (Permutation_length P) as Le.
    split.
    - unfold train_epoch, train_slice. simpl. rewrite Nat.sub_0_r.
      pose proof (train_list_counts (epoch_order data x) (x_blocks x) (fb_reset_counter (x_fb x))) as K.
      fold h in K. unfold epoch_order in *.
      destruct (shuffle (seq 0 (length data)) (x_rng x)) as [idx r]. cbn [fst] in *.
      destruct (train_list B E train_ex update nat fb_process (select E nat data (firstn (length data) idx))
                  (x_blocks x) (fb_reset_counter (x_fb x))) as [bs fb]. cbn [fst snd x_fb] in *.
      cbv zeta in K. destruct K as [K1 K2]. simpl fb_correct in K1. simpl fb_total in K2. unfold fb_accuracy.
      rewrite K1, K2, Le. rewrite !Z.add_0_l.
      assert (0 < length data)%nat by (destruct data; simpl; [congruence|lia]).
      assert (G : (Z.of_nat (length data) >? 0) = true) by lia. rewrite G. reflexivity.
    - unfold h. pose proof (hits_bound (epoch_order data x) (x_blocks x) (fb_reset_counter (x_fb x))) as K.
      rewrite Le in K. exact K.
  Qed.

  Theorem epoch_trajectory : forall data x,
    let s := train_list B E train_ex update nat fb_process (epoch_order data x) (x_blocks x) (fb_reset_counter (x_fb x)) in
    x_blocks (snd (train_epoch B E train_ex update nat fb_process data x)) = fst s /\
    x_fb (snd (train_epoch B E train_ex update nat fb_process data x)) = snd s.
  Proof.
    intros data x. unfold train_epoch, train_slice, epoch_order. simpl. rewrite Nat.sub_0_r.
    destruct (shuffle (seq 0 (length data)) (x_rng x)) as [idx r]. cbn [fst].
    destruct (train_list _ _ _ _ _ _ _ _ _) as [bs fb]. auto.
  Qed.

  Theorem epoch_empty : forall x, (fst (train_epoch B E train_ex update nat fb_process [] x) == 0)%Q.
  Proof. intros x. unfold train_epoch, train_slice. simpl. reflexivity. Qed.
End Epoch.
