(** The executor on the pool computes what the single-thread executor computes. *)
From Coq Require Import ZArith List Bool QArith Lia Arith Permutation.
From Verif Require Import Base BaseProofs ModelInference ModelFeedback ModelExecutor ProofsInference ProofsExecutor
  ModelPool SpecPool ModelPoolExec SpecPoolExec.
Import ListNotations.
Open Scope Z_scope.

(** ** Fork and join: cutting executions at the barriers *)

Section Cut.
  Variables M T : Type.
  Variable ac : T -> M -> tres M T.
  Notation fj := (list (op M T) * list T * M)%type.
  Implicit Types (o : list (op M T)) (k : list T) (m : M).

  Lemma fj_trans : forall a b c, fj_steps ac a b -> fj_steps ac b c -> fj_steps ac a c.
  Proof. intros a b c H1 H2. induction H2 as [b|b c d H2 IH St]; auto. eapply FSnoc; [apply IH; auto|exact St]. Qed.

  Lemma fj_suffix : forall a b, fj_steps ac a b -> exists p, fst (fst a) = p ++ fst (fst b).
  Proof.
    intros a b H. induction H as [a|a b c H [p IH] St]; [exists []; auto|].
    inversion St; subst; cbn [fst] in *.
    - exists (p ++ [OPush f]). rewrite <- app_assoc. auto.
    - exists (p ++ [OWait]). rewrite <- app_assoc. auto.
    - exists (p ++ [ODo g]). rewrite <- app_assoc. auto.
    - exists (p ++ [OStop]). rewrite <- app_assoc. auto.
    - eauto.
    - eauto.
  Qed.

  Lemma suffix_eq : forall A (p : list A) (x : list A) q y, p ++ x = q ++ y -> length x = length y -> x = y.
  Proof.
    intros A. induction p as [|a p IH]; intros x q y H L.
    - destruct q; auto. cbn [app] in H. subst x. cbn [length] in L. rewrite app_length in L. lia.
    - destruct q as [|b q]; cbn [app] in H.
      + subst y. cbn [length] in L. rewrite app_length in L. lia.
      + inversion H; subst. eapply IH; eauto.
  Qed.

  Lemma fj_cut : forall ops rest m o k m', fj_steps ac (ops ++ OWait :: rest, [], m) (o, k, m') -> (length o <= length rest)%nat ->
    exists m1, fj_steps ac (ops ++ OWait :: rest, [], m) (OWait :: rest, [], m1) /\ fj_steps ac (rest, [], m1) (o, k, m').
  Proof.
    intros ops rest m o k m' H. remember (ops ++ OWait :: rest, [], m) as a eqn:Ea. remember (o, k, m') as b eqn:Eb.
    revert o k m' Eb. induction H as [a|a b c H IH St]; intros o k m' Eb Le; subst.
    - inversion Eb; subst. rewrite app_length in Le. cbn [length] in Le. lia.
    - specialize (IH eq_refl). destruct b as [[ob kb] mb].
      destruct (le_lt_dec (length ob) (length rest)) as [D|D].
      + destruct (IH ob kb mb eq_refl D) as [m1 [I1 I2]]. exists m1. split; auto. econstructor; eauto.
      + pose proof (fj_suffix _ _ H) as [p Ep]. cbn [fst] in Ep.
        assert (C : forall x o', ob = x :: o' -> (length o' <= length rest)%nat -> x :: o' = OWait :: rest).
        { intros x o' -> L'. symmetry. eapply suffix_eq; [exact Ep|]. cbn [length] in *. lia. }
        inversion St; subst; try lia; specialize (C _ _ eq_refl Le); inversion C; subst.
        exists m'. split; auto. constructor.
  Qed.

  Lemma fj_do : forall g ops m o k m', fj_steps ac (ODo g :: ops, [], m) (o, k, m') -> (length o <= length ops)%nat ->
    fj_steps ac (ops, [], g m) (o, k, m').
  Proof.
    intros g ops m o k m' H. remember (ODo g :: ops, [], m) as a eqn:Ea. remember (o, k, m') as b eqn:Eb.
    assert (G : b = a \/ fj_steps ac (ops, [], g m) b).
    { clear o k m' Eb. induction H as [a|a b c H IH St]; auto. right. destruct (IH Ea) as [X|X]; [|econstructor; eauto].
      subst. inversion St; subst; try constructor; destruct k1; discriminate. }
    intros Le. destruct G as [G|G]; [|subst; auto]. subst. inversion G; subst. cbn [length] in Le. lia.
  Qed.

  Lemma fj_nil : forall m o k m', fj_steps ac ([], [], m) (o, k, m') -> o = [] /\ k = [] /\ m' = m.
  Proof.
    intros m o k m' H. remember ([], [], m) as a eqn:Ea. remember (o, k, m') as b eqn:Eb. revert o k m' Eb.
    induction H as [a|a b c H IH St]; intros o k m' Eb; subst; [inversion Eb; auto|].
    destruct b as [[ob kb] mb]. destruct (IH eq_refl _ _ _ eq_refl) as [-> [-> ->]].
    inversion St; subst; destruct k1; discriminate.
  Qed.
End Cut.

(** ** Lists of slots *)

Section Slots.
  Variables X T : Type.
  Variable wants : X -> bool.
  Variable work : nat -> X -> option T.

  Fixpoint waiting (i : nat) (l : list X) : list nat :=
    match l with [] => [] | a :: r => if wants a then i :: waiting (S i) r else waiting (S i) r end.
  Definition opt {A} (o : option A) : list A := match o with Some a => [a] | None => [] end.
  Fixpoint live (i : nat) (l : list X) : list T :=
    match l with [] => [] | a :: r => opt (work i a) ++ live (S i) r end.

  Lemma waiting_app : forall l1 l2 i, waiting i (l1 ++ l2) = waiting i l1 ++ waiting (i + length l1) l2.
  Proof.
    induction l1 as [|a l1 IH]; intros l2 i; cbn [app waiting length]; [rewrite Nat.add_0_r; auto|].
    rewrite IH. replace (S i + length l1)%nat with (i + S (length l1))%nat by lia. destruct (wants a); auto.
  Qed.
  Lemma live_app : forall l1 l2 i, live i (l1 ++ l2) = live i l1 ++ live (i + length l1) l2.
  Proof.
    induction l1 as [|a l1 IH]; intros l2 i; cbn [app live length]; [rewrite Nat.add_0_r; auto|].
    rewrite IH, <- app_assoc. replace (S i + length l1)%nat with (i + S (length l1))%nat by lia. auto.
  Qed.

  Lemma waiting_split : forall l i j js, waiting i l = j :: js -> exists l1 a l2, l = l1 ++ a :: l2 /\
    wants a = true /\ waiting i l1 = [] /\ (j = i + length l1)%nat /\ js = waiting (S j) l2.
  Proof.
    induction l as [|a l IH]; intros i j js H; cbn [waiting] in H; [discriminate|].
    destruct (wants a) eqn:W.
    - inversion H; subst. exists [], a, l. cbn [length app waiting]. repeat split; auto.
    - destruct (IH _ _ _ H) as [l1 [b [l2 [H1 [H2 [H3 [H4 H5]]]]]]].
      exists (a :: l1), b, l2. cbn [app length waiting]. rewrite W. subst. repeat split; auto. lia.
  Qed.

  Lemma live_split : forall l i t k1 k2, Permutation (k1 ++ t :: k2) (live i l) -> exists l1 a l2, l = l1 ++ a :: l2 /\
    work (i + length l1) a = Some t /\ Permutation (k1 ++ k2) (live i l1 ++ live (S (i + length l1)) l2).
  Proof.
    intros l i t k1 k2 P.
    assert (I : In t (live i l)) by (eapply Permutation_in; [exact P|]; apply in_or_app; right; left; auto).
    assert (S0 : exists l1 a l2, l = l1 ++ a :: l2 /\ work (i + length l1) a = Some t).
    { clear P. revert i I. induction l as [|a l IH]; intros i I; cbn [live] in I; [contradiction|].
      apply in_app_or in I. destruct I as [I|I].
      - exists [], a, l. split; auto. cbn [length]. rewrite Nat.add_0_r. destruct (work i a); cbn [opt] in I; [|contradiction].
        destruct I as [->|[]]; auto.
      - destruct (IH _ I) as [l1 [b [l2 [-> H2]]]]. exists (a :: l1), b, l2. split; auto. cbn [length].
        rewrite <- H2. f_equal. lia. }
    destruct S0 as [l1 [a [l2 [-> H2]]]]. exists l1, a, l2. repeat split; auto.
    rewrite live_app in P. cbn [live] in P. rewrite H2 in P. cbn [opt app] in P.
    eapply Permutation_app_inv; exact P.
  Qed.

  (** A slot with no task in it takes one. *)
  Lemma live_put : forall l1 a b l2 i t k, work (i + length l1) a = None -> work (i + length l1) b = Some t ->
    Permutation k (live i (l1 ++ a :: l2)) -> Permutation (k ++ [t]) (live i (l1 ++ b :: l2)).
  Proof.
    intros l1 a b l2 i t k H1 H2 P. rewrite live_app in *. cbn [live] in *. rewrite H1 in P. rewrite H2. cbn [opt app] in *.
    transitivity (t :: k); [apply Permutation_sym, Permutation_cons_append|]. etransitivity; [|apply Permutation_middle]. constructor. auto.
  Qed.
  Lemma live_next : forall l1 b l2 i t k1 k2, work (i + length l1) b = Some t ->
    Permutation (k1 ++ k2) (live i l1 ++ live (S (i + length l1)) l2) -> Permutation (k1 ++ t :: k2) (live i (l1 ++ b :: l2)).
  Proof.
    intros l1 b l2 i t k1 k2 H P. rewrite live_app. cbn [live]. rewrite H. cbn [opt app].
    etransitivity; [apply Permutation_sym, Permutation_middle|]. etransitivity; [|apply Permutation_middle]. constructor. auto.
  Qed.
  Lemma live_end : forall l1 b l2 i k1 k2, work (i + length l1) b = None ->
    Permutation (k1 ++ k2) (live i l1 ++ live (S (i + length l1)) l2) -> Permutation (k1 ++ k2) (live i (l1 ++ b :: l2)).
  Proof. intros l1 b l2 i k1 k2 H P. rewrite live_app. cbn [live]. rewrite H. cbn [opt app]. auto. Qed.
  Lemma waiting_swap : forall l1 a b l2 i, wants a = wants b -> waiting i (l1 ++ a :: l2) = waiting i (l1 ++ b :: l2).
  Proof. intros. rewrite !waiting_app. cbn [waiting]. rewrite H. auto. Qed.
  Lemma live_none : forall l i a, live i l = [] -> In a l -> exists j, work j a = None.
  Proof.
    induction l as [|b l IH]; intros i a H I; [contradiction|]. cbn [live] in H. apply app_eq_nil in H. destruct H as [H1 H2].
    destruct I as [->|I]; [|eauto]. exists i. destruct (work i a); auto. discriminate.
  Qed.
  Lemma waiting_none : forall l i a, waiting i l = [] -> In a l -> wants a = false.
  Proof.
    induction l as [|b l IH]; intros i a H I; [contradiction|]. cbn [waiting] in H.
    destruct (wants b) eqn:W; [discriminate|]. destruct I as [->|I]; eauto.
  Qed.
End Slots.
Arguments waiting {X}. Arguments live {X T}.

(** ** Adding votes one by one *)

Definition part (i : nat) (v : list Z) (f : fblock) : fblock :=
  mkFb (fb_ncls f) (fb_thr f) (add_votes i (fb_votes f) v) (fb_probs f) (fb_pos f) (fb_neg f)
       (fb_pp f) (fb_np f) (fb_correct f) (fb_total f) (fb_rng f).

Lemma part_0 : forall v f, part 0 v f = f.
Proof. intros v []. reflexivity. Qed.
Lemma part_all : forall n v f, fb_ncls f = n -> part n v f = fb_register v f.
Proof. intros n v f <-. reflexivity. Qed.

Lemma add_votes_S : forall i votes v, (i < length votes)%nat -> (i < length v)%nat ->
  set_nth i (wrap16 (nth i (add_votes i votes v) 0 + nth i v 0)) (add_votes i votes v) = add_votes (S i) votes v.
Proof.
  unfold add_votes. induction i as [|i IH]; intros [|a votes] [|b v] H1 H2; cbn [length] in *; try lia.
  - cbn [firstn skipn map2 app nth set_nth]. auto.
  - cbn [firstn skipn map2 app nth set_nth] in *. f_equal. apply IH; lia.
Qed.
Lemma part_S : forall i v f, (i < length (fb_votes f))%nat -> (i < length v)%nat ->
  set_vote i (wrap16 (nth i (fb_votes (part i v f)) 0 + nth i v 0)) (part i v f) = part (S i) v f.
Proof. intros i v f H1 H2. unfold set_vote, part. cbn [fb_votes fb_ncls fb_thr fb_probs fb_pos fb_neg fb_pp fb_np fb_correct fb_total fb_rng]. rewrite add_votes_S; auto. Qed.

Lemma set_nth_app : forall A (l1 : list A) a l2 b, set_nth (length l1) b (l1 ++ a :: l2) = l1 ++ b :: l2.
Proof. induction l1 as [|c l1 IH]; intros; cbn [app length set_nth]; auto. rewrite IH. auto. Qed.
Lemma nth_app : forall A (l1 : list A) a l2, nth_error (l1 ++ a :: l2) (length l1) = Some a.
Proof. induction l1 as [|c l1 IH]; intros; cbn [app length nth_error]; auto. Qed.

Section Exec.
  Variables B E : Type.
  Variable train_ex eval_ex : E -> B -> B * list Z.
  Variable update : E -> nat -> Q -> nat -> Q -> B -> B.
  Variable L : Type.
  Variable process : L -> fblock -> fblock.
  Variable ncls : nat.
  Variable inv : B -> Prop.
  Hypothesis train_good : good_ex B E ncls inv train_ex.
  Hypothesis eval_good : good_ex B E ncls inv eval_ex.
  Hypothesis update_good : forall e p pp n np b, inv b -> inv (update e p pp n np b).
  Hypothesis process_good : forall l f, fb_ok ncls f -> fb_ok ncls (process l f).

  Notation mem := (xmem B E).
  Notation ac := (act train_ex eval_ex update ncls).
  Notation steps := (fj_steps ac).
  Ltac fields := cbn [with_blocks with_fb with_lock m_blocks m_fb m_lock m_cur m_log fst snd] in *.

  (** ** The example phase *)
  Section Phase.
    Variable ev : bool.
    Variable e : E.
    Variable m0 : mem.
    Variable rest : list (op mem ktask).
    Let f := if ev then eval_ex else train_ex.
    Let bs := m_blocks m0.
    Let fb0 := m_fb m0.
    Hypothesis I0 : all_inv B inv bs.
    Hypothesis F0 : fb_ok ncls fb0.

    Inductive st := SWait | SFresh | SLock | SLoad (i : nat) | SStore (i : nat) (x : Z) | SDone.
    Notation slot := (st * (bool * B))%type.
    Definition votes_of (a : slot) : list Z := snd (f e (snd (snd a))).
    Definition s_wants (a : slot) : bool := match fst a with SWait => true | _ => false end.
    Definition s_work (j : nat) (a : slot) : option ktask :=
      match fst a with
      | SFresh => Some (KEx ev j)
      | SLock => Some (KLock j (votes_of a))
      | SLoad i => Some (KLoad j (votes_of a) i)
      | SStore i x => Some (KStore j (votes_of a) i x)
      | _ => None
      end.
    Definition worked (a : slot) : bool * B := (fst (snd a), fst (f e (snd (snd a)))).
    Definition s_now (a : slot) : bool * B := match fst a with SWait | SFresh => snd a | _ => worked a end.
    Definition s_abs (a : slot) : task B :=
      match fst a with
      | SWait | SFresh => Todo B (fst (snd a)) (snd (snd a))
      | SDone => Done B (fst (snd a)) (fst (f e (snd (snd a))))
      | _ => Counted B (fst (snd a)) (fst (f e (snd (snd a)))) (votes_of a)
      end.
    Definition s_holds (a : slot) : bool := match fst a with SLoad _ | SStore _ _ => true | _ => false end.

    Definition votes_inv (fba : fblock) (l : list slot) (m : mem) : Prop :=
      match filter s_holds l with
      | [] => m_lock m = false /\ m_fb m = fba
      | [a] => m_lock m = true /\
          match fst a with
          | SLoad i => (i <= ncls)%nat /\ m_fb m = part i (votes_of a) fba
          | SStore i x => (i < ncls)%nat /\ m_fb m = part i (votes_of a) fba /\ x = nth i (fb_votes (m_fb m)) 0
          | _ => False
          end
      | _ => False
      end.

    Record p_inv (l : list slot) (fba : fblock) (m : mem) : Prop := {
      i_bs : map snd l = bs;
      i_now : m_blocks m = map s_now l;
      i_cur : m_cur m = e;
      i_log : m_log m = m_log m0;
      i_abs : phase_steps B E f e (queued B bs, fb0) (map s_abs l, fba);
      i_votes : votes_inv fba l m
    }.

    Definition ex_inv (a : list (op mem ktask) * list ktask * mem) : Prop :=
      (length (fst (fst a)) <= length rest)%nat \/
      exists l fba, fst (fst a) = map (push_ex ev) (waiting s_wants 0 l) ++ OWait :: rest /\
        Permutation (snd (fst a)) (live s_work 0 l) /\ p_inv l fba (snd a).

    Lemma f_good : good_ex B E ncls inv f.
    Proof. unfold f. destruct ev; auto. Qed.

    Lemma phase_trans : forall a b c, phase_steps B E f e a b -> phase_step B E f e b c -> phase_steps B E f e a c.
    Proof. intros a b c H1 H2. induction H1; [econstructor; [eauto|constructor]|econstructor; eauto]. Qed.

    Lemma fba_ok : forall l fba m, p_inv l fba m -> fb_ok ncls fba.
    Proof.
      intros l fba m H.
      pose proof (phase_inv_steps B E ncls inv f e bs fb0 _ _ f_good I0 F0 (phase_inv_init B E f e bs fb0) (i_abs _ _ _ H)) as [_ X].
      cbn [snd] in X. rewrite X. apply reg_list_ok; auto. apply (done_votes_width B E ncls inv); auto. apply f_good.
    Qed.

    Lemma slot_votes : forall l fba m a, p_inv l fba m -> In a l -> length (votes_of a) = ncls.
    Proof.
      intros l fba m a H Ia. apply f_good. assert (X : In (snd a) bs) by (rewrite <- (i_bs _ _ _ H); apply in_map; auto).
      unfold all_inv in I0. rewrite Forall_forall in I0. apply I0 in X. auto.
    Qed.

    Lemma filter_mid : forall (l1 : list slot) a l2, filter s_holds (l1 ++ a :: l2) =
      filter s_holds l1 ++ (if s_holds a then [a] else []) ++ filter s_holds l2.
    Proof. intros. rewrite filter_app. cbn [filter]. destruct (s_holds a); auto. Qed.

    (** A step of a slot that holds the lock neither before nor after. *)
    Lemma votes_keep : forall fba l1 a b l2 m m', votes_inv fba (l1 ++ a :: l2) m -> s_holds a = false -> s_holds b = false ->
      m_lock m' = m_lock m -> m_fb m' = m_fb m -> votes_inv fba (l1 ++ b :: l2) m'.
    Proof.
      intros fba l1 a b l2 m m' H Ha Hb E1 E2. unfold votes_inv in *. rewrite filter_mid in *. rewrite Ha in H. rewrite Hb, E1, E2. auto.
    Qed.
    (** The slot that holds the lock is the only one. *)
    Lemma votes_holder : forall fba l1 a l2 m, votes_inv fba (l1 ++ a :: l2) m -> s_holds a = true ->
      filter s_holds l1 = [] /\ filter s_holds l2 = [] /\ m_lock m = true /\
      match fst a with
      | SLoad i => (i <= ncls)%nat /\ m_fb m = part i (votes_of a) fba
      | SStore i x => (i < ncls)%nat /\ m_fb m = part i (votes_of a) fba /\ x = nth i (fb_votes (m_fb m)) 0
      | _ => False
      end.
    Proof.
      intros fba l1 a l2 m H Ha. unfold votes_inv in H. rewrite filter_mid, Ha in H. cbn [app] in H.
      destruct (filter s_holds l1) as [|c [|d r]]; cbn [app] in H; [|contradiction|contradiction].
      destruct (filter s_holds l2); [|contradiction]. auto.
    Qed.
    Lemma votes_free : forall fba l m, votes_inv fba l m -> m_lock m = false -> filter s_holds l = [] /\ m_fb m = fba.
    Proof.
      intros fba l m H Lk. unfold votes_inv in H. destruct (filter s_holds l) as [|a [|b r]]; [tauto| |contradiction].
      destruct H as [H _]. congruence.
    Qed.

    Lemma ex_step : forall a b, ex_inv a -> fj_step ac a b -> ex_inv b.
    Proof.
      intros a b [H|[l [fba [H1 [H2 H3]]]]] St; [left; inversion St; subst; cbn [fst length] in *; lia|].
      destruct a as [[o k] m]. fields. subst o.
      inversion St; subst; clear St; cbn [fst snd] in *.
      - (* push *) right. destruct (waiting s_wants 0 l) as [|j js] eqn:W; cbn [map app] in *; [discriminate|].
        match goal with X : _ :: _ = _ :: _ |- _ => inversion X; subst; clear X end.
        destruct (waiting_split _ _ _ _ _ _ W) as [l1 [[s tb] [l2 [-> [W1 [W2 [W3 W4]]]]]]]. cbn [Nat.add] in W3. subst j js.
        unfold s_wants in W1. cbn [fst] in W1. destruct s; try discriminate.
        exists (l1 ++ (SFresh, tb) :: l2), fba. cbn [fst snd]. split; [|split].
        + rewrite waiting_app. cbn [waiting s_wants fst]. rewrite W2. cbn [app Nat.add]. auto.
        + eapply live_put; [| |exact H2]; reflexivity.
        + destruct H3 as [J1 J2 J3 J4 J5 J6]. constructor; auto; rewrite ?map_app in *; auto.
          eapply votes_keep; eauto.
      - (* wait *) left. destruct (waiting s_wants 0 l) as [|j js] eqn:W; cbn [map app] in *; [|discriminate].
        match goal with X : _ :: _ = _ :: _ |- _ => inversion X; subst; clear X end. cbn [fst]. auto.
      - destruct (waiting s_wants 0 l) as [|j js]; discriminate.
      - destruct (waiting s_wants 0 l) as [|j js]; discriminate.
      - (* action *) right. match goal with X : _ = Next _ _ |- _ => rename X into H end.
        destruct (live_split _ _ _ _ _ _ _ _ H2) as [l1 [[s tb] [l2 [-> [W1 W2]]]]]. cbn [Nat.add] in W1, W2.
        pose proof (fba_ok _ _ _ H3) as [O1 O2].
        pose proof (slot_votes _ _ _ (s, tb) H3 ltac:(apply in_or_app; right; left; auto)) as Vl.
        destruct H3 as [J1 J2 J3 J4 J5 J6].
        unfold s_work in W1. cbn [fst] in W1. destruct s; inversion W1; subst; clear W1; cbn [act] in *.
        + (* the work on the block *)
          rewrite J2, map_app in H. cbn [map] in H. replace (length l1) with (length (map s_now l1)) in H by apply map_length.
          rewrite nth_app in H. unfold s_now in H at 1. cbn [fst snd] in H. destruct tb as [tr bb]. fold f in H. rewrite J3 in H.
          destruct (f e bb) as [b1 v] eqn:Ef. inversion H; subst; clear H.
          exists (l1 ++ (SLock, (tr, bb)) :: l2), fba. cbn [fst snd]. split; [|split].
          * rewrite (waiting_swap _ _ l1 (SFresh, (tr, bb)) (SLock, (tr, bb)) l2); auto.
          * eapply live_next; eauto. unfold s_work, votes_of. cbn [fst snd]. rewrite Ef, map_length. auto.
          * constructor; fields; auto.
            -- rewrite map_app in *. auto.
            -- rewrite map_app in *. cbn [map] in *. rewrite set_nth_app. f_equal. f_equal. unfold s_now, worked. cbn [fst snd]. rewrite Ef. auto.
            -- eapply phase_trans; [exact J5|]. rewrite !map_app. cbn [map]. apply (PCompute B E f e (map s_abs l1) tr bb (map s_abs l2) fba).
            -- eapply votes_keep; eauto.
        + (* lock *)
          destruct (m_lock m) eqn:Lk; inversion H; subst; clear H.
          destruct (votes_free _ _ _ J6 Lk) as [N1 N2].
          exists (l1 ++ (SLoad 0, tb) :: l2), (m_fb m). cbn [fst snd]. split; [|split].
          * rewrite (waiting_swap _ _ l1 (SLock, tb) (SLoad 0, tb) l2); auto.
          * eapply live_next; eauto.
          * constructor; fields; auto; rewrite ?map_app in *; cbn [map] in *; auto.
            -- rewrite N2. auto.
            -- rewrite filter_mid in N1. apply app_eq_nil in N1. destruct N1 as [N1 N3]. apply app_eq_nil in N3. destruct N3 as [_ N3].
               unfold votes_inv. rewrite filter_mid, N1, N3. cbn [s_holds fst app]. fields. rewrite part_0. repeat split; auto. lia.
        + (* load *)
          destruct (votes_holder _ _ _ _ _ J6 eq_refl) as [N1 [N2 [N3 [N4 N5]]]]. cbn [fst] in *.
          destruct (i <? ncls)%nat eqn:Li; inversion H; subst; clear H. apply Nat.ltb_lt in Li.
          exists (l1 ++ (SStore i (nth i (fb_votes (m_fb m')) 0), tb) :: l2), fba. cbn [fst snd]. split; [|split].
          * rewrite (waiting_swap _ _ l1 (SLoad i, tb) (SStore i (nth i (fb_votes (m_fb m')) 0), tb) l2); auto.
          * eapply live_next; eauto.
          * constructor; fields; auto; rewrite ?map_app in *; cbn [map] in *; auto.
            unfold votes_inv. rewrite filter_mid, N1, N2. cbn [s_holds fst app]. repeat split; auto.
        + (* store *)
          destruct (votes_holder _ _ _ _ _ J6 eq_refl) as [N1 [N2 [N3 [N4 [N5 N6]]]]]. cbn [fst] in *.
          inversion H; subst t' m'; clear H.
          exists (l1 ++ (SLoad (S i), tb) :: l2), fba. cbn [fst snd]. split; [|split].
          * rewrite (waiting_swap _ _ l1 (SStore i x, tb) (SLoad (S i), tb) l2); auto.
          * eapply live_next; eauto.
          * constructor; fields; auto; rewrite ?map_app in *; cbn [map] in *; auto.
            unfold votes_inv. rewrite filter_mid, N1, N2. cbn [s_holds fst app]. fields. repeat split; auto.
            rewrite N6, N5. apply part_S; [lia|]. unfold votes_of in *. fields. lia.
      - (* end of a task *) right. match goal with X : _ = Finished _ |- _ => rename X into H end.
        destruct (live_split _ _ _ _ _ _ _ _ H2) as [l1 [[s tb] [l2 [-> [W1 W2]]]]]. cbn [Nat.add] in W1, W2.
        pose proof (fba_ok _ _ _ H3) as [O1 O2].
        destruct H3 as [J1 J2 J3 J4 J5 J6].
        unfold s_work in W1. cbn [fst] in W1. destruct s; inversion W1; subst; clear W1; cbn [act] in *.
        + rewrite J2, map_app in H. cbn [map] in H. replace (length l1) with (length (map s_now l1)) in H by apply map_length.
          rewrite nth_app in H. unfold s_now in H at 1. cbn [fst snd] in H. destruct tb as [tr bb]. fold f in H. rewrite J3 in H.
          destruct (f e bb) as [b1 v] eqn:Ef. discriminate.
        + destruct (m_lock m); discriminate.
        + destruct (votes_holder _ _ _ _ _ J6 eq_refl) as [N1 [N2 [N3 [N4 N5]]]]. cbn [fst] in *.
          destruct (i <? ncls)%nat eqn:Li; inversion H; subst; clear H. apply Nat.ltb_ge in Li.
          assert (i = ncls) by lia. subst i.
          exists (l1 ++ (SDone, tb) :: l2), (fb_register (votes_of (SDone, tb)) fba). cbn [fst snd]. split; [|split].
          * rewrite (waiting_swap _ _ l1 (SLoad ncls, tb) (SDone, tb) l2); auto.
          * eapply live_end; eauto.
          * constructor; fields; auto; rewrite ?map_app in *; cbn [map] in *; auto.
            -- eapply phase_trans; [exact J5|]. apply (PRegister B E f e (map s_abs l1) (fst tb) (fst (f e (snd tb))) (votes_of (SDone, tb)) (map s_abs l2) fba).
            -- unfold votes_inv. rewrite filter_mid, N1, N2. cbn [s_holds fst app]. fields. split; auto.
               rewrite N5. apply part_all. auto.
        + discriminate.
    Qed.

    Lemma ex_steps : forall a b, ex_inv a -> steps a b -> ex_inv b.
    Proof. intros a b H St. induction St as [a|a b c St IH X]; auto. eapply ex_step; [apply IH; auto|exact X]. Qed.

    Lemma ex_start : m_lock m0 = false -> m_cur m0 = e ->
      ex_inv (map (push_ex ev) (seq 0 (length bs)) ++ OWait :: rest, [], m0).
    Proof.
      intros Lk Ce. right. exists (map (fun tb => (SWait, tb)) bs), fb0. cbn [fst snd].
      assert (W : forall l i, waiting s_wants i (map (fun tb : bool * B => (SWait, tb)) l) = seq i (length l)).
      { induction l as [|tb l IH]; intros i; cbn [map waiting s_wants fst length seq]; auto. rewrite IH. auto. }
      assert (K : forall l i, live s_work i (map (fun tb : bool * B => (SWait, tb)) l) = []).
      { induction l as [|tb l IH]; intros i; cbn [map live]; auto. rewrite IH. auto. }
      rewrite W, K. split; auto. split; auto. constructor; auto.
      - rewrite map_map. cbn [snd]. apply map_id.
      - rewrite map_map. unfold s_now. cbn [fst snd]. rewrite map_id. auto.
      - rewrite map_map. unfold s_abs. cbn [fst snd]. constructor.
      - unfold votes_inv. assert (F : filter s_holds (map (fun tb : bool * B => (SWait, tb)) bs) = []).
        { clear. induction bs as [|tb l IH]; auto. }
        rewrite F. auto.
    Qed.

    (** When the barrier lets the client through, the blocks and the votes are
        those of the sequential loop. *)
    Lemma ex_phase : forall m1, m_lock m0 = false -> m_cur m0 = e ->
      steps (map (push_ex ev) (seq 0 (length bs)) ++ OWait :: rest, [], m0) (OWait :: rest, [], m1) ->
      run_examples B E f e bs fb0 = (m_blocks m1, m_fb m1) /\ m_lock m1 = false /\ m_cur m1 = e /\ m_log m1 = m_log m0.
    Proof.
      intros m1 Lk Ce H. destruct (ex_steps _ _ (ex_start Lk Ce) H) as [X|[l [fba [X1 [X2 X3]]]]]; [cbn [fst length] in X; lia|].
      cbn [fst snd] in *.
      assert (W : waiting s_wants 0 l = []).
      { destruct (waiting s_wants 0 l) as [|j js]; auto. cbn [map app] in X1. discriminate. }
      apply Permutation_nil in X2.
      assert (D : forall a, In a l -> fst a = SDone).
      { intros a Ia. pose proof (waiting_none _ _ _ _ _ W Ia) as D1. destruct (live_none _ _ _ _ _ _ X2 Ia) as [j D2].
        unfold s_wants, s_work in *. destruct (fst a); try discriminate. auto. }
      assert (A1 : map s_abs l = finished B (map s_now l)).
      { unfold finished. rewrite map_map. apply map_ext_in. intros a Ia. unfold s_abs, s_now, worked. rewrite (D a Ia). auto. }
      assert (A2 : filter s_holds l = []).
      { clear -D. induction l as [|a l IH]; auto. cbn [filter]. unfold s_holds at 1. rewrite (D a ltac:(left; auto)). apply IH. intros. apply D. right. auto. }
      destruct X3 as [J1 J2 J3 J4 J5 J6]. unfold votes_inv in J6. rewrite A2 in J6. destruct J6 as [J6 J7].
      rewrite A1 in J5. pose proof (phase_deterministic B E ncls inv f e bs fb0 _ _ f_good I0 F0 J5) as R.
      rewrite R, J2, J7. auto.
    Qed.
  End Phase.

  Lemma with_blocks_id : forall m : mem, m = with_blocks (m_blocks m) m. Proof. intros []. auto. Qed.

  (** ** The update phase *)
  Section Update.
    Variable m0 : mem.
    Variable rest : list (op mem ktask).
    Let e := m_cur m0.
    Let bs := m_blocks m0.
    Let fb := m_fb m0.

    Inductive ust := UWait | UPend | UDone.
    Notation slot := (ust * (bool * B))%type.
    Definition u_wants (a : slot) : bool := match fst a with UWait => true | _ => false end.
    Definition u_work (j : nat) (a : slot) : option ktask :=
      match fst a with UPend => Some (KUp j (fb_pos fb) (fb_pp fb) (fb_neg fb) (fb_np fb)) | _ => None end.
    Definition u_now (a : slot) : bool * B := match fst a with UDone => upd_of B E update e fb (snd a) | _ => snd a end.

    Definition u_inv (a : list (op mem ktask) * list ktask * mem) : Prop :=
      (length (fst (fst a)) <= length rest)%nat \/
      exists l, fst (fst a) = map push_up (waiting u_wants 0 l) ++ OWait :: rest /\
        Permutation (snd (fst a)) (live u_work 0 l) /\ map snd l = bs /\ snd a = with_blocks (map u_now l) m0 /\
        Forall (fun b => fst b = UDone \/ fst (snd b) = true) l.

    Lemma u_step : forall a b, u_inv a -> fj_step ac a b -> u_inv b.
    Proof.
      intros a b [H|[l [H1 [H2 [H3 [H4 H5]]]]]] St; [left; inversion St; subst; cbn [fst length] in *; lia|].
      destruct a as [[o k] m]. cbn [fst snd] in *. subst o m.
      inversion St; subst; clear St; cbn [fst snd] in *.
      - right. destruct (waiting u_wants 0 l) as [|j js] eqn:W; cbn [map app] in *; [discriminate|].
        match goal with X : _ :: _ = _ :: _ |- _ => inversion X; subst; clear X end.
        destruct (waiting_split _ _ _ _ _ _ W) as [l1 [[s tb] [l2 [-> [W1 [W2 [W3 W4]]]]]]]. cbn [Nat.add] in W3. subst j js.
        unfold u_wants in W1. cbn [fst] in W1. destruct s; try discriminate.
        exists (l1 ++ (UPend, tb) :: l2). cbn [fst snd]. split; [|split; [|split; [|split]]].
        + rewrite waiting_app. cbn [waiting u_wants fst]. rewrite W2. cbn [app Nat.add]. auto.
        + eapply live_put; [| |exact H2]; reflexivity.
        + rewrite map_app in *. auto.
        + rewrite !map_app in *. auto.
        + apply Forall_app in H5. destruct H5 as [Y1 Y2]. inversion Y2 as [|? ? [Y|Y] ?]; subst; [discriminate|]. apply Forall_app; auto.
      - left. destruct (waiting u_wants 0 l) as [|j js] eqn:W; cbn [map app] in *; [|discriminate].
        match goal with X : _ :: _ = _ :: _ |- _ => inversion X; subst; clear X end. cbn [fst]. auto.
      - destruct (waiting u_wants 0 l) as [|j js]; discriminate.
      - destruct (waiting u_wants 0 l) as [|j js]; discriminate.
      - right. match goal with X : _ = Next _ _ |- _ => rename X into H end.
        destruct (live_split _ _ _ _ _ _ _ _ H2) as [l1 [[s tb] [l2 [-> [W1 W2]]]]]. cbn [Nat.add] in W1, W2.
        unfold u_work in W1. cbn [fst] in W1. destruct s; inversion W1; subst; clear W1; cbn [act] in *.
        destruct (nth_error _ _) as [[]|]; discriminate.
      - right. match goal with X : _ = Finished _ |- _ => rename X into H end.
        destruct (live_split _ _ _ _ _ _ _ _ H2) as [l1 [[s tb] [l2 [-> [W1 W2]]]]]. cbn [Nat.add] in W1, W2.
        unfold u_work in W1. cbn [fst] in W1. destruct s; inversion W1; subst; clear W1; cbn [act] in *.
        assert (Tr : fst tb = true) by (apply Forall_app in H5; destruct H5 as [_ H5]; inversion H5 as [|? ? [Y|Y] ?]; subst; [discriminate|auto]).
        unfold with_blocks in H. cbn [m_blocks m_cur] in H. rewrite map_app in H. cbn [map] in H.
        replace (length l1) with (length (map u_now l1)) in H by apply map_length.
        rewrite nth_app in H. destruct tb as [tr bb]. cbn [fst] in Tr. subst tr. change (u_now (UPend, (true, bb))) with (true, bb) in H. cbv iota beta in H. rewrite set_nth_app in H.
        inversion H; subst; clear H.
        exists (l1 ++ (UDone, (true, bb)) :: l2). cbn [fst snd]. split; [|split; [|split; [|split]]].
        + rewrite (waiting_swap _ _ l1 (UPend, (true, bb)) (UDone, (true, bb)) l2); auto.
        + eapply live_end; eauto.
        + rewrite map_app in *. auto.
        + unfold with_blocks. cbn [m_fb m_lock m_cur m_log]. f_equal. rewrite map_app. auto.
        + apply Forall_app in H5. destruct H5 as [Y1 Y2]. inversion Y2; subst. apply Forall_app; auto.
    Qed.

    Lemma u_steps : forall a b, u_inv a -> steps a b -> u_inv b.
    Proof. intros a b H St. induction St as [a|a b c St IH X]; auto. eapply u_step; [apply IH; auto|exact X]. Qed.

    Lemma u_start : u_inv (map push_up (trainable_from 0 (map fst bs)) ++ OWait :: rest, [], m0).
    Proof.
      right. set (ini := fun tb : bool * B => (if fst tb then UWait else UDone, tb)). exists (map ini bs). cbn [fst snd].
      assert (W : forall l i, waiting u_wants i (map ini l) = trainable_from i (map fst l)).
      { induction l as [|[[] b] l IH]; intros i; cbn [map waiting u_wants trainable_from ini fst]; auto; rewrite IH; auto. }
      assert (K : forall l i, live u_work i (map ini l) = []).
      { induction l as [|[[] b] l IH]; intros i; cbn [map live]; auto; rewrite IH; auto. }
      rewrite W, K. split; auto. split; auto. split; [|split].
      - rewrite map_map. unfold ini. cbn [snd]. apply map_id.
      - assert (N : map u_now (map ini bs) = m_blocks m0).
        { rewrite map_map. fold bs. transitivity (map (fun tb => tb) bs); [|apply map_id]. apply map_ext. intros [[] b]; auto. }
        rewrite N. apply with_blocks_id.
      - clear. induction bs as [|[[] b] l IH]; constructor; auto.
    Qed.

    Lemma u_phase : forall m1,
      steps (map push_up (trainable_from 0 (map fst bs)) ++ OWait :: rest, [], m0) (OWait :: rest, [], m1) ->
      m1 = with_blocks (run_updates B E update e fb bs) m0.
    Proof.
      intros m1 H. destruct (u_steps _ _ u_start H) as [X|[l [X1 [X2 [X3 [X4 X5]]]]]]; [cbn [fst length] in X; lia|].
      cbn [fst snd] in *. subst m1. f_equal.
      assert (W : waiting u_wants 0 l = []).
      { destruct (waiting u_wants 0 l) as [|j js]; auto. cbn [map app] in X1. discriminate. }
      apply Permutation_nil in X2. unfold run_updates. rewrite <- X3, map_map. apply map_ext_in. intros a Ia.
      pose proof (waiting_none _ _ _ _ _ W Ia) as D1. destruct (live_none _ _ _ _ _ _ X2 Ia) as [j D2].
      unfold u_wants, u_work in *. destruct a as [s [t b]]. cbn [fst snd] in *. destruct s; try discriminate. auto.
    Qed.
  End Update.

  Ltac unf := cbn [begin_example end_example put_class clear_counter put_accuracy with_blocks with_fb with_lock
    m_blocks m_fb m_lock m_cur m_log fst snd] in *.

  (** ** One example *)
  Lemma train_calls_run : forall d m rest o k m', m_lock m = false -> all_inv B inv (m_blocks m) -> fb_ok ncls (m_fb m) ->
    steps (train_calls process (map fst (m_blocks m)) d ++ rest, [], m) (o, k, m') -> (length o <= length rest)%nat ->
    exists m1, steps (rest, [], m1) (o, k, m') /\ m_lock m1 = false /\ m_log m1 = m_log m /\
      train_one B E train_ex update L process d (m_blocks m) (m_fb m) = (m_blocks m1, m_fb m1).
  Proof.
    intros d m rest o k m' Lk I F H Le. unfold train_calls in H. rewrite map_length in H.
    repeat (rewrite <- app_assoc in H || cbn [app] in H).
    apply fj_do in H; [|rewrite !app_length; cbn [length]; rewrite app_length; cbn [length]; lia].
    apply fj_cut in H; [|cbn [length]; rewrite app_length; cbn [length]; lia]. destruct H as [m1 [P1 H]].
    destruct (ex_phase false (fst d) (begin_example (fst d) m) _ I (reset_ok ncls _ F) m1 Lk eq_refl P1)
      as [R1 [R2 [R3 R4]]].
    apply fj_do in H; [|rewrite app_length; cbn [length]; lia].
    unf.
    assert (FL : map fst (m_blocks m) = map fst (m_blocks m1)).
    { rewrite run_examples_closed in R1. inversion R1. rewrite map_map. reflexivity. }
    rewrite FL in H. apply fj_cut in H; auto. destruct H as [m2 [P2 H]].
    pose proof (u_phase (end_example process (snd d) m1) rest m2 P2) as U.
    exists m2. split; auto. subst m2. unf. rewrite R3. split; auto. split; auto.
    unfold train_one. rewrite R1. auto.
  Qed.

  Lemma eval_calls_run : forall e m rest o k m', m_lock m = false -> all_inv B inv (m_blocks m) -> fb_ok ncls (m_fb m) ->
    steps (eval_calls (map fst (m_blocks m)) e ++ rest, [], m) (o, k, m') -> (length o <= length rest)%nat ->
    exists m1, steps (rest, [], m1) (o, k, m') /\ m_lock m1 = false /\ m_log m1 = m_log m ++ [Cls (fb_predict (m_fb m1))] /\
      run_examples B E eval_ex e (m_blocks m) (fb_reset (m_fb m)) = (m_blocks m1, m_fb m1).
  Proof.
    intros e m rest o k m' Lk I F H Le. unfold eval_calls in H. rewrite map_length in H.
    repeat (rewrite <- app_assoc in H || cbn [app] in H).
    apply fj_do in H; [|rewrite !app_length; cbn [length]; lia].
    apply fj_cut in H; [|cbn [length]; lia]. destruct H as [m1 [P1 H]].
    destruct (ex_phase true e (begin_example e m) _ I (reset_ok ncls _ F) m1 Lk eq_refl P1)
      as [R1 [R2 [R3 R4]]].
    apply fj_do in H; auto. exists (put_class m1). unf. rewrite R4. auto.
  Qed.

  (** ** Whole sessions *)
  Lemma examples_flags : forall f e bs fb, map fst (fst (run_examples B E f e bs fb)) = map fst bs.
  Proof. intros. rewrite run_examples_closed. cbn [fst]. rewrite map_map. auto. Qed.
  Lemma updates_flags : forall e fb bs, map fst (run_updates B E update e fb bs) = map fst bs.
  Proof. intros. unfold run_updates. rewrite map_map. apply map_ext. intros [[] b]; auto. Qed.
  Lemma train_one_flags : forall d bs fb, map fst (fst (train_one B E train_ex update L process d bs fb)) = map fst bs.
  Proof.
    intros d bs fb. unfold train_one. pose proof (examples_flags train_ex (fst d) bs (fb_reset fb)) as H.
    destruct (run_examples B E train_ex (fst d) bs (fb_reset fb)) as [bs1 fb1]. cbn [fst] in *. rewrite updates_flags. auto.
  Qed.

  Definition good_mem (m : mem) : Prop := m_lock m = false /\ all_inv B inv (m_blocks m) /\ fb_ok ncls (m_fb m).

  Lemma train_list_run : forall ds m rest o k m', good_mem m ->
    steps (flat_map (train_calls process (map fst (m_blocks m))) ds ++ rest, [], m) (o, k, m') -> (length o <= length rest)%nat ->
    exists m1, steps (rest, [], m1) (o, k, m') /\ good_mem m1 /\ m_log m1 = m_log m /\ map fst (m_blocks m1) = map fst (m_blocks m) /\
      train_list B E train_ex update L process ds (m_blocks m) (m_fb m) = (m_blocks m1, m_fb m1).
  Proof.
    induction ds as [|d ds IH]; intros m rest o k m' G H Le; cbn [flat_map app train_list] in *.
    - exists m. auto.
    - rewrite <- app_assoc in H. destruct G as [G1 [G2 G3]].
      apply train_calls_run in H; auto; [|rewrite app_length; lia]. destruct H as [m1 [H [L1 [L2 R]]]].
      pose proof (train_one_inv B E ncls inv train_ex update L process train_good update_good process_good d _ _ G2 G3) as [I1 F1].
      pose proof (train_one_flags d (m_blocks m) (m_fb m)) as FL. rewrite R in *. cbn [fst snd] in *. rewrite <- FL in H.
      destruct (IH m1 rest o k m' (conj L1 (conj I1 F1)) H Le) as [m2 [H2 [G' [L3 [FL2 R2]]]]].
      exists m2. rewrite L3, FL2. auto.
  Qed.

  Lemma eval_list_run : forall es m rest o k m', good_mem m ->
    steps (flat_map (eval_calls (map fst (m_blocks m))) es ++ rest, [], m) (o, k, m') -> (length o <= length rest)%nat ->
    exists m1 ys, steps (rest, [], m1) (o, k, m') /\ good_mem m1 /\ m_log m1 = m_log m ++ map Cls ys /\ map fst (m_blocks m1) = map fst (m_blocks m) /\
      eval_list B E eval_ex es (m_blocks m) (m_fb m) = (ys, m_blocks m1, m_fb m1).
  Proof.
    induction es as [|e es IH]; intros m rest o k m' G H Le; cbn [flat_map app eval_list] in *.
    - exists m, []. cbn [map]. rewrite app_nil_r. auto.
    - rewrite <- app_assoc in H. destruct G as [G1 [G2 G3]].
      apply eval_calls_run in H; auto; [|rewrite app_length; lia]. destruct H as [m1 [H [L1 [L2 R]]]].
      pose proof (run_examples_inv B E ncls inv eval_ex e _ _ eval_good G2 (reset_ok ncls _ G3)) as [I1 F1].
      pose proof (examples_flags eval_ex e (m_blocks m) (fb_reset (m_fb m))) as FL. rewrite R in *. cbn [fst snd] in *. rewrite <- FL in H.
      destruct (IH m1 rest o k m' (conj L1 (conj I1 F1)) H Le) as [m2 [ys [H2 [G' [L3 [FL2 R2]]]]]].
      exists m2, (fb_predict (m_fb m1) :: ys). rewrite R2, FL2, L3, L2. cbn [map]. rewrite <- app_assoc. auto.
  Qed.

  Lemma session_run : forall qs x m rest o k m', good_mem m -> m_blocks m = x_blocks x -> m_fb m = x_fb x ->
    steps (session_calls process (map fst (x_blocks x)) qs (x_rng x) ++ rest, [], m) (o, k, m') -> (length o <= length rest)%nat ->
    exists m1, steps (rest, [], m1) (o, k, m') /\ good_mem m1 /\
      m_log m1 = m_log m ++ fst (serve train_ex eval_ex update process qs x) /\
      m_blocks m1 = x_blocks (snd (serve train_ex eval_ex update process qs x)) /\
      m_fb m1 = x_fb (snd (serve train_ex eval_ex update process qs x)).
  Proof.
    induction qs as [|[data|data] qs IH]; intros x m rest o k m' G E1 E2 H Le; cbn [session_calls serve request_calls app] in *.
    - exists m. cbn [fst snd]. rewrite app_nil_r. auto.
    - unfold train_epoch, train_slice. cbn [x_rng x_blocks x_fb x_index]. change (Nat.eqb 0 0) with true. cbv iota.
      destruct (shuffle (seq 0 (length data)) (x_rng x)) as [idx r]. rewrite Nat.sub_0_r. cbn [skipn].
      repeat (rewrite <- app_assoc in H || cbn [app] in H). rewrite <- E1 in H.
      apply fj_do in H; [|rewrite !app_length; cbn [length]; rewrite app_length; lia].
      assert (G0 : good_mem (clear_counter m)) by exact G.
      apply (train_list_run _ (clear_counter m)) in H; auto; [|cbn [length]; rewrite app_length; lia].
      destruct H as [m1 [H [G1 [L1 [FL R]]]]]. unf. rewrite E2, E1 in R. rewrite R.
      apply fj_do in H; [|rewrite app_length; lia].
      set (x1 := mkExec (m_blocks m1) (m_fb m1) idx r).
      rewrite <- FL in H.
      destruct (IH x1 (put_accuracy m1) rest o k m' G1 eq_refl eq_refl H Le) as [m2 [H2 [G2 [L2 [B2 F2]]]]].
      exists m2. unf. cbn [x_fb].
      destruct (serve train_ex eval_ex update process qs x1) as [l x2] eqn:Es. cbn [fst snd] in *.
      split; auto. split; auto. split; auto. rewrite L2, L1, <- app_assoc. auto.
    - unfold eval_predict. rewrite repeat_length, Nat.eqb_refl. cbn [negb].
      rewrite <- app_assoc, <- E1 in H.
      apply eval_list_run in H; auto; [|rewrite app_length; lia].
      destruct H as [m1 [ys [H [G1 [L1 [FL R]]]]]]. rewrite E1, E2 in R. rewrite R.
      set (x1 := mkExec (m_blocks m1) (m_fb m1) (x_index x) (x_rng x)).
      rewrite <- FL in H.
      destruct (IH x1 m1 rest o k m' G1 eq_refl eq_refl H Le) as [m2 [H2 [G2 [L2 [B2 F2]]]]].
      exists m2. destruct (serve train_ex eval_ex update process qs x1) as [l x2] eqn:Es. cbn [fst snd] in *.
      split; auto. split; auto. split; auto. rewrite L2, L1, <- app_assoc. auto.
  Qed.
End Exec.
