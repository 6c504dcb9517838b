(** Proofs about the backend registry. *)
From Coq Require Import String Ascii ZArith List Bool Lia.
From Verif Require Import Base ModelMachine ModelTrainer ModelPredictor ModelRegistry SpecRegistry.
Import ListNotations.
Open Scope string_scope.
Open Scope Z_scope.

Lemma lookup_put : forall k e r k', lookup (put k e r) k' = if String.eqb k' k then Some e else lookup r k'.
Proof.
  intros k e r k'. induction r as [|[k0 e0] r IH]; cbn [put lookup].
  - reflexivity.
  - destruct (String.eqb k k0) eqn:E.
    + apply String.eqb_eq in E. subst k0. cbn [lookup]. destruct (String.eqb k' k); reflexivity.
    + cbn [lookup]. destruct (String.eqb k' k0) eqn:E'.
      * apply String.eqb_eq in E'. subst k'. destruct (String.eqb k0 k) eqn:F; [|reflexivity].
        apply String.eqb_eq in F. subst. rewrite String.eqb_refl in E. discriminate.
      * exact IH.
Qed.

Lemma nth_upd : forall {A} (l : list A) i a j,
  nth_error (upd l i a) j =
  if Nat.eqb j i then (match nth_error l i with Some _ => Some a | None => None end) else nth_error l j.
Proof.
  intros A l. induction l as [|x l IH]; intros i a j; cbn [upd].
  - destruct i, j; cbn; try reflexivity. destruct (Nat.eqb j i); reflexivity.
  - destruct i as [|i], j as [|j]; cbn; try reflexivity. apply IH.
Qed.
Lemma length_upd : forall {A} (l : list A) i a, length (upd l i a) = length l.
Proof. intros A l. induction l as [|x l IH]; intros [|i] a; cbn; try reflexivity. now rewrite IH. Qed.

(** The fixed part of a native registry. *)
Record fixed (i : isa) (cv : entry) (r : reg) : Prop := mkFixed {
  fx_dense : forall l t, lookup r (dense_name "cb" l t) = Some (ECls (CDense i l t));
  fx_sparse : forall l d t, lookup r (sparse_name "sparse_cb" l d t) = Some (ECls (CSparse l d t));
  fx_inf : forall f l w, (f || l || negb w = true)%bool ->
             lookup r (inf_name f l w) = Some (ECls (CInf f l w));
  fx_conv : lookup r "conv_cb" = Some cv;
  fx_fb : lookup r "feedback" = Some (ECls CFeedback);
  fx_fu : lookup r "feedback_uniform" = Some (ECls CUniform);
  fx_fm : lookup r "feedback_multi" = Some (ECls CMulti);
  fx_di : lookup r "dense_input" = Some (ECls CDenseIn);
  fx_si : lookup r "sparse_input" = Some (ECls CSparseIn);
  fx_sd : lookup r "sparse_input_dense_output" = Some (ECls CSparseDenseIn)
}.
Definition conv_entry (b : build) (p : cpu) : entry :=
  if has_avx2 b p then ECls (CConv Avx2) else ETuple (CConv Scalar).

Lemma import_native : forall b p, exists r, import_backend (Some (b, p)) = Ok r
  /\ fixed (core_isa b p) (conv_entry b p) r
  /\ lookup r "sparse_cb" = Some (ECls (CSparse true true false))
  /\ exists j, lookup r "cb" = Some (ECls (CDense j true true)).
Proof.
  intros b p. unfold core_isa, conv_entry. destruct (has_avx2 b p) eqn:E.
  - assert (Eb : b_avx2 b = true) by (unfold has_avx2 in E; destruct (b_avx2 b); congruence).
    cbv beta iota delta [import_backend]. rewrite E. clear E. unfold has_neon.
    destruct b as [av ne ar]; cbn [b_avx2 b_neon b_arm] in *; subst av.
    destruct ne, ar; (eexists; split; [vm_compute; reflexivity |]);
      (split; [constructor; [intros [] [] | intros [] [] [] | intros [] [] [] H; try discriminate H | ..];
               vm_compute; reflexivity
              | split; [vm_compute; reflexivity | eexists; vm_compute; reflexivity]]).
  - cbv beta iota delta [import_backend]. rewrite E. clear E. unfold has_neon.
    destruct b as [av ne ar]; cbn [b_avx2 b_neon b_arm] in *.
    destruct av, ne, ar; (eexists; split; [vm_compute; reflexivity |]);
      (split; [constructor; [intros [] [] | intros [] [] [] | intros [] [] [] H; try discriminate H | ..];
               vm_compute; reflexivity
              | split; [vm_compute; reflexivity | eexists; vm_compute; reflexivity]]).
Qed.

Lemma fixed_put : forall i cv r k e, (k = "cb" \/ k = "sparse_cb") -> fixed i cv r -> fixed i cv (put k e r).
Proof.
  intros i cv r k e Hk [].
  destruct Hk; subst k; constructor; intros; rewrite lookup_put;
    repeat match goal with b : bool |- _ => destruct b end;
    match goal with |- (if ?c then _ else _) = _ =>
      let v := eval vm_compute in c in change c with v end; cbv beta iota; auto.
Qed.

(** World invariant of a native process. *)
Definition mach_inv (i : isa) (cv : entry) (m : mach) : Prop :=
  match k_kind m with
  | KDense => exists j l t, k_cls m = ECls (CDense j l t)
  | KSparse => exists l d t, k_cls m = ECls (CSparse l d t)
  | KConv => k_multi m = false /\ ((exists j l t, k_cls m = ECls (CDense j l t)) \/ k_cls m = cv)
  end.
Definition trainer_inv (n : nat) (t : rtrainer) : Prop :=
  (rt_m t < n)%nat
  /\ rt_dense t = ECls CDenseIn /\ rt_sparse t = ECls CSparseIn /\ rt_sdense t = ECls CSparseDenseIn
  /\ rt_focused t = ECls CFeedback /\ rt_uniform t = ECls CUniform /\ rt_multi t = ECls CMulti.
Record winv (i : isa) (cv : entry) (w : world) : Prop := mkWinv {
  wi_fixed : fixed i cv (w_reg w);
  wi_cb : exists j l t, lookup (w_reg w) "cb" = Some (ECls (CDense j l t));
  wi_sp : exists l d t, lookup (w_reg w) "sparse_cb" = Some (ECls (CSparse l d t));
  wi_m : Forall (mach_inv i cv) (w_machs w);
  wi_t : Forall (trainer_inv (length (w_machs w))) (w_trainers w)
}.

Lemma item_ok : forall r k e, lookup r k = Some e -> item r k = Ok e.
Proof. intros r k e H. unfold item. now rewrite H. Qed.

Lemma get_backend_native : forall i cv m w, fixed i cv (w_reg w) ->
  get_backend m w =
  match k_kind m with
  | KDense => Ok (ECls (class_for i m), put_reg "cb" (ECls (class_for i m)) w)
  | KSparse => Ok (ECls (class_for i m), put_reg "sparse_cb" (ECls (class_for i m)) w)
  | KConv => Ok (cv, w)
  end.
Proof.
  intros i cv m w F. unfold get_backend, class_for. destruct (k_kind m).
  - now rewrite (item_ok _ _ _ (fx_dense _ _ _ F _ _)).
  - now rewrite (item_ok _ _ _ (fx_sparse _ _ _ F _ _ _)).
  - now rewrite (item_ok _ _ _ (fx_conv _ _ _ F)).
Qed.

Lemma Forall_upd : forall {A} (P : A -> Prop) l i a, Forall P l -> P a -> Forall P (upd l i a).
Proof.
  intros A P l. induction l as [|x l IH]; intros i a H Ha; cbn; [constructor|].
  inversion H; subst. destruct i; constructor; auto.
Qed.
Lemma nth_Forall : forall {A} (P : A -> Prop) l i a, Forall P l -> nth_error l i = Some a -> P a.
Proof. intros A P l i a H E. rewrite Forall_forall in H. apply H. eapply nth_error_In; eauto. Qed.

Lemma trainer_inv_mono : forall n n' t, (n <= n')%nat -> trainer_inv n t -> trainer_inv n' t.
Proof. unfold trainer_inv. intros n n' t H (A & B). split; [lia | exact B]. Qed.

Lemma add_mach_inv : forall i cv w r, winv i cv w ->
  (forall m, r = Ok m -> mach_inv i cv m) -> winv i cv (snd (add_mach r w)).
Proof.
  intros i cv w r I H. destruct r as [m|e]; cbn [add_mach snd]; [|exact I].
  destruct I as [F C S M T]. constructor; cbn [w_reg w_machs w_trainers]; auto.
  - apply Forall_app. split; auto.
  - rewrite app_length. eapply Forall_impl; [|exact T]. intros t Ht.
    eapply trainer_inv_mono; [|exact Ht]. lia.
Qed.

Lemma train_start_inv : forall i cv m t w, winv i cv w -> mach_inv i cv m ->
  winv i cv (snd (train_start m t w)).
Proof.
  intros i cv m t w I Hm. unfold train_start.
  destruct (rt_train t); [|exact I].
  destruct (select_ib m t w) as [eib|]; [|exact I].
  destruct (call eib) as [ib|]; [|exact I].
  destruct (match feedback_cls m t with Ok e => call e | Raise e => Raise e end); [|exact I].
  assert (G : forall e w', get_backend m w = Ok (e, w') -> winv i cv (put_mach (rt_m t) (with_cls e m) w')).
  { intros e w' E. destruct I as [F C S M T]. rewrite (get_backend_native i cv) in E by exact F.
    unfold mach_inv in Hm. unfold class_for in E. destruct (k_kind m) eqn:K; inversion E; subst; clear E.
    - constructor; cbn [put_mach put_reg w_reg w_machs w_trainers].
      + apply fixed_put; auto.
      + rewrite lookup_put. cbn. eauto.
      + rewrite lookup_put. cbn. exact S.
      + apply Forall_upd; [exact M|]. unfold mach_inv, with_cls. cbn. rewrite K. eauto.
      + rewrite length_upd. exact T.
    - constructor; cbn [put_mach put_reg w_reg w_machs w_trainers].
      + apply fixed_put; auto.
      + rewrite lookup_put. cbn. exact C.
      + rewrite lookup_put. cbn. eauto.
      + apply Forall_upd; [exact M|]. unfold mach_inv, with_cls. cbn. rewrite K. eauto.
      + rewrite length_upd. exact T.
    - constructor; cbn [put_mach w_reg w_machs w_trainers]; auto.
      + apply Forall_upd; [exact M|]. unfold mach_inv, with_cls. cbn. rewrite K. tauto.
      + rewrite length_upd. exact T. }
  destruct (get_backend m w) as [[ecb w']|]; [|exact I].
  specialize (G ecb w' eq_refl).
  destruct (call ecb) as [cb|]; [|exact G].
  destruct (accepts cb ib); [destruct (initialises cb)|]; exact G.
Qed.

Lemma step_inv : forall i cv a w, winv i cv w -> winv i cv (snd (step a w)).
Proof.
  intros i cv a w I.
  destruct a as [n l bo mu | n l bo dy mu | n l mu | j | j fb | ti x y | ti x y | ti]; cbn [step].
  - apply add_mach_inv; [exact I|]. intros m E. unfold new_dense in E.
    destruct (wi_cb _ _ _ I) as (c & l' & t' & C). rewrite (item_ok _ _ _ C) in E. inversion E; subst.
    cbn. eauto.
  - apply add_mach_inv; [exact I|]. intros m E. unfold new_sparse in E.
    destruct (wi_cb _ _ _ I) as (c & l' & t' & C). rewrite (item_ok _ _ _ C) in E.
    destruct (wi_sp _ _ _ I) as (l2 & d2 & t2 & S). rewrite (item_ok _ _ _ S) in E.
    inversion E; subst. cbn. eauto.
  - apply add_mach_inv; [exact I|]. intros m E. unfold new_conv, new_dense in E.
    destruct (wi_cb _ _ _ I) as (c & l' & t' & C). rewrite (item_ok _ _ _ C) in E. inversion E; subst.
    cbn. split; [reflexivity | left; eauto].
  - destruct (nth_error (w_machs w) j) as [m|] eqn:E; [|exact I]. cbn [snd].
    pose proof (nth_Forall _ _ _ _ (wi_m _ _ _ I) E) as Hm.
    destruct I as [F C S M T]. constructor; cbn [put_mach w_reg w_machs w_trainers]; auto.
    + apply Forall_upd; [exact M|]. unfold mach_inv in *. cbn. exact Hm.
    + rewrite length_upd. exact T.
  - destruct (nth_error (w_machs w) j) as [m|] eqn:E; [|exact I].
    assert (J : (j < length (w_machs w))%nat) by (apply nth_error_Some; congruence).
    unfold new_trainer. destruct I as [F C S M T].
    rewrite (item_ok _ _ _ (fx_di _ _ _ F)), (item_ok _ _ _ (fx_fb _ _ _ F)),
      (item_ok _ _ _ (fx_fu _ _ _ F)), (item_ok _ _ _ (fx_fm _ _ _ F)), (item_ok _ _ _ (fx_si _ _ _ F)),
      (item_ok _ _ _ (fx_sd _ _ _ F)). cbn [snd].
    constructor; cbn [w_reg w_machs w_trainers]; auto.
    apply Forall_app. split; [exact T|]. constructor; [|constructor].
    unfold trainer_inv. cbn. tauto.
  - destruct (nth_error (w_trainers w) ti) as [t|] eqn:E; [|exact I].
    destruct (nth_error (w_machs w) (rt_m t)) as [m|] eqn:Em; [|exact I].
    destruct (data_call m (rt_eval t) x y w); [|exact I].
    pose proof (nth_Forall _ _ _ _ (wi_t _ _ _ I) E) as Ht.
    destruct I as [F C S M T]. constructor; cbn [put_trainer snd w_reg w_machs w_trainers]; auto.
    apply Forall_upd; [exact T|]. exact Ht.
  - destruct (nth_error (w_trainers w) ti) as [t|] eqn:E; [|exact I].
    destruct (nth_error (w_machs w) (rt_m t)) as [m|] eqn:Em; [|exact I].
    destruct (data_call m (rt_train t) x y w); [|exact I].
    pose proof (nth_Forall _ _ _ _ (wi_t _ _ _ I) E) as Ht.
    destruct I as [F C S M T]. constructor; cbn [put_trainer snd w_reg w_machs w_trainers]; auto.
    apply Forall_upd; [exact T|]. exact Ht.
  - destruct (nth_error (w_trainers w) ti) as [t|] eqn:E; [|exact I].
    destruct (nth_error (w_machs w) (rt_m t)) as [m|] eqn:Em; [|exact I].
    pose proof (train_start_inv i cv m t w I (nth_Forall _ _ _ _ (wi_m _ _ _ I) Em)) as G.
    destruct (train_start m t w) as [[[cb ib]|e] w']; exact G.
Qed.

Lemma steps_app : forall p q w, snd (steps (p ++ q) w) = snd (steps q (snd (steps p w))).
Proof.
  induction p as [|a p IH]; intros q w; cbn [steps app]; [reflexivity|].
  destruct (step a w) as [o w1]. specialize (IH q w1).
  destruct (steps (p ++ q) w1), (steps p w1). cbn in *. exact IH.
Qed.
Lemma steps_cons : forall a p w, snd (steps (a :: p) w) = snd (steps p (snd (step a w))).
Proof. intros a p w. cbn [steps]. destruct (step a w) as [o w1]. cbn [snd]. now destruct (steps p w1). Qed.

Lemma steps_inv : forall i cv p w, winv i cv w -> winv i cv (snd (steps p w)).
Proof.
  intros i cv p. induction p as [|a p IH]; intros w I; [exact I|].
  rewrite steps_cons. apply IH. now apply step_inv.
Qed.

Lemma start_inv : forall i cv r, fixed i cv r ->
  (exists l d t, lookup r "sparse_cb" = Some (ECls (CSparse l d t))) ->
  (exists j l t, lookup r "cb" = Some (ECls (CDense j l t))) -> winv i cv (start r).
Proof. intros. constructor; cbn; auto. Qed.

Lemma reached_inv : forall b p w, reached (Some (b, p)) w -> winv (core_isa b p) (conv_entry b p) w.
Proof.
  intros b p w (r & pr & os & E & Es). destruct (import_native b p) as (r' & E' & F & S & j & C).
  assert (r' = r) by congruence. subst r'.
  replace w with (snd (steps pr (start r))) by now rewrite Es.
  apply steps_inv. apply start_inv; eauto.
Qed.

(** ** What training does in a native world *)

Lemma recognised_native : forall i cv w m, winv i cv w ->
  exists c, lookup (w_reg w) "sparse_cb" = Some c /\ recognised m w = Ok (entry_eqb (k_cls m) c).
Proof.
  intros i cv w m I. destruct (wi_sp _ _ _ I) as (l & d & t & S).
  exists (ECls (CSparse l d t)). split; [exact S|]. unfold recognised. now rewrite (item_ok _ _ _ S).
Qed.

Lemma feedback_native : forall n m t, trainer_inv n t -> feedback_ok m t ->
  exists e c, feedback_cls m t = Ok e /\ call e = Ok c.
Proof.
  intros n m t (_ & _ & _ & _ & A & B & C) H. unfold feedback_cls.
  destruct H as [H|[H H']]; rewrite H.
  - destruct (k_multi m); [rewrite C | rewrite A]; eexists; eexists; split; reflexivity.
  - rewrite H', B. eexists; eexists; split; reflexivity.
Qed.

Lemma entry_eqb_refl : forall e, entry_eqb e e = true.
Proof. intros e. unfold entry_eqb. destruct (entry_eq_dec e e); congruence. Qed.
Lemma entry_eqb_neq : forall a b, a <> b -> entry_eqb a b = false.
Proof. intros a b H. unfold entry_eqb. destruct (entry_eq_dec a b); congruence. Qed.

(** The input block of a training call that has its data. *)
Lemma select_native : forall i cv w m t k, winv i cv w -> trainer_inv (length (w_machs w)) t ->
  mach_inv i cv m -> has_data k t -> k = KArray \/ k = KCsr ->
  exists ib, select_ib m t w = Ok (ECls ib) /\
    ib = match k with
         | KCsr => match lookup (w_reg w) "sparse_cb" with
                   | Some c => if entry_eqb (k_cls m) c then CSparseIn else CSparseDenseIn
                   | None => CSparseDenseIn
                   end
         | _ => CDenseIn
         end.
Proof.
  intros i cv w m t k I (_ & Td & Ts & Tsd & _) Hm (a & b & Ea & Eb & Ka & Kb) Hk.
  unfold select_ib. rewrite Ea, Eb. unfold is_csr, is_array. rewrite Ka, Kb.
  destruct (recognised_native i cv w m I) as (c & Ec & Er). rewrite Er, Ec.
  destruct Hk as [Hk|Hk]; rewrite Hk in *; cbn [andb].
  - rewrite Td. eexists; split; reflexivity.
  - destruct (entry_eqb (k_cls m) c); [rewrite Ts | rewrite Tsd]; eexists; split; reflexivity.
Qed.

Lemma train_native : forall b p w t tr m k, reached (Some (b, p)) w -> trainer_at w t tr m ->
  has_data k tr -> k = KArray \/ k = KCsr -> feedback_ok m tr ->
  exists ib, select_ib m tr w = Ok (ECls ib) /\
    fst (step (ATrain t) w) =
    match k_kind m with
    | KConv => match conv_entry b p with
               | ECls c => match accepts c ib with Ok _ => Raise RuntimeError | Raise e => Raise e end
               | _ => Raise TypeError
               end
    | _ => match accepts (class_for (core_isa b p) m) ib with
           | Ok _ => Ok (OTrain (class_for (core_isa b p) m) ib)
           | Raise e => Raise e
           end
    end.
Proof.
  intros b p w t tr m k R [Et Em] D Hk Fb.
  pose proof (reached_inv _ _ _ R) as I.
  pose proof (nth_Forall _ _ _ _ (wi_t _ _ _ I) Et) as Ti.
  pose proof (nth_Forall _ _ _ _ (wi_m _ _ _ I) Em) as Mi.
  destruct (select_native _ _ _ _ _ _ I Ti Mi D Hk) as (ib & Es & _).
  exists ib. split; [exact Es|]. cbn [step]. rewrite Et, Em. unfold train_start.
  destruct D as (a & _ & Ea & _). rewrite Ea, Es. cbn [call].
  destruct (feedback_native _ _ _ Ti Fb) as (ef & cf & Ef & Ec). rewrite Ef, Ec.
  rewrite (get_backend_native (core_isa b p) (conv_entry b p)) by apply (wi_fixed _ _ _ I).
  destruct (k_kind m) eqn:K; cbn [call].
  - destruct (accepts _ ib); [|reflexivity]. unfold class_for. rewrite K. reflexivity.
  - destruct (accepts _ ib); [|reflexivity]. unfold class_for. rewrite K. reflexivity.
  - unfold conv_entry. destruct (has_avx2 b p); cbn [call]; try reflexivity.
    destruct (accepts _ ib); reflexivity.
Qed.

(** Whatever training answers, the class is the machine's and the input block
    fits both the data and the class. *)
Lemma train_answer : forall b p w t tr m cb ib, reached (Some (b, p)) w -> trainer_at w t tr m ->
  fst (step (ATrain t) w) = Ok (OTrain cb ib) ->
  accepts cb ib = Ok tt
  /\ k_kind m <> KConv /\ cb = class_for (core_isa b p) m
  /\ ((has_data KArray tr /\ ib = CDenseIn)
      \/ (has_data KCsr tr /\ (ib = CSparseIn \/ ib = CSparseDenseIn))).
Proof.
  intros b p w t tr m cb ib R [Et Em] H.
  pose proof (reached_inv _ _ _ R) as I.
  pose proof (nth_Forall _ _ _ _ (wi_t _ _ _ I) Et) as Ti.
  cbn [step] in H. rewrite Et, Em in H. unfold train_start in H.
  destruct (rt_train tr) as [a|] eqn:Ea; [|discriminate H].
  destruct (select_ib m tr w) as [eib|] eqn:Es; [|discriminate H].
  destruct (call eib) as [ib'|] eqn:Ei; [|discriminate H].
  destruct (match feedback_cls m tr with Ok e => call e | Raise e => Raise e end); [|discriminate H].
  rewrite (get_backend_native (core_isa b p) (conv_entry b p)) in H by apply (wi_fixed _ _ _ I).
  assert (G : accepts cb ib = Ok tt /\ ib = ib' /\ k_kind m <> KConv /\ cb = class_for (core_isa b p) m).
  { destruct (k_kind m) eqn:K; cbn [call] in H.
    - destruct (accepts (class_for (core_isa b p) m) ib') as [[]|] eqn:A; [|discriminate H].
      unfold class_for in *. rewrite K in *. cbn in H. inversion H; subst. repeat split; auto; discriminate.
    - destruct (accepts (class_for (core_isa b p) m) ib') as [[]|] eqn:A; [|discriminate H].
      unfold class_for in *. rewrite K in *. cbn in H. inversion H; subst. repeat split; auto; discriminate.
    - unfold conv_entry in H. destruct (has_avx2 b p); cbn [call] in H; try discriminate H.
      destruct (accepts _ ib') as [[]|] eqn:A; discriminate H. }
  destruct G as (G1 & G2 & G3 & G4). subst ib'.
  split; [exact G1|]. split; [exact G3|]. split; [exact G4|].
  unfold select_ib in Es. rewrite Ea in Es.
  destruct (rt_eval tr) as [e|] eqn:Ee; [|discriminate Es].
  destruct Ti as (_ & Td & Ts & Tsd & _).
  unfold is_csr, is_array, has_data in *.
  destruct (x_kind (d_x a)) eqn:Ka, (x_kind (d_x e)) eqn:Ke; cbn [andb] in Es; try discriminate Es.
  - rewrite Td in Es. inversion Es; subst. cbn in Ei. inversion Ei; subst.
    left. split; [exists a, e; auto | reflexivity].
  - right. split; [exists a, e; auto|].
    destruct (recognised m w) as [[]|]; [rewrite Ts in Es | rewrite Tsd in Es | discriminate Es];
      inversion Es; subst; cbn in Ei; inversion Ei; auto.
Qed.

(** ** Recognition of sparse machines *)

(** Machine [i] is the sparse machine the registry currently points at. *)
Definition seen (i : nat) (w : world) : Prop :=
  exists m, nth_error (w_machs w) i = Some m /\ k_kind m = KSparse
            /\ lookup (w_reg w) "sparse_cb" = Some (k_cls m).

Lemma seen_works : forall b p w t tr m, reached (Some (b, p)) w -> trainer_at w t tr m ->
  seen (rt_m tr) w -> sparse_works w t tr m.
Proof.
  intros b p w t tr m R At (m' & Em' & K & L).
  assert (m' = m) by (destruct At; congruence). subst m'.
  split.
  - intros x y Kx. destruct At as [Et Em]. cbn [step]. rewrite Et, Em. unfold data_call, recognised.
    rewrite (item_ok _ _ _ L), entry_eqb_refl. unfold check_data, is_array. rewrite Kx.
    assert (Z : forall A (B C : bool) (v : res A), (if B then Raise ValueError else if C then Raise ValueError
               else if (true && true)%bool then Raise ValueError else v) = Raise ValueError)
      by (intros A [] [] v; reflexivity).
    split; rewrite Z; reflexivity.
  - intros D Fb. destruct (train_native b p w t tr m KCsr R At D (or_intror eq_refl) Fb) as (ib & Es & E).
    pose proof (reached_inv _ _ _ R) as I. destruct At as [Et Em].
    destruct (select_native _ _ w m tr KCsr I (nth_Forall _ _ _ _ (wi_t _ _ _ I) Et)
                (nth_Forall _ _ _ _ (wi_m _ _ _ I) Em) D (or_intror eq_refl)) as (ib' & Es' & Ei).
    rewrite L, entry_eqb_refl in Ei. subst ib'. assert (ib = CSparseIn) by congruence. subst ib.
    rewrite E, K. unfold class_for. rewrite K. reflexivity.
Qed.

(** Machines and trainers keep their identity. *)
Definition extends (w w' : world) : Prop :=
  (forall i m, nth_error (w_machs w) i = Some m ->
     exists m', nth_error (w_machs w') i = Some m' /\ k_kind m' = k_kind m
                /\ k_boost m' = k_boost m /\ k_dyn m' = k_dyn m
                /\ (k_budget m = true -> k_budget m' = true))
  /\ (forall t tr, nth_error (w_trainers w) t = Some tr ->
     exists tr', nth_error (w_trainers w') t = Some tr' /\ rt_m tr' = rt_m tr).
Lemma extends_refl : forall w, extends w w.
Proof. intros w. split; intros; eexists; eauto 7. Qed.
Lemma extends_trans : forall a b c, extends a b -> extends b c -> extends a c.
Proof.
  intros a b c [M1 T1] [M2 T2]. split.
  - intros i m E. destruct (M1 _ _ E) as (m1 & E1 & A1 & A2 & A3 & A4).
    destruct (M2 _ _ E1) as (m2 & E2 & B1 & B2 & B3 & B4).
    exists m2. rewrite B1, B2, B3. auto 7.
  - intros t tr E. destruct (T1 _ _ E) as (t1 & E1 & A). destruct (T2 _ _ E1) as (t2 & E2 & B).
    exists t2. split; congruence.
Qed.

Lemma nth_snoc : forall {A} (l : list A) a i x, nth_error l i = Some x -> nth_error (l ++ [a]) i = Some x.
Proof. intros A l a i x H. rewrite nth_error_app1; [exact H|]. apply nth_error_Some. congruence. Qed.

Lemma extends_mach : forall w i m m', nth_error (w_machs w) i = Some m -> k_kind m' = k_kind m ->
  k_boost m' = k_boost m -> k_dyn m' = k_dyn m -> (k_budget m = true -> k_budget m' = true) ->
  extends w (put_mach i m' w).
Proof.
  intros w i m m' E A B C D. split; cbn [put_mach w_machs w_trainers].
  - intros j n En. rewrite nth_upd. destruct (Nat.eqb j i) eqn:Ej.
    + apply Nat.eqb_eq in Ej. subst j. rewrite E. assert (n = m) by congruence. subst n.
      exists m'. auto.
    + exists n. auto 7.
  - intros t tr Et. eauto.
Qed.
Lemma extends_trainer : forall w i t t', nth_error (w_trainers w) i = Some t -> rt_m t' = rt_m t ->
  extends w (put_trainer i t' w).
Proof.
  intros w i t t' E A. split; cbn [put_trainer w_machs w_trainers].
  - intros j n En. exists n. auto 7.
  - intros j n En. rewrite nth_upd. destruct (Nat.eqb j i) eqn:Ej.
    + apply Nat.eqb_eq in Ej. subst j. rewrite E. exists t'. split; congruence.
    + eauto.
Qed.
Lemma extends_reg : forall w k e, extends w (put_reg k e w).
Proof. intros. split; cbn; intros; eexists; eauto 7. Qed.

Lemma train_start_extends : forall w t m, nth_error (w_machs w) (rt_m t) = Some m ->
  extends w (snd (train_start m t w)).
Proof.
  intros w t m Em. unfold train_start.
  destruct (rt_train t); [|apply extends_refl].
  destruct (select_ib m t w) as [eib|]; [|apply extends_refl].
  destruct (call eib) as [ib|]; [|apply extends_refl].
  destruct (match feedback_cls m t with Ok e => call e | Raise e => Raise e end); [|apply extends_refl].
  assert (G : forall e w', get_backend m w = Ok (e, w') -> extends w (put_mach (rt_m t) (with_cls e m) w')).
  { intros e w' E. unfold get_backend in E.
    assert (Gx : forall v, w_machs v = w_machs w -> extends w v ->
                 extends w (put_mach (rt_m t) (with_cls e m) v)).
    { intros v Ev X. eapply extends_trans; [exact X|]. eapply extends_mach; try rewrite Ev; eauto. }
    destruct (k_kind m).
    - destruct (item _ _); inversion E; subst. apply Gx; [reflexivity | apply extends_reg].
    - destruct (item _ _); inversion E; subst. apply Gx; [reflexivity | apply extends_reg].
    - destruct (item _ _); inversion E; subst. apply Gx; [reflexivity | apply extends_refl]. }
  destruct (get_backend m w) as [[ecb w']|]; [|apply extends_refl].
  specialize (G ecb w' eq_refl). destruct (call ecb) as [cb|]; [|exact G].
  destruct (accepts cb ib); [destruct (initialises cb)|]; exact G.
Qed.

Lemma step_extends : forall a w, extends w (snd (step a w)).
Proof.
  intros a w. assert (AM : forall r, extends w (snd (add_mach r w))).
  { intros [m|e]; cbn [add_mach snd]; [|apply extends_refl]. split; cbn [w_machs w_trainers].
    - intros i n E. exists n. split; [apply nth_snoc; exact E | auto 7].
    - intros t tr E. eauto. }
  destruct a; cbn [step]; try apply AM.
  - destruct (nth_error (w_machs w) i) as [m|] eqn:E; [|apply extends_refl]. cbn [snd].
    eapply extends_mach; [exact E | reflexivity ..].
  - destruct (nth_error (w_machs w) i) as [m|] eqn:E; [|apply extends_refl].
    destruct (new_trainer i fb w); [|apply extends_refl]. split; cbn [snd w_machs w_trainers].
    + intros j n En. exists n. auto 7.
    + intros t tr Et. exists tr. split; [apply nth_snoc; exact Et | reflexivity].
  - destruct (nth_error (w_trainers w) t) as [tr|] eqn:E; [|apply extends_refl].
    destruct (nth_error (w_machs w) (rt_m tr)) as [m|]; [|apply extends_refl].
    destruct (data_call m (rt_eval tr) x y w); [|apply extends_refl]. cbn [snd].
    eapply extends_trainer; [exact E | reflexivity].
  - destruct (nth_error (w_trainers w) t) as [tr|] eqn:E; [|apply extends_refl].
    destruct (nth_error (w_machs w) (rt_m tr)) as [m|]; [|apply extends_refl].
    destruct (data_call m (rt_train tr) x y w); [|apply extends_refl]. cbn [snd].
    eapply extends_trainer; [exact E | reflexivity].
  - destruct (nth_error (w_trainers w) t) as [tr|] eqn:E; [|apply extends_refl].
    destruct (nth_error (w_machs w) (rt_m tr)) as [m|] eqn:Em; [|apply extends_refl].
    pose proof (train_start_extends w tr m Em) as G.
    destruct (train_start m tr w) as [[[cb ib]|e] w']; exact G.
Qed.
Lemma steps_extends : forall p w, extends w (snd (steps p w)).
Proof.
  induction p as [|a p IH]; intros w; [apply extends_refl|].
  rewrite steps_cons. eapply extends_trans; [apply step_extends | apply IH].
Qed.

(** What a training call does to the registry and to the machines. *)
Lemma train_start_effect : forall m t w, nth_error (w_machs w) (rt_m t) = Some m ->
  let w' := snd (train_start m t w) in
  (w_reg w' = w_reg w /\ w_machs w' = w_machs w)
  \/ (exists e, w_machs w' = upd (w_machs w) (rt_m t) (with_cls e m)
      /\ lookup (w_reg w') "sparse_cb" = match k_kind m with KSparse => Some e | _ => lookup (w_reg w) "sparse_cb" end).
Proof.
  intros m t w Em. cbv zeta. unfold train_start.
  destruct (rt_train t); [|left; auto].
  destruct (select_ib m t w) as [eib|]; [|left; auto].
  destruct (call eib) as [ib|]; [|left; auto].
  destruct (match feedback_cls m t with Ok e => call e | Raise e => Raise e end); [|left; auto].
  assert (G : forall e w', get_backend m w = Ok (e, w') ->
     w_machs w' = w_machs w /\
     lookup (w_reg w') "sparse_cb" = match k_kind m with KSparse => Some e | _ => lookup (w_reg w) "sparse_cb" end).
  { intros e w' E. unfold get_backend in E. destruct (k_kind m);
      destruct (item _ _); inversion E; subst; split; try reflexivity; cbn [put_reg w_reg];
      rewrite ?lookup_put; reflexivity. }
  destruct (get_backend m w) as [[ecb w']|]; [|left; auto].
  destruct (G ecb w' eq_refl) as [G1 G2]. right. exists ecb.
  destruct (call ecb) as [cb|]; [destruct (accepts cb ib); [destruct (initialises cb)|]|];
    cbn [snd put_mach w_machs w_reg]; rewrite G1, G2; auto.
Qed.

(** One call keeps [seen i], unless it trains another sparse machine. *)
Lemma step_seen : forall a w i, seen i w ->
  (forall t tr m, a = ATrain t -> trainer_at w t tr m -> k_kind m = KSparse -> rt_m tr = i) ->
  seen i (snd (step a w)).
Proof.
  intros a w i S Q. assert (AM : forall r, seen i (snd (add_mach r w))).
  { intros [m|e]; cbn [add_mach snd]; [|exact S]. destruct S as (m0 & E & K & L).
    exists m0. cbn [w_machs w_reg]. split; [apply nth_snoc; exact E | auto]. }
  destruct a; cbn [step]; try apply AM.
  - destruct (nth_error (w_machs w) i0) as [m|] eqn:E; [|exact S]. cbn [snd].
    destruct S as (m0 & E0 & K & L). unfold seen. cbn [put_mach w_machs w_reg]. rewrite nth_upd.
    destruct (Nat.eqb i i0) eqn:Ei.
    + apply Nat.eqb_eq in Ei. subst i0. rewrite E. assert (m0 = m) by congruence. subst m0.
      eexists. split; [reflexivity|]. cbn. auto.
    + exists m0. auto.
  - destruct (nth_error (w_machs w) i0) as [m|] eqn:E; [|exact S].
    destruct (new_trainer i0 fb w); [|exact S]. exact S.
  - destruct (nth_error (w_trainers w) t) as [tr|] eqn:E; [|exact S].
    destruct (nth_error (w_machs w) (rt_m tr)) as [m|]; [|exact S].
    destruct (data_call m (rt_eval tr) x y w); exact S.
  - destruct (nth_error (w_trainers w) t) as [tr|] eqn:E; [|exact S].
    destruct (nth_error (w_machs w) (rt_m tr)) as [m|]; [|exact S].
    destruct (data_call m (rt_train tr) x y w); exact S.
  - destruct (nth_error (w_trainers w) t) as [tr|] eqn:E; [|exact S].
    destruct (nth_error (w_machs w) (rt_m tr)) as [m|] eqn:Em; [|exact S].
    specialize (Q t tr m eq_refl (conj E Em)).
    pose proof (train_start_effect m tr w Em) as G. cbv zeta in G.
    assert (H : seen i (snd (train_start m tr w))).
    { destruct S as (m0 & E0 & K & L). destruct G as [[G1 G2] | (e & G1 & G2)].
      - exists m0. rewrite G1, G2. auto.
      - unfold seen. rewrite G1, G2, nth_upd. destruct (Nat.eqb i (rt_m tr)) eqn:Ei.
        + apply Nat.eqb_eq in Ei. rewrite <- Ei in Em |- *. rewrite Em.
          assert (m = m0) by congruence. subst m0. eexists. split; [reflexivity|].
          rewrite K. cbn. auto.
        + apply Nat.eqb_neq in Ei. exists m0. split; [exact E0 | split; [exact K|]].
          destruct (k_kind m); auto. exfalso. apply Ei. symmetry. auto. }
    destruct (train_start m tr w) as [[[cb ib]|e] w']; exact H.
Qed.

Lemma steps_seen : forall p w i, seen i w -> quiet (snd (steps p w)) p i -> seen i (snd (steps p w)).
Proof.
  induction p as [|a p IH]; intros w i S Q; [exact S|].
  rewrite steps_cons in *. apply IH.
  - apply step_seen; [exact S|]. intros t tr m Ea [Et Em] K.
    pose proof (extends_trans _ _ _ (step_extends a w) (steps_extends p (snd (step a w)))) as X.
    destruct X as [XM XT]. destruct (XT _ _ Et) as (tr' & Et' & Er).
    destruct (XM _ _ Em) as (m' & Em' & K' & _).
    rewrite <- Er. apply (Q t tr' m'); [left; exact Ea | split; [exact Et' | congruence] | congruence].
  - intros t tr m In1 At K. apply (Q t tr m); auto. right. exact In1.
Qed.

Lemma new_sparse_seen : forall i cv w n l bo d mu, winv i cv w ->
  seen (length (w_machs w)) (snd (step (ANewSparse n l bo d mu) w)).
Proof.
  intros i cv w n l bo d mu I. cbn [step]. unfold new_sparse.
  destruct (wi_cb _ _ _ I) as (c & l' & t' & C). rewrite (item_ok _ _ _ C).
  destruct (wi_sp _ _ _ I) as (l2 & d2 & t2 & S). rewrite (item_ok _ _ _ S).
  cbn [add_mach snd]. eexists. cbn [w_machs w_reg].
  rewrite nth_error_app2 by lia. rewrite Nat.sub_diag. cbn. split; [reflexivity | auto].
Qed.

Lemma sparse_sequential : forall b p r p1 n l bo d mu p2 os w t tr m,
  import_backend (Some (b, p)) = Ok r ->
  steps (p1 ++ ANewSparse n l bo d mu :: p2) (start r) = (os, w) ->
  quiet w p2 (length (w_machs (snd (steps p1 (start r))))) ->
  trainer_at w t tr m -> rt_m tr = length (w_machs (snd (steps p1 (start r)))) ->
  sparse_works w t tr m.
Proof.
  intros b p r p1 n l bo d mu p2 os w t tr m Er Es Q At Ei.
  assert (R : reached (Some (b, p)) w) by (eexists; eexists; eexists; split; eauto).
  apply (seen_works b p); auto. rewrite Ei.
  assert (W : w = snd (steps p2 (snd (step (ANewSparse n l bo d mu) (snd (steps p1 (start r))))))).
  { rewrite <- steps_cons, <- steps_app, Es. reflexivity. }
  rewrite W. apply steps_seen; [|rewrite <- W; exact Q].
  assert (R1 : reached (Some (b, p)) (snd (steps p1 (start r)))).
  { exists r, p1, (fst (steps p1 (start r))). split; [exact Er|]. now destruct (steps p1 (start r)). }
  eapply new_sparse_seen. apply (reached_inv _ _ _ R1).
Qed.

(** All sparse machines carry the flags of the default class. *)
Definition default_flags (a : action) : Prop :=
  match a with ANewSparse _ l bo d _ => l = true /\ d = true /\ bo = false | _ => True end.
Definition dinv (w : world) : Prop :=
  lookup (w_reg w) "sparse_cb" = Some (ECls (CSparse true true false))
  /\ Forall (fun m => k_kind m = KSparse ->
       k_budget m = true /\ k_dyn m = true /\ k_boost m = false
       /\ k_cls m = ECls (CSparse true true false)) (w_machs w).

Lemma step_dinv : forall i cv a w, winv i cv w -> default_flags a -> dinv w -> dinv (snd (step a w)).
Proof.
  intros i cv a w I Fa [L M]. pose (P := fun m => k_kind m = KSparse ->
       k_budget m = true /\ k_dyn m = true /\ k_boost m = false
       /\ k_cls m = ECls (CSparse true true false)).
  assert (AM : forall r, (forall m, r = Ok m -> P m) -> dinv (snd (add_mach r w))).
  { intros [m|e] Hr; cbn [add_mach snd]; [|split; auto]. split; cbn [w_reg w_machs]; [exact L|].
    apply Forall_app. split; [exact M|]. constructor; [|constructor]. apply Hr. reflexivity. }
  destruct a; cbn [step].
  - apply AM. intros m E. unfold new_dense in E. destruct (item _ _); inversion E; subst. intros K. discriminate K.
  - apply AM. intros m E. unfold new_sparse in E. destruct (item (w_reg w) "cb"); [|discriminate E].
    rewrite (item_ok _ _ _ L) in E. inversion E; subst. intros _. cbn. destruct Fa as (F1 & F2 & F3). auto.
  - apply AM. intros m E. unfold new_conv in E. destruct (new_dense _ _ _ _ _); inversion E; subst.
    intros K. discriminate K.
  - destruct (nth_error (w_machs w) i0) as [m|] eqn:E; [|split; auto]. cbn [snd].
    split; cbn [put_mach w_reg w_machs]; [exact L|]. apply Forall_upd; [exact M|]. cbn. intros K.
    pose proof (nth_Forall _ _ _ _ M E) as Hm. cbv beta in Hm. destruct (Hm K) as (A & B). auto.
  - destruct (nth_error (w_machs w) i0) as [m|] eqn:E; [|split; auto].
    destruct (new_trainer i0 fb w); split; auto.
  - destruct (nth_error (w_trainers w) t) as [tr|] eqn:E; [|split; auto].
    destruct (nth_error (w_machs w) (rt_m tr)) as [m|]; [|split; auto].
    destruct (data_call m (rt_eval tr) x y w); split; auto.
  - destruct (nth_error (w_trainers w) t) as [tr|] eqn:E; [|split; auto].
    destruct (nth_error (w_machs w) (rt_m tr)) as [m|]; [|split; auto].
    destruct (data_call m (rt_train tr) x y w); split; auto.
  - destruct (nth_error (w_trainers w) t) as [tr|] eqn:E; [|split; auto].
    destruct (nth_error (w_machs w) (rt_m tr)) as [m|] eqn:Em; [|split; auto].
    pose proof (nth_Forall _ _ _ _ M Em) as Hm. cbv beta in Hm.
    assert (H : dinv (snd (train_start m tr w))).
    { unfold train_start.
      destruct (rt_train tr); [|split; auto].
      destruct (select_ib m tr w) as [eib|]; [|split; auto].
      destruct (call eib) as [ib|]; [|split; auto].
      destruct (match feedback_cls m tr with Ok e => call e | Raise e => Raise e end); [|split; auto].
      assert (G : forall e w', get_backend m w = Ok (e, w') -> dinv (put_mach (rt_m tr) (with_cls e m) w')).
      { intros e w' Eg. rewrite (get_backend_native i cv) in Eg by apply (wi_fixed _ _ _ I).
        unfold class_for in Eg. destruct (k_kind m) eqn:K; inversion Eg; subst; clear Eg.
        - split; cbn [put_mach put_reg w_reg w_machs].
          + rewrite lookup_put. exact L.
          + apply Forall_upd; [exact M|]. cbn. rewrite K. discriminate.
        - destruct (Hm eq_refl) as (A & B & C & D). rewrite A, B, C.
          split; cbn [put_mach put_reg w_reg w_machs].
          + rewrite lookup_put. reflexivity.
          + apply Forall_upd; [exact M|]. cbn. auto.
        - split; cbn [put_mach w_reg w_machs]; [exact L|]. apply Forall_upd; [exact M|]. cbn.
          rewrite K. discriminate. }
      destruct (get_backend m w) as [[ecb w']|]; [|split; auto].
      specialize (G ecb w' eq_refl). destruct (call ecb) as [cb|]; [|exact G].
      destruct (accepts cb ib); [destruct (initialises cb)|]; exact G. }
    destruct (train_start m tr w) as [[[cb ib]|e] w']; exact H.
Qed.

Lemma steps_dinv : forall i cv p w, winv i cv w -> Forall default_flags p -> dinv w -> dinv (snd (steps p w)).
Proof.
  intros i cv p. induction p as [|a p IH]; intros w I F D; [exact D|].
  inversion F; subst. rewrite steps_cons. apply IH; auto.
  - apply step_inv; exact I.
  - eapply step_dinv; eauto.
Qed.

Lemma sparse_default : forall b p r pr os w t tr m,
  import_backend (Some (b, p)) = Ok r -> steps pr (start r) = (os, w) -> Forall default_flags pr ->
  trainer_at w t tr m -> k_kind m = KSparse -> sparse_works w t tr m.
Proof.
  intros b p r pr os w t tr m Er Es F At K.
  assert (R : reached (Some (b, p)) w) by (eexists; eexists; eexists; split; eauto).
  apply (seen_works b p); auto.
  destruct (import_native b p) as (r' & E' & Fx & S & j & C).
  assert (r' = r) by congruence. subst r'.
  assert (D : dinv (snd (steps pr (start r)))).
  { eapply steps_dinv; eauto. { apply start_inv; eauto. } split; [exact S | constructor]. }
  rewrite Es in D. cbn [snd] in D. destruct D as [L M]. destruct At as [Et Em].
  exists m. split; [exact Em | split; [exact K|]].
  pose proof (nth_Forall _ _ _ _ M Em) as Hm. cbv beta in Hm. destruct (Hm K) as (_ & _ & _ & Ec). congruence.
Qed.

(** ** Dense machines *)

Lemma dense_works : forall b p w t tr m k, reached (Some (b, p)) w -> trainer_at w t tr m ->
  k_kind m = KDense -> has_data k tr -> k = KArray \/ k = KCsr -> feedback_ok m tr ->
  fst (step (ATrain t) w) =
  Ok (OTrain (CDense (core_isa b p) (k_budget m) (k_boost m))
             (match k with KCsr => CSparseDenseIn | _ => CDenseIn end)).
Proof.
  intros b p w t tr m k R At K D Hk Fb.
  destruct (train_native b p w t tr m k R At D Hk Fb) as (ib & Es & E).
  pose proof (reached_inv _ _ _ R) as I. destruct At as [Et Em].
  pose proof (nth_Forall _ _ _ _ (wi_m _ _ _ I) Em) as Mi.
  destruct (select_native _ _ w m tr k I (nth_Forall _ _ _ _ (wi_t _ _ _ I) Et) Mi D Hk) as (ib' & Es' & Ei).
  assert (Eq : ib' = ib) by congruence. rewrite Eq in Ei. clear Eq Es'.
  rewrite E, K. unfold class_for. rewrite K.
  unfold mach_inv in Mi. rewrite K in Mi. destruct Mi as (j & l & tt' & Ec).
  destruct (wi_sp _ _ _ I) as (l2 & d2 & t2 & S). rewrite S, Ec in Ei.
  rewrite entry_eqb_neq in Ei by congruence.
  destruct Hk; subst k; subst ib; reflexivity.
Qed.

(** Every machine accepts csr data in every native world; dense machines accept
    arrays as well. *)
Lemma data_native : forall b p w m other x y, reached (Some (b, p)) w ->
  (exists i, nth_error (w_machs w) i = Some m) -> (k_kind m = KDense \/ x_kind x = KCsr) ->
  data_call m other (Some x) y w = check_data (k_nlit m) false (option_map d_x other) (Some x) y.
Proof.
  intros b p w m other x y R (i & Em) H.
  pose proof (reached_inv _ _ _ R) as I. pose proof (nth_Forall _ _ _ _ (wi_m _ _ _ I) Em) as Mi.
  unfold data_call. destruct (recognised_native _ _ w m I) as (c & Ec & Er). rewrite Er.
  destruct H as [K|K].
  - unfold mach_inv in Mi. rewrite K in Mi. destruct Mi as (j & l & t & Ek).
    destruct (wi_sp _ _ _ I) as (l2 & d2 & t2 & S). rewrite S in Ec. inversion Ec; subst.
    rewrite Ek, entry_eqb_neq by congruence. reflexivity.
  - unfold check_data, is_array. rewrite K. cbn [andb]. reflexivity.
Qed.

(** ** The pure python registry *)

Definition pure_cls (m : mach) : Prop :=
  match k_kind m with
  | KSparse => k_cls m = ECls (CPy PySparseIn)
  | KDense => k_cls m = ECls (CPy PyBlock)
  | KConv => k_cls m = ECls (CPy PyBlock) \/ k_cls m = ENone
  end.
Record pure_world (w : world) : Prop := mkPure {
  pw_reg : w_reg w = pure_impl;
  pw_m : Forall pure_cls (w_machs w);
  pw_t : Forall (fun t => rt_dense t = ECls (CPy PyDenseIn) /\ rt_sparse t = ECls (CPy PySparseIn)
                   /\ rt_sdense t = ECls (CPy PySparseDenseIn)
                   /\ rt_focused t = ECls (CPy PyFeedback) /\ rt_multi t = ECls (CPy PyMulti)
                   /\ rt_uniform t = ENone) (w_trainers w)
}.

Lemma pure_backend : forall m w, w_reg w = pure_impl ->
  get_backend m w = match k_kind m with KConv => Ok (ENone, w) | _ => Raise KeyError end.
Proof.
  intros m w E. unfold get_backend, item. rewrite E.
  destruct (k_kind m).
  - destruct (k_budget m), (k_boost m); reflexivity.
  - destruct (k_budget m), (k_dyn m), (k_boost m); reflexivity.
  - reflexivity.
Qed.

Lemma pure_train : forall m t w, w_reg w = pure_impl -> forall a, fst (train_start m t w) <> Ok a.
Proof.
  intros m t w E a. unfold train_start.
  destruct (rt_train t); [|discriminate].
  destruct (select_ib m t w) as [eib|]; [|discriminate].
  destruct (call eib) as [ib|]; [|discriminate].
  destruct (match feedback_cls m t with Ok e => call e | Raise e => Raise e end); [|discriminate].
  rewrite pure_backend by exact E. destruct (k_kind m); discriminate.
Qed.

Lemma pure_step : forall a w, pure_world w -> pure_world (snd (step a w)).
Proof.
  intros a w P. pose proof P as P0. destruct P as [R M T].
  assert (AM : forall r, (forall m, r = Ok m -> pure_cls m) -> pure_world (snd (add_mach r w))).
  { intros [m|e] Hr; cbn [add_mach snd]; [|exact P0]. constructor; cbn [w_reg w_machs w_trainers]; auto.
    apply Forall_app. split; [exact M|]. constructor; [|constructor]. apply Hr. reflexivity. }
  destruct a; cbn [step].
  - apply AM. intros m E. unfold new_dense, item in E. rewrite R in E. inversion E; subst. reflexivity.
  - apply AM. intros m E. unfold new_sparse, item in E. rewrite R in E. inversion E; subst. reflexivity.
  - apply AM. intros m E. unfold new_conv, new_dense, item in E. rewrite R in E. inversion E; subst.
    left. reflexivity.
  - destruct (nth_error (w_machs w) i) as [m|] eqn:E; [|exact P0]. cbn [snd].
    constructor; cbn [put_mach w_reg w_machs w_trainers]; auto. apply Forall_upd; [exact M|].
    exact (nth_Forall _ _ _ _ M E).
  - destruct (nth_error (w_machs w) i) as [m|] eqn:E; [|exact P0].
    unfold new_trainer, item. rewrite R. cbn [lookup pure_impl String.eqb Ascii.eqb Bool.eqb snd].
    constructor; cbn [w_reg w_machs w_trainers]; auto.
    apply Forall_app. split; [exact T|]. constructor; [|constructor]. cbn. repeat split.
  - destruct (nth_error (w_trainers w) t) as [tr|] eqn:E; [|exact P0].
    destruct (nth_error (w_machs w) (rt_m tr)) as [m|]; [|exact P0].
    destruct (data_call m (rt_eval tr) x y w); [|exact P0].
    constructor; cbn [snd put_trainer w_reg w_machs w_trainers]; auto.
    apply Forall_upd; [exact T|]. exact (nth_Forall _ _ _ _ T E).
  - destruct (nth_error (w_trainers w) t) as [tr|] eqn:E; [|exact P0].
    destruct (nth_error (w_machs w) (rt_m tr)) as [m|]; [|exact P0].
    destruct (data_call m (rt_train tr) x y w); [|exact P0].
    constructor; cbn [snd put_trainer w_reg w_machs w_trainers]; auto.
    apply Forall_upd; [exact T|]. exact (nth_Forall _ _ _ _ T E).
  - destruct (nth_error (w_trainers w) t) as [tr|] eqn:E; [|exact P0].
    destruct (nth_error (w_machs w) (rt_m tr)) as [m|] eqn:Em; [|exact P0].
    assert (H : pure_world (snd (train_start m tr w))).
    { unfold train_start.
      destruct (rt_train tr); [|exact P0].
      destruct (select_ib m tr w) as [eib|]; [|exact P0].
      destruct (call eib) as [ib|]; [|exact P0].
      destruct (match feedback_cls m tr with Ok e => call e | Raise e => Raise e end); [|exact P0].
      rewrite pure_backend by exact R. destruct (k_kind m) eqn:K; try exact P0.
      cbn [call snd]. constructor; cbn [put_mach w_reg w_machs w_trainers]; auto.
      apply Forall_upd; [exact M|]. unfold pure_cls, with_cls. cbn. rewrite K. right. reflexivity. }
    destruct (train_start m tr w) as [[[cb ib]|e] w']; exact H.
Qed.

Lemma pure_reached : forall w, reached None w -> pure_world w.
Proof.
  intros w (r & p & os & E & Es). cbn [import_backend] in E. assert (r = pure_impl) by congruence. subst r.
  replace w with (snd (steps p (start pure_impl))) by now rewrite Es. clear.
  assert (P : pure_world (start pure_impl)) by (constructor; cbn; constructor).
  revert P. generalize (start pure_impl). induction p as [|a p IH]; intros w P; [exact P|].
  rewrite steps_cons. apply IH. now apply pure_step.
Qed.

Lemma pure_trains : forall w t tr m k, reached None w -> trainer_at w t tr m -> k_kind m <> KConv ->
  has_data k tr -> k = KArray \/ k = KCsr -> rt_fb tr = FFocused ->
  fst (step (ATrain t) w) = Raise KeyError.
Proof.
  intros w t tr m k R [Et Em] K (a & b & Ea & Eb & Ka & Kb) Hk Fb.
  pose proof (pure_reached _ R) as [Rg M T].
  pose proof (nth_Forall _ _ _ _ T Et) as Ht. cbv beta in Ht. destruct Ht as (T1 & T2 & T3 & T4 & T5 & T6).
  cbn [step]. rewrite Et, Em. unfold train_start, select_ib, is_csr, is_array. rewrite Ea, Eb, Ka, Kb.
  assert (Er : exists sp, recognised m w = Ok sp).
  { unfold recognised, item. rewrite Rg. cbn [lookup pure_impl String.eqb Ascii.eqb Bool.eqb]. eauto. }
  destruct Er as (sp & Er). rewrite Er.
  assert (F : exists c, match feedback_cls m tr with Ok e => call e | Raise e => Raise e end = Ok c).
  { unfold feedback_cls. rewrite Fb. destruct (k_multi m); [rewrite T5 | rewrite T4]; cbn; eauto. }
  destruct F as (cf & F).
  destruct Hk as [Hk|Hk]; rewrite Hk in *; cbn [andb].
  - rewrite T1. cbn [call]. rewrite F, pure_backend by exact Rg.
    destruct (k_kind m); [reflexivity | reflexivity | now elim K].
  - destruct sp; [rewrite T2 | rewrite T3]; cbn [call]; rewrite F, pure_backend by exact Rg;
      (destruct (k_kind m); [reflexivity | reflexivity | now elim K]).
Qed.

Lemma pure_data : forall w m i other x y, reached None w -> nth_error (w_machs w) i = Some m ->
  data_call m other x y w =
  check_data (k_nlit m) (match k_kind m with KSparse => true | _ => false end) (option_map d_x other) x y.
Proof.
  intros w m i other x y R Em. destruct (pure_reached _ R) as [Rg M T].
  pose proof (nth_Forall _ _ _ _ M Em) as Hm. unfold pure_cls in Hm.
  unfold data_call, recognised, item. rewrite Rg. cbn [lookup pure_impl String.eqb Ascii.eqb Bool.eqb].
  destruct (k_kind m).
  - rewrite Hm. reflexivity.
  - rewrite Hm. reflexivity.
  - destruct Hm as [Hm|Hm]; rewrite Hm; reflexivity.
Qed.

(** ** has_avx2 *)

Lemma land_bit5 : forall z, 0 <= z -> negb (Z.land 32 z =? 0) = Z.testbit z 5.
Proof.
  intros z Hz. change 32 with (2 ^ 5).
  assert (E : Z.land (2 ^ 5) z = if Z.testbit z 5 then 2 ^ 5 else 0).
  { apply Z.bits_inj'. intros n Hn. rewrite Z.land_spec, Z.pow2_bits_eqb by lia.
    destruct (Z.eqb_spec 5 n) as [->|N]; cbn [andb].
    - destruct (Z.testbit z n) eqn:T.
      + rewrite <- T. symmetry. rewrite T. now rewrite Z.pow2_bits_eqb, Z.eqb_refl by lia.
      + now rewrite Z.bits_0.
    - destruct (Z.testbit z 5).
      + rewrite Z.pow2_bits_eqb by lia. symmetry. apply Z.eqb_neq. lia.
      + now rewrite Z.bits_0. }
  rewrite E. destruct (Z.testbit z 5); reflexivity.
Qed.

Lemma has_avx2_exact : forall b p, 0 <= r_eax (p 0) -> 0 <= r_edx (p 0) ->
  has_avx2 b p = b_avx2 b && negb (r_eax (p 0) =? 0) && Z.testbit (r_edx (p 0)) 5.
Proof.
  intros b p H0 H. unfold has_avx2, get_cpuid. destruct (b_avx2 b); [|reflexivity]. cbn [andb].
  destruct (Z.eqb_spec (r_eax (p 0)) 0) as [E|E]; cbn [orb negb andb]; [reflexivity|].
  replace (r_eax (p 0) <? 0) with false by (symmetry; apply Z.ltb_ge; lia).
  unfold bit_AVX2. now apply land_bit5.
Qed.

Lemma has_avx2_vendor : forall b p, b_avx2 b = true -> 0 < r_eax (p 0) -> intel p \/ amd p ->
  has_avx2 b p = true.
Proof.
  intros b p Eb H0 V. rewrite has_avx2_exact.
  - rewrite Eb. replace (r_eax (p 0) =? 0) with false by (symmetry; apply Z.eqb_neq; lia).
    destruct V as [(_ & E & _)|(_ & E & _)]; rewrite E; reflexivity.
  - lia.
  - destruct V as [(_ & E & _)|(_ & E & _)]; rewrite E; vm_compute; discriminate.
Qed.
