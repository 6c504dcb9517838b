(** Proofs about the configuration of machines. *)
From Coq Require Import String Ascii ZArith List Bool QArith Lia ZifyBool.
From Verif Require Import Base ModelRuleSet ModelDense ModelLayout ModelMachine ProofsLayout.
Import ListNotations.
Open Scope Z_scope.

(** ** Block sizes *)

Lemma zsum_repeat : forall v n, zsum (repeat v n) = v * Z.of_nat n.
Proof. induction n as [|n IH]; cbn [repeat zsum]; [lia|]. rewrite IH. lia. Qed.

Lemma existsb_lt1 : forall l, existsb (fun z => z <? 1) l = false <-> Forall (fun z => 1 <= z) l.
Proof.
  induction l as [|a l IH]; cbn [existsb]; split; intros H; auto.
  - apply orb_false_iff in H. destruct H. constructor; [lia|]. now apply IH.
  - inversion H; subst. apply orb_false_iff. split; [lia|]. now apply IH.
Qed.

Theorem set_blocks_int : forall n t,
  let '(r, t') := set_num_clause_blocks (BInt n) t in
  (r = Ok tt <-> 1 <= n <= tm_ncl t) /\
  (r = Ok tt -> exists sz, t' = with_sizes (Some sz) t /\ Z.of_nat (length sz) = n /\ zsum sz = tm_ncl t /\
     Forall (fun z => 1 <= z) sz /\ nth 0 sz 0 = tm_ncl t / n + tm_ncl t mod n /\
     forall i, (0 < i < length sz)%nat -> nth i sz 0 = tm_ncl t / n).
Proof.
  intros n t. unfold set_num_clause_blocks.
  destruct (n =? 0) eqn:E0; [split; [split; intros H; [discriminate|lia]|discriminate]|].
  destruct (Z.to_nat n) as [|m] eqn:En; cbn [repeat].
  - split; [split; intros H; [discriminate|lia]|discriminate].
  - set (c := tm_ncl t). set (q := c / n).
    assert (Hn : n = Z.of_nat (S m)) by lia.
    pose proof (Z.div_mod c n ltac:(lia)) as DM. pose proof (Z.mod_pos_bound c n ltac:(lia)) as MB.
    fold q in DM.
    destruct (existsb (fun z => z <? 1) (q + c mod n :: repeat q m)) eqn:E.
    + split; [|discriminate]. split; [discriminate|]. intros H. exfalso.
      assert (Hq : 1 <= q) by (unfold q; apply Z.div_le_lower_bound; lia).
      assert (F : Forall (fun z => 1 <= z) (q + c mod n :: repeat q m)).
      { constructor; [lia|]. apply Forall_forall. intros z Hz. apply repeat_spec in Hz. lia. }
      apply existsb_lt1 in F. congruence.
    + apply existsb_lt1 in E. split.
      * split; auto. intros _. split; [lia|]. inversion E as [|z0 l0 E1 E2 Eq]; clear Eq.
        destruct m as [|m].
        -- assert (c mod n = 0) by (rewrite Hn; apply Z.mod_1_r). nia.
        -- cbn [repeat] in E2. inversion E2 as [|z1 l1 E3 E4 Eq]. nia.
      * intros _. exists (q + c mod n :: repeat q m). split; [reflexivity|]. cbn [length].
        rewrite repeat_length. split; [lia|]. split; [cbn [zsum]; rewrite zsum_repeat; nia|].
        split; [auto|]. split; [reflexivity|]. intros [|i] Hi; [lia|]. cbn [nth].
        assert (K : forall k j, (j < k)%nat -> nth j (repeat q k) 0 = q)
          by (induction k as [|k IH]; intros [|j] Hj; cbn [repeat nth]; auto; try lia; apply IH; lia).
        apply K. lia.
Qed.

Theorem set_blocks_list : forall l t,
  let '(r, t') := set_num_clause_blocks (BList l) t in
  (r = Ok tt <-> zsum l = tm_ncl t /\ Forall (fun z => 1 <= z) l) /\
  (r = Ok tt -> t' = with_sizes (Some l) t).
Proof.
  intros l t. unfold set_num_clause_blocks. destruct (zsum l =? tm_ncl t) eqn:E; cbn [negb].
  - destruct (existsb (fun z => z <? 1) l) eqn:E2.
    + split; [|discriminate]. split; [discriminate|]. intros [_ H]. apply existsb_lt1 in H. congruence.
    + apply existsb_lt1 in E2. split; auto. split; auto. intros _. split; [lia|auto].
  - split; [|discriminate]. split; [discriminate|lia].
Qed.

(** What a failing call leaves behind. *)
Theorem set_blocks_fail : forall a t e t', set_num_clause_blocks a t = (Raise e, t') ->
  t' = t \/ exists sz, t' = with_sizes (Some sz) t /\ (sz = [] \/ Exists (fun z => z < 1) sz).
Proof.
  intros a t e t' H. unfold set_num_clause_blocks in H. destruct a as [n|l].
  - destruct (n =? 0); [inversion H; auto|]. destruct (repeat _ _) as [|h r].
    + inversion H; subst. right. exists []. auto.
    + destruct (existsb _ _) eqn:E; [|discriminate]. inversion H; subst. right. eexists. split; [reflexivity|]. right.
      apply existsb_exists in E. destruct E as [z [Hz1 Hz2]]. apply Exists_exists. exists z. split; [auto|lia].
  - destruct (negb _); [inversion H; auto|]. destruct (existsb _ _) eqn:E; [|discriminate].
    inversion H; subst. right. eexists. split; [reflexivity|]. right.
    apply existsb_exists in E. destruct E as [z [Hz1 Hz2]]. apply Exists_exists. exists z. split; [auto|lia].
Qed.

(** A refusal that happens before anything is stored. *)
Theorem set_blocks_fail_early : forall a t, a = BInt 0 \/ (exists l, a = BList l /\ zsum l <> tm_ncl t) ->
  exists e, set_num_clause_blocks a t = (Raise e, t).
Proof.
  intros a t [H|[l [H1 H2]]]; subst; unfold set_num_clause_blocks; [eexists; reflexivity|].
  destruct (zsum l =? tm_ncl t) eqn:E; [lia|]. eexists. reflexivity.
Qed.

(** ** Construction of the blocks *)

(** [cur] is a position in the endless repetition of [l]. *)
Definition at_pos {A} (l cur : list A) (k : nat) : Prop :=
  (match cur with [] => l | _ => cur end) = skipn (k mod length l) l.

Lemma at_pos_0 : forall A (l : list A), l <> [] -> at_pos l [] 0.
Proof. intros A l H. unfold at_pos. destruct l; [congruence|]. rewrite Nat.mod_0_l by discriminate. reflexivity. Qed.

Lemma skipn_hd : forall A (l : list A) i h r d, skipn i l = h :: r -> nth i l d = h /\ skipn (S i) l = r /\ (i < length l)%nat.
Proof.
  induction l as [|a l IH]; intros [|i] h r d H; cbn [skipn] in H; try discriminate.
  - inversion H; subst. cbn. repeat split; lia.
  - destruct (IH i h r d H) as [A1 [A2 A3]]. cbn [nth length]. split; [auto|split; [exact A2|lia]].
Qed.

Lemma succ_mod : forall k n, (n <> 0)%nat -> (S k mod n = S (k mod n) mod n)%nat.
Proof. intros k n H. replace (S k) with (k + 1)%nat by lia. rewrite <- Nat.add_mod_idemp_l by auto. f_equal; lia. Qed.

Lemma at_pos_step : forall A (l cur : list A) k d, l <> [] -> at_pos l cur k ->
  exists cur', (match cur with [] => l | _ => cur end) = nth (k mod length l) l d :: cur' /\ at_pos l cur' (S k).
Proof.
  intros A l cur k d Hl H. unfold at_pos in *. assert (L : (0 < length l)%nat) by (destruct l; [congruence|cbn; lia]).
  pose proof (Nat.mod_upper_bound k (length l) ltac:(lia)) as B.
  rewrite H. destruct (skipn (k mod length l) l) as [|h r] eqn:E.
  - apply (f_equal (@length A)) in E. rewrite skipn_length in E. cbn in E. lia.
  - destruct (skipn_hd _ _ _ _ _ d E) as [E1 [E2 _]]. exists r. split; [congruence|].
    destruct (Nat.eq_dec (S (k mod length l)) (length l)) as [Q|Q].
    + assert (M : (S k mod length l = 0)%nat) by (rewrite succ_mod, Q by lia; apply Nat.mod_same; lia).
      rewrite M. cbn [skipn]. rewrite Q, skipn_all in E2. subst r. reflexivity.
    + assert (M : (S k mod length l = S (k mod length l))%nat) by (rewrite succ_mod by lia; apply Nat.mod_small; lia).
      rewrite M, E2. destruct r as [|r0 r]; [|reflexivity].
      apply (f_equal (@length A)) in E2. rewrite skipn_length in E2. cbn in E2. lia.
Qed.

(** Budget handed to block number k, None when pybind11 refuses it. *)
Definition dealt_budget (t : tm) (k : nat) : option Z :=
  match tm_budgets t with
  | None :: _ => Some 65535
  | _ => as_uint32 (nth (k mod length (tm_budgets t)) (tm_budgets t) None)
  end.

Lemma build_loop_spec : forall t sizes flags sq bq k, tm_s t <> [] -> tm_budgets t <> [] ->
  at_pos (tm_s t) sq k -> at_pos (tm_budgets t) bq k -> length flags = length sizes ->
  let '(cbs, e) := build_loop t sq bq sizes flags in
  (e = None <-> forall i, (i < length sizes)%nat -> dealt_budget t (k + i) <> None) /\
  (e = None -> length cbs = length sizes) /\
  (forall i d, (i < length cbs)%nat -> exists b, dealt_budget t (k + i) = Some b /\
     nth i cbs d = mkCb (get_backend t) (tm_nlit t) (nth i sizes 0) (tm_ncls t)
                        (nth ((k + i) mod length (tm_s t)) (tm_s t) Fnan) b).
Proof.
  intros t sizes. induction sizes as [|n sizes IH]; intros flags sq bq k Hs Hb Ps Pb HL.
  - destruct flags; [|discriminate]. cbn [build_loop]. split; [|split]; auto.
    + split; auto. intros _ i Hi. cbn in Hi. lia.
    + intros i d Hi. cbn in Hi. lia.
  - destruct flags as [|f flags]; [discriminate|]. cbn [build_loop].
    destruct (at_pos_step _ _ _ _ Fnan Hs Ps) as [sq' [Es Ps']]. destruct (at_pos_step _ _ _ _ None Hb Pb) as [bq' [Eb Pb']].
    rewrite Es, Eb.
    assert (D : (if match tm_budgets t with None :: _ => false | _ => true end
                 then as_uint32 (nth (k mod length (tm_budgets t)) (tm_budgets t) None) else Some 65535) = dealt_budget t k).
    { unfold dealt_budget. destruct (tm_budgets t) as [|[b|] bs]; auto. }
    rewrite D. destruct (dealt_budget t k) as [bud|] eqn:Ed.
    + specialize (IH flags sq' bq' (S k) Hs Hb Ps' Pb' ltac:(cbn in HL; lia)).
      destruct (build_loop t sq' bq' sizes flags) as [r e]. destruct IH as [A1 [A2 A3]].
      split; [|split].
      * rewrite A1. split; intros H i Hi.
        -- destruct i as [|i]; [rewrite Nat.add_0_r; congruence|]. rewrite <- Nat.add_succ_comm. apply H. cbn in Hi. lia.
        -- rewrite Nat.add_succ_comm. apply H. cbn. lia.
      * intros H. cbn [length]. rewrite A2; auto.
      * intros [|i] d Hi; cbn [nth].
        -- exists bud. rewrite Nat.add_0_r. auto.
        -- rewrite <- Nat.add_succ_comm. apply A3. cbn in Hi. lia.
    + split; [|split].
      * split; [discriminate|]. intros H. exfalso. apply (H 0%nat); [cbn; lia|]. rewrite Nat.add_0_r. auto.
      * discriminate.
      * intros i d Hi. cbn in Hi. lia.
Qed.

Theorem construct_spec : forall t sizes, tm_sizes t = Some sizes -> tm_flags t = None -> tm_s t <> [] -> tm_budgets t <> [] ->
  let '(r, t') := construct_clause_blocks t in
  ((forall i, (i < length sizes)%nat -> dealt_budget t i <> None) <-> exists cbs, r = Ok cbs) /\
  (forall cbs, r = Ok cbs -> t' = with_cbs (Some cbs) t /\ length cbs = length sizes /\
     forall i d, (i < length sizes)%nat -> exists b, dealt_budget t i = Some b /\
       nth i cbs d = mkCb (get_backend t) (tm_nlit t) (nth i sizes 0) (tm_ncls t)
                          (nth (i mod length (tm_s t)) (tm_s t) Fnan) b).
Proof.
  intros t sizes Hz Hf Hs Hb. unfold construct_clause_blocks. rewrite Hz, Hf.
  pose proof (build_loop_spec t sizes (repeat true (length sizes)) [] [] 0 Hs Hb
    (at_pos_0 _ _ Hs) (at_pos_0 _ _ Hb) (repeat_length _ _)) as B.
  destruct (build_loop t [] [] sizes (repeat true (length sizes))) as [cbs [e|]]; destruct B as [B1 [B2 B3]].
  - split.
    + split; [intros H; apply B1 in H; discriminate|intros [c H]; discriminate].
    + discriminate.
  - split.
    + split; [eauto|]. intros _. apply B1. auto.
    + intros c Hc. inversion Hc; subst c. rewrite B2 by auto. split; [auto|]. split; [auto|].
      intros i d Hi. apply B3. rewrite B2 by auto. auto.
Qed.

Lemma construct_empty_s : forall t sizes, tm_sizes t = Some sizes -> tm_s t = [] ->
  construct_clause_blocks t = (Ok [], with_cbs (Some []) t).
Proof.
  intros t sizes Hz Hs. unfold construct_clause_blocks. rewrite Hz.
  destruct sizes as [|n sizes]; [destruct (tm_flags t); reflexivity|].
  destruct (tm_flags t) as [[|f fs0]|]; cbn [repeat length build_loop]; rewrite ?Hs; reflexivity.
Qed.

(** ** Seeds *)

Lemma allocate_loop_spec : forall cbs seed,
  match allocate_loop seed cbs with
  | Ok l => length l = length cbs /\ (cbs <> [] -> 0 <= seed /\ seed + Z.of_nat (length cbs) <= 4294967296) /\
            forall i d, (i < length cbs)%nat ->
              nth i l (d, 0, false) = (nth i cbs d, seed + Z.of_nat i, negb (seed + Z.of_nat i =? 0))
  | Raise e => e = TypeError /\ ~ (0 <= seed /\ seed + Z.of_nat (length cbs) <= 4294967296)
  end.
Proof.
  induction cbs as [|cb cbs IH]; intros seed; cbn [allocate_loop].
  - split; [auto|]. split; [congruence|]. intros i d Hi. cbn in Hi. lia.
  - destruct ((seed <? 0) || (4294967296 <=? seed)) eqn:E; [cbn [length]; split; [auto|lia]|].
    specialize (IH (seed + 1)). destruct (allocate_loop (seed + 1) cbs) as [l|e].
    + destruct IH as [A1 [A2 A3]]. cbn [length]. split; [lia|]. split.
      * intros _. destruct cbs as [|c2 cbs]; [cbn; lia|]. specialize (A2 ltac:(discriminate)). lia.
      * intros [|i] d Hi; cbn [nth].
        -- rewrite Z.add_0_r. auto.
        -- rewrite A3 by lia. replace (seed + 1 + Z.of_nat i) with (seed + Z.of_nat (S i)) by lia. auto.
    + destruct IH as [A1 A2]. cbn [length]. split; [auto|lia].
Qed.

Theorem allocate_spec : forall cbs seed, cbs <> [] ->
  match allocate_clause_blocks cbs seed with
  | Ok l => 0 <= seed /\ seed + Z.of_nat (length cbs) <= 4294967296 /\ length l = length cbs /\
            (forall i d, (i < length cbs)%nat ->
              nth i l (d, 0, false) = (nth i cbs d, seed + Z.of_nat i, negb (seed + Z.of_nat i =? 0))) /\
            NoDup (map (fun e => snd (fst e)) l) /\
            (executor_accepts l = true <-> seed <> 0)
  | Raise e => e = TypeError /\ ~ (0 <= seed /\ seed + Z.of_nat (length cbs) <= 4294967296)
  end.
Proof.
  intros cbs seed Hne. unfold allocate_clause_blocks. destruct cbs as [|cb0 cbs0]; [congruence|]. clear Hne.
  set (cbs := cb0 :: cbs0). assert (Hne : cbs <> []) by discriminate. clearbody cbs.
  pose proof (allocate_loop_spec cbs seed) as A. destruct (allocate_loop seed cbs) as [l|e]; [|exact A].
  destruct A as [A1 [A2 A3]]. destruct (A2 Hne) as [A4 A5].
  assert (L : (0 < length cbs)%nat) by (destruct cbs; [congruence|cbn; lia]).
  repeat split; auto.
  - assert (N : forall k, (k < length l)%nat -> nth k (map (fun e : cblock * Z * bool => snd (fst e)) l) 0 = seed + Z.of_nat k).
    { intros k Hk. change 0 with (snd (fst (cb0, 0, false))).
      rewrite (map_nth (fun e : cblock * Z * bool => snd (fst e))). rewrite A3 by lia. reflexivity. }
    apply (NoDup_nth _ 0). rewrite map_length. intros i j Hi Hj E. rewrite !N in E by auto. lia.
  - unfold executor_accepts. intros H Hs. apply andb_prop in H. destruct H as [_ H].
    rewrite forallb_forall in H. specialize (H (nth 0 l (cb0, 0, false)) ltac:(apply nth_In; lia)).
    rewrite A3 in H by lia. subst seed. discriminate.
  - intros Hs. unfold executor_accepts. apply andb_true_intro. split; [destruct l; [cbn in A1; lia|reflexivity]|].
    apply forallb_forall. intros e He. apply (In_nth _ _ (cb0, 0, false)) in He. destruct He as [i [Hi He]]. subst e.
    rewrite A3 by lia. cbn [snd]. lia.
Qed.

(** ** Construction of machines *)

(** s is at least one, as a number. *)
Definition fl_ge1 (f : fl) : Prop := match f with Fin q => (1 <= q)%Q | Fpinf => True | _ => False end.

Lemma ltb1 : forall f, fl_ltb f (Fin 1) = false <-> fl_ge1 f \/ f = Fnan.
Proof.
  intros [| |q|]; cbn [fl_ltb fl_ge1]; split; intros H; auto; try discriminate; try (destruct H; [contradiction|discriminate]).
  - left. unfold Qlt_bool in H. apply negb_false_iff in H. now apply Qle_bool_iff.
  - destruct H as [H|H]; [|discriminate]. unfold Qlt_bool. apply negb_false_iff. now apply Qle_bool_iff.
Qed.

Definition s_values (s : sarg) : option (list fl) :=
  match s with SFloat f => Some [f] | SInt _ => None | SList l => Some l end.

Theorem init_spec : forall nlit ncl ncls s thr budget boost multi,
  match tm_init nlit ncl ncls s thr budget boost multi with
  | Ok t => exists ss, s_values s = Some ss /\ Forall (fun f => fl_ge1 f \/ f = Fnan) ss /\ 1 <= thr /\
              t = mkTm nlit ncl (if multi then 2 * ncls else ncls)%nat ss thr [budget] None boost multi None None None
  | Raise e => s_values s = None \/ thr < 1 \/
              exists ss, s_values s = Some ss /\ Exists (fun f => ~ (fl_ge1 f \/ f = Fnan)) ss
  end.
Proof.
  intros. unfold tm_init. fold (s_values s). destruct (s_values s) as [ss|]; [|auto].
  destruct (existsb (fun v => fl_ltb v (Fin 1)) ss) eqn:E.
  - right. right. exists ss. split; auto. apply existsb_exists in E. destruct E as [v [H1 H2]].
    apply Exists_exists. exists v. split; auto. intros K. apply ltb1 in K. congruence.
  - destruct (thr <? 1) eqn:E2; [right; left; lia|]. exists ss. split; auto. split; [|split; [lia|]].
    + apply Forall_forall. intros v Hv. apply ltb1. destruct (fl_ltb v (Fin 1)) eqn:E3; auto.
      assert (existsb (fun v => fl_ltb v (Fin 1)) ss = true) by (apply existsb_exists; eauto). congruence.
    + f_equal. destruct multi; lia.
Qed.

(** ** Starting a training run *)

Theorem train_start_ok : forall n_jobs seed t l t', train_start n_jobs seed t = (Ok l, t') ->
  1 <= seed /\ (exists cbs, tm_cbs t' = Some cbs /\ map (fun e => fst (fst e)) l = cbs /\ cbs <> []) /\
  (forall i d, (i < length l)%nat -> snd (fst (nth i l d)) = seed + Z.of_nat i /\ snd (nth i l d) = true).
Proof.
  intros n_jobs seed t l t' H. unfold train_start in H.
  destruct (match tm_sizes t with None => set_num_clause_blocks (BInt n_jobs) t | Some _ => (Ok tt, t) end) as [[u|e] t0]; [|discriminate].
  destruct (construct_clause_blocks t0) as [[cbs|e] t1] eqn:C; [|discriminate].
  assert (T1 : tm_cbs t1 = Some cbs).
  { unfold construct_clause_blocks in C. destruct (tm_sizes t0); [|destruct (tm_flags t0); discriminate].
    destruct (build_loop _ _ _ _ _) as [c [e|]]; inversion C; subst; reflexivity. }
  destruct cbs as [|cb cbs0]; [discriminate|]. set (cbs := cb :: cbs0) in *. assert (Hne : cbs <> []) by discriminate.
  pose proof (allocate_spec cbs seed Hne) as A. destruct (allocate_clause_blocks cbs seed) as [l0|e]; [|discriminate].
  destruct A as [A1 [A2 [A3 [A4 [A5 A6]]]]]. destruct (executor_accepts l0) eqn:X; [|discriminate].
  inversion H; subst l0 t'. pose proof (proj1 A6 eq_refl). split; [lia|]. split.
  - exists cbs. split; auto. split; auto. apply nth_ext with (d := cb) (d' := cb); [now rewrite map_length|].
    intros i Hi. rewrite map_length in Hi.
    rewrite (nth_indep _ cb (fst (fst (cb, 0, false)))) by (rewrite map_length; auto).
    rewrite (map_nth (fun e : cblock * Z * bool => fst (fst e))). rewrite A4 by lia. reflexivity.
  - intros i d Hi. rewrite (nth_indep _ d (cb, 0, false)) by auto. rewrite A4 by lia. cbn [fst snd]. split; [auto|lia].
Qed.

Theorem train_start_seed0 : forall n_jobs t, exists e t', train_start n_jobs 0 t = (Raise e, t').
Proof.
  intros n_jobs t. destruct (train_start n_jobs 0 t) as [[l|e] t'] eqn:E; [|eauto].
  apply train_start_ok in E. lia.
Qed.

Lemma as_uint32_ok : forall b, 0 <= b < 4294967296 -> as_uint32 (Some b) = Some b.
Proof. intros b H. unfold as_uint32. destruct (_ && _) eqn:E; auto. lia. Qed.

(** A freshly constructed machine always starts, for 1 <= n_jobs <= n_clauses and
    a positive seed with room for the blocks. *)
Theorem train_start_fresh : forall nlit ncl ncls s thr budget boost multi t n_jobs seed,
  tm_init nlit ncl ncls s thr budget boost multi = Ok t -> s <> SList [] ->
  (forall b, budget = Some b -> 0 <= b < 4294967296) ->
  1 <= n_jobs <= ncl -> 1 <= seed -> seed + n_jobs <= 4294967296 ->
  exists l t', train_start n_jobs seed t = (Ok l, t') /\ Z.of_nat (length l) = n_jobs /\
    zsum (map (fun e => c_ncl (fst (fst e))) l) = ncl.
Proof.
  intros nlit ncl ncls s thr budget boost multi t n_jobs seed HI Hs Hb Hj Hs1 Hs2.
  pose proof (init_spec nlit ncl ncls s thr budget boost multi) as S. rewrite HI in S.
  destruct S as [ss [E1 [_ [_ Et]]]].
  assert (Hss : ss <> []). { destruct s; cbn in E1; inversion E1; subst; try discriminate. congruence. }
  unfold train_start. assert (Z0 : tm_sizes t = None) by (rewrite Et; reflexivity). rewrite Z0.
  pose proof (set_blocks_int n_jobs t) as B. destruct (set_num_clause_blocks (BInt n_jobs) t) as [r t0].
  destruct B as [B1 B2]. assert (Hr : r = Ok tt) by (apply B1; subst t; cbn; lia). subst r.
  destruct (B2 eq_refl) as [sz [C1 [C2 [C3 _]]]].
  assert (K : tm_sizes t0 = Some sz /\ tm_flags t0 = None /\ tm_s t0 = ss /\ tm_budgets t0 = [budget]) by (subst t0 t; repeat split).
  destruct K as [K1 [K2 [K3 K4]]].
  pose proof (construct_spec t0 sz K1 K2 ltac:(congruence) ltac:(rewrite K4; discriminate)) as CS.
  destruct (construct_clause_blocks t0) as [r1 t1]. destruct CS as [CS1 CS2].
  destruct (proj1 CS1) as [cbs Hc].
  { intros i _. unfold dealt_budget. rewrite K4. destruct budget as [b|]; [|discriminate]. cbn [length].
    rewrite Nat.mod_1_r. cbn [nth]. rewrite as_uint32_ok by auto. discriminate. }
  subst r1. destruct (CS2 cbs eq_refl) as [_ [L CN]].
  assert (Hne : cbs <> []) by (intros Q; subst cbs; cbn in L; lia).
  pose proof (allocate_spec cbs seed Hne) as A. destruct (allocate_clause_blocks cbs seed) as [l|e]; [|lia].
  destruct A as [_ [_ [A3 [A4 [_ A6]]]]]. rewrite (proj2 A6) by lia. exists l, t1. split; [auto|]. split; [lia|].
  destruct cbs as [|cb cbs0]; [congruence|]. set (cbs := cb :: cbs0) in *.
  replace (map (fun e : cblock * Z * bool => c_ncl (fst (fst e))) l) with sz; [subst t; cbn in C3; exact C3|].
  apply nth_ext with (d := 0) (d' := c_ncl (fst (fst (cb, 0, false)))); [rewrite map_length; lia|].
  intros i Hi. rewrite (map_nth (fun e : cblock * Z * bool => c_ncl (fst (fst e)))). rewrite A4 by lia. cbn [fst].
  destruct (CN i cb Hi) as [b [_ E]]. rewrite E. reflexivity.
Qed.

(** ** Resuming *)

Theorem resume_views : forall init s l n ncls,
  Forall (fun e => flat_wf n ncls (init (fst (fst e)) (snd (fst e)))) l ->
  state_shape n (total_clauses (map (fun e => init (fst (fst e)) (snd (fst e))) l)) ncls s ->
  let cbs := started init (Some s) l in
  concat (map view_clauses cbs) = map (split_row n) (ds_c s) /\ concat (map view_all_weights cbs) = ds_w s /\
  map f_ncl cbs = map f_ncl (started init None l) /\
  forall d, state_shape n (total_clauses (started init None l)) ncls d -> load_state_from_backend cbs d = s.
Proof.
  intros init s l n ncls HF SS cbs.
  set (raw := map (fun e : cblock * Z * bool => init (fst (fst e)) (snd (fst e))) l) in *.
  assert (W : Forall (flat_wf n ncls) raw).
  { apply Forall_forall. intros f Hf. apply in_map_iff in Hf. destruct Hf as [e [E1 E2]]. subst f.
    rewrite Forall_forall in HF. auto. }
  destruct SS as [S1 [S2 [S3 [S4 [S5 S6]]]]].
  pose proof (save_views n ncls (ds_c s) (ds_w s) raw 0 W) as V.
  change cbs with (save_loop (flatten (ds_c s)) (flatten (ds_w s)) 0 raw) in *.
  destruct V as [V1 [V2 V3]]; auto; try lia.
  split; [|split; [|split]].
  - rewrite V1. reflexivity.
  - rewrite V2. reflexivity.
  - exact V3.
  - intros d Hd. apply (load_save_state n ncls raw s d W); auto. repeat split; auto.
Qed.

(** ** Files *)

Definition rows (a : array) : option nat := hd_error (a_shape a).

Theorem load_exact : forall path f s, load_from_file path f = Ok s <->
  is_npz path = true /\ exists m w c r, f path = Some (Npz m) /\ npz_find "w" m = Some w /\ npz_find "c" m = Some c /\
    rows w = Some r /\ rows c = Some r /\ a_dtype w = DInt16 /\ a_dtype c = DInt8 /\ s = mkDs (Some w) (Some c).
Proof.
  intros path f s. unfold load_from_file, npz_get, rows. split.
  - intros H. destruct (is_npz path); [|discriminate]. split; [auto|]. cbn [negb] in H.
    destruct (f path) as [[m|]|]; try discriminate.
    destruct (npz_find "w" m) as [w|] eqn:Ew; [|discriminate]. destruct (dtype_eqb (a_dtype w) DObject); [discriminate|].
    destruct (a_shape w) as [|rw sw] eqn:Sw; [discriminate|].
    destruct (npz_find "c" m) as [c|] eqn:Ec; [|discriminate]. destruct (dtype_eqb (a_dtype c) DObject); [discriminate|].
    destruct (a_shape c) as [|rc sc] eqn:Sc; [discriminate|].
    destruct (Nat.eqb rw rc) eqn:Er; [|discriminate]. apply Nat.eqb_eq in Er. subst rc.
    destruct (a_dtype w) eqn:Dw; try discriminate. destruct (a_dtype c) eqn:Dc; try discriminate.
    inversion H. exists m, w, c, rw. rewrite Sw, Sc. cbn. repeat split; auto.
  - intros [H [m [w [c [r [F [Ew [Ec [Rw [Rc [Dw [Dc Es]]]]]]]]]]]]. rewrite H, F, Ew, Ec, Dw, Dc. cbn [negb dtype_eqb].
    destruct (a_shape w); [discriminate|]. destruct (a_shape c); [discriminate|]. cbn in Rw, Rc.
    inversion Rw. inversion Rc. subst. rewrite Nat.eqb_refl, ?Dw, ?Dc. reflexivity.
Qed.

Theorem save_load : forall path w c r f, is_npz path = true -> a_dtype w = DInt16 -> a_dtype c = DInt8 ->
  rows w = Some r -> rows c = Some r ->
  exists f', save_to_file path (mkDs (Some w) (Some c)) f = (Ok tt, f') /\
    load_from_file path f' = Ok (mkDs (Some w) (Some c)) /\ (forall p, p <> path -> f' p = f p).
Proof.
  intros path w c r f H Dw Dc Rw Rc. unfold save_to_file. rewrite H. cbn [negb]. eexists. split; [reflexivity|]. split.
  - apply load_exact. split; [auto|]. eexists _, w, c, r. rewrite String.eqb_refl. repeat split; auto.
  - intros p Hp. apply String.eqb_neq in Hp. rewrite Hp. auto.
Qed.

(** ** Sequences of configuration calls *)

Inductive ccall := CBudget (a : barg) | CBlocks (a : barg) | CFlags (l : list bool) | CBuild.

Definition cstep (c : ccall) (t : tm) : res unit * tm :=
  match c with
  | CBudget a => set_literal_budget a t
  | CBlocks a => set_num_clause_blocks a t
  | CFlags l => set_trainable_flags l t
  | CBuild => let '(r, t') := construct_clause_blocks t in
              (match r with Ok _ => Ok tt | Raise e => Raise e end, t')
  end.

(** The results of all calls (exceptions are caught and the next call made), and
    the machine afterwards. *)
Fixpoint crun (cs : list ccall) (t : tm) : list (res unit) * tm :=
  match cs with
  | [] => ([], t)
  | c :: cs' => let '(r, t1) := cstep c t in let '(rs, t2) := crun cs' t1 in (r :: rs, t2)
  end.

Record cfg_ok (t : tm) : Prop := {
  ck_flags : tm_flags t = None;
  ck_s : tm_s t <> [];
  ck_b : tm_budgets t <> [];
  ck_sizes : forall sz, tm_sizes t = Some sz -> zsum sz = tm_ncl t /\ Forall (fun z => 1 <= z) sz;
  ck_cbs : forall cbs, tm_cbs t = Some cbs -> zsum (map c_ncl cbs) = tm_ncl t /\ Forall (fun c => 1 <= c_ncl c) cbs
}.

Lemma cstep_ok : forall c t t', cfg_ok t -> cstep c t = (Ok tt, t') ->
  cfg_ok t' /\ tm_ncl t' = tm_ncl t /\ tm_nlit t' = tm_nlit t /\ tm_ncls t' = tm_ncls t /\ tm_s t' = tm_s t.
Proof.
  intros c t t' [F S B Z C] H. destruct c as [a|a|l|]; cbn [cstep] in H.
  - unfold set_literal_budget in H. destruct a as [z|l]; inversion H; subst; split; try (repeat split; fail); constructor; auto; discriminate.
  - destruct a as [n|l].
    + pose proof (set_blocks_int n t) as P. rewrite H in P. destruct P as [_ P].
      destruct (P eq_refl) as [sz [E [_ [E2 [E3 _]]]]]. subst t'. split; [|repeat split]. constructor; auto.
      intros sz' K. inversion K; subst. auto.
    + pose proof (set_blocks_list l t) as P. rewrite H in P. destruct P as [P1 P2].
      specialize (P2 eq_refl). subst t'. split; [|repeat split]. constructor; auto.
      intros sz' K. inversion K; subst. now apply P1.
  - unfold set_trainable_flags in H. destruct (tm_sizes t); [destruct (negb _)|]; discriminate.
  - destruct (tm_sizes t) as [sz|] eqn:Ez.
    + pose proof (construct_spec t sz Ez F S B) as P. destruct (construct_clause_blocks t) as [[cbs|e] t1]; [|discriminate].
      destruct P as [_ P]. destruct (P cbs eq_refl) as [E [L N]]. inversion H; subst t' t1. split; [|repeat split].
      destruct (Z sz eq_refl) as [Z1 Z2].
      assert (M : map c_ncl cbs = sz).
      { pose (d := mkCb (true, true) 0 0 0 Fnan 0).
        apply nth_ext with (d := c_ncl d) (d' := 0); [rewrite map_length; auto|].
        intros i Hi. rewrite map_length in Hi. rewrite (map_nth c_ncl). destruct (N i d ltac:(lia)) as [b [_ Q]]. rewrite Q. reflexivity. }
      constructor; auto.
      * intros sz' K. apply Z. exact K || (cbn in K; congruence).
      * intros c K. cbn in K. inversion K; subst c. split; [rewrite M; auto|].
        apply Forall_forall. intros c Hc. rewrite Forall_forall in Z2. apply Z2. rewrite <- M. now apply in_map.
    + unfold construct_clause_blocks in H. rewrite Ez, F in H. discriminate.
Qed.

Theorem crun_ok : forall cs t rs t', cfg_ok t -> crun cs t = (rs, t') -> Forall (fun r => r = Ok tt) rs ->
  cfg_ok t' /\ tm_ncl t' = tm_ncl t /\ tm_nlit t' = tm_nlit t /\ tm_ncls t' = tm_ncls t /\ tm_s t' = tm_s t.
Proof.
  induction cs as [|c cs IH]; intros t rs t' K H HF; cbn [crun] in H.
  - inversion H; subst. auto.
  - destruct (cstep c t) as [r t1] eqn:E1. destruct (crun cs t1) as [rs2 t2] eqn:E2. inversion H; subst rs t2.
    inversion HF as [|? ? H1 H2]; subst. destruct (cstep_ok c t t1 K E1) as [A [A1 [A2 [A3 A4]]]].
    destruct (IH t1 rs2 t' A E2 H2) as [Q [Q1 [Q2 [Q3 Q4]]]]. split; [exact Q|]. repeat split; congruence.
Qed.

Lemma init_cfg_ok : forall nlit ncl ncls s thr budget boost multi t,
  tm_init nlit ncl ncls s thr budget boost multi = Ok t -> s <> SList [] -> cfg_ok t.
Proof.
  intros nlit ncl ncls s thr budget boost multi t H Hs.
  pose proof (init_spec nlit ncl ncls s thr budget boost multi) as P. rewrite H in P.
  destruct P as [ss [E [_ [_ Et]]]]. subst t. constructor; cbn; auto; try discriminate.
  intros K. subst ss. destruct s; cbn in E; try discriminate. inversion E. congruence.
Qed.

(** Budgets: an accepted integer budget reaches every block. *)
Theorem int_budget_applied : forall z t t1 sizes, set_literal_budget (BInt z) t = (Ok tt, t1) ->
  z < 4294967296 -> tm_sizes t = Some sizes -> tm_flags t = None -> tm_s t <> [] ->
  exists cbs t2, construct_clause_blocks t1 = (Ok cbs, t2) /\ length cbs = length sizes /\
    Forall (fun c => c_budget c = z /\ fst (c_kind c) = true) cbs.
Proof.
  intros z t t1 sizes H Hz Sz Fl Ss. unfold set_literal_budget in H. cbn [with_budgets tm_budgets budget_check] in H.
  destruct (z <? 1) eqn:E; inversion H; subst t1. clear H.
  set (t1 := with_budgets [Some z] (tm_nlb t) t).
  pose proof (construct_spec t1 sizes Sz Fl Ss ltac:(discriminate)) as P.
  assert (D : forall i, dealt_budget t1 i = Some z).
  { intros i. unfold dealt_budget. cbn [t1 with_budgets tm_budgets length]. rewrite Nat.mod_1_r. cbn [nth]. apply as_uint32_ok. lia. }
  destruct (construct_clause_blocks t1) as [r t2]. destruct P as [P1 P2].
  destruct (proj1 P1) as [cbs E2]; [intros i _; rewrite D; discriminate|]. subst r.
  destruct (P2 cbs eq_refl) as [_ [L N]]. exists cbs, t2. split; [auto|]. split; [auto|].
  apply Forall_forall. intros c Hc. apply (In_nth _ _ c) in Hc. destruct Hc as [i [Hi Ec]].
  destruct (N i c ltac:(lia)) as [b [Eb Q]]. rewrite Ec in Q. rewrite D in Eb. inversion Eb; subst b. rewrite Q. split; reflexivity.
Qed.

(** A list argument changes nothing that the construction looks at. *)
Theorem list_budget_ignored : forall l t, fst (construct_clause_blocks (snd (set_literal_budget (BList l) t))) = fst (construct_clause_blocks t).
Proof.
  intros l t. unfold set_literal_budget. cbn [snd].
  set (t1 := with_budgets (tm_budgets t) (Some l) t).
  assert (K : forall sz fs0 sq bq, build_loop t1 sq bq sz fs0 = build_loop t sq bq sz fs0).
  { induction sz as [|n sz IH]; intros [|f fs0] sq bq; cbn [build_loop]; auto.
    change (tm_s t1) with (tm_s t). change (tm_budgets t1) with (tm_budgets t).
    destruct (match sq with [] => tm_s t | _ => sq end); auto. destruct (match bq with [] => tm_budgets t | _ => bq end); auto.
    match goal with |- match ?e with _ => _ end = _ => destruct e end; auto. rewrite IH. reflexivity. }
  unfold construct_clause_blocks. change (tm_sizes t1) with (tm_sizes t). change (tm_flags t1) with (tm_flags t).
  destruct (tm_sizes t) as [sz|]; [|destruct (tm_flags t); reflexivity]. cbv zeta. rewrite K.
  destruct (build_loop _ _ _ _ _) as [c [e|]]; reflexivity.
Qed.
