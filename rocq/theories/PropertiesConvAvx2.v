(** C88, C89, C90 and C91: the AVX2 convolutional clause block. *)
From Coq Require Import ZArith List Bool QArith Lia ZifyBool.
From Verif Require Import Base Spec SpecLearning SpecConv ModelInference ModelDense ModelFeedback ModelExecutor ModelDenseExec ModelLayout ModelAvx2 ModelConv ModelConvAvx2
  SpecAvx2 SpecConvAvx2 ProofsEval ProofsLayout ProofsStep ProofsExecutor ProofsDenseExec ProofsAvx2Scalar ProofsAvx2Step ProofsAvx2Hist ProofsConv ProofsConvStep ProofsTopConv ProofsSim
  ProofsConvAvx2 ProofsConvAvx2Step ProofsConvAvx2Hist ProofsConvAvx2One ProofsInference ExampleData.
Import ListNotations.
Open Scope Z_scope.

(** 32 inputs per patch, three patches, two classes, budget 1.  Clause 0 is
    empty, clause 1 includes inputs 0 and 31, clause 2 input 0 and the negation
    of input 31.  The per-clause and per-patch arrays hold garbage, so does the
    buffer behind the example. *)
Definition xx_row (p0 p31 q0 q31 : Z) : list Z := (p0 :: repeat (-5) 30 ++ [p31]) ++ (q0 :: repeat (-5) 30 ++ [q31]).
Definition xx_vrng : vrng := mkVrng (fun k => map (fun i => Z.of_nat ((37 * k + 11 * i) mod 256) - 128) (seq 0 32)) 0.
Definition xx_v : xcblock :=
  mkXc (mkABlock 32 32 (mask_of 32) 2 [xx_row (-1) (-1) (-1) (-1); xx_row 5 0 (-3) (-1); xx_row 0 (-9) (-1) 2] [[4;-2];[1;1];[7;0]]
          [9;9;9] [50;51;52] [0;0] 1 (gtcmp_for_s (4#1)) xx_vrng ex_rng) 3 [7;7;7]%nat [77;78;79] ex_rng.
Definition xx_p (a b : Z) : list Z := a :: repeat 0 30 ++ [b].
Definition xx_x : list Z := xx_p 0 0 ++ xx_p 1 1 ++ xx_p 1 0.
Definition xx_lits : list Z := xx_x ++ repeat 77 8.

Lemma xx_bytes8 : forall l, forallb (fun v => (-128 <=? v) && (v <=? 127)) l = true -> row8 l.
Proof. intros l H. rewrite forallb_forall in H. apply Forall_forall. intros v Hv. specialize (H v Hv). unfold is_int8. lia. Qed.
Lemma xx_binary : forall l, forallb (fun v => (v =? 0) || (v =? 1)) l = true -> binary l.
Proof. intros l H. rewrite forallb_forall in H. apply Forall_forall. intros v Hv. specialize (H v Hv). lia. Qed.

Lemma xx_ok : xc_ok 32 2 xx_v.
Proof.
  constructor; try reflexivity.
  - split; [|split].
    + constructor; try reflexivity; try lia. repeat (apply Forall_cons || apply Forall_nil); reflexivity.
    + unfold xx_v. cbn [xc_b a_rows]. do 3 (apply Forall_cons; [apply xx_bytes8; vm_compute; reflexivity|]). apply Forall_nil.
    + intros k. unfold xx_v, xx_vrng. cbn [xc_b a_vrng vr_src]. now rewrite map_length, seq_length.
  - cbn. unfold rows_of. repeat (apply Forall_cons || apply Forall_nil); auto.
  - cbn. unfold is_int16. repeat (apply Forall_cons || apply Forall_nil); lia.
  - cbn. lia.
Qed.
Lemma xx_buffer : conv_buffer 32 3 xx_x xx_lits.
Proof. split; [split; [reflexivity|apply xx_binary; vm_compute; reflexivity]|]. split; [reflexivity|]. apply Nat.leb_le. vm_compute. reflexivity. Qed.
Lemma xx_whole : whole_patches 32 3.
Proof. left. reflexivity. Qed.

(** ** C88 *)

(** Patches of whole 32-byte vectors, or a single patch of any size. *)
Theorem C88_train_partial : forall bo n ncls si sm x lits v, xc_ok n ncls v -> conv_buffer n (xc_np v) x lits -> whole_patches n (xc_np v) ->
  let w := conv_view si sm v in
  exists v1, xc_train_ex bo lits (Some v) = (Some v1, snd (conv_train_ex bo x w)) /\
    (bo = true -> conv_view si sm v1 = fst (conv_train_ex bo x w)) /\
    a_outputs (xc_b v1) = b_outputs (cv_b (fst (conv_train_ex bo x w))) /\ xc_active v1 = cv_active (fst (conv_train_ex bo x w)) /\
    a_counts (xc_b v1) = b_counts (cv_b (fst (conv_train_ex bo x w))) /\ xc_rng v1 = b_rng (cv_b (fst (conv_train_ex bo x w))) /\
    a_rows (xc_b v1) = a_rows (xc_b v) /\ a_weights (xc_b v1) = a_weights (xc_b v).
Proof.
  intros bo n ncls si sm x lits v OK Hb HW w.
  destruct (xc_train_scalar bo n ncls si sm x lits v OK Hb HW) as [v1 [A1 [A2 [A3 [A4 [A5 [A6 [A7 [A8 A9]]]]]]]]]. cbv zeta in A8, A9. fold w in A1, A8, A9.
  exists v1. split; [exact A1|]. split; [exact A8|].
  assert (V : cv_b (conv_view si sm v1) = cv_b (fst (conv_train_ex bo x w)) /\ cv_active (conv_view si sm v1) = cv_active (fst (conv_train_ex bo x w))).
  { destruct bo; [rewrite A8 by auto; auto|]. destruct A9 as [ppc A9]; auto. rewrite A9. auto. }
  destruct V as [V1 V2]. rewrite <- V1, <- V2. repeat (split; [reflexivity|]). split; [exact A4|].
  change (b_weights (cv_b (conv_view si sm v1)) = b_weights (cv_b w)). rewrite V1.
  destruct (conv_train_spec bo x w n ncls (xc_ok_view n ncls si sm v OK) (proj1 Hb)) as [_ [_ [_ [E3 _]]]]. exact E3.
Qed.

Theorem C88_eval_partial : forall n ncls si sm x lits v, xc_ok n ncls v -> conv_buffer n (xc_np v) x lits -> whole_patches n (xc_np v) ->
  exists v1, xc_eval_ex lits (Some v) = (Some v1, snd (conv_eval_ex x (conv_view si sm v))) /\
    conv_view si sm v1 = fst (conv_eval_ex x (conv_view si sm v)) /\ a_rows (xc_b v1) = a_rows (xc_b v).
Proof.
  intros n ncls si sm x lits v OK Hb HW. destruct (xc_eval_block n ncls si sm x lits v OK Hb HW) as [v1 [A1 [A2 [A3 [A4 A5]]]]]. exists v1. auto.
Qed.

(** Everything a training step does that does not depend on the drawn vectors. *)
Theorem C88_step_partial : forall bo boost n ncls si sm x lits pc pp nc np v, xc_ok n ncls v -> conv_buffer n (xc_np v) x lits -> whole_patches n (xc_np v) ->
  exists v', xc_step bo boost lits pc pp nc np (Some v) = Some v' /\
    let w := conv_step bo boost x pc pp nc np (conv_view si sm v) in
    a_weights (xc_b v') = b_weights (cv_b w) /\ a_outputs (xc_b v') = b_outputs (cv_b w) /\ a_votes (xc_b v') = b_votes (cv_b w) /\
    a_counts (xc_b v') = b_counts (cv_b w) /\ xc_active v' = cv_active w /\ a_fast (xc_b v') = b_fast (cv_b w).
Proof. exact xc_step_scalar. Qed.

(** Several patches of any other size: the second patch does not start at a
    multiple of 32 bytes, and training loads it whatever the clauses are. *)
Theorem C88_train_ragged_refuted : forall bo n ncls x lits v, xc_ok n ncls v -> conv_buffer n (xc_np v) x lits ->
  (n mod 32 <> 0)%nat -> (2 <= xc_np v)%nat -> (0 < xclauses v)%nat -> xc_train_ex bo lits (Some v) = (None, []).
Proof.
  intros bo n ncls x lits v OK Hb HM HN HC. apply xc_train_ragged; auto.
  - rewrite (ao_nlit _ _ (proj1 (xk_good _ _ _ OK))). exact HM.
  - rewrite (xk_active _ _ _ OK). exact HC.
  - rewrite (xk_counts _ _ _ OK). exact HC.
Qed.

(** Evaluation leaves the patches at the first one that fires, so it loads the
    second patch exactly when some clause does not fire on the first. *)
Theorem C88_eval_ragged_refuted : forall n ncls x lits v, xc_ok n ncls v -> conv_buffer n (xc_np v) x lits ->
  (n mod 32 <> 0)%nat -> (2 <= xc_np v)%nat ->
  (xc_eval_ex lits (Some v) = (None, []) <-> exists k, (k < xclauses v)%nat /\ patch_fires n x (xrow n v k) 0 = false).
Proof. exact xc_eval_ragged_block. Qed.

Example C88_case : xc_ok 32 2 xx_v /\ conv_buffer 32 (xc_np xx_v) xx_x xx_lits /\ whole_patches 32 (xc_np xx_v) /\
  match xc_train_ex true xx_lits (Some xx_v) with
  | (Some v1, votes) => a_outputs (xc_b v1) = [1;1;1] /\ xc_active v1 = [0;1;2]%nat /\ votes = [12;-1]
  | _ => False
  end /\
  match xc_eval_ex xx_lits (Some xx_v) with (Some v1, votes) => a_outputs (xc_b v1) = [0;1;1] /\ votes = [8;1] | _ => False end.
Proof. split; [exact xx_ok|]. split; [exact xx_buffer|]. split; [exact xx_whole|]. vm_compute. auto 10. Qed.

(** Two patches of 7 inputs. *)
Definition xx_w : xcblock :=
  mkXc (mkABlock 7 32 (mask_of 7) 2 [repeat 0 7 ++ repeat 99 25 ++ repeat (-1) 7 ++ repeat 99 25] [[4;-2]]
          [9] [50] [0;0] 1 (gtcmp_for_s (4#1)) xx_vrng ex_rng) 2 [7]%nat [77;78] ex_rng.
Example C88_ragged_case : xc_ok 7 2 xx_w /\ conv_buffer 7 (xc_np xx_w) (repeat 1 7 ++ repeat 0 7) (repeat 1 7 ++ repeat 0 7 ++ repeat 5 40) /\
  (0 < xclauses xx_w)%nat /\
  patch_fires 7 (repeat 1 7 ++ repeat 0 7) (xrow 7 xx_w 0) 0 = true /\
  xc_train_ex true (repeat 1 7 ++ repeat 0 7 ++ repeat 5 40) (Some xx_w) = (None, []) /\
  xc_eval_ex (repeat 1 7 ++ repeat 0 7 ++ repeat 5 40) (Some xx_w) <> (None, []) /\
  xc_eval_ex (repeat 0 7 ++ repeat 1 7 ++ repeat 5 40) (Some xx_w) = (None, []).
Proof.
  split.
  { constructor; try reflexivity.
    - split; [|split].
      + constructor; try reflexivity; try lia. repeat (apply Forall_cons || apply Forall_nil); reflexivity.
      + unfold xx_w. cbn [xc_b a_rows]. apply Forall_cons; [apply xx_bytes8; vm_compute; reflexivity|]. apply Forall_nil.
      + intros k. unfold xx_w, xx_vrng. cbn [xc_b a_vrng vr_src]. now rewrite map_length, seq_length.
    - cbn. unfold rows_of. repeat (apply Forall_cons || apply Forall_nil); auto.
    - cbn. unfold is_int16. repeat (apply Forall_cons || apply Forall_nil); lia.
    - cbn. lia. }
  split.
  { split; [split; [reflexivity|apply xx_binary; vm_compute; reflexivity]|]. split; [reflexivity|]. apply Nat.leb_le. vm_compute. reflexivity. }
  split; [cbn; lia|]. split; [vm_compute; reflexivity|]. split; [vm_compute; reflexivity|]. split; [vm_compute; discriminate|vm_compute; reflexivity].
Qed.

(** ** C89 *)

(** A clause that matches some patch gets the dense AVX2 update on one matching
    patch, with its own pair of draws. *)
Theorem C89_matching_clause : forall bo boost n ncls x lits pc pp nc np v, xc_ok n ncls v -> conv_buffer n (xc_np v) x lits -> whole_patches n (xc_np v) ->
  exists v', xc_step bo boost lits pc pp nc np (Some v) = Some v' /\
  forall k, (k < xclauses v)%nat -> some_match n (xc_np v) x (xrow n v k) ->
  exists p l rk cnt, (p < xc_np v)%nat /\ patch_matches n x (xrow n v k) p /\ buffer_of n (nth_patch n x p) l /\ vrng_ok rk /\
    (bo = true -> matches_first n (xc_np v) x (xrow n v k) -> cnt = n_included (xrow n v k)) /\
    let t := avx_update_clause bo boost (a_budget (xc_b v)) (a_cmp (xc_b v)) (lmem_of n) l pc pp nc np
               (nth k (a_rows (xc_b v)) []) (xweights v k) 1 cnt rk (advance (2 * k) (a_fast (xc_b v))) in
    nth k (a_rows (xc_b v')) [] = fst (fst (fst (fst t))) /\ xweights v' k = snd (fst (fst (fst t))).
Proof.
  intros bo boost n ncls x lits pc pp nc np v OK Hb HW.
  destruct (xc_step_spec bo boost n ncls x lits pc pp nc np v OK Hb HW) as [v' [S1 [S2 [S3 [S4 [S5 [S6 [S7 S8]]]]]]]].
  exists v'. split; [exact S1|]. intros k Hk SM. destruct (S8 k Hk) as [rk [p [cnt [o [VK [T [_ T4]]]]]]].
  destruct (T4 SM) as [-> [B1 [B2 B3]]]. exists p, (patch_mem n lits p), rk, cnt. split; [exact B1|]. split; [exact B2|].
  split; [apply (patch_buffer n (xc_np v)); auto|]. split; [exact VK|]. split; [exact B3|]. exact T.
Qed.

(** A clause that matches no patch, or is over the literal budget with its
    matching patches in front, keeps its weights and no automaton rises. *)
Theorem C89_silent_clause : forall bo boost n ncls x lits pc pp nc np v, xc_ok n ncls v -> conv_buffer n (xc_np v) x lits -> whole_patches n (xc_np v) ->
  exists v', xc_step bo boost lits pc pp nc np (Some v) = Some v' /\
  forall k, (k < xclauses v)%nat ->
  (~ some_match n (xc_np v) x (xrow n v k) \/ (bo = true /\ a_budget (xc_b v) < n_included (xrow n v k) /\ matches_first n (xc_np v) x (xrow n v k))) ->
    xweights v' k = xweights v k /\
    forall j, (j < 2 * lmem_of n)%nat -> nth j (nth k (a_rows (xc_b v')) []) 0 <= nth j (nth k (a_rows (xc_b v)) []) 0.
Proof. exact xc_silent. Qed.

Theorem C89_delta : forall bo boost n ncls x lits pc pp nc np v, xc_ok n ncls v -> conv_buffer n (xc_np v) x lits -> whole_patches n (xc_np v) ->
  exists v', xc_step bo boost lits pc pp nc np (Some v) = Some v' /\
  forall k j, (k < xclauses v)%nat -> nth j (nth k (a_rows (xc_b v)) []) 0 - 2 <= nth j (nth k (a_rows (xc_b v')) []) 0 <= nth j (nth k (a_rows (xc_b v)) []) 0 + 2.
Proof. exact xc_delta. Qed.

Example C89_case : xc_ok 32 2 xx_v /\ conv_buffer 32 (xc_np xx_v) xx_x xx_lits /\ whole_patches 32 (xc_np xx_v) /\
  some_match 32 3 xx_x (xrow 32 xx_v 2) /\ ~ matches_first 32 3 xx_x (xrow 32 xx_v 2) /\
  ~ some_match 32 3 (xx_p 0 0 ++ xx_p 0 1 ++ xx_p 0 0) (xrow 32 xx_v 1) /\
  match xc_step false true xx_lits 0 1%Q 1 1%Q (Some xx_v) with
  | Some v' => xweights v' 2 = [8;-1] /\ nth 0 (xrow 32 v' 2) 0 = 1 /\ nth 63 (xrow 32 v' 2) 0 = 3
  | None => False
  end.
Proof.
  split; [exact xx_ok|]. split; [exact xx_buffer|]. split; [exact xx_whole|]. split; [exists 2%nat; split; [lia|vm_compute; reflexivity]|].
  split; [intros H; specialize (H 0%nat 2%nat ltac:(lia) ltac:(lia)); vm_compute in H; specialize (H eq_refl); discriminate H|].
  split; [intros [[|[|[|p]]] [H1 H2]]; try lia; vm_compute in H2; discriminate H2|]. vm_compute. auto.
Qed.

(** ** C90 *)

Theorem C90_history : forall (L : Type) (process : L -> fblock -> fblock) bo boost n ncls np cs (x : exec (option xcblock)), whole_patches n np ->
  Forall (fun c => Forall (fun d => exists e, conv_buffer n np e (fst d)) (gdata (list Z) L c)) cs ->
  Forall (fun tb => xc_good n ncls np (snd tb)) (x_blocks x) ->
  Forall (fun tb => xc_good n ncls np (snd tb))
    (x_blocks (grun (option xcblock) (list Z) (xc_train_ex bo) xc_eval_ex (xc_upd bo boost) L process cs x)).
Proof. exact xc_history. Qed.

Theorem C90_initialized : forall std_of vec_of fast_of junk jap jppc np n ncl ncls budget s seed v, (0 < n)%nat -> (forall z, vrng_ok (vec_of z)) ->
  length junk = ncl -> length jap = ncl -> length jppc = Z.to_nat np ->
  xc_initialize std_of vec_of fast_of junk jap jppc np n ncl ncls budget s seed = Some v ->
  xc_good n ncls (Z.to_nat np) (Some v) /\ xclauses v = ncl.
Proof.
  intros std_of vec_of fast_of junk jap jppc np n ncl ncls budget s seed v Hn HV HJ HA HP H.
  destruct (xc_initialize_ok _ _ _ _ _ _ _ _ _ _ _ _ _ _ Hn HV HJ HA HP H) as [A [B C]]. split; [exists v; auto|exact C].
Qed.

Theorem C90_needs_patches : forall std_of vec_of fast_of junk jap jppc np n ncl ncls budget s seed, np <= 0 ->
  xc_initialize std_of vec_of fast_of junk jap jppc np n ncl ncls budget s seed = None.
Proof. intros. unfold xc_initialize. destruct (avx_initialize _ _ _ _ _ _ _ _ _); auto. replace (np >? 0) with false by lia. reflexivity. Qed.

Theorem C90_prediction : forall L n ncls np (data : list (list Z * L)) xs out (e : exec (option xcblock)), (0 < ncls)%nat -> whole_patches n np ->
  Forall (fun tb => xc_good n ncls np (snd tb)) (x_blocks e) -> fb_ready ncls (x_fb e) ->
  Forall2 (conv_buffer n np) xs (map fst data) -> length out = length data ->
  exists ys e', eval_predict (option xcblock) (list Z) xc_eval_ex L data out e = (true, ys, e') /\ length ys = length data /\
    forall i, (i < length data)%nat ->
      first_argmax (map (fun c => wrap16 (xc_total n np (nth i xs []) (x_blocks e) c)) (seq 0 ncls)) (nth i ys O).
Proof.
  intros L n ncls np data xs out e Hc HW HB HR HD HL. destruct (xc_predict L n ncls np data xs out e HW HB HR HD HL) as [e' E].
  assert (LX : length xs = length data) by (rewrite (Forall2_len _ _ _ _ _ HD); apply map_length).
  eexists. exists e'. split; [exact E|]. split; [rewrite map_length; exact LX|]. intros i Hi.
  match goal with |- context [nth i (map ?f xs) O] => rewrite (nth_indep (map f xs) O (f [])) by (rewrite map_length; lia); rewrite (map_nth f) end.
  apply argmax_spec. destruct ncls; [lia|discriminate].
Qed.

Example C90_case :
  match xc_initialize (fun _ => ex_rng) (fun _ => xx_vrng) (fun _ => ex_rng) [50;51] [7;7]%nat [77;78;79] 3 32 2 2 1 (4#1) 5 with
  | Some v =>
      let x := mkExec [(true, Some v)] (new_fblock 2 (20#1) ex_rng) [] ex_irng in
      let x' := grun (option xcblock) (list Z) (xc_train_ex true) xc_eval_ex (xc_upd true true) nat fb_process
                  [GTrain (list Z) nat [(xx_lits, 0%nat); (xx_p 0 1 ++ xx_p 0 0 ++ xx_p 0 0, 1%nat)]; GEval (list Z) nat [(xx_lits, 0%nat)] [0%nat]; GTrain (list Z) nat [(xx_lits, 1%nat)]] x in
      map (fun tb => match snd tb with Some v' => a_rows (xc_b v') | None => [] end) (x_blocks x') <> [a_rows (xc_b v)] /\
      map (fun tb => match snd tb with Some _ => true | None => false end) (x_blocks x') = [true]
  | None => False
  end.
Proof. vm_compute. split; [discriminate|reflexivity]. Qed.

(** ** C91 *)

(** No condition on the examples or on the size of the patch: the two blocks run
    the same code on the same buffer. *)
Theorem C91_one_patch_blocks : forall (L : Type) (process : L -> fblock -> fblock) bo boost cs bs fb idx r,
  Forall (fun tv : bool * xcblock => one_patch (snd tv)) bs ->
  let xc := grun (option xcblock) (list Z) (xc_train_ex bo) xc_eval_ex (xc_upd bo boost) L process cs (mkExec (map (fun tv => (fst tv, Some (snd tv))) bs) fb idx r) in
  let xd := grun ablock (list Z) (avx_train_ex bo) avx_eval_ex (avx_upd bo boost) L process cs (mkExec (map (fun tv => (fst tv, xc_b (snd tv))) bs) fb idx r) in
  x_fb xc = x_fb xd /\ x_index xc = x_index xd /\ x_rng xc = x_rng xd /\
  Forall2 (fun t1 t2 => fst t1 = fst t2 /\ exists v, snd t1 = Some v /\ same_but_counts (xc_b v) (snd t2)) (x_blocks xc) (x_blocks xd).
Proof.
  intros L process bo boost cs bs fb idx r H xc xd. destruct (one_patch_run L process bo boost cs bs fb idx r H) as [A [B [C D]]].
  split; [exact B|]. split; [exact C|]. split; [exact D|]. fold xc xd in A.
  induction A as [|t1 t2 l1 l2 [T1 T2] A IH]; constructor; auto. split; [exact T1|]. apply one_rel_same. exact T2.
Qed.

Theorem C91_one_patch_predictions : forall (L : Type) (process : L -> fblock -> fblock) bo boost cs bs fb idx r data out,
  Forall (fun tv : bool * xcblock => one_patch (snd tv)) bs ->
  fst (eval_predict (option xcblock) (list Z) xc_eval_ex L data out
    (grun (option xcblock) (list Z) (xc_train_ex bo) xc_eval_ex (xc_upd bo boost) L process cs (mkExec (map (fun tv => (fst tv, Some (snd tv))) bs) fb idx r))) =
  fst (eval_predict ablock (list Z) avx_eval_ex L data out
    (grun ablock (list Z) (avx_train_ex bo) avx_eval_ex (avx_upd bo boost) L process cs (mkExec (map (fun tv => (fst tv, xc_b (snd tv))) bs) fb idx r))).
Proof. exact one_patch_predict. Qed.

(** What a user of seven inputs per patch and one patch gets (the repository's
    own AVX2 convolution test). *)
Definition xx_one : xcblock := mkXc (xc_b xx_w) 1 [7]%nat [77] ex_rng.
Example C91_case : one_patch xx_one /\
  let cs := [GTrain (list Z) nat [(repeat 1 7 ++ repeat 0 25, 0%nat); (repeat 0 7 ++ repeat 3 25, 1%nat)]] in
  let xc := grun (option xcblock) (list Z) (xc_train_ex true) xc_eval_ex (xc_upd true true) nat fb_process cs (mkExec [(true, Some xx_one)] (new_fblock 2 (20#1) ex_rng) [] ex_irng) in
  match x_blocks xc with
  | [(true, Some v)] => a_rows (xc_b v) <> a_rows (xc_b xx_one)
  | _ => False
  end.
Proof. split; [unfold one_patch; cbn; auto|]. vm_compute. discriminate. Qed.

Print Assumptions C88_train_partial.
Print Assumptions C88_eval_partial.
Print Assumptions C88_step_partial.
Print Assumptions C88_train_ragged_refuted.
Print Assumptions C88_eval_ragged_refuted.
Print Assumptions C89_matching_clause.
Print Assumptions C89_silent_clause.
Print Assumptions C89_delta.
Print Assumptions C90_history.
Print Assumptions C90_initialized.
Print Assumptions C90_needs_patches.
Print Assumptions C90_prediction.
Print Assumptions C91_one_patch_blocks.
Print Assumptions C91_one_patch_predictions.
