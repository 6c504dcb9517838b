(** Initialisation, release and state transfer of the scalar machine on the heap. *)
From Coq Require Import ZArith List Bool QArith Lia ZifyBool.
From Verif Require Import Base ModelHeap ModelDense ModelFeedback ModelTMHeap SpecHeap ProofsHeap
  ProofsTMHeap ProofsTMHeapB ProofsTMHeapC ProofsTMHeapD ProofsTMHeapE.
Import ListNotations.
Open Scope Z_scope.

(** ** Which allocations are live, and of which kind *)
Definition kinds (h : heap) : list (option kind) := map (option_map ch_kind) h.
Lemma live_kinds : forall h, live h = length (filter (fun k => match k with Some _ => true | None => false end) (kinds h)).
Proof.
  intros h. unfold live, kinds. induction h as [|[c|] h IH]; [reflexivity| |]; cbn [filter map option_map length]; auto.
Qed.

(** Programs that neither allocate nor release. *)
Definition keeps {A} (m : M A) : Prop := forall h a h', m h = Some (a, h') -> kinds h' = kinds h.

Lemma keeps_ret : forall A (a : A), keeps (ret a).
Proof. red. intros A a h b h' E. now inversion E. Qed.
Lemma keeps_undef : forall A, keeps (@undef A).
Proof. red. intros. discriminate. Qed.
Lemma keeps_bind : forall A B (m : M A) (f : A -> M B), keeps m -> (forall a, keeps (f a)) -> keeps (bind m f).
Proof.
  intros A B m f K1 K2 h b h' E. unfold bind in E. destruct (m h) as [[a h1]|] eqn:Em; [|discriminate].
  rewrite (K2 a _ _ _ E). eapply K1; eauto.
Qed.
Lemma keeps_padd : forall p d, keeps (padd p d).
Proof.
  intros p d h a h' E. unfold padd in E. destruct p as [x|]; [|discriminate].
  destruct (nth_error h (ad_id x)) as [[c|]|]; try discriminate.
  destruct (_ && _); now inversion E.
Qed.
Lemma keeps_load : forall p, keeps (load p).
Proof.
  intros p h a h' E. unfold load in E. destruct p as [x|]; [|discriminate].
  destruct (nth_error h (ad_id x)) as [[c|]|]; try discriminate.
  destruct (ad_off x <? 0); [discriminate|]. destruct (nth_error (ch_cells c) _) as [[v|]|]; now inversion E.
Qed.
Lemma keeps_store : forall p v, keeps (store p v).
Proof.
  intros p v h a h' E. unfold store in E. destruct p as [x|]; [|discriminate].
  destruct (nth_error h (ad_id x)) as [[c|]|] eqn:N; try discriminate.
  destruct (_ && _); [|discriminate]. inversion E; subst. unfold kinds. 
  assert (G : forall (h : heap) i d, nth_error h i = Some (Some c) -> ch_kind d = ch_kind c ->
            map (option_map ch_kind) (set_nth i (Some d) h) = map (option_map ch_kind) h).
  { clear. induction h as [|y h IH]; intros i d N K; [destruct i; discriminate|].
    destruct i; cbn [nth_error set_nth map] in *; [inversion N; subst; cbn [option_map]; now rewrite K|]. f_equal. now apply IH. }
  eapply G; eauto.
Qed.
Lemma keeps_load_at : forall p i, keeps (load_at p i).
Proof. intros. apply keeps_bind; [apply keeps_padd|intros; apply keeps_load]. Qed.
Lemma keeps_store_at : forall p i v, keeps (store_at p i v).
Proof. intros. apply keeps_bind; [apply keeps_padd|intros; apply keeps_store]. Qed.
Lemma keeps_chk : forall z, keeps (chk z).
Proof. intros. unfold chk. destruct (_ && _); [apply keeps_ret|apply keeps_undef]. Qed.
Lemma keeps_imul : forall a b, keeps (imul a b).
Proof. intros. apply keeps_chk. Qed.
Lemma keeps_iadd : forall a b, keeps (iadd a b).
Proof. intros. apply keeps_chk. Qed.
Lemma keeps_mloop : forall A n (body : Z -> A -> M A), (forall k a, keeps (body k a)) -> forall k a, keeps (mloop n k body a).
Proof. intros A n body K. induction n; intros k a; cbn [mloop]; [apply keeps_ret|]. apply keeps_bind; auto. Qed.
Lemma keeps_mfor : forall A n (body : Z -> A -> M (bool * A)), (forall k a, keeps (body k a)) -> forall k a, keeps (mfor n k body a).
Proof.
  intros A n body K. induction n; intros k a; cbn [mfor]; [apply keeps_ret|]. apply keeps_bind; auto.
  intros r. destruct (fst r); [apply keeps_ret|apply IHn].
Qed.
Lemma keeps_mset : forall p v n, keeps (mset p v n).
Proof. intros. apply keeps_mloop. intros. apply keeps_store_at. Qed.
Lemma keeps_mcopy : forall dp d sp s n, keeps (mcopy dp d sp s n).
Proof.
  intros. unfold mcopy. repeat (apply keeps_bind; [apply keeps_padd|intros]).
  apply keeps_mloop. intros. apply keeps_bind; [apply keeps_load_at|intros; apply keeps_store_at].
Qed.

Ltac keep := repeat first
  [ assumption
  | match goal with
    | |- keeps (if ?b then _ else _) => destruct b
    | |- keeps (let '(_, _) := ?p in _) => destruct p
    | |- keeps (match ?p with (_, _) => _ end) => destruct p
    | |- keeps (match ?p with Some _ => _ | None => _ end) => destruct p
    end
  | apply keeps_ret | apply keeps_undef | apply keeps_padd | apply keeps_load | apply keeps_store
  | apply keeps_load_at | apply keeps_store_at | apply keeps_chk | apply keeps_imul | apply keeps_iadd
  | apply keeps_mset | apply keeps_mcopy
  | apply keeps_mloop; intros | apply keeps_mfor; intros
  | apply keeps_bind; intros ].

Lemma keeps_train_output : forall bo l s, keeps (h_train_set_output bo l s).
Proof. intros. unfold h_train_set_output, h_train_clause, h_halves, h_set_body. keep. Qed.
Lemma keeps_eval_output : forall l s, keeps (h_eval_set_output l s).
Proof. intros. unfold h_eval_set_output, h_eval_clause, h_halves, h_eval_body. keep. Qed.
Lemma keeps_count_votes : forall s, keeps (h_count_votes s).
Proof. intros. unfold h_count_votes, h_vote_clause, h_vote_class. keep. Qed.
Lemma keeps_update : forall bo boost l pc pp nc np s, keeps (h_train_update bo boost l pc pp nc np s).
Proof.
  intros. unfold h_train_update, h_update_body, h_clause_update, h_type1a, h_type1b, h_type2,
    h_t1a_body, h_t1b_body, h_t2_body, h_inc, h_dec, h_inc0. keep.
Qed.
Lemma keeps_register : forall p f, keeps (h_register p f).
Proof. intros. unfold h_register. keep. Qed.
Lemma keeps_process : forall p f, keeps (h_process p f).
Proof. intros. unfold h_process. keep. Qed.
Lemma keeps_prepare : forall i b, keeps (h_prepare i b).
Proof. intros. unfold h_prepare. keep. Qed.

Lemma keeps_run_examples : forall ex, (forall s f, keeps (ex s f)) -> forall bs f, keeps (h_run_examples ex bs f).
Proof. intros ex K. induction bs as [|[t s] bs IH]; intros f; cbn [h_run_examples]; keep; auto. Qed.
Lemma keeps_run_updates : forall fl inp f bs, keeps (h_run_updates fl inp f bs).
Proof.
  intros fl inp f. induction bs as [|[t s] bs IH]; cbn [h_run_updates]; [apply keeps_ret|].
  apply keeps_bind; [destruct t; [apply keeps_update|apply keeps_ret]|intros].
  apply keeps_bind; [exact IH|intros; apply keeps_ret].
Qed.
Lemma keeps_train_list : forall fl idx x, keeps (h_train_list fl idx x).
Proof.
  intros fl. induction idx as [|i idx IH]; intros x; cbn [h_train_list]; [apply keeps_ret|].
  apply keeps_bind; [|intros; apply IH]. unfold h_train_one.
  apply keeps_bind; [apply keeps_prepare|intros].
  apply keeps_bind; [apply keeps_run_examples; intros; unfold h_train_example|intros].
  { apply keeps_bind; [apply keeps_train_output|intros]. apply keeps_bind; [apply keeps_count_votes|intros]. apply keeps_register. }
  apply keeps_bind; [apply keeps_process|intros].
  apply keeps_bind; [apply keeps_run_updates|intros]. apply keeps_ret.
Qed.
Lemma keeps_eval_list : forall out idx x, keeps (h_eval_list out idx x).
Proof.
  intros out. induction idx as [|i idx IH]; intros x; cbn [h_eval_list]; [apply keeps_ret|].
  apply keeps_bind; [|intros; apply IH]. unfold h_eval_one.
  apply keeps_bind; [apply keeps_prepare|intros].
  apply keeps_bind; [apply keeps_run_examples; intros; unfold h_eval_example|intros].
  { apply keeps_bind; [apply keeps_eval_output|intros]. apply keeps_bind; [apply keeps_count_votes|intros]. apply keeps_register. }
  apply keeps_bind; [apply keeps_store_at|intros]. apply keeps_ret.
Qed.

(** ** Allocation *)
Lemma cells_app : forall h id cs t, cells h id cs -> cells (h ++ t) id cs.
Proof.
  intros h id cs t C. pose proof (cells_lt _ _ _ C). destruct C as [k K]. exists k. now rewrite nth_error_app1.
Qed.
Lemma halloc_cells : forall k n h, cells (h ++ [Some (mkChunk k (repeat None n))]) (length h) (repeat None n).
Proof. intros. exists k. apply hnth_mid. Qed.
Lemma new_arr_ok : forall n h, new_arr (Z.of_nat n) h = Some (start (length h), h ++ [Some (mkChunk KNew (repeat None n))]).
Proof.
  intros. unfold new_arr. destruct (0 <=? Z.of_nat n) eqn:E; [|lia]. rewrite Nat2Z.id. reflexivity.
Qed.

(** ** Filling an array *)
Lemma fill_loop : forall n (g : Q -> Z) (row : nat -> rng -> list Z * rng) dd r id h,
  (forall r, row O r = ([], r)) ->
  (forall m r, row (S m) r = (let '(u, r) := next_u r in let '(t, r) := row m r in (g u :: t, r))) ->
  cells h id (map Some dd ++ repeat None n) ->
  exists vs r' h', row n r = (vs, r') /\
    mloop n (Z.of_nat (length dd))
      (fun k r => let '(u, r) := next_u r in store_at (start id) k (g u) ;;; ret r) r h = Some (r', h') /\
    cells h' id (map Some (dd ++ vs)) /\ length vs = n /\ only [id] h h'.
Proof.
  intros n g row dd r id h R0 RS. revert dd r h. induction n; intros dd r h C.
  - exists [], r, h. rewrite R0. split; [reflexivity|]. split; [reflexivity|].
    rewrite app_nil_r in *. split; [exact C|]. split; [reflexivity|apply only_refl].
  - rewrite RS. unfold next_u at 1. cbn [repeat] in C.
    destruct (store_cell_mid h id (map Some dd) None (repeat None n) 0 (Z.of_nat (length dd)) (g (rng_src r (rng_pos r))) C)
      as (h1 & E1 & C1 & U1); [rewrite map_length; lia|].
    destruct (IHn (dd ++ [g (rng_src r (rng_pos r))]) (mkRng (rng_src r) (S (rng_pos r))) h1) as (vs & r' & h' & T & E & C' & L & U).
    { rewrite map_app, <- app_assoc. exact C1. }
    exists (g (rng_src r (rng_pos r)) :: vs), r', h'. rewrite T. split; [reflexivity|].
    split; [|split; [rewrite <- app_assoc in C'; exact C'|split; [cbn [length]; congruence|eapply only_trans; eauto]]].
    cbn [mloop]. unfold next_u at 1. unfold start at 1. unfold bind at 1. erewrite bind_some by exact E1. unfold ret at 1.
    rewrite app_length in E. cbn [length] in E.
    replace (Z.of_nat (length dd) + 1) with (Z.of_nat (length dd + 1)) by lia. exact E.
Qed.

Lemma init_row_app : forall a b r, init_row (a + b) r =
  (let '(p, r1) := init_row a r in let '(q, r2) := init_row b r1 in (p ++ q, r2)).
Proof.
  induction a; intros b r; cbn [init_row plus].
  - destruct (init_row b r). reflexivity.
  - destruct (next_u r) as [u r0]. rewrite IHa. destruct (init_row a r0) as [p r1]. destruct (init_row b r1). reflexivity.
Qed.
Lemma init_row_len : forall n r v r', init_row n r = (v, r') -> length v = n.
Proof.
  induction n; intros r v r' E; cbn [init_row] in E; [now inversion E|].
  destruct (next_u r). destruct (init_row n r0) as [t r1] eqn:X. inversion E; subst. cbn [length]. f_equal. eauto.
Qed.
Lemma init_clauses_flat : forall nlit ncl r cs r', init_clauses nlit ncl r = (cs, r') ->
  init_row (ncl * (nlit * 2)) r = (flat_clauses cs, r') /\ length cs = ncl /\ Forall (clen nlit) cs.
Proof.
  intros nlit. induction ncl; intros r cs r' E; cbn [init_clauses] in E.
  - inversion E; subst. split; [reflexivity|]. split; [reflexivity|constructor].
  - destruct (init_row nlit r) as [p r1] eqn:E1. destruct (init_row nlit r1) as [q r2] eqn:E2.
    destruct (init_clauses nlit ncl r2) as [t r3] eqn:E3. inversion E; subst.
    destruct (IHncl _ _ _ E3) as (A & B & C).
    replace (S ncl * (nlit * 2))%nat with (nlit + (nlit + ncl * (nlit * 2)))%nat by lia.
    rewrite !init_row_app, E1, init_row_app, E2, A. split; [|split; [cbn [length]; lia|]].
    + unfold flat_clauses. cbn [map concat cl_pos cl_neg]. now rewrite <- app_assoc.
    + constructor; auto. split; cbn [cl_pos cl_neg]; eapply init_row_len; eauto.
Qed.
Lemma init_weight_row_app : forall a b r, init_weight_row (a + b) r =
  (let '(p, r1) := init_weight_row a r in let '(q, r2) := init_weight_row b r1 in (p ++ q, r2)).
Proof.
  induction a; intros b r; cbn [init_weight_row plus].
  - destruct (init_weight_row b r). reflexivity.
  - destruct (next_u r) as [u r0]. rewrite IHa. destruct (init_weight_row a r0) as [p r1]. destruct (init_weight_row b r1). reflexivity.
Qed.
Lemma init_weight_row_len : forall n r v r', init_weight_row n r = (v, r') -> length v = n.
Proof.
  induction n; intros r v r' E; cbn [init_weight_row] in E; [now inversion E|].
  destruct (next_u r). destruct (init_weight_row n r0) as [t r1] eqn:X. inversion E; subst. cbn [length]. f_equal. eauto.
Qed.
Lemma init_weights_flat : forall ncls ncl r ws r', init_weights ncls ncl r = (ws, r') ->
  init_weight_row (ncl * ncls) r = (concat ws, r') /\ length ws = ncl /\ Forall (fun w => length w = ncls) ws.
Proof.
  intros ncls. induction ncl; intros r ws r' E; cbn [init_weights] in E.
  - inversion E; subst. split; [reflexivity|]. split; [reflexivity|constructor].
  - destruct (init_weight_row ncls r) as [p r1] eqn:E1. destruct (init_weights ncls ncl r1) as [t r3] eqn:E3. inversion E; subst.
    destruct (IHncl _ _ _ E3) as (A & B & C).
    replace (S ncl * ncls)%nat with (ncls + ncl * ncls)%nat by lia.
    rewrite !init_weight_row_app, E1, A. split; [reflexivity|]. split; [cbn [length]; lia|].
    constructor; auto. eapply init_weight_row_len; eauto.
Qed.

Lemma repeat_map_some : forall n (v : Z), repeat (Some v) n = map Some (repeat v n).
Proof. induction n; intros; cbn [repeat map]; congruence. Qed.

Definition fresh_kinds (bo : bool) : list (option kind) :=
  [Some KNew; Some KNew; Some KNew; Some KNew] ++ (if bo then [Some KNew] else []).

Lemma only_kept : forall l h h' n, only l h h' -> (forall id, In id l -> (n <= id)%nat) ->
  forall id, (id < n)%nat -> nth_error h' id = nth_error h id.
Proof. intros l h h' n [_ U] G id L. apply U. intros I. apply G in I. lia. Qed.
Lemma only_len : forall l h h', only l h h' -> length h' = length h.
Proof. intros l h h' [L _]. exact L. Qed.

Lemma initialize_ok : forall bo std_of fast_of nlit ncl ncls budget si sm seed junk s h,
  fits nlit ncl ncls -> seed <> 0 ->
  hs_ncl s = Z.of_nat ncl -> hs_nlit s = Z.of_nat nlit -> hs_ncls s = Z.of_nat ncls ->
  hs_budget s = budget -> hs_s_inv s = si -> hs_s_min1_inv s = sm ->
  exists b s' h', initialize std_of fast_of junk nlit ncl ncls budget si sm seed = Some b /\
    h_initialize bo std_of fast_of seed s h = Some ((true, s'), h') /\
    is_block bo false (fresh_ids (length h)) h' s' b /\
    ((bo = false -> hs_counts s' = hs_counts s) /\ (bo = true -> cells h' (i_counts (fresh_ids (length h))) (repeat None ncl))) /\
    hs_ncl s' = Z.of_nat ncl /\ hs_nlit s' = Z.of_nat nlit /\ hs_ncls s' = Z.of_nat ncls /\
    (forall id, (id < length h)%nat -> nth_error h' id = nth_error h id) /\
    kinds h' = kinds h ++ fresh_kinds bo.
Proof.
  intros bo std_of fast_of nlit ncl ncls budget si sm seed junk s h FT SD N1 N2 N3 N4 N5 N6.
  pose proof FT as (F1 & F2 & F3 & F4 & F5).
  unfold initialize, h_initialize. destruct (seed =? 0) eqn:ES; [lia|].
  destruct (init_clauses nlit ncl (std_of seed)) as [cs r] eqn:EC.
  destruct (init_weights ncls ncl (fast_of seed)) as [ws f] eqn:EW.
  destruct (init_clauses_flat _ _ _ _ _ EC) as (C1 & C2 & C3).
  destruct (init_weights_flat _ _ _ _ _ EW) as (W1 & W2 & W3).
  rewrite N1, N2, N3.
  assert (B1 : 0 <= Z.of_nat ncl * Z.of_nat nlit <= int_max) by lia.
  erewrite bind_some by (apply imul_ok; exact B1).
  erewrite bind_some by (apply imul_ok; lia).
  replace (Z.of_nat ncl * Z.of_nat nlit * 2) with (Z.of_nat (ncl * (nlit * 2))) by lia.
  (* clauses *)
  erewrite bind_some by apply new_arr_ok.
  set (h1 := h ++ [Some (mkChunk KNew (repeat None (ncl * (nlit * 2))))]).
  assert (LH1 : length h1 = S (length h)) by (unfold h1; rewrite app_length; cbn [length]; lia).
  assert (A1 : cells h1 (length h) (repeat None (ncl * (nlit * 2)))) by apply halloc_cells.
  (* outputs *)
  erewrite bind_some by apply new_arr_ok.
  set (h2 := h1 ++ [Some (mkChunk KNew (repeat None ncl))]).
  assert (LH2 : length h2 = S (S (length h))) by (unfold h2; rewrite app_length; cbn [length]; lia).
  assert (A2 : cells h2 (length h1) (repeat None ncl)) by apply halloc_cells.
  destruct (mset_ok h2 (length h1) _ ncl 0 A2) as (h3 & E3 & C4 & U3); [rewrite repeat_length; lia|].
  rewrite skipn_all2 in C4 by (rewrite repeat_length; lia). rewrite app_nil_r, repeat_map_some in C4.
  erewrite bind_some by exact E3. pose proof (only_len _ _ _ U3) as LH3.
  (* weights *)
  erewrite bind_some by (apply imul_ok; lia).
  replace (Z.of_nat ncl * Z.of_nat ncls) with (Z.of_nat (ncl * ncls)) by lia.
  erewrite bind_some by apply new_arr_ok.
  set (h4 := h3 ++ [Some (mkChunk KNew (repeat None (ncl * ncls)))]).
  assert (LH4 : length h4 = (3 + length h)%nat) by (unfold h4; rewrite app_length; cbn [length]; lia).
  assert (A4 : cells h4 (length h3) (repeat None (ncl * ncls))) by apply halloc_cells.
  (* votes *)
  erewrite bind_some by apply new_arr_ok.
  set (h5 := h4 ++ [Some (mkChunk KNew (repeat None ncls))]).
  assert (LH5 : length h5 = (4 + length h)%nat) by (unfold h5; rewrite app_length; cbn [length]; lia).
  assert (A5 : cells h5 (length h4) (repeat None ncls)) by apply halloc_cells.
  destruct (mset_ok h5 (length h4) _ ncls 0 A5) as (h6 & E6 & C6 & U6); [rewrite repeat_length; lia|].
  rewrite skipn_all2 in C6 by (rewrite repeat_length; lia). rewrite app_nil_r, repeat_map_some in C6.
  erewrite bind_some by exact E6. pose proof (only_len _ _ _ U6) as LH6.
  (* what is there so far *)
  assert (X1 : cells h6 (length h) (repeat None (ncl * (nlit * 2)))).
  { eapply cells_one; [exact U6|lia|]. apply cells_app. apply cells_app. eapply cells_one; [exact U3|lia|]. now apply cells_app. }
  assert (X2 : cells h6 (S (length h)) (map Some (repeat 0 ncl))).
  { eapply cells_one; [exact U6|lia|]. apply cells_app. apply cells_app. rewrite <- LH1. exact C4. }
  assert (X3 : cells h6 (S (S (length h))) (repeat None (ncl * ncls))).
  { eapply cells_one; [exact U6|lia|]. apply cells_app. replace (S (S (length h))) with (length h3) by lia. exact A4. }
  assert (X4 : cells h6 (3 + length h) (map Some (repeat 0 ncls))) by (rewrite <- LH4; exact C6).
  assert (KE : forall id, (id < length h)%nat -> nth_error h6 id = nth_error h id).
  { intros id L. rewrite (only_kept _ _ _ (length h) U6) by (first [exact L|intros ? [<-|[]]; lia]).
    unfold h5, h4. rewrite !nth_error_app1 by (rewrite ?app_length; cbn [length]; lia).
    rewrite (only_kept _ _ _ (length h) U3) by (first [exact L|intros ? [<-|[]]; lia]).
    unfold h2, h1. rewrite !nth_error_app1 by (rewrite ?app_length; cbn [length]; lia). reflexivity. }
  assert (KK : kinds h6 = kinds h ++ [Some KNew; Some KNew; Some KNew; Some KNew]).
  { rewrite (keeps_mset _ _ _ _ _ _ E6). unfold h5, h4, kinds. rewrite !map_app.
    change (map (option_map ch_kind) h3) with (kinds h3). rewrite (keeps_mset _ _ _ _ _ _ E3).
    unfold h2, h1, kinds. rewrite !map_app. cbn [map option_map ch_kind]. rewrite <- !app_assoc. reflexivity. }
  (* the literal counts *)
  assert (ST : exists pl h7, (if bo then new_arr (Z.of_nat ncl) else ret (hs_counts s)) h6 = Some (pl, h7) /\
     (bo = false -> h7 = h6 /\ pl = hs_counts s) /\
     (bo = true -> pl = start (4 + length h) /\ cells h7 (4 + length h) (repeat None ncl)) /\
     (forall id cs, cells h6 id cs -> cells h7 id cs) /\
     (forall id, (id < length h)%nat -> nth_error h7 id = nth_error h id) /\
     kinds h7 = kinds h ++ fresh_kinds bo).
  { destruct bo.
    - do 2 eexists. split; [apply new_arr_ok|]. split; [discriminate|].
      split; [intros _; rewrite LH6, LH5; split; [reflexivity|]; replace (4 + length h)%nat with (length h6) by lia; apply halloc_cells|].
      split; [intros; now apply cells_app|].
      split; [intros id L; rewrite nth_error_app1 by lia; now apply KE|].
      unfold kinds in *. rewrite map_app. cbn [map option_map ch_kind]. rewrite KK, <- app_assoc. reflexivity.
    - exists (hs_counts s), h6. split; [reflexivity|]. split; [auto|]. split; [discriminate|]. split; [auto|]. split; [exact KE|].
      unfold fresh_kinds. rewrite app_nil_r. exact KK. }
  destruct ST as (pl & h7 & E7 & P0 & P1 & P2 & P3 & P4). erewrite bind_some by exact E7.
  apply P2 in X1, X2, X3, X4.
  (* the draws *)
  unfold h_init_clauses. cbn [hs_nlit hs_ncl hs_clauses hs_rng hs_fast hs_ncls hs_weights].
  destruct (fill_loop (ncl * (nlit * 2)) (fun u => if Qle_bool u (1#2) then -1 else 0) init_row [] (std_of seed) (length h) h7)
    as (v8 & r8 & h8 & T8 & E8 & C8 & L8 & U8); [reflexivity|reflexivity|exact X1|].
  rewrite C1 in T8. injection T8 as <- <-.
  assert (E8' : (two <- imul (Z.of_nat nlit) 2 ;; total <- imul (Z.of_nat ncl) two ;;
      mloop (Z.to_nat total) 0
        (fun k r => let '(u, r) := next_u r in
           store_at (start (length h)) k (if Qle_bool u (1#2) then -1 else 0) ;;; ret r) (std_of seed)) h7 = Some (r, h8)).
  { erewrite bind_some by (apply imul_ok; lia). erewrite bind_some by (apply imul_ok; lia).
    replace (Z.to_nat (Z.of_nat ncl * (Z.of_nat nlit * 2))) with (ncl * (nlit * 2))%nat by lia. exact E8. }
  erewrite bind_some by exact E8'.
  unfold h_init_weights. cbn [hs_nlit hs_ncl hs_clauses hs_rng hs_fast hs_ncls hs_weights].
  rewrite LH3, LH2.
  assert (X3' : cells h8 (S (S (length h))) (repeat None (ncl * ncls))) by (eapply cells_one; [exact U8|lia|exact X3]).
  destruct (fill_loop (ncl * ncls) (fun u => if Qlt_bool (1#2) u then 1 else -1) init_weight_row [] (fast_of seed) (S (S (length h))) h8)
    as (v9 & f9 & h9 & T9 & E9 & C9 & L9 & U9); [reflexivity|reflexivity|exact X3'|].
  rewrite W1 in T9. injection T9 as <- <-.
  assert (E9' : (total <- imul (Z.of_nat ncl) (Z.of_nat ncls) ;;
      mloop (Z.to_nat total) 0
        (fun k f => let '(u, f) := next_u f in
           store_at (start (S (S (length h)))) k (if Qlt_bool (1#2) u then 1 else -1) ;;; ret f) (fast_of seed)) h8 = Some (f, h9)).
  { erewrite bind_some by (apply imul_ok; lia).
    replace (Z.to_nat (Z.of_nat ncl * Z.of_nat ncls)) with (ncl * ncls)%nat by lia. exact E9. }
  erewrite bind_some by exact E9'.
  eexists. eexists. exists h9. split; [reflexivity|]. split; [reflexivity|].
  split; [|split; [split; [intros B; cbn [hs_counts]; now destruct (P0 B)|]|split; [reflexivity|split; [reflexivity|split; [reflexivity|split]]]]].
  - rewrite LH1, LH4. rewrite N4, N5, N6.
    constructor; cbn [b_nlit b_ncls b_clauses b_weights b_outputs b_counts b_votes b_budget b_s_inv b_s_min1_inv b_rng b_fast
      hs_ncl hs_ncls hs_wmem hs_nlit hs_lmem hs_clauses hs_outputs hs_votes hs_weights hs_counts hs_budget hs_s_inv hs_s_min1_inv hs_rng hs_fast hs_init
      fresh_ids i_clauses i_outputs i_votes i_weights i_counts]; auto; try congruence.
    + red. cbn [b_nlit b_ncls b_clauses b_weights b_outputs b_votes]. rewrite !repeat_length.
      split; [exact C3|]. split; [congruence|]. split; [exact W3|]. split; [congruence|reflexivity].
    + unfold owned. cbn [fresh_ids i_clauses i_outputs i_votes i_weights i_counts].
      destruct bo; cbn [app In]; repeat (apply NoDup_cons; [cbn [In]; lia|]); apply NoDup_nil.
    + split; [reflexivity|]. eapply cells_one; [exact U9|lia|]. exact C8.
    + split; [f_equal; f_equal; lia|]. rewrite Nat.add_1_r. eapply cells_one; [exact U9|lia|]. eapply cells_one; [exact U8|lia|]. exact X2.
    + replace (length h + 3)%nat with (3 + length h)%nat by lia. split; [reflexivity|].
      eapply cells_one; [exact U9|lia|]. eapply cells_one; [exact U8|lia|]. exact X4.
    + replace (length h + 2)%nat with (S (S (length h))) by lia. split; [reflexivity|]. exact C9.
    + intros B. destruct (P1 B) as [Q1 Q2]. replace (length h + 4)%nat with (4 + length h)%nat by lia.
      split; [exact Q1|]. exists (repeat None ncl). split; [|split; [rewrite repeat_length; auto|discriminate]].
      eapply cells_one; [exact U9|lia|]. eapply cells_one; [exact U8|lia|]. exact Q2.
  - intros B. destruct (P1 B) as [Q1 Q2]. cbn [fresh_ids i_counts]. replace (length h + 4)%nat with (4 + length h)%nat by lia.
    eapply cells_one; [exact U9|lia|]. eapply cells_one; [exact U8|lia|]. exact Q2.
  - intros id L. rewrite (only_kept _ _ _ (length h) U9) by (first [exact L|intros ? [<-|[]]; lia]).
    rewrite (only_kept _ _ _ (length h) U8) by (first [exact L|intros ? [<-|[]]; lia]). now apply P3.
  - rewrite <- P4. transitivity (kinds h8).
    + eapply (keeps_mloop rng (ncl * ncls)); [|exact E9]. intros k a. destruct (next_u a). keep.
    + eapply (keeps_mloop rng (ncl * (nlit * 2))); [|exact E8]. intros k a. destruct (next_u a). keep.
Qed.

(** ** Release *)
Definition kind_at (h : heap) (id : nat) : option (option kind) := nth_error (kinds h) id.
Lemma kind_at_cells : forall h id k, kind_at h id = Some (Some k) -> exists cs, nth_error h id = Some (Some (mkChunk k cs)).
Proof.
  intros h id k E. unfold kind_at, kinds in E. rewrite nth_error_map in E.
  destruct (nth_error h id) as [[[k' cs]|]|]; cbn in E; try discriminate. inversion E; subst. eauto.
Qed.
Lemma hfree_ok : forall h id, kind_at h id = Some (Some KNew) ->
  exists h', hfree KNew (start id) h = Some (tt, h') /\ kinds h' = set_nth id None (kinds h) /\ h' = set_nth id None h.
Proof.
  intros h id E. destruct (kind_at_cells _ _ _ E) as (cs & N). exists (set_nth id None h).
  unfold hfree, start. cbn [ad_id ad_off]. rewrite N. cbn [Z.eqb]. split; [reflexivity|]. split; [|reflexivity].
  unfold kinds. change (@None kind) with (option_map ch_kind None). now rewrite hset_map.
Qed.
Lemma kind_at_set : forall h h' id j, kinds h' = set_nth id None (kinds h) -> id <> j -> kind_at h' j = kind_at h j.
Proof. intros h h' id j E N. unfold kind_at. rewrite E. now apply hnth_set_other. Qed.

(** cleanup on an object whose four (five) pointers are live new[] arrays. *)
Lemma cleanup_ok : forall bo i s h,
  NoDup (owned bo i) ->
  hs_clauses s = start (i_clauses i) -> hs_votes s = start (i_votes i) -> hs_weights s = start (i_weights i) ->
  (bo = true -> hs_counts s = start (i_counts i)) ->
  kind_at h (i_clauses i) = Some (Some KNew) -> kind_at h (i_votes i) = Some (Some KNew) ->
  kind_at h (i_weights i) = Some (Some KNew) -> (bo = true -> kind_at h (i_counts i) = Some (Some KNew)) ->
  exists s' h', h_cleanup bo s h = Some (s', h') /\
    kinds h' = (let k := set_nth (i_weights i) None (set_nth (i_votes i) None (set_nth (i_clauses i) None (kinds h))) in
                if bo then set_nth (i_counts i) None k else k) /\
    hs_clauses s' = null /\ hs_votes s' = null /\ hs_weights s' = null /\
    hs_outputs s' = hs_outputs s /\ hs_counts s' = (if bo then null else hs_counts s) /\
    hs_ncl s' = hs_ncl s /\ hs_nlit s' = hs_nlit s /\ hs_ncls s' = hs_ncls s /\ hs_init s' = false /\
    (forall id, ~ In id (owned bo i) -> nth_error h' id = nth_error h id) /\ length h' = length h.
Proof.
  intros bo i s h N P1 P2 P3 P4 K1 K2 K3 K4.
  destruct (nodup4 _ _ N) as (D1 & D2 & D3 & D4 & D5 & D6 & D7).
  unfold h_cleanup. rewrite P1, P2, P3.
  destruct (hfree_ok h (i_clauses i) K1) as (h1 & E1 & Q1 & G1). erewrite bind_some by exact E1.
  destruct (hfree_ok h1 (i_votes i)) as (h2 & E2 & Q2 & G2); [erewrite kind_at_set; eauto|]. erewrite bind_some by exact E2.
  destruct (hfree_ok h2 (i_weights i)) as (h3 & E3 & Q3 & G3);
    [erewrite kind_at_set; [|eauto|auto]; erewrite kind_at_set; eauto|]. erewrite bind_some by exact E3.
  assert (FR : forall id, ~ In id (owned bo i) -> nth_error h3 id = nth_error h id).
  { intros id NI. subst h3 h2 h1. unfold owned in NI. cbn [In] in NI. rewrite !hnth_set_other by (intros X; apply NI; rewrite X; auto 8); reflexivity. }
  destruct bo.
  - destruct (D7 eq_refl) as (D71 & D72 & D73 & D74). rewrite (P4 eq_refl).
    destruct (hfree_ok h3 (i_counts i)) as (h4 & E4 & Q4 & G4);
      [erewrite kind_at_set; [|eauto|auto]; erewrite kind_at_set; [|eauto|auto]; erewrite kind_at_set; eauto|].
    erewrite bind_some by exact E4. eexists. exists h4. split; [reflexivity|].
    cbv zeta. rewrite Q4, Q3, Q2, Q1. cbn [hs_clauses hs_votes hs_weights hs_outputs hs_counts hs_ncl hs_nlit hs_ncls hs_init].
    repeat (split; [reflexivity|]). split.
    + intros id NI. subst h4. rewrite hnth_set_other; [now apply FR|]. intros X. apply NI. unfold owned. cbn [In]. rewrite X. auto 8.
    + subst h4 h3 h2 h1. now rewrite !hset_length.
  - erewrite bind_some by reflexivity. eexists. exists h3. split; [reflexivity|].
    cbv zeta. rewrite Q3, Q2, Q1. cbn [hs_clauses hs_votes hs_weights hs_outputs hs_counts hs_ncl hs_nlit hs_ncls hs_init].
    repeat (split; [reflexivity|]). split; [exact FR|]. subst h3 h2 h1. now rewrite !hset_length.
Qed.

(** Releasing an object without arrays does nothing. *)
Lemma cleanup_null : forall bo s h, hs_clauses s = null -> hs_votes s = null -> hs_weights s = null ->
  (bo = true -> hs_counts s = null) ->
  exists s', h_cleanup bo s h = Some (s', h).
Proof.
  intros bo s h A B C D. unfold h_cleanup. rewrite A, B, C.
  destruct bo; [rewrite (D eq_refl)|]; eexists; repeat (erewrite bind_some by reflexivity); reflexivity.
Qed.
