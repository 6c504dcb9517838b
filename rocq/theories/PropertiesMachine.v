(** C08, C09, C11, C29, C39, C44, C45, C47, C55: configuring and starting machines. *)
From Coq Require Import String Ascii ZArith List Bool QArith Lia.
From Verif Require Import Base ModelRuleSet ModelDense ModelLayout ModelMachine ProofsLayout ProofsMachine.
Import ListNotations.
Open Scope Z_scope.

Definition mx_tm (ncl : Z) (budget : option Z) : tm :=
  mkTm 4 ncl 3 [Fin 3; Fin 5; Fin 7] 42 [budget] None false false None None None.

(** ** C08 *)

Theorem C08_block_count : forall n t,
  let '(r, t') := set_num_clause_blocks (BInt n) t in
  (r = Ok tt <-> 1 <= n <= tm_ncl t) /\
  (r = Ok tt -> exists sz, t' = with_sizes (Some sz) t /\ Z.of_nat (length sz) = n /\ zsum sz = tm_ncl t /\
     Forall (fun z => 1 <= z) sz /\ nth 0 sz 0 = tm_ncl t / n + tm_ncl t mod n /\
     forall i, (0 < i < length sz)%nat -> nth i sz 0 = tm_ncl t / n).
Proof. exact set_blocks_int. Qed.

Theorem C08_block_list : forall l t,
  let '(r, t') := set_num_clause_blocks (BList l) t in
  (r = Ok tt <-> zsum l = tm_ncl t /\ Forall (fun z => 1 <= z) l) /\
  (r = Ok tt -> t' = with_sizes (Some l) t).
Proof. exact set_blocks_list. Qed.

Example C08_case :
  set_num_clause_blocks (BInt 3) (mx_tm 11 None) = (Ok tt, with_sizes (Some [5;3;3]) (mx_tm 11 None)) /\
  fst (set_num_clause_blocks (BInt 12) (mx_tm 11 None)) = Raise ValueError /\
  fst (set_num_clause_blocks (BInt (-2)) (mx_tm 11 None)) = Raise IndexError /\
  fst (set_num_clause_blocks (BList [5;6]) (mx_tm 11 None)) = Ok tt /\
  fst (set_num_clause_blocks (BList [0;11]) (mx_tm 11 None)) = Raise ValueError.
Proof. repeat split. Qed.

(** ** C09 *)

(** Machines without trainable flags and with at least one s value.  Budget None
    in first place means no budget at all: the default 0xFFFF stays. *)
Theorem C09_round_robin_partial : forall t sizes, tm_sizes t = Some sizes -> tm_flags t = None -> tm_s t <> [] -> tm_budgets t <> [] ->
  let '(r, t') := construct_clause_blocks t in
  ((forall i, (i < length sizes)%nat -> dealt_budget t i <> None) <-> exists cbs, r = Ok cbs) /\
  (forall cbs, r = Ok cbs -> t' = with_cbs (Some cbs) t /\ length cbs = length sizes /\
     forall i d, (i < length sizes)%nat -> exists b, dealt_budget t i = Some b /\
       nth i cbs d = mkCb (get_backend t) (tm_nlit t) (nth i sizes 0) (tm_ncls t)
                          (nth (i mod length (tm_s t)) (tm_s t) Fnan) b).
Proof. exact construct_spec. Qed.

(** What [dealt_budget] is. *)
Theorem C09_dealt_budget : forall t b, hd_error (tm_budgets t) = Some (Some b) -> forall i z,
  dealt_budget t i = Some z <->
  nth (i mod length (tm_budgets t)) (tm_budgets t) None = Some z /\ 0 <= z < 4294967296.
Proof.
  intros t b H i z. unfold dealt_budget. destruct (tm_budgets t) as [|[b0|] bs]; try discriminate.
  destruct (nth _ _ None) as [w|]; cbn [as_uint32]; [|split; [discriminate|intros [K _]; discriminate]].
  destruct ((0 <=? w) && (w <? 4294967296)) eqn:E; split; intros K.
  - inversion K; subst. split; [auto|lia].
  - destruct K as [K _]. exact K.
  - discriminate.
  - destruct K as [K1 K2]. inversion K1; subst. lia.
Qed.

(** Missing above, and false: an empty list of s values is accepted by the
    constructor and yields no block at all. *)
Theorem C09_empty_s_refuted : exists t t1 cbs t2, tm_init 4 10 3 (SList []) 42 None false false = Ok t /\
  set_num_clause_blocks (BInt 2) t = (Ok tt, t1) /\ construct_clause_blocks t1 = (Ok cbs, t2) /\ cbs = [].
Proof. do 4 eexists. repeat split. Qed.

Example C09_case : let t := mkTm 4 11 3 [Fin 3; Fin 5] 42 [Some 9; Some 8; Some 7] None true false (Some [3;2;2;2;2]) None None in
  exists cbs t', construct_clause_blocks t = (Ok cbs, t') /\
  map c_s cbs = [Fin 3; Fin 5; Fin 3; Fin 5; Fin 3] /\ map c_budget cbs = [9;8;7;9;8] /\ map c_ncl cbs = [3;2;2;2;2].
Proof. cbv zeta. do 2 eexists. repeat split. Qed.

(** ** C11 *)

Theorem C11_round_trip : forall path w c r f, is_npz path = true -> a_dtype w = DInt16 -> a_dtype c = DInt8 ->
  rows w = Some r -> rows c = Some r ->
  exists f', save_to_file path (mkDs (Some w) (Some c)) f = (Ok tt, f') /\
    load_from_file path f' = Ok (mkDs (Some w) (Some c)) /\ (forall p, p <> path -> f' p = f p).
Proof. exact save_load. Qed.

(** Exactly which files are accepted, and what they give. *)
Theorem C11_acceptance : forall path f s, load_from_file path f = Ok s <->
  is_npz path = true /\ exists m w c r, f path = Some (Npz m) /\ npz_find "w" m = Some w /\ npz_find "c" m = Some c /\
    rows w = Some r /\ rows c = Some r /\ a_dtype w = DInt16 /\ a_dtype c = DInt8 /\ s = mkDs (Some w) (Some c).
Proof. exact load_exact. Qed.

(** The suffix test is on the end of the name. *)
Theorem C11_suffix : forall p, is_npz (p ++ ".npz") = true.
Proof.
  intros p. unfold is_npz.
  assert (L : String.length (p ++ ".npz") = (String.length p + 4)%nat) by (induction p as [|a p IH]; cbn; auto).
  rewrite L. replace (String.length p + 4 - 4)%nat with (String.length p) by lia.
  assert (S : substring (String.length p) 4 (p ++ ".npz") = ".npz"%string) by (induction p as [|a p IH]; cbn in *; auto).
  rewrite S, String.eqb_refl. destruct (Nat.leb_spec 4 (String.length p + 4)); [reflexivity|lia].
Qed.

(** A refused file leaves the machine's state alone. *)
Theorem C11_load_state : forall a f cur,
  match load_state a f cur with
  | (Ok _, s) => exists x, s = Some x /\ (a = LObj x \/ exists p, a = LPath p /\ load_from_file p f = Ok x)
  | (Raise e, s) => s = cur /\ exists p, a = LPath p /\ load_from_file p f = Raise e
  end.
Proof.
  intros [p|s] f cur; cbn [load_state]; [|eauto].
  destruct (load_from_file p f) eqn:E; eauto 6.
Qed.

Example C11_case : let w := mkArr DInt16 [2;3]%nat [1;-1;5;300;-300;0] in let c := mkArr DInt8 [2;2]%nat [1;-1;0;-128] in
  is_npz "runs/best.npz" = true /\ is_npz "best.npz.bak" = false /\ rows w = Some 2%nat /\ rows c = Some 2%nat /\
  load_from_file "a.npz" (fun _ => Some (Npz [("w", w); ("c", w)]))%string = Raise TypeError /\
  load_from_file "a.npz" (fun _ => Some (Npz [("c", c); ("w", w)]))%string = Ok (mkDs (Some w) (Some c)).
Proof. cbv zeta. repeat split. Qed.

(** ** C29 *)

(** Exactly when the constructor succeeds.  [fl_ge1]: a number (or infinity) >= 1. *)
Theorem C29_constructor_partial : forall nlit ncl ncls s thr budget boost multi,
  match tm_init nlit ncl ncls s thr budget boost multi with
  | Ok t => exists ss, s_values s = Some ss /\ Forall (fun f => fl_ge1 f \/ f = Fnan) ss /\ 1 <= thr /\
              t = mkTm nlit ncl (if multi then 2 * ncls else ncls)%nat ss thr [budget] None boost multi None None None
  | Raise e => s_values s = None \/ thr < 1 \/
              exists ss, s_values s = Some ss /\ Exists (fun f => ~ (fl_ge1 f \/ f = Fnan)) ss
  end.
Proof. exact init_spec. Qed.

Theorem C29_scalar_s : forall nlit ncl ncls f thr budget boost multi,
  tm_init nlit ncl ncls (SFloat f) thr budget boost multi = tm_init nlit ncl ncls (SList [f]) thr budget boost multi.
Proof. reflexivity. Qed.

(** Not-a-number is accepted as s. *)
Theorem C29_nan_refuted : exists t, tm_init 4 10 3 (SFloat Fnan) 42 None false false = Ok t.
Proof. eexists. reflexivity. Qed.

Example C29_case :
  tm_init 4 10 3 (SFloat (Fin (9#10))) 42 None false false = Raise ValueError /\
  tm_init 4 10 3 (SList [Fin 3; Fin (1#2)]) 42 None false false = Raise ValueError /\
  tm_init 4 10 3 (SFloat (Fin 1)) 0 None false false = Raise ValueError /\
  tm_init 4 10 3 (SInt 3) 42 None false false = Raise TypeError /\
  exists t, tm_init 4 10 3 (SFloat (Fin 1)) 1 (Some 5) false true = Ok t /\ tm_ncls t = 6%nat.
Proof. repeat split. eexists. split; reflexivity. Qed.

(** ** C39 *)

(** Integer budgets: accepted iff >= 1, and then given to every block. *)
Theorem C39_int_budget_partial : forall z t t1 sizes, set_literal_budget (BInt z) t = (Ok tt, t1) ->
  z < 4294967296 -> tm_sizes t = Some sizes -> tm_flags t = None -> tm_s t <> [] ->
  exists cbs t2, construct_clause_blocks t1 = (Ok cbs, t2) /\ length cbs = length sizes /\
    Forall (fun c => c_budget c = z /\ fst (c_kind c) = true) cbs.
Proof. exact int_budget_applied. Qed.

Theorem C39_int_accepted : forall z t, fst (set_literal_budget (BInt z) t) = Ok tt <-> 1 <= z.
Proof. intros z t. cbn. destruct (z <? 1) eqn:E; split; intros H; auto; try discriminate; lia. Qed.

(** List budgets are ignored by every later construction ... *)
Theorem C39_list_ignored_refuted : forall l t,
  fst (construct_clause_blocks (snd (set_literal_budget (BList l) t))) = fst (construct_clause_blocks t).
Proof. exact list_budget_ignored. Qed.
(** ... invalid entries are not rejected ... *)
Theorem C39_list_unchecked_refuted : forall l z t, tm_budgets t = [Some z] -> 1 <= z ->
  fst (set_literal_budget (BList l) t) = Ok tt.
Proof. intros l z t H Hz. cbn. rewrite H. cbn. destruct (z <? 1) eqn:E; [lia|auto]. Qed.
(** ... and on a machine built without a budget the call is a TypeError. *)
Theorem C39_list_no_budget_refuted : forall l t, tm_budgets t = [None] -> fst (set_literal_budget (BList l) t) = Raise TypeError.
Proof. intros l t H. cbn. rewrite H. reflexivity. Qed.
(** A rejected integer is stored all the same, and used. *)
Theorem C39_rejected_kept_refuted : exists t t1 cbs t2, set_literal_budget (BInt 0) t = (Raise ValueError, t1) /\
  construct_clause_blocks t1 = (Ok cbs, t2) /\ map c_budget cbs = [0;0].
Proof. exists (with_sizes (Some [6;5]) (mx_tm 11 (Some 8))). do 3 eexists. repeat split. Qed.

Example C39_case : exists t1 cbs t2, set_literal_budget (BInt 6) (with_sizes (Some [6;5]) (mx_tm 11 None)) = (Ok tt, t1) /\
  construct_clause_blocks t1 = (Ok cbs, t2) /\ map c_budget cbs = [6;6].
Proof. do 3 eexists. repeat split. Qed.

(** ** C44 *)

(** What a failed call leaves: either nothing changed, or sizes that are
    themselves invalid were stored. *)
Theorem C44_failed_call_partial : forall a t e t', set_num_clause_blocks a t = (Raise e, t') ->
  t' = t \/ exists sz, t' = with_sizes (Some sz) t /\ (sz = [] \/ Exists (fun z => z < 1) sz).
Proof. exact set_blocks_fail. Qed.

Theorem C44_early_refusals : forall a t, a = BInt 0 \/ (exists l, a = BList l /\ zsum l <> tm_ncl t) ->
  exists e, set_num_clause_blocks a t = (Raise e, t).
Proof. exact set_blocks_fail_early. Qed.

(** The claim itself is false, and a second attempt to train then goes through
    with empty blocks: 3 clauses, 5 jobs. *)
Theorem C44_retry_refuted : exists t e t1 l t2, tm_sizes t = None /\ train_start 5 42 t = (Raise e, t1) /\
  tm_sizes t1 = Some [3;0;0;0;0] /\ train_start 5 42 t1 = (Ok l, t2) /\
  map (fun b => c_ncl (fst (fst b))) l = [3;0;0;0;0].
Proof. exists (mx_tm 3 None). do 4 eexists. repeat split. Qed.

Example C44_case : set_num_clause_blocks (BList [4;4]) (with_sizes (Some [6;5]) (mx_tm 11 None))
  = (Raise ValueError, with_sizes (Some [6;5]) (mx_tm 11 None)).
Proof. reflexivity. Qed.

(** ** C45 *)

Theorem C45_seeds_partial : forall cbs seed, cbs <> [] ->
  match allocate_clause_blocks cbs seed with
  | Ok l => 0 <= seed /\ seed + Z.of_nat (length cbs) <= 4294967296 /\ length l = length cbs /\
            (forall i d, (i < length cbs)%nat ->
              nth i l (d, 0, false) = (nth i cbs d, seed + Z.of_nat i, negb (seed + Z.of_nat i =? 0))) /\
            NoDup (map (fun e => snd (fst e)) l) /\
            (executor_accepts l = true <-> seed <> 0)
  | Raise e => e = TypeError /\ ~ (0 <= seed /\ seed + Z.of_nat (length cbs) <= 4294967296)
  end.
Proof. exact allocate_spec. Qed.

(** Positive seeds: every freshly built machine starts. *)
Theorem C45_positive_seed_starts : forall nlit ncl ncls s thr budget boost multi t n_jobs seed,
  tm_init nlit ncl ncls s thr budget boost multi = Ok t -> s <> SList [] ->
  (forall b, budget = Some b -> 0 <= b < 4294967296) ->
  1 <= n_jobs <= ncl -> 1 <= seed -> seed + n_jobs <= 4294967296 ->
  exists l t', train_start n_jobs seed t = (Ok l, t') /\ Z.of_nat (length l) = n_jobs /\
    zsum (map (fun e => c_ncl (fst (fst e))) l) = ncl.
Proof. exact train_start_fresh. Qed.

(** Seed 0, the Trainer's default, never starts. *)
Theorem C45_seed_zero_refuted : forall n_jobs t, exists e t', train_start n_jobs 0 t = (Raise e, t').
Proof. exact train_start_seed0. Qed.

Example C45_case : exists t l t', tm_init 4 11 3 (SFloat (Fin 3)) 42 (Some 5) false false = Ok t /\
  train_start 3 42 t = (Ok l, t') /\ map (fun e => snd (fst e)) l = [42;43;44] /\
  map (fun e => c_ncl (fst (fst e))) l = [5;3;3].
Proof. do 3 eexists. repeat split. Qed.

(** ** C47 *)

(** [init] is any backend's initialiser, with any padding; the result does not
    depend on what it wrote. *)
Theorem C47_resume : forall init s l n ncls,
  Forall (fun e => flat_wf n ncls (init (fst (fst e)) (snd (fst e)))) l ->
  state_shape n (total_clauses (map (fun e => init (fst (fst e)) (snd (fst e))) l)) ncls s ->
  let cbs := started init (Some s) l in
  concat (map view_clauses cbs) = map (split_row n) (ds_c s) /\ concat (map view_all_weights cbs) = ds_w s /\
  map f_ncl cbs = map f_ncl (started init None l) /\
  forall d, state_shape n (total_clauses (started init None l)) ncls d -> load_state_from_backend cbs d = s.
Proof. exact resume_views. Qed.

(** One literal, two classes, padded to two literals and three weights. *)
Definition mx_init (cb : cblock) (seed : Z) : flat :=
  let n := Z.to_nat (c_ncl cb) in
  mkFlat n 1 2 2 3 (repeat seed (n * 4)) (repeat (- seed) (n * 3)).
Definition mx_started : list (cblock * Z * bool) :=
  [(mkCb (false, false) 1 2 2 (Fin 3) 65535, 42, true); (mkCb (false, false) 1 1 2 (Fin 3) 65535, 43, true)].
Definition mx_state : dense_state := mkDense 2 2 [[1;-1];[2;-2];[3;-3]] [[5;6];[7;8];[9;10]].

Example C47_case : Forall (fun e => flat_wf 1 2 (mx_init (fst (fst e)) (snd (fst e)))) mx_started /\
  state_shape 1 (total_clauses (map (fun e => mx_init (fst (fst e)) (snd (fst e))) mx_started)) 2 mx_state /\
  map f_clauses (started mx_init (Some mx_state) mx_started) = [[1;42;-1;42;2;42;-2;42];[3;43;-3;43]].
Proof.
  split; [|split].
  - repeat constructor.
  - repeat split; repeat constructor.
  - reflexivity.
Qed.

(** ** C55 *)

(** Any sequence of configuration calls that all succeed: whatever blocks exist
    afterwards hold all clauses, none is empty, and the dimensions never change. *)
Theorem C55_all_clauses_built : forall nlit ncl ncls s thr budget boost multi t cs rs t',
  tm_init nlit ncl ncls s thr budget boost multi = Ok t -> s <> SList [] ->
  crun cs t = (rs, t') -> Forall (fun r => r = Ok tt) rs ->
  tm_ncl t' = ncl /\ tm_nlit t' = nlit /\ tm_s t' = tm_s t /\
  forall cbs, tm_cbs t' = Some cbs -> zsum (map c_ncl cbs) = ncl /\ Forall (fun c => 1 <= c_ncl c) cbs.
Proof.
  intros nlit ncl ncls s thr budget boost multi t cs rs t' HI Hs HR HF.
  destruct (crun_ok cs t rs t' (init_cfg_ok _ _ _ _ _ _ _ _ _ HI Hs) HR HF) as [[K1 K2 K3 K4 K5] [A [B [C D]]]].
  pose proof (init_spec nlit ncl ncls s thr budget boost multi) as P. rewrite HI in P.
  destruct P as [ss [_ [_ [_ Et]]]].
  assert (E1 : tm_ncl t = ncl) by (rewrite Et; reflexivity). assert (E2 : tm_nlit t = nlit) by (rewrite Et; reflexivity).
  rewrite <- E1, <- E2. split; [auto|]. split; [auto|]. split; [auto|]. intros cbs Hc. rewrite <- A. now apply K5.
Qed.

(** After a caught NotImplementedError of set_trainable_flags the flags are stored,
    and a later larger split silently loses blocks: 9 clauses, only 6 built. *)
Theorem C55_flags_refuted : exists t rs t' cbs, tm_init 4 9 3 (SFloat (Fin 3)) 42 None false false = Ok t /\
  crun [CBlocks (BInt 2); CFlags [true; true]; CBlocks (BInt 3); CBuild] t = (rs, t') /\
  rs = [Ok tt; Raise NotImplementedError; Ok tt; Ok tt] /\
  tm_cbs t' = Some cbs /\ zsum (map c_ncl cbs) = 6.
Proof. do 4 eexists. repeat split. Qed.

Example C55_case : exists t rs t' cbs, tm_init 4 9 3 (SFloat (Fin 3)) 42 None false false = Ok t /\
  crun [CBlocks (BInt 2); CBuild; CBudget (BInt 5); CBlocks (BList [4;3;2]); CBuild] t = (rs, t') /\
  Forall (fun r => r = Ok tt) rs /\ tm_cbs t' = Some cbs /\ map c_ncl cbs = [4;3;2] /\ map c_budget cbs = [5;5;5].
Proof. do 4 eexists. repeat split. repeat constructor. Qed.

Print Assumptions C08_block_count.
Print Assumptions C08_block_list.
Print Assumptions C09_round_robin_partial.
Print Assumptions C09_dealt_budget.
Print Assumptions C09_empty_s_refuted.
Print Assumptions C11_round_trip.
Print Assumptions C11_acceptance.
Print Assumptions C11_suffix.
Print Assumptions C11_load_state.
Print Assumptions C29_constructor_partial.
Print Assumptions C29_scalar_s.
Print Assumptions C29_nan_refuted.
Print Assumptions C39_int_budget_partial.
Print Assumptions C39_int_accepted.
Print Assumptions C39_list_ignored_refuted.
Print Assumptions C39_list_unchecked_refuted.
Print Assumptions C39_list_no_budget_refuted.
Print Assumptions C39_rejected_kept_refuted.
Print Assumptions C44_failed_call_partial.
Print Assumptions C44_early_refusals.
Print Assumptions C44_retry_refuted.
Print Assumptions C45_seeds_partial.
Print Assumptions C45_positive_seed_starts.
Print Assumptions C45_seed_zero_refuted.
Print Assumptions C47_resume.
Print Assumptions C55_all_clauses_built.
Print Assumptions C55_flags_refuted.
