(** The native inference object once more, access by access: class Inference of
    src/inference.hpp with all three template flags, feature importance
    included.  The functional model of predict and of literal importance is
    ModelInference.v.

    [Wild] (ModelSparseImp.v): an index outside a vector or array, a read past the
    example that was passed, or an int32 sum that overflows.  [Throw]: a C++
    exception (std::length_error, std::runtime_error).  Simplifications: the
    constructor's three arguments are not negative except n_explanations;
    allocation succeeds; new memory holds arbitrary values. *)
From Coq Require Import ZArith List Bool Lia.
From Verif Require Import Base ModelSparseImp.
Import ListNotations.
Open Scope Z_scope.

(** Template arguments (inference.hpp:19). *)
Record iflags := mkFlags { f_feat : bool; f_lit : bool; f_excl : bool }.

(** Members (209-226). *)
Record iobj := mkIO {
  io_nlit : nat; io_ncls : nat; io_nexp : nat; io_empty : nat;
  io_rules : list (list nat); io_features : list (list nat); io_weights : list (list Z);
  io_active : list nat; io_implit : list Z; io_impfeat : list Z; io_votes : list Z;
  io_example : list Z
}.

(** Signed int and int32 addition. *)
Definition int_max : Z := 2147483647.
Definition iadd (a b : Z) : R Z :=
  if (-2147483648 <=? a + b) && (a + b <=? int_max) then Ret (a + b) else Wild.

(** Constructor (25-42): m_num_literals*2 is an int; resize to n_explanations < 0
    is a resize to more than the maximal size. *)
Definition io_new (fl : iflags) (nlit ncls : nat) (nexp : Z) (junk : list Z) : R iobj :=
  if Z.of_nat nlit * 2 >? int_max then Wild
  else if f_feat fl && (nexp <? 0) then Throw
  else Ret (mkIO nlit ncls (Z.to_nat nexp) 0 [] [] [] []
                 (if f_lit fl then repeat 0 (nlit * 2) else []) (if f_feat fl then repeat 0 (Z.to_nat nexp) else [])
                 (repeat 0 ncls) (firstn (nlit * 2) junk ++ repeat 0 (nlit * 2 - length junk))).

(** set_rules (64-68). *)
Definition io_set_rules (rules : list (list nat)) (ws : list (list Z)) (o : iobj) : iobj :=
  mkIO (io_nlit o) (io_ncls o) (io_nexp o) (io_empty o) rules (io_features o) ws
       (io_active o) (io_implit o) (io_impfeat o) (io_votes o) (io_example o).
(** set_features (70-83). *)
Definition io_set_features (fl : iflags) (f : list (list nat)) (o : iobj) : R iobj :=
  if negb (f_feat fl) then Throw
  else if negb (Nat.eqb (length f) (io_nexp o)) then Throw
  else Ret (mkIO (io_nlit o) (io_ncls o) (io_nexp o) (io_empty o) (io_rules o) f (io_weights o)
                 (io_active o) (io_implit o) (io_impfeat o) (io_votes o) (io_example o)).

(** memcpy from the example (128): reads nlit bytes. *)
Definition io_copy (nlit : nat) (x : list Z) (ex : list Z) : R (list Z) :=
  if (nlit <=? length x)%nat && (nlit <=? length ex)%nat then Ret (firstn nlit x ++ skipn nlit ex) else Wild.

(** predict (122-166). *)
Definition io_negate (nlit : nat) (ex : list Z) : R (list Z) :=
  fold_ix nlit 0 (fun i ex => v <- ix ex i; set_ix (nlit + i) (if v =? 0 then 1 else 0) ex) ex.
Definition io_match (ex : list Z) (rule : list nat) : R bool :=
  o <- scan_ix (length rule) 0 (fun j => l <- ix rule j; v <- ix ex l; Ret (if v =? 0 then Some tt else None));
  Ret (match o with Some _ => false | None => true end).
Definition io_vote (ncls : nat) (ws : list (list Z)) (k : nat) (votes : list Z) : R (list Z) :=
  fold_ix ncls 0 (fun i votes => v <- ix votes i; row <- ix ws k; w <- ix row i; s <- iadd v w; set_ix i s votes) votes.
Definition io_clauses (o : iobj) (ex : list Z) (s : list nat * list Z) : R (list nat * list Z) :=
  fold_ix (length (io_rules o)) 0 (fun k s =>
    rule <- ix (io_rules o) k;
    b <- io_match ex rule;
    if b then votes <- io_vote (io_ncls o) (io_weights o) k (snd s); Ret (fst s ++ [k], votes) else Ret s) s.
Definition io_argmax (ncls : nat) (votes : list Z) : R nat :=
  v0 <- ix votes 0;
  s <- fold_ix (ncls - 1) 1 (fun i s => v <- ix votes i; Ret (if v >? snd s then (i, v) else s)) (O, v0);
  Ret (fst s).
Definition io_predict (x : list Z) (o : iobj) : R (nat * iobj) :=
  ex <- io_copy (io_nlit o) x (io_example o);
  ex <- io_negate (io_nlit o) ex;
  s <- io_clauses o ex ([], repeat 0 (length (io_votes o)));
  let o' := mkIO (io_nlit o) (io_ncls o) (io_nexp o) (io_empty o) (io_rules o) (io_features o) (io_weights o)
                 (fst s) (io_implit o) (io_impfeat o) (snd s) ex in
  match fst s with
  | [] => Ret (io_empty o, o')
  | _ => y <- io_argmax (io_ncls o) (snd s); Ret (y, o')
  end.

(** The two inner loops of calculate_importance (189-202). *)
Definition io_add (idx : list nat) (w : Z) (imp : list Z) : R (list Z) :=
  fold_ix (length idx) 0 (fun j imp => l <- ix idx j; v <- ix imp l; s <- iadd v w; set_ix l s imp) imp.
(** calculate_importance (168-205). *)
Definition io_explain (fl : iflags) (y : nat) (o : iobj) : R iobj :=
  let lit := if f_lit fl then repeat 0 (length (io_implit o)) else io_implit o in
  let feat := if f_feat fl then repeat 0 (length (io_impfeat o)) else io_impfeat o in
  s <- fold_ix (length (io_active o)) 0 (fun a s =>
         k <- ix (io_active o) a;
         row <- ix (io_weights o) k;
         w <- ix row y;
         if f_excl fl && (w <? 1) then Ret s
         else
           feat <- (if f_feat fl then f <- ix (io_features o) k; io_add f w (snd s) else Ret (snd s));
           lit <- (if f_lit fl then r <- ix (io_rules o) k; io_add r w (fst s) else Ret (fst s));
           Ret (lit, feat)) (lit, feat);
  Ret (mkIO (io_nlit o) (io_ncls o) (io_nexp o) (io_empty o) (io_rules o) (io_features o) (io_weights o)
            (io_active o) (fst s) (snd s) (io_votes o) (io_example o)).

(** Calls of the bound methods (src/main.cpp:284-301) that change the object. *)
Inductive icall := IRules (rules : list (list nat)) (ws : list (list Z)) | IFeatures (f : list (list nat)) | IEmpty (k : nat)
  | IPredict (x : list Z) | IExplain (y : nat).
Definition io_set_empty (k : nat) (o : iobj) : iobj :=
  mkIO (io_nlit o) (io_ncls o) (io_nexp o) k (io_rules o) (io_features o) (io_weights o)
       (io_active o) (io_implit o) (io_impfeat o) (io_votes o) (io_example o).
Definition io_step (fl : iflags) (c : icall) (o : iobj) : R iobj :=
  match c with
  | IRules r w => Ret (io_set_rules r w o)
  | IFeatures f => io_set_features fl f o
  | IEmpty k => Ret (io_set_empty k o)
  | IPredict x => p <- io_predict x o; Ret (snd p)
  | IExplain y => io_explain fl y o
  end.
(** A history of calls; a call that throws leaves the object as it was (none of
    them changes it before throwing). *)
Fixpoint io_run (fl : iflags) (cs : list icall) (o : iobj) : R iobj :=
  match cs with
  | [] => Ret o
  | c :: cs => match io_step fl c o with Ret o' => io_run fl cs o' | Throw => io_run fl cs o | Wild => Wild end
  end.
