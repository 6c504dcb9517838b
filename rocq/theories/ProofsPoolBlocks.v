(** The blocks of the other backends hand in votes of the right width: the shape
    invariant the multi-threaded executor needs. *)
From Coq Require Import ZArith List Bool QArith Lia.
From Verif Require Import Base BaseProofs Spec ModelInference ModelDense ModelFeedback ModelExecutor ModelDenseExec
  ModelAvx2 ModelNeon ModelSparse ModelConv ProofsInference ProofsEval ProofsExecutor ProofsDenseExec ProofsSparseInv ProofsSparseRules.
Import ListNotations.
Open Scope Z_scope.

(** ** AVX2 and NEON *)

Definition avx_shape (ncls : nat) (b : ablock) : Prop := a_ncls b = ncls /\ rows_of ncls (a_weights b).

Lemma avx_votes_length : forall ncls b, avx_shape ncls b -> length (a_votes (avx_count_votes b)) = ncls.
Proof. intros ncls b [H1 H2]. unfold avx_count_votes. cbn [a_votes]. apply count_votes_loop_length; auto. now rewrite repeat_length. Qed.

Lemma avx_train_shape : forall bo ncls, good_ex ablock (list Z) ncls (avx_shape ncls) (avx_train_ex bo).
Proof.
  intros bo ncls e b I. unfold avx_train_ex. cbn [fst snd]. split; [|apply avx_votes_length]; exact I.
Qed.
Lemma avx_eval_shape : forall ncls, good_ex ablock (list Z) ncls (avx_shape ncls) avx_eval_ex.
Proof. intros ncls e b I. unfold avx_eval_ex. cbn [fst snd]. split; [|apply avx_votes_length]; exact I. Qed.

Lemma avx_update_width : forall bo boost bud cmp lmem lits pc pp nc np row ws out count r fast,
  let '(row1, ws1, o1, r1, f1) := avx_update_clause bo boost bud cmp lmem lits pc pp nc np row ws out count r fast in
  length ws1 = length ws.
Proof.
  intros. unfold avx_update_clause. destruct (draw_lt fast pp) as [d1 fast1].
  destruct (avx_clause_update boost cmp lmem row (nth pc ws 0) 1 lits _ r) as [[c1 w1] r1].
  destruct d1; destruct (draw_lt fast1 np) as [d2 fast2];
    match goal with |- context [avx_clause_update ?a ?b ?c ?d ?e ?f ?g ?h ?i] =>
      destruct (avx_clause_update a b c d e f g h i) as [[c2 w2] r2] end;
    destruct d2; rewrite ?set_nth_length; auto.
Qed.
Lemma avx_update_rows : forall bo boost bud cmp lmem lits pc pp nc np ncls rows wss outs counts r fast, rows_of ncls wss ->
  let '(rows2, wss2, outs2, r2, f2) := avx_update_loop bo boost bud cmp lmem lits pc pp nc np rows wss outs counts r fast in rows_of ncls wss2.
Proof.
  intros bo boost bud cmp lmem lits pc pp nc np ncls rows.
  induction rows as [|c rows IH]; intros [|ws wss] [|o outs] counts r fast H; cbn [avx_update_loop]; auto.
  inversion H; subst.
  pose proof (avx_update_width bo boost bud cmp lmem lits pc pp nc np c ws o (hd 0 counts) r fast) as W.
  destruct (avx_update_clause _ _ _ _ _ _ _ _ _ _ _ _ _ _ _ _) as [[[[c1 ws1] o1] r1] f1].
  specialize (IH wss outs (tl counts) r1 f1 H3).
  destruct (avx_update_loop _ _ _ _ _ _ _ _ _ _ _ _ _ _ _ _) as [[[[cs2 wss2] outs2] r2] f2].
  constructor; auto.
Qed.
Lemma avx_upd_shape : forall bo boost ncls e p pp n np b, avx_shape ncls b -> avx_shape ncls (avx_upd bo boost e p pp n np b).
Proof.
  intros bo boost ncls e p pp n np b [H1 H2]. unfold avx_upd, avx_train_update, avx_shape.
  pose proof (avx_update_rows bo boost (a_budget b) (a_cmp b) (a_lmem b) e p pp n np ncls
                (a_rows b) (a_weights b) (a_outputs b) (a_counts b) (a_vrng b) (a_fast b) H2) as W.
  destruct (avx_update_loop _ _ _ _ _ _ _ _ _ _ _ _ _ _ _ _) as [[[[cs2 wss2] outs2] r2] f2]. auto.
Qed.

Lemma neon_train_shape : forall ncls, good_ex ablock (list Z) ncls (avx_shape ncls) neon_train_ex.
Proof. intros ncls e b I. unfold neon_train_ex. cbn [fst snd]. split; [|apply avx_votes_length]; exact I. Qed.
Lemma neon_eval_shape : forall ncls, good_ex ablock (list Z) ncls (avx_shape ncls) neon_eval_ex.
Proof. intros ncls e b I. unfold neon_eval_ex. cbn [fst snd]. split; [|apply avx_votes_length]; exact I. Qed.
Lemma neon_update_width : forall bo boost bud cmp lmem lits pc pp nc np row ws out count r fast,
  let '(row1, ws1, o1, r1, f1) := neon_update_clause bo boost bud cmp lmem lits pc pp nc np row ws out count r fast in
  length ws1 = length ws.
Proof.
  intros. unfold neon_update_clause. destruct (draw_lt fast pp) as [d1 fast1].
  destruct (neon_clause_update boost cmp lmem row (nth pc ws 0) 1 lits _ r) as [[c1 w1] r1].
  destruct d1; destruct (draw_lt fast1 np) as [d2 fast2];
    match goal with |- context [neon_clause_update ?a ?b ?c ?d ?e ?f ?g ?h ?i] =>
      destruct (neon_clause_update a b c d e f g h i) as [[c2 w2] r2] end;
    destruct d2; rewrite ?set_nth_length; auto.
Qed.
Lemma neon_update_rows : forall bo boost bud cmp lmem lits pc pp nc np ncls rows wss outs counts r fast, rows_of ncls wss ->
  let '(rows2, wss2, outs2, r2, f2) := neon_update_loop bo boost bud cmp lmem lits pc pp nc np rows wss outs counts r fast in rows_of ncls wss2.
Proof.
  intros bo boost bud cmp lmem lits pc pp nc np ncls rows.
  induction rows as [|c rows IH]; intros [|ws wss] [|o outs] counts r fast H; cbn [neon_update_loop]; auto.
  inversion H; subst.
  pose proof (neon_update_width bo boost bud cmp lmem lits pc pp nc np c ws o (hd 0 counts) r fast) as W.
  destruct (neon_update_clause _ _ _ _ _ _ _ _ _ _ _ _ _ _ _ _) as [[[[c1 ws1] o1] r1] f1].
  specialize (IH wss outs (tl counts) r1 f1 H3).
  destruct (neon_update_loop _ _ _ _ _ _ _ _ _ _ _ _ _ _ _ _) as [[[[cs2 wss2] outs2] r2] f2].
  constructor; auto.
Qed.
Lemma neon_upd_shape : forall boost ncls e p pp n np b, avx_shape ncls b -> avx_shape ncls (neon_upd boost e p pp n np b).
Proof.
  intros boost ncls e p pp n np b [H1 H2]. unfold neon_upd, neon_train_update, avx_shape.
  pose proof (neon_update_rows true boost (a_budget b) (a_cmp b) (a_lmem b) e p pp n np ncls
                (a_rows b) (a_weights b) (a_outputs b) (a_counts b) (a_vrng b) (a_fast b) H2) as W.
  destruct (neon_update_loop _ _ _ _ _ _ _ _ _ _ _ _ _ _ _ _) as [[[[cs2 wss2] outs2] r2] f2]. auto.
Qed.

(** ** Sparse *)

Definition sp_shape (ncls : nat) (b : sblock) : Prop := sp_ncls b = ncls /\ length (sp_weights b) = sp_ncl b /\ rows_of ncls (sp_weights b).

Lemma sp_votes_length : forall ncls b, sp_shape ncls b -> length (sp_votes (sp_count_votes b)) = ncls.
Proof. intros ncls b [H1 [_ H2]]. unfold sp_count_votes. cbn [sp_votes sp_with_outputs]. apply count_votes_loop_length; auto. now rewrite repeat_length. Qed.
Lemma sp_train_shape : forall bo ncls, good_ex sblock (list nat) ncls (sp_shape ncls) (sp_train_ex bo).
Proof. intros bo ncls e b I. unfold sp_train_ex. cbn [fst snd]. split; [|apply sp_votes_length]; exact I. Qed.
Lemma sp_eval_shape : forall ncls, good_ex sblock (list nat) ncls (sp_shape ncls) sp_eval_ex.
Proof. intros ncls e b I. unfold sp_eval_ex. cbn [fst snd]. split; [|apply sp_votes_length]; exact I. Qed.

Lemma sp_ncls_clause_update : forall boost dynamic lits k c t b, sp_ncls (sp_clause_update boost dynamic lits k c t b) = sp_ncls b.
Proof.
  intros boost dynamic lits k c t b. unfold sp_clause_update. cbv zeta. destruct (_ >? 0).
  - destruct (_ =? 1); [reflexivity|]. destruct (_ =? 0); auto.
    destruct (sp_t1b_row _ _ _) as [ps r]. destruct (sp_t1b_row _ _ _) as [ns r2]. reflexivity.
  - destruct (_ && _); reflexivity.
Qed.
Lemma sp_ncls_update_clause : forall bo boost dynamic lits pc pp nc np b k, sp_ncls (sp_update_clause bo boost dynamic lits pc pp nc np b k) = sp_ncls b.
Proof.
  intros bo boost dynamic lits pc pp nc np b k. unfold sp_update_clause. destruct (draw_lt (sp_fast b) pp) as [d r]. cbv zeta.
  set (outs := if bo && _ then _ else _). clearbody outs.
  set (b1 := if d then _ else _). assert (W1 : sp_ncls b1 = sp_ncls b) by (unfold b1; destruct d; [rewrite sp_ncls_clause_update|]; reflexivity).
  clearbody b1. destruct (draw_lt (sp_fast b1) np) as [d2 r2]. destruct d2; [rewrite sp_ncls_clause_update|]; exact W1.
Qed.
Lemma sp_ncls_train_update : forall bo boost dynamic lits pc pp nc np b, sp_ncls (sp_train_update bo boost dynamic lits pc pp nc np b) = sp_ncls b.
Proof.
  intros bo boost dynamic lits pc pp nc np b. unfold sp_train_update. generalize (seq 0 (sp_ncl b)). intros ks. revert b.
  induction ks as [|k ks IH]; intros b; cbn [fold_left]; auto. rewrite IH. apply sp_ncls_update_clause.
Qed.
Lemma sp_upd_shape : forall bo boost dynamic ncls e p pp n np b, sp_shape ncls b -> sp_shape ncls (sp_train_update bo boost dynamic e p pp n np b).
Proof.
  intros bo boost dynamic ncls e p pp n np b [H1 [H2 H3]].
  destruct (wshape_train_update bo boost dynamic e p pp n np b) as [V1 V2]; [split; congruence|].
  rewrite sp_ncls_train_update in V2. split; [rewrite sp_ncls_train_update; exact H1|]. split; [exact V1|congruence].
Qed.

(** ** Convolution *)

Definition conv_shape (ncls : nat) (v : cvblock) : Prop := dense_inv ncls (cv_b v).

Lemma conv_votes_length : forall ncls v, conv_shape ncls v -> length (b_votes (cv_b (cv_count_votes v))) = ncls.
Proof.
  intros ncls v [H1 H2]. unfold cv_count_votes, count_votes. cbn [cv_b b_votes]. apply count_votes_loop_length; auto. now rewrite repeat_length.
Qed.
Lemma conv_set_shape : forall bo ncls e v, conv_shape ncls v -> conv_shape ncls (conv_set_output bo e v).
Proof.
  intros bo ncls e v I. unfold conv_set_output. destruct (conv_output_loop _ _ _ _ _ _ _ _ _) as [[[[os aps] cnts] ppc] r]. exact I.
Qed.
Lemma conv_train_shape : forall bo ncls, good_ex cvblock (list Z) ncls (conv_shape ncls) (conv_train_ex bo).
Proof.
  intros bo ncls e b I. unfold conv_train_ex. cbn [fst snd]. pose proof (conv_set_shape bo ncls e b I) as J.
  split; [|apply conv_votes_length]; exact J.
Qed.
Lemma conv_eval_shape : forall ncls, good_ex cvblock (list Z) ncls (conv_shape ncls) conv_eval_ex.
Proof. intros ncls e b I. unfold conv_eval_ex. cbn [fst snd]. split; [|apply conv_votes_length]; exact I. Qed.
Lemma conv_update_rows : forall bo boost bud si sm nlit lits pc pp nc np ncls cs wss outs counts aps r fast, rows_of ncls wss ->
  let '(cs2, wss2, outs2, r2, f2) := conv_update_loop bo boost bud si sm nlit lits pc pp nc np cs wss outs counts aps r fast in rows_of ncls wss2.
Proof.
  intros bo boost bud si sm nlit lits pc pp nc np ncls cs.
  induction cs as [|c cs IH]; intros [|ws wss] [|o outs] counts aps r fast H; cbn [conv_update_loop]; auto.
  inversion H; subst.
  pose proof (train_update_clause_width bo boost bud si sm (ModelConv.patch nlit lits (hd O aps)) pc pp nc np c ws o (hd 0 counts) r fast) as W.
  destruct (train_update_clause _ _ _ _ _ _ _ _ _ _ _ _ _ _ _ _) as [[[[c1 ws1] o1] r1] f1].
  specialize (IH wss outs (tl counts) (tl aps) r1 f1 H3).
  destruct (conv_update_loop _ _ _ _ _ _ _ _ _ _ _ _ _ _ _ _ _ _) as [[[[cs2 wss2] outs2] r2] f2].
  constructor; auto.
Qed.
Lemma conv_upd_shape : forall bo boost ncls e p pp n np v, conv_shape ncls v -> conv_shape ncls (conv_update bo boost e p pp n np v).
Proof.
  intros bo boost ncls e p pp n np v [H1 H2]. unfold conv_update, conv_shape, dense_inv.
  pose proof (conv_update_rows bo boost (b_budget (cv_b v)) (b_s_inv (cv_b v)) (b_s_min1_inv (cv_b v)) (b_nlit (cv_b v)) e p pp n np ncls
                (b_clauses (cv_b v)) (b_weights (cv_b v)) (b_outputs (cv_b v)) (b_counts (cv_b v)) (cv_active v) (b_rng (cv_b v)) (b_fast (cv_b v)) H2) as W.
  destruct (conv_update_loop _ _ _ _ _ _ _ _ _ _ _ _ _ _ _ _ _ _) as [[[[cs2 wss2] outs2] r2] f2]. auto.
Qed.
