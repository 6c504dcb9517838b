(** Specification vocabulary for training runs: the order on floats, "the first
    best entry of a log", and the intended course of a training run. *)
From Coq Require Import ZArith List Bool QArith Lia Permutation.
From Verif Require Import Base ModelMachine ModelTrainer.
Import ListNotations.
Open Scope Z_scope.

(** Order on floats; nothing compares with a NaN. *)
Definition fl_lt (a b : fl) : Prop :=
  match a, b with
  | Fin p, Fin q => (p < q)%Q
  | Fninf, Fin _ | Fninf, Fpinf | Fin _, Fpinf => True
  | _, _ => False
  end.
Definition fl_same (a b : fl) : Prop :=
  match a, b with
  | Fin p, Fin q => (p == q)%Q
  | Fninf, Fninf | Fpinf, Fpinf => True
  | _, _ => False
  end.
Definition fl_le (a b : fl) : Prop := fl_lt a b \/ fl_same a b.

(** Entry [b] of the log is maximal and no earlier entry is as good. *)
Definition first_best (log : list fl) (b : nat) : Prop :=
  (b < length log)%nat /\
  (forall j, (j < length log)%nat -> ~ fl_lt (nth b log Fnan) (nth j log Fnan)) /\
  (forall j, (j < b)%nat -> ~ fl_le (nth b log Fnan) (nth j log Fnan)).

(** The intended course of a run that starts in [x0]: every epoch trains on the
    training data and then evaluates on the evaluation data. *)
Section Course.
  Variables M C X S P : Type.
  Variable B : backend M C X S P.
  Variables dtrain deval : data.
  Variable x0 : X.

  (** Backend after [i] epochs. *)
  Fixpoint after (i : nat) : X :=
    match i with
    | O => x0
    | Datatypes.S j => snd (bk_evaluate B deval (snd (bk_train_epoch B dtrain (after j))))
    end.
  (** Training accuracy and predictions of epoch [i], and the score of these. *)
  Definition acc_of (i : nat) : fl := fst (bk_train_epoch B dtrain (after i)).
  Definition pred_of (i : nat) : P := fst (bk_evaluate B deval (snd (bk_train_epoch B dtrain (after i)))).
  Definition score_of (i : nat) : fl :=
    match bk_score B (d_y deval) (pred_of i) with Ok s => s | Raise _ => Fnan end.
End Course.
Arguments after {M C X S P}. Arguments acc_of {M C X S P}. Arguments pred_of {M C X S P}. Arguments score_of {M C X S P}.

(** Rows with their labels. *)
Definition examples (d : data) : list (list Z * list Z) := combine (x_rows (d_x d)) (y_rows (d_y d)).

(** [train] gets as far as running epochs on [dtrain], [deval], from [x0], with
    the machine object [m]. *)
Definition launched {M C X S P} (B : backend M C X S P) (t : trainer M S) (dtrain deval : data) (m : M) (x0 : X) : Prop :=
  t_train t = Some dtrain /\ t_eval t = Some deval /\
  exists cbs, bk_construct B (t_m t) (t_n_jobs t) (t_seed t) dtrain = (Ok cbs, m) /\
              bk_launch B m cbs (t_state t) (t_n_jobs t) (t_seed t) dtrain = Ok x0.

(** [r] reports the run of [n] epochs on [dtrain], [deval] from [x0]: logs as they
    happened; best score and epoch are the first best entry of the evaluation
    log, counting only scores above -1. *)
Definition reports {M C X S P} (B : backend M C X S P) (dtrain deval : data) (x0 : X) (n : nat) (r : results) : Prop :=
  r_n_epochs r = Some (Z.of_nat n) /\
  r_tlog r = map (acc_of B dtrain deval x0) (seq 0 n) /\
  r_elog r = map (score_of B dtrain deval x0) (seq 0 n) /\
  (forall i, (i < n)%nat -> exists s, bk_score B (d_y deval) (pred_of B dtrain deval x0 i) = Ok s) /\
  ((exists b, first_best (r_elog r) b /\ fl_lt (Fin (-1)) (nth b (r_elog r) Fnan) /\
              r_best_epoch r = Some (Z.of_nat b) /\ r_best r = nth b (r_elog r) Fnan) \/
   (Forall (fun s => ~ fl_lt (Fin (-1)) s) (r_elog r) /\ r_best_epoch r = Some (-1) /\ r_best r = Fin (-1))).

(** One fold of a k-fold run: the trainer before and after, and its results. *)
Record fold_run (M S : Type) := mkRun { fr_before : trainer M S; fr_after : trainer M S; fr_results : results }.
Arguments mkRun {M S}. Arguments fr_before {M S}. Arguments fr_after {M S}. Arguments fr_results {M S}.
Definition trained_on {M S} (u : fold_run M S) : list (list Z * list Z) :=
  match t_train (fr_before u) with Some d => examples d | None => [] end.
Definition validated_on {M S} (u : fold_run M S) : list (list Z * list Z) :=
  match t_eval (fr_before u) with Some d => examples d | None => [] end.

(** An ndarray with one label row per example. *)
Definition data_wf (d : data) : Prop :=
  exists n c ys, x_shape (d_x d) = [n; c] /\ y_shape (d_y d) = n :: ys /\
    length (x_rows (d_x d)) = n /\ length (y_rows (d_y d)) = n.
