(** Model of green_tsetlin/hpsearch.py: HyperparameterSearch with its search
    spaces, one trial (objective) and the search loop (optimize).

    Optuna is not modelled; what the code relies on is: suggest_int and
    suggest_float answer with a point low + k*step <= high of the range and raise
    ValueError for an empty range or a step that is not positive; telling a NaN
    marks a trial as failed; best_trials are the completed trials that no
    completed trial dominates.  Which points Optuna picks, from what it was told so
    far, is arbitrary.  Floats of the s space are exact.  Not modelled: progress
    bar, storage, a study loaded from storage with other ranges. *)
From Coq Require Import ZArith List Bool QArith Qround Lia.
From Verif Require Import Base ModelMachine ModelTrainer.
Import ListNotations.
Open Scope Z_scope.

(** What the user passes as a space: a float, an int, None or a tuple. *)
Inductive space (E : Type) := VFloat (f : fl) | VInt (z : Z) | VNone | VTup (l : list E).
Arguments VFloat {E}. Arguments VInt {E}. Arguments VNone {E}. Arguments VTup {E}.

(** trial.suggest_int(name, low, high, step=step), trial.suggest_float(...). *)
Definition suggest_int (low high step answer : Z) : res Z :=
  if (step <? 1) || (high <? low) then Raise ValueError
  else Ok (low + step * (answer mod ((high - low) / step + 1))).
Definition suggest_float (low high step : Q) (answer : Z) : res Q :=
  if Qle_bool step 0 || negb (Qle_bool low high) then Raise ValueError
  else Ok (low + step * inject_Z (answer mod (Qfloor ((high - low) / step) + 1)))%Q.

(** s (hpsearch.py:169-178): only a float is used as it is; anything that is not a
    tuple then fails to be indexed. *)
Definition choose_s (sp : space Q) (answer : Z) : res sarg :=
  match sp with
  | VFloat f => Ok (SFloat f)
  | VInt _ | VNone => Raise TypeError
  | VTup (low :: high :: rest) =>
      match suggest_float low high (match rest with [step] => step | _ => 1 # 10 end) answer with
      | Ok q => Ok (SFloat (Fin q))
      | Raise e => Raise e
      end
  | VTup _ => Raise IndexError
  end.
(** n_clauses, threshold, literal_budget, max_epoch_per_trial (180-222). *)
Definition choose_int (sp : space Z) (answer : Z) : res Z :=
  match sp with
  | VInt z => Ok z
  | VFloat _ | VNone => Raise TypeError
  | VTup (low :: high :: rest) => suggest_int low high (match rest with [step] => step | _ => 1 end) answer
  | VTup _ => Raise IndexError
  end.

(** The attributes (110-119, 122-145).  [h_train], [h_eval]: None = the set method
    was never called; the x inside is None if None was passed. *)
Record search := mkSearch {
  h_s : space Q; h_clauses : space Z; h_threshold : space Z; h_epochs : space Z; h_budget : space Z;
  h_boost : bool * bool; h_minimize : bool; h_seed : Z; h_jobs : Z; h_folds : Z;
  h_train : option (option xarr * yarr); h_eval : option (option xarr * yarr)
}.

(** The answers of Optuna to the six possible questions of a trial. *)
Record answers := mkAns { an_s : Z; an_clauses : Z; an_threshold : Z; an_budget : Z; an_epochs : Z; an_boost : Z }.

(** _check_data (148-154): the attributes do not exist before they are set. *)
Definition check_set (h : search) : res (xarr * yarr * (xarr * yarr)) :=
  match h_eval h with
  | None => Raise AttributeError
  | Some (None, _) => Raise ValueError
  | Some (Some xe, ye) =>
      match h_train h with
      | None => Raise AttributeError
      | Some (None, _) => Raise ValueError
      | Some (Some xt, yt) => Ok (xt, yt, (xe, ye))
      end
  end.

Definition bind_res {A B} (r : res A) (f : A -> res B) : res B := match r with Ok a => f a | Raise e => Raise e end.

(** len(np.unique(y)): of all entries. *)
Definition n_unique (y : yarr) : nat := length (nodup Z.eq_dec (concat (y_rows y))).

(** boost_true_positives (224-227). *)
Definition choose_boost (b : bool * bool) (answer : Z) : res bool :=
  if fst b then bind_res (suggest_int 0 1 1 answer) (fun v => Ok (v =? 1)) else Ok (snd b).

(** The machine and the number of epochs of a trial (169-235). *)
Definition trial_setup (h : search) (a : answers) (xt : xarr) (yt : yarr) : res (tm * Z) :=
  bind_res (choose_s (h_s h) (an_s a)) (fun s =>
  bind_res (choose_int (h_clauses h) (an_clauses a)) (fun clauses =>
  bind_res (choose_int (h_threshold h) (an_threshold a)) (fun threshold =>
  bind_res (choose_int (h_budget h) (an_budget a)) (fun budget =>
  bind_res (choose_int (h_epochs h) (an_epochs a)) (fun n_epochs =>
  bind_res (choose_boost (h_boost h) (an_boost a)) (fun boost =>
  bind_res (match x_shape xt with _ :: c :: _ => Ok c | _ => Raise IndexError end) (fun nlit =>
  bind_res (tm_init nlit clauses (n_unique yt) s threshold (Some budget) boost false) (fun m =>
  Ok (m, n_epochs))))))))).

Section Search.
  Variables C X S P : Type.
  Variable B : backend tm C X S P.
  Variable cpus : Z.

  (** objective (157-255): the score and, with minimize_literal_budget, the literal
      budget. *)
  Definition trial_value (h : search) (a : answers) : res (fl * option Z) :=
    bind_res (check_set h) (fun d =>
    let '(xt, yt, (xe, ye)) := d in
    bind_res (trial_setup h a xt yt) (fun mn =>
    bind_res (objective B cpus (h_jobs h) (h_seed h) (snd mn) (h_folds h) (fst mn) (Some xt) yt (Some xe) ye) (fun score =>
    if h_minimize h then
      match tm_budgets (fst mn) with [] => Raise IndexError | b :: _ => Ok (score, b) end
    else Ok (score, None)))).

  (** A trial that was told. *)
  Record told := mkTold { td_answers : answers; td_value : fl * option Z }.
  Definition complete (t : told) : bool := match fst (td_value t) with Fnan => false | _ => true end.

  (** [a] is at least as good as [b] in both directions (maximize, minimize) and
      better in one. *)
  Definition dominates (a b : told) : bool :=
    let sa := fst (td_value a) in let sb := fst (td_value b) in
    match snd (td_value a), snd (td_value b) with
    | Some ba, Some bb => fl_leb sb sa && (ba <=? bb) && (fl_ltb sb sa || (ba <? bb))
    | _, _ => fl_ltb sb sa
    end.
  (** study.best_trials. *)
  Definition best_trials (l : list told) : list told :=
    let c := filter complete l in filter (fun t => negb (existsb (fun u => dominates u t) c)) c.

  (** optimize (258-293).  [ask] is Optuna: it answers from what was told.  The
      result is best_trials; the second component what was told by then.  The
      progress text takes best_trials[0] after every trial (288). *)
  Fixpoint optimize_loop (ask : list told -> answers) (h : search) (n : nat) (l : list told)
    : res (list told) * list told :=
    match n with
    | O => (Ok (best_trials l), l)
    | Datatypes.S n' =>
        let a := ask l in
        match trial_value h a with
        | Raise e => (Raise e, l)
        | Ok v =>
            let l := l ++ [mkTold a v] in
            match best_trials l with
            | [] => (Raise IndexError, l)
            | _ => optimize_loop ask h n' l
            end
        end
    end.
  Definition optimize (ask : list told -> answers) (h : search) (n_trials : Z) : res (list told) * list told :=
    optimize_loop ask h (Z.to_nat n_trials) [].
End Search.

Arguments trial_value {C X S P}. Arguments optimize_loop {C X S P}. Arguments optimize {C X S P}.
