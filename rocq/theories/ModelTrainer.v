(** Model of green_tsetlin/trainer.py and of the objective function of
    green_tsetlin/hpsearch.py.

    The native side (input block, clause blocks, executor) enters as section
    variables: what constructing, launching, training for one epoch, evaluating
    and copying the state out do.  ModelTrainerDense.v supplies the dense
    machine for them.  Not modelled: progress bars, timing, the aliasing of a
    caller's array when copy_training_data is off, and changes the callback
    makes to the trainer object. *)
From Coq Require Import ZArith List Bool QArith Lia.
From Verif Require Import Base ModelMachine.
Import ListNotations.
Open Scope Z_scope.

(** a <= b on floats; false whenever a NaN is involved. *)
Definition fl_leb (a b : fl) : bool :=
  match a, b with
  | Fnan, _ | _, Fnan => false
  | Fninf, _ => true
  | _, Fpinf => true
  | Fin p, Fin q => Qle_bool p q
  | _, _ => false
  end.

(** n_jobs in __init__ (trainer.py:84-92). *)
Definition resolve_n_jobs (cpus n_jobs : Z) : Z :=
  if n_jobs <? 0 then cpus + 1 + n_jobs
  else if n_jobs =? 0 then 1
  else n_jobs.

(** ** Data *)

(** What isinstance tells about x: np.ndarray, csr_matrix, or some other object
    with a shape, a dtype and a copy method (for instance a coo_matrix). *)
Inductive xkind := KArray | KCsr | KOther.
(** [x_rows] is the content, row by row: literals for an ndarray, column indices
    for a csr_matrix. *)
Record xarr := mkX { x_kind : xkind; x_shape : list nat; x_u8 : bool; x_rows : list (list Z) }.
(** Labels: one number per example, or one row of 0/1 per example; the content
    is a list of rows in both cases. *)
Record yarr := mkY { y_shape : list nat; y_u32 : bool; y_rows : list (list Z) }.
Record data := mkData { d_x : xarr; d_y : yarr }.

Definition is_array (x : xarr) : bool := match x_kind x with KArray => true | _ => false end.
Definition is_csr (x : xarr) : bool := match x_kind x with KCsr => true | _ => false end.

(** np.atleast_1d (144, 195). *)
Definition atleast_1d (y : yarr) : yarr :=
  match y_shape y with [] => mkY [1%nat] (y_u32 y) (y_rows y) | _ => y end.

(** The checks of set_train_data (134-159) and set_eval_data (186-210), which
    differ only in names.  [other] is the x of the opposite set, [None] if unset.
    x = None stands for an object without a shape attribute.  [sparse_cb] is
    tm._backend_clause_block_cls == _backend_impl["sparse_cb"]. *)
Definition check_data (nlit : nat) (sparse_cb : bool) (other : option xarr) (x : option xarr) (y : yarr)
  : res data :=
  let isx (f : xarr -> bool) := match x with Some v => f v | None => false end in
  let other_is (f : xarr -> bool) := match other with Some v => f v | None => false end in
  if other_is is_array && negb (isx is_array) then Raise ValueError
  else if negb (other_is is_array) && other_is is_csr && negb (isx is_csr) then Raise ValueError
  else if isx is_array && sparse_cb then Raise ValueError
  else
    let y := atleast_1d y in
    match x with
    | None => Raise AttributeError
    | Some x =>
        match x_shape x with
        | [] => Raise IndexError
        | rx :: cols =>
            match y_shape y with
            | [] => Raise IndexError
            | ry :: _ =>
                if negb (Nat.eqb rx ry) then Raise ValueError
                else if negb (x_u8 x) then Raise ValueError
                else if negb (y_u32 y) then Raise ValueError
                else match cols with
                     | [] => Raise IndexError
                     | c :: _ => if negb (Nat.eqb c nlit) then Raise ValueError else Ok (mkData x y)
                     end
            end
        end
    end.

(** Values python code can have in load_best_state: "if v" and "v is True" are
    both used. *)
Inductive pyb := PTrue | PTruthy | PFalsy.
Definition truthy (b : pyb) : bool := match b with PFalsy => false | _ => true end.
Definition is_true (b : pyb) : bool := match b with PTrue => true | _ => false end.

(** The results dictionary (358-366 and 430-434); keys that only one of the two
    has are optional.  Times are left out. *)
Record results := mkR {
  r_best : fl;                 (* best_eval_score *)
  r_best_epoch : option Z;     (* best_eval_epoch *)
  r_n_epochs : option Z;       (* n_epochs *)
  r_tlog : list fl;            (* train_log *)
  r_elog : list fl;            (* eval_log *)
  r_early : option bool;       (* did_early_exit *)
  r_k : option Z               (* k_folds *)
}.

(** The native side, and the functions the caller supplies.  [M]: the
    TsetlinMachine object without its state; [C]: constructed blocks; [X]: the
    running backend (blocks, feedback, executor); [S]: a state object; [P]:
    predictions. *)
Record backend (M C X S P : Type) := mkBk {
  bk_nlit : M -> nat;
  bk_sparse_cb : M -> bool;
  (** Lines 264-277: input block, feedback block, number of blocks, construction
      (n_jobs, seed, training data). *)
  bk_construct : M -> Z -> Z -> data -> res C * M;
  (** Lines 282-290: allocate, write the state if there is one, make the
      executor (machine, blocks, state, n_jobs, seed, training data). *)
  bk_launch : M -> C -> option S -> Z -> Z -> data -> res X;
  (** exec.train_epoch() / exec.eval_predict(y_hat) with the data currently in
      the input block. *)
  bk_train_epoch : data -> X -> fl * X;
  bk_evaluate : data -> X -> P * X;
  (** tm._load_state_from_backend(only_return_copy=True). *)
  bk_snap : M -> X -> S;
  (** fn_eval_score(self.y_eval, y_hat) and fn_epoch_callback(epoch, acc, score). *)
  bk_score : yarr -> P -> res fl;
  bk_callback : nat -> fl -> fl -> option exn;
  (** StratifiedKFold(n_splits, random_state, shuffle=True).split: scikit-learn
      assigns every example a test fold; fold i validates on the examples
      assigned i and trains on the others, in index order.  This gives the
      assignment (any one), or the exception it raises. *)
  bk_assign : Z -> Z -> data -> res (list nat)
}.
Arguments mkBk {M C X S P}.
Arguments bk_nlit {M C X S P}. Arguments bk_sparse_cb {M C X S P}. Arguments bk_construct {M C X S P}.
Arguments bk_launch {M C X S P}. Arguments bk_train_epoch {M C X S P}. Arguments bk_evaluate {M C X S P}.
Arguments bk_snap {M C X S P}. Arguments bk_score {M C X S P}. Arguments bk_callback {M C X S P}.
Arguments bk_assign {M C X S P}.

Section Trainer.
  Variables M C X S P : Type.
  Variable B : backend M C X S P.

  (** Attributes of Trainer. *)
  Record trainer := mkTr {
    t_n_jobs : Z; t_seed : Z; t_epochs : Z; t_early : fl; t_load : pyb; t_folds : Z;
    t_train : option data; t_eval : option data;
    t_best : option S;              (* _best_tm_state *)
    t_results : option results;
    t_m : M;
    t_state : option S              (* tm._state *)
  }.

  Definition with_train d (t : trainer) := mkTr (t_n_jobs t) (t_seed t) (t_epochs t) (t_early t) (t_load t) (t_folds t)
    d (t_eval t) (t_best t) (t_results t) (t_m t) (t_state t).
  Definition with_eval d (t : trainer) := mkTr (t_n_jobs t) (t_seed t) (t_epochs t) (t_early t) (t_load t) (t_folds t)
    (t_train t) d (t_best t) (t_results t) (t_m t) (t_state t).
  Definition with_m m (t : trainer) := mkTr (t_n_jobs t) (t_seed t) (t_epochs t) (t_early t) (t_load t) (t_folds t)
    (t_train t) (t_eval t) (t_best t) (t_results t) m (t_state t).
  Definition with_best b (t : trainer) := mkTr (t_n_jobs t) (t_seed t) (t_epochs t) (t_early t) (t_load t) (t_folds t)
    (t_train t) (t_eval t) b (t_results t) (t_m t) (t_state t).
  Definition with_state s (t : trainer) := mkTr (t_n_jobs t) (t_seed t) (t_epochs t) (t_early t) (t_load t) (t_folds t)
    (t_train t) (t_eval t) (t_best t) (t_results t) (t_m t) s.
  Definition with_results r (t : trainer) := mkTr (t_n_jobs t) (t_seed t) (t_epochs t) (t_early t) (t_load t) (t_folds t)
    (t_train t) (t_eval t) (t_best t) r (t_m t) (t_state t).

  (** __init__ (45-108). *)
  Definition new_trainer (cpus n_jobs seed epochs : Z) (early : fl) (load : pyb) (folds : Z) (m : M) (st : option S)
    : trainer :=
    mkTr (resolve_n_jobs cpus n_jobs) seed epochs early load folds None None None None m st.

  (** set_train_data (110-162), set_eval_data (165-213). *)
  Definition set_train_data (x : option xarr) (y : yarr) (t : trainer) : res unit * trainer :=
    match check_data (bk_nlit B (t_m t)) (bk_sparse_cb B (t_m t)) (option_map d_x (t_eval t)) x y with
    | Raise e => (Raise e, t)
    | Ok d => (Ok tt, with_train (Some d) t)
    end.
  Definition set_eval_data (x : option xarr) (y : yarr) (t : trainer) : res unit * trainer :=
    match check_data (bk_nlit B (t_m t)) (bk_sparse_cb B (t_m t)) (option_map d_x (t_train t)) x y with
    | Raise e => (Raise e, t)
    | Ok d => (Ok tt, with_eval (Some d) t)
    end.

  (** Local variables of the main loop (294-305) and _best_tm_state; [l_cur] is
      the data in the input block. *)
  Record loop := mkLoop {
    l_x : X; l_cur : data;
    l_bs : fl; l_be : Z; l_best : option S;
    l_tlog : list fl; l_elog : list fl; l_early : bool
  }.

  (** The main loop (311-350) from epoch number [epoch] on, [k] epochs left;
      the first component is the exception that ended it, if any. *)
  Fixpoint epochs (n_epochs : Z) (early : fl) (load : pyb) (m : M) (dtrain deval : data)
    (k epoch : nat) (l : loop) : option exn * loop :=
    match k with
    | O => (None, l)
    | Datatypes.S k' =>
        let '(acc, x) := bk_train_epoch B (l_cur l) (l_x l) in
        let tlog := l_tlog l ++ [acc] in
        let cur := deval in
        let '(p, x) := bk_evaluate B cur x in
        match bk_score B (d_y deval) p with
        | Raise e => (Some e, mkLoop x cur (l_bs l) (l_be l) (l_best l) tlog (l_elog l) (l_early l))
        | Ok sc =>
            let elog := l_elog l ++ [sc] in
            match bk_callback B epoch acc sc with
            | Some e => (Some e, mkLoop x cur (l_bs l) (l_be l) (l_best l) tlog elog (l_early l))
            | None =>
                let better := fl_ltb (l_bs l) sc in
                let bs := if better then sc else l_bs l in
                let be := if better then Z.of_nat epoch else l_be l in
                let best := if better && truthy load then Some (bk_snap B m x) else l_best l in
                if fl_leb early sc then (None, mkLoop x cur bs be best tlog elog true)
                else
                  let cur := if Z.of_nat epoch <? n_epochs - 1 then dtrain else cur in
                  epochs n_epochs early load m dtrain deval k' (Datatypes.S epoch)
                         (mkLoop x cur bs be best tlog elog (l_early l))
            end
        end
    end.

  (** _select_backend_ib (242-255): do the kinds allow training? *)
  Definition kinds_match (a b : option data) : bool :=
    match a, b with
    | Some a, Some b => (is_csr (d_x a) && is_csr (d_x b)) || (is_array (d_x a) && is_array (d_x b))
    | _, _ => false
    end.

  (** _train_inner (258-368). *)
  Definition train_inner (t : trainer) : res unit * trainer :=
    match t_train t, t_eval t with
    | Some dtrain, Some deval =>
        if negb (kinds_match (Some dtrain) (Some deval)) then (Raise ValueError, t)
        else
          let '(rc, m) := bk_construct B (t_m t) (t_n_jobs t) (t_seed t) dtrain in
          let t := with_m m t in
          match rc with
          | Raise e => (Raise e, t)
          | Ok cbs =>
              if t_epochs t <? 1 then (Ok tt, t)
              else
                match bk_launch B m cbs (t_state t) (t_n_jobs t) (t_seed t) dtrain with
                | Raise e => (Raise e, t)
                | Ok x0 =>
                    let '(e, l) := epochs (t_epochs t) (t_early t) (t_load t) m dtrain deval
                                     (Z.to_nat (t_epochs t)) 0
                                     (mkLoop x0 dtrain (Fin (-1)) (-1) (t_best t) [] [] false) in
                    let t := with_best (l_best l) t in
                    match e with
                    | Some e => (Raise e, t)
                    | None =>
                        let t := with_state (if is_true (t_load t) then t_best t else Some (bk_snap B m (l_x l))) t in
                        (Ok tt, with_results (Some (mkR (l_bs l) (Some (l_be l)) (Some (Z.of_nat (length (l_tlog l))))
                                                        (l_tlog l) (l_elog l) (Some (l_early l)) None)) t)
                    end
                end
          end
    | _, _ => (Raise ValueError, t)
    end.

  (** ** k-fold training (389-437) *)

  (** Index lists of fold [i] for an assignment of test folds. *)
  Definition fold_indices (i : nat) (folds : list nat) : list nat * list nat :=
    let idx := seq 0 (length folds) in
    (filter (fun j => negb (Nat.eqb (nth j folds O) i)) idx, filter (fun j => Nat.eqb (nth j folds O) i) idx).

  Definition take {A} (rows : list A) (idx : list nat) : list A :=
    flat_map (fun j => match nth_error rows j with Some r => [r] | None => [] end) idx.

  (** x[index], y[index] followed by np.ascontiguousarray (407-413). *)
  Definition pick (all : data) (idx : list nat) : xarr * yarr :=
    let xr := take (x_rows (d_x all)) idx in
    let yr := take (y_rows (d_y all)) idx in
    (mkX KArray (length idx :: tl (x_shape (d_x all))) true xr,
     mkY (length idx :: tl (y_shape (d_y all))) true yr).

  (** np.vstack / np.concatenate (391-392) for two ndarrays with the same number
      of columns.  Everything else ends in an exception (csr matrices become a
      2x1 object array, which split refuses). *)
  Definition stack (a b : data) : res data :=
    if is_array (d_x a) && is_array (d_x b) then
      match x_shape (d_x a), x_shape (d_x b), y_shape (d_y a), y_shape (d_y b) with
      | [ra; ca], [rb; cb], sa :: ta, sb :: tb =>
          if Nat.eqb ca cb then
            Ok (mkData (mkX KArray [(ra + rb)%nat; ca] true (x_rows (d_x a) ++ x_rows (d_x b)))
                       (mkY ((sa + sb)%nat :: ta) true (y_rows (d_y a) ++ y_rows (d_y b))))
          else Raise ValueError
      | _, _, _, _ => Raise ValueError
      end
    else Raise ValueError.

  Fixpoint fold_loop (all : data) (folds : list nat) (is : list nat) (best : fl) (tlog elog : list fl) (t : trainer)
    : res (fl * list fl * list fl) * trainer :=
    match is with
    | [] => (Ok (best, tlog, elog), t)
    | i :: is' =>
        let '(train_index, eval_index) := fold_indices i folds in
        let '(xt, yt) := pick all train_index in
        let '(xe, ye) := pick all eval_index in
        let '(r1, t) := set_train_data (Some xt) yt t in
        match r1 with
        | Raise e => (Raise e, t)
        | Ok _ =>
            let '(r2, t) := set_eval_data (Some xe) ye t in
            match r2 with
            | Raise e => (Raise e, t)
            | Ok _ =>
                let '(r3, t) := train_inner t in
                match r3 with
                | Raise e => (Raise e, t)
                | Ok _ =>
                    match t_results t with
                    | None => (Raise TypeError, t)          (* None["train_log"] *)
                    | Some r =>
                        fold_loop all folds is' (if fl_ltb best (r_best r) then r_best r else best)
                                  (tlog ++ r_tlog r) (elog ++ r_elog r) t
                    end
                end
            end
        end
    end.

  (** train (371-442): the returned value is self.results.  With folds and data
      missing some exception is raised; which one depends on what is missing
      (AttributeError for y_train or y_eval, ValueError from vstack). *)
  Definition train (t : trainer) : res (option results) * trainer :=
    if t_folds t >? 1 then
      match t_train t, t_eval t with
      | Some a, Some b =>
          match stack a b with
          | Raise e => (Raise e, t)
          | Ok all =>
              match bk_assign B (t_folds t) (t_seed t) all with
              | Raise e => (Raise e, t)
              | Ok folds =>
                  let '(r, t) := fold_loop all folds (seq 0 (Z.to_nat (t_folds t))) (Fin (-1)) [] [] t in
                  match r with
                  | Raise e => (Raise e, t)
                  | Ok (best, tlog, elog) =>
                      let t := with_results (Some (mkR best None None tlog elog None (Some (t_folds t)))) t in
                      (Ok (t_results t), t)
                  end
              end
          end
      | _, _ => (Raise AttributeError, t)
      end
    else
      let '(r, t) := train_inner t in
      match r with
      | Raise e => (Raise e, t)
      | Ok _ => (Ok (t_results t), t)
      end.

  (** ** Hyper-parameter search *)

  (** The part of HyperparameterSearch.objective that trains and scores a trial
      (hpsearch.py:237-255): a new Trainer with the default early_exit_acc and
      load_best_state, the data, train(), and the last entry of the evaluation
      log.  [m], [n_epochs] come from the search space. *)
  Definition objective (cpus n_jobs seed n_epochs folds : Z) (m : M) (x : option xarr) (y : yarr) (xe : option xarr) (ye : yarr)
    : res fl :=
    let t := new_trainer cpus n_jobs seed n_epochs (Fin 1) PTrue folds m None in
    let '(r1, t) := set_train_data x y t in
    match r1 with
    | Raise e => Raise e
    | Ok _ =>
        let '(r2, t) := set_eval_data xe ye t in
        match r2 with
        | Raise e => Raise e
        | Ok _ =>
            let '(r3, t) := train t in
            match r3 with
            | Raise e => Raise e
            | Ok _ =>
                match t_results t with
                | None => Raise TypeError
                | Some r => match rev (r_elog r) with [] => Raise IndexError | s :: _ => Ok s end
                end
            end
        end
    end.
End Trainer.

Arguments mkTr {M S}. Arguments t_n_jobs {M S}. Arguments t_seed {M S}. Arguments t_epochs {M S}.
Arguments t_early {M S}. Arguments t_load {M S}. Arguments t_folds {M S}. Arguments t_train {M S}.
Arguments t_eval {M S}. Arguments t_best {M S}. Arguments t_results {M S}. Arguments t_m {M S}. Arguments t_state {M S}.
Arguments with_train {M S}. Arguments with_eval {M S}. Arguments with_m {M S}. Arguments with_best {M S}.
Arguments with_state {M S}. Arguments with_results {M S}. Arguments new_trainer {M S}.
Arguments mkLoop {X S}. Arguments l_x {X S}. Arguments l_cur {X S}. Arguments l_bs {X S}. Arguments l_be {X S}.
Arguments l_best {X S}. Arguments l_tlog {X S}. Arguments l_elog {X S}. Arguments l_early {X S}.
Arguments set_train_data {M C X S P}. Arguments set_eval_data {M C X S P}. Arguments epochs {M C X S P}.
Arguments train_inner {M C X S P}. Arguments fold_loop {M C X S P}. Arguments train {M C X S P}.
Arguments objective {M C X S P}.
