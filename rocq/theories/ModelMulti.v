(** Model of multi-label training: the executor of src/executor.hpp driving
    FeedbackBlockMultiLabel (src/feedback_block.hpp:234-305), with the label
    array of src/input_block.hpp and the calls of green_tsetlin/trainer.py.
    Simplifications: blocks are run one after the other (C21 shows the order
    does not matter for registered votes); the allocation and state transfer
    around the loop are those of the other Trainer models. *)
From Coq Require Import ZArith List Bool QArith Lia.
From Verif Require Import Base ModelInference ModelFeedback ModelExecutor.
Import ListNotations.
Open Scope Z_scope.

(** Outcome of C++ code that may loop or read outside the label array: [Spin],
    still inside "while(neg == pos)" (feedback_block.hpp:255-256) after the
    given number of draws; [Wild], read past the end. *)
Inductive mres (A : Type) := Val (a : A) | Spin | Wild.
Arguments Val {A} a.
Arguments Spin {A}.
Arguments Wild {A}.

(** labels[k] with labels = &m_labels[base] (input_block.hpp:86, 96-99). *)
Definition lab (mem : list Z) (base k : nat) : option Z := nth_error mem (base + k).

(** The accuracy loop reads labels[0..n-1] (feedback_block.hpp:275-289). *)
Fixpoint labs (mem : list Z) (base k n : nat) : option (list Z) :=
  match n with
  | O => Some []
  | S n' => match lab mem base k, labs mem base (S k) n' with
            | Some l, Some ls => Some (l :: ls)
            | _, _ => None
            end
  end.

(** FeedbackBlockMultiLabel::process (feedback_block.hpp:247-291) reading its
    labels from memory. *)
Definition mlp_process (fuel : nat) (mem : list Z) (base : nat) (f : fblock) : mres fblock :=
  let n := fb_ncls f in
  let '(p0, r) := draw_class n (fb_rng f) in
  match draw_other fuel n p0 r with
  | None => Spin
  | Some (q0, r) =>
      match lab mem base p0, lab mem base q0, labs mem base 0 n with
      | Some lp, Some lq, Some ls =>
          let p := if lp =? 0 then (p0 + n)%nat else p0 in
          let q := if lq =? 1 then (q0 + n)%nat else q0 in
          let votes := fb_votes f in
          Val (mkFb n (fb_thr f) votes (fb_probs f) p q
                 (pos_prob (fb_thr f) (nth p votes 0))
                 ((fb_thr f + clampQ (inject_Z (nth q votes 0%Z)) (fb_thr f)) / (2 * fb_thr f))%Q
                 (fb_correct f + ml_correct ls (firstn n votes) (skipn n votes))
                 (fb_total f + Z.of_nat n) r)
      | _, _, _ => Wild
      end
  end.

(** The checks of the Executor constructor on the label width
    (executor.hpp:55-68); is_multi_label() is "labels per example > 1"
    (input_block.hpp:30-33). *)
Definition exec_labels_ok (nlab fb_classes : nat) (cb_classes : list nat) : bool :=
  if (1 <? nlab)%nat
  then Nat.eqb nlab fb_classes && forallb (fun c => Nat.eqb c (nlab * 2)) cb_classes
  else true.

(** Result of Trainer.train on a multi-label machine. *)
Inductive fit :=
| FitReturned                 (* train() returned to its caller *)
| FitRaised (e : exn)
| FitSpins                    (* inside the redraw loop after [fuel] draws *)
| FitWild                     (* read outside the label array *)
| FitExits (code : Z).        (* exit(code): the process is gone *)

Section Multi.
  Variables B E : Type.
  Variable train_ex : E -> B -> B * list Z.
  Variable update : E -> nat -> Q -> nat -> Q -> B -> B.

  (** One example of train_slice (executor.hpp:111-153): [exs] the prepared
      examples, [mem] the label array with [nlab] entries per example. *)
  Definition ml_one (fuel : nat) (exs : list E) (mem : list Z) (nlab i : nat)
    (bs : list (bool * B)) (fb : fblock) : mres (list (bool * B) * fblock) :=
    match nth_error exs i with
    | None => Wild
    | Some e =>
        let '(bs, fb) := run_examples B E train_ex e bs (fb_reset fb) in
        match mlp_process fuel mem (i * nlab) fb with
        | Val fb => Val (run_updates B E update e fb bs, fb)
        | Spin => Spin
        | Wild => Wild
        end
    end.

  Fixpoint ml_list (fuel : nat) (exs : list E) (mem : list Z) (nlab : nat) (idx : list nat)
    (bs : list (bool * B)) (fb : fblock) : mres (list (bool * B) * fblock) :=
    match idx with
    | [] => Val (bs, fb)
    | i :: idx' =>
        match ml_one fuel exs mem nlab i bs fb with
        | Val (bs, fb) => ml_list fuel exs mem nlab idx' bs fb
        | Spin => Spin
        | Wild => Wild
        end
    end.

  (** train_epoch (executor.hpp:89-97, 99-154). *)
  Definition ml_epoch (fuel : nat) (exs : list E) (mem : list Z) (nlab : nat) (x : exec B)
    : mres (Q * exec B) :=
    let '(idx, r) := shuffle (seq 0 (length exs)) (x_rng x) in
    match ml_list fuel exs mem nlab idx (x_blocks x) (fb_reset_counter (x_fb x)) with
    | Val (bs, fb) => Val (fb_accuracy fb, mkExec bs fb idx r)
    | Spin => Spin
    | Wild => Wild
    end.

  (** eval_predict_multi (executor.hpp:198-201): prints and calls exit(1) before
      it looks at its argument. *)
  Definition ml_eval_predict : Z := 1.

  (** The epoch loop of _train_inner for a multi-label machine
      (trainer.py:297-325): train_epoch, then set_data on the evaluation data,
      then eval_predict_multi; nothing after it is reached. *)
  Definition ml_loop (fuel n_epochs : nat) (exs : list E) (mem : list Z) (nlab : nat) (x : exec B) : fit :=
    match n_epochs with
    | O => FitReturned
    | S _ => match ml_epoch fuel exs mem nlab x with
             | Val _ => FitExits ml_eval_predict
             | Spin => FitSpins
             | Wild => FitWild
             end
    end.

  (** _train_inner (trainer.py:260-325) with feedback_type
      "focused_negative_sampling".  [classes] is tm.n_classes, twice the number
      of labels of the user (tsetlin_machine.py:116-118); the feedback block gets
      n_classes // 2 (trainer.py:216-223), every clause block n_classes
      (tsetlin_machine.py:262-266). *)
  Definition ml_fit (fuel n_epochs classes : nat) (thr : Q) (exs : list E) (mem : list Z) (nlab : nat)
    (bs : list (bool * B)) (r : rng) (ir : irng) : fit :=
    let fb := new_fblock_multi (Nat.div classes 2) thr r in
    if (n_epochs <? 1)%nat then FitReturned
    else if negb (exec_labels_ok nlab (fb_ncls fb) (map (fun _ => classes) bs))
    then FitRaised RuntimeError
    else ml_loop fuel n_epochs exs mem nlab (mkExec bs fb [] ir).
End Multi.
