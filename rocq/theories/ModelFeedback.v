(** Model of src/feedback_block.hpp: FeedbackBlock, FeedbackBlockUniform and
    FeedbackBlockMultiLabel. *)
From Coq Require Import ZArith List Bool QArith Lia.
From Verif Require Import Base ModelInference.
Import ListNotations.
Open Scope Z_scope.

(** Members of FeedbackBlock (src/feedback_block.hpp:210-231).  Probabilities
    are exact rationals (the code uses double); counters are the integers held
    in doubles.  [fb_votes] has [fb_ncls] entries (twice as many in the
    multi-label block). *)
Record fblock := mkFb {
  fb_ncls : nat;            (* m_num_classes *)
  fb_thr : Q;               (* m_threshold *)
  fb_votes : list Z;        (* m_votes, int16 *)
  fb_probs : list Q;        (* m_update_probability *)
  fb_pos : nat;             (* m_positive_class *)
  fb_neg : nat;             (* m_negative_class *)
  fb_pp : Q;                (* m_update_prob_positive *)
  fb_np : Q;                (* m_update_prob_negative *)
  fb_correct : Z;           (* m_correct_train_predict *)
  fb_total : Z;             (* m_total_train_predict *)
  fb_rng : rng              (* m_rng behind std::generate_canonical *)
}.

(** reset (199-203). *)
Definition fb_reset (f : fblock) : fblock :=
  mkFb (fb_ncls f) (fb_thr f) (repeat 0 (length (fb_votes f))) (fb_probs f) (fb_pos f) (fb_neg f)
       (fb_pp f) (fb_np f) (fb_correct f) (fb_total f) (fb_rng f).

(** reset_train_predict_counter (58-62). *)
Definition fb_reset_counter (f : fblock) : fblock :=
  mkFb (fb_ncls f) (fb_thr f) (fb_votes f) (fb_probs f) (fb_pos f) (fb_neg f)
       (fb_pp f) (fb_np f) 0 0 (fb_rng f).

(** get_train_accuracy (64-70). *)
Definition fb_accuracy (f : fblock) : Q :=
  if fb_total f >? 0 then (inject_Z (fb_correct f) / inject_Z (fb_total f))%Q else 0%Q.

(** register_votes (181-191): the loop runs over m_num_classes entries only;
    int16 addition. *)
Definition add_votes (n : nat) (votes v : list Z) : list Z :=
  map2 (fun a b => wrap16 (a + b)) (firstn n votes) v ++ skipn n votes.

Definition fb_register (v : list Z) (f : fblock) : fblock :=
  mkFb (fb_ncls f) (fb_thr f) (add_votes (fb_ncls f) (fb_votes f) v) (fb_probs f) (fb_pos f) (fb_neg f)
       (fb_pp f) (fb_np f) (fb_correct f) (fb_total f) (fb_rng f).

(** std::clamp(static_cast<double>(v), -T, T) (93, 114). *)
Definition clampQ (v T : Q) : Q :=
  if Qlt_bool v (- T) then (- T)%Q else if Qlt_bool T v then T else v.

Definition eps : Q := 1 # 10000000000000000.

(** (T + clamp(v)) / (2T) + 1e-16 (94). *)
Definition neg_prob (T : Q) (v : Z) : Q :=
  ((T + clampQ (inject_Z v) T) / (2 * T) + eps)%Q.

(** (T - clamp(v)) / (2T) (114-115). *)
Definition pos_prob (T : Q) (v : Z) : Q :=
  ((T - clampQ (inject_Z v) T) / (2 * T))%Q.

(** std::discrete_distribution<int> (108-109), libstdc++ algorithm: with fewer
    than two weights the result is 0 and nothing is drawn; otherwise the first
    index whose normalised cumulative weight is >= u, the last cumulative
    weight being replaced by 1. *)
Fixpoint pick_loop (sum acc u : Q) (i : nat) (ps : list Q) : nat :=
  match ps with
  | [] => i
  | [_] => i
  | p :: t =>
      let acc' := (acc + p / sum)%Q in
      if Qle_bool u acc' then i else pick_loop sum acc' u (S i) t
  end.

Fixpoint qsum (l : list Q) : Q :=
  match l with [] => 0%Q | h :: t => (h + qsum t)%Q end.

Definition sample_discrete (ps : list Q) (r : rng) : nat * rng :=
  if (length ps <? 2)%nat then (O, r)
  else let '(u, r) := next_u r in (pick_loop (qsum ps) 0 u 0 ps, r).

(** Vote loop of process (80-91): strict improvement over votes[0]. *)
Definition predicted_class (votes : list Z) : nat :=
  argmax_loop 0 0 (hd 0 votes) votes.

(** FeedbackBlock::process (72-123). *)
Definition fb_process (label : nat) (f : fblock) : fblock :=
  let votes := firstn (fb_ncls f) (fb_votes f) in
  let probs := map (neg_prob (fb_thr f)) votes in
  let predicted := predicted_class votes in
  let correct := if Nat.eqb predicted label then fb_correct f + 1 else fb_correct f in
  let probs := set_nth label 0%Q probs in
  let '(neg, r) := sample_discrete probs (fb_rng f) in
  mkFb (fb_ncls f) (fb_thr f) (fb_votes f) probs label neg
       (pos_prob (fb_thr f) (nth label (fb_votes f) 0)) (nth neg probs 0%Q)
       correct (fb_total f + 1) r.

(** FeedbackBlock::predict (125-141). *)
Definition fb_predict (f : fblock) : nat := argmax (firstn (fb_ncls f) (fb_votes f)).

(** ** Uniform feedback (308-357) *)

(** uniform_int_distribution(0, n-1): the draw scaled to [0, n). *)
Definition draw_class (n : nat) (r : rng) : nat * rng :=
  let '(u, r) := next_u r in
  (Z.to_nat (Z.min (Z.of_nat n - 1) (Z.max 0 (Qnum u * Z.of_nat n / Zpos (Qden u)))), r).

(** "do { draw } while(neg == pos)" (324-326, 254-256); [fuel] bounds the number
    of draws, None = still looping. *)
Fixpoint draw_other (fuel n pos : nat) (r : rng) : option (nat * rng) :=
  match fuel with
  | O => None
  | S k => let '(c, r) := draw_class n r in
           if Nat.eqb c pos then draw_other k n pos r else Some (c, r)
  end.

(** FeedbackBlockUniform::process (315-356). *)
Definition fbu_process (fuel : nat) (label : nat) (f : fblock) : option fblock :=
  match draw_other fuel (fb_ncls f) label (fb_rng f) with
  | None => None
  | Some (neg, r) =>
      let votes := firstn (fb_ncls f) (fb_votes f) in
      let predicted := argmax votes in
      let correct := if Nat.eqb predicted label then fb_correct f + 1 else fb_correct f in
      Some (mkFb (fb_ncls f) (fb_thr f) (fb_votes f) (fb_probs f) label neg
              (pos_prob (fb_thr f) (nth label (fb_votes f) 0))
              (neg_prob (fb_thr f) (nth neg (fb_votes f) 0))
              correct (fb_total f + 1) r)
  end.

(** ** Multi-label feedback (234-305) *)

(** Accuracy loop (275-289): one count per class; [on] are the votes of the
    first half, [off] of the second. *)
Fixpoint ml_correct (labels on off : list Z) : Z :=
  match labels, on, off with
  | l :: ls, a :: onr, b :: offr =>
      (if l =? 1 then (if a >=? b then 1 else 0) else (if a <? b then 1 else 0))
      + ml_correct ls onr offr
  | _, _, _ => 0
  end.

(** FeedbackBlockMultiLabel::process (247-291): the labels are one 0/1 entry per
    class; the first draw is the positive class, the second loops until it
    differs. *)
Definition fbm_process (fuel : nat) (labels : list Z) (f : fblock) : option fblock :=
  let n := fb_ncls f in
  let '(p0, r) := draw_class n (fb_rng f) in
  match draw_other fuel n p0 r with
  | None => None
  | Some (q0, r) =>
      let p := if nth p0 labels 0 =? 0 then (p0 + n)%nat else p0 in
      let q := if nth q0 labels 0 =? 1 then (q0 + n)%nat else q0 in
      let votes := fb_votes f in
      Some (mkFb n (fb_thr f) votes (fb_probs f) p q
              (pos_prob (fb_thr f) (nth p votes 0))
              ((fb_thr f + clampQ (inject_Z (nth q votes 0%Z)) (fb_thr f)) / (2 * fb_thr f))%Q
              (fb_correct f + ml_correct labels (firstn n votes) (skipn n votes))
              (fb_total f + Z.of_nat n) r)
  end.

(** Constructors (22-33, 237-244). *)
Definition new_fblock (ncls : nat) (thr : Q) (r : rng) : fblock :=
  mkFb ncls thr (repeat 0 ncls) (repeat 0%Q ncls) 0 0 0%Q 0%Q 0 0 r.
Definition new_fblock_multi (ncls : nat) (thr : Q) (r : rng) : fblock :=
  mkFb ncls thr (repeat 0 (ncls * 2)) (repeat 0%Q ncls) 0 0 0%Q 0%Q 0 0 r.
