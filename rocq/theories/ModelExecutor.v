(** Model of src/executor.hpp, generic in the kind of clause block
    (src/clause_block.hpp:65-84 gives the interface).  Both executors:
    SingleThreadExecutor as functions, MultiThreadExecutor as a transition
    system over the tasks handed to the thread pool. *)
From Coq Require Import ZArith List Bool QArith Lia.
From Verif Require Import Base ModelInference ModelFeedback.
Import ListNotations.
Open Scope Z_scope.

(** Integer draws for std::shuffle: an arbitrary stream with a position. *)
Record irng := mkIrng { ir_src : nat -> nat; ir_pos : nat }.
Definition next_int (bound : nat) (r : irng) : nat * irng :=
  (Nat.modulo (ir_src r (ir_pos r)) bound, mkIrng (ir_src r) (S (ir_pos r))).

Definition swap (i j : nat) (l : list nat) : list nat :=
  let a := nth i l O in
  let b := nth j l O in
  set_nth j a (set_nth i b l).

(** std::shuffle (executor.hpp:108): element i is swapped with a drawn position
    <= i, for i = 1 .. n-1. *)
Fixpoint shuffle_from (i k : nat) (l : list nat) (r : irng) : list nat * irng :=
  match k with
  | O => (l, r)
  | S k' => let '(j, r) := next_int (S i) r in
            shuffle_from (S i) k' (swap i j l) r
  end.
Definition shuffle (l : list nat) (r : irng) : list nat * irng :=
  shuffle_from 1 (pred (length l)) l r.

Section Executor.
  (** [B]: block state; [E]: what prepare_example makes available. *)
  Variables B E : Type.
  (** ClauseBlock::train_example (clause_block.hpp:65-70): new block state and
      the votes it registers. *)
  Variable train_ex : E -> B -> B * list Z.
  (** ClauseBlock::eval_example (clause_block.hpp:72-77). *)
  Variable eval_ex : E -> B -> B * list Z.
  (** ClauseBlock::train_update (clause_block.hpp:208-212). *)
  Variable update : E -> nat -> Q -> nat -> Q -> B -> B.
  (** FeedbackBlock::process for the label type [L] of the data. *)
  Variable L : Type.
  Variable process : L -> fblock -> fblock.

  (** Executor members (executor.hpp:237-252); every block carries its
      trainable flag. *)
  Record exec := mkExec {
    x_blocks : list (bool * B);
    x_fb : fblock;
    x_index : list nat;
    x_rng : irng
  }.

  (** Single-thread loop over the blocks (executor.hpp:118-128): train_example
      registers the votes at its end. *)
  Fixpoint run_examples (f : E -> B -> B * list Z) (e : E) (bs : list (bool * B)) (fb : fblock)
    : list (bool * B) * fblock :=
    match bs with
    | [] => ([], fb)
    | (t, b) :: bs' =>
        let '(b1, v) := f e b in
        let '(bs2, fb2) := run_examples f e bs' (fb_register v fb) in
        ((t, b1) :: bs2, fb2)
    end.

  (** Loop over the trainable blocks (executor.hpp:140-149). *)
  Definition run_updates (e : E) (fb : fblock) (bs : list (bool * B)) : list (bool * B) :=
    map (fun tb : bool * B =>
           let (t, b) := tb in
           if t then (t, update e (fb_pos fb) (fb_pp fb) (fb_neg fb) (fb_np fb) b) else (t, b)) bs.

  (** One example of train_slice (executor.hpp:111-153). *)
  Definition train_one (d : E * L) (bs : list (bool * B)) (fb : fblock) : list (bool * B) * fblock :=
    let '(bs, fb) := run_examples train_ex (fst d) bs (fb_reset fb) in
    let fb := process (snd d) fb in
    (run_updates (fst d) fb bs, fb).

  Fixpoint train_list (ds : list (E * L)) (bs : list (bool * B)) (fb : fblock) : list (bool * B) * fblock :=
    match ds with
    | [] => (bs, fb)
    | d :: ds' => let '(bs, fb) := train_one d bs fb in train_list ds' bs fb
    end.

  (** The examples selected by m_index_set (executor.hpp:114-116). *)
  Definition select (data : list (E * L)) (idx : list nat) : list (E * L) :=
    flat_map (fun i => match nth_error data i with Some d => [d] | None => [] end) idx.

  (** train_slice(start, end) (executor.hpp:99-154). *)
  Definition train_slice (data : list (E * L)) (start stop : nat) (x : exec) : exec :=
    let '(idx, r) :=
      if Nat.eqb start 0 then shuffle (seq 0 (length data)) (x_rng x) else (x_index x, x_rng x) in
    let '(bs, fb) := train_list (select data (firstn (stop - start) (skipn start idx)))
                                (x_blocks x) (x_fb x) in
    mkExec bs fb idx r.

  (** train_epoch (executor.hpp:89-97). *)
  Definition train_epoch (data : list (E * L)) (x : exec) : Q * exec :=
    let x := mkExec (x_blocks x) (fb_reset_counter (x_fb x)) (x_index x) (x_rng x) in
    let x := train_slice data 0 (length data) x in
    (fb_accuracy (x_fb x), x).

  (** One example of eval_predict (executor.hpp:171-192). *)
  Fixpoint eval_list (es : list E) (bs : list (bool * B)) (fb : fblock)
    : list nat * list (bool * B) * fblock :=
    match es with
    | [] => ([], bs, fb)
    | e :: es' =>
        let '(bs, fb) := run_examples eval_ex e bs (fb_reset fb) in
        let y := fb_predict fb in
        let '(ys, bs, fb) := eval_list es' bs fb in
        (y :: ys, bs, fb)
    end.

  (** eval_predict (executor.hpp:157-195): [out] is the caller's array. Returns
      the success flag and the new contents of the array. *)
  Definition eval_predict (data : list (E * L)) (out : list nat) (x : exec) : bool * list nat * exec :=
    if negb (Nat.eqb (length out) (length data)) then (false, out, x)
    else
      let '(ys, bs, fb) := eval_list (map fst data) (x_blocks x) (x_fb x) in
      (true, ys, mkExec bs fb (x_index x) (x_rng x)).

  (** ** MultiThreadExecutor

      push_task hands one task per block to the pool; wait_for_tasks is a
      barrier.  A task works on its own block (private) and then calls
      register_votes, which is atomic under m_votes_lock.  Any interleaving of
      the tasks of all blocks is allowed, whatever the number of threads. *)
  Inductive task :=
  | Todo (t : bool) (b : B)                     (* queued *)
  | Counted (t : bool) (b : B) (v : list Z)     (* block work done, votes not yet registered *)
  | Done (t : bool) (b : B).

  (** One atomic step of the pool during the example phase (executor.hpp:118-131,
      176-189). *)
  Inductive phase_step (f : E -> B -> B * list Z) (e : E) : list task * fblock -> list task * fblock -> Prop :=
  | PCompute : forall pre t b post fb,
      phase_step f e (pre ++ Todo t b :: post, fb)
                     (pre ++ Counted t (fst (f e b)) (snd (f e b)) :: post, fb)
  | PRegister : forall pre t b v post fb,
      phase_step f e (pre ++ Counted t b v :: post, fb)
                     (pre ++ Done t b :: post, fb_register v fb).

  Inductive phase_steps (f : E -> B -> B * list Z) (e : E) : list task * fblock -> list task * fblock -> Prop :=
  | PNil : forall s, phase_steps f e s s
  | PCons : forall s1 s2 s3, phase_step f e s1 s2 -> phase_steps f e s2 s3 -> phase_steps f e s1 s3.

  Definition queued (bs : list (bool * B)) : list task := map (fun tb : bool * B => Todo (fst tb) (snd tb)) bs.
  Definition finished (bs : list (bool * B)) : list task := map (fun tb : bool * B => Done (fst tb) (snd tb)) bs.

  (** The update phase (executor.hpp:140-152): tasks of trainable blocks, each
      touching only its own block, in any order. *)
  Inductive upd_step (e : E) (fb : fblock) : list task -> list task -> Prop :=
  | UUpdate : forall pre b post,
      upd_step e fb (pre ++ Todo true b :: post)
                    (pre ++ Done true (update e (fb_pos fb) (fb_pp fb) (fb_neg fb) (fb_np fb) b) :: post).
  Inductive upd_steps (e : E) (fb : fblock) : list task -> list task -> Prop :=
  | UNil : forall s, upd_steps e fb s s
  | UCons : forall s1 s2 s3, upd_step e fb s1 s2 -> upd_steps e fb s2 s3 -> upd_steps e fb s1 s3.

  (** Update tasks are queued for trainable blocks only. *)
  Definition upd_queued (bs : list (bool * B)) : list task :=
    map (fun tb : bool * B => if fst tb then Todo true (snd tb) else Done false (snd tb)) bs.

  (** One training example on the pool: example phase, barrier, process, update
      phase, barrier. *)
  Inductive mt_train_one (d : E * L) : list (bool * B) * fblock -> list (bool * B) * fblock -> Prop :=
  | MTOne : forall bs fb bs1 fb1 bs2,
      phase_steps train_ex (fst d) (queued bs, fb_reset fb) (finished bs1, fb1) ->
      upd_steps (fst d) (process (snd d) fb1) (upd_queued bs1) (finished bs2) ->
      mt_train_one d (bs, fb) (bs2, process (snd d) fb1).

  Inductive mt_train_list : list (E * L) -> list (bool * B) * fblock -> list (bool * B) * fblock -> Prop :=
  | MTNil : forall s, mt_train_list [] s s
  | MTCons : forall d ds s1 s2 s3, mt_train_one d s1 s2 -> mt_train_list ds s2 s3 -> mt_train_list (d :: ds) s1 s3.

  (** train_epoch on the pool. *)
  Inductive mt_train_epoch (data : list (E * L)) (x : exec) : Q * exec -> Prop :=
  | MTEpoch : forall bs fb idx r,
      shuffle (seq 0 (length data)) (x_rng x) = (idx, r) ->
      mt_train_list (select data (firstn (length data) idx))
                    (x_blocks x, fb_reset_counter (x_fb x)) (bs, fb) ->
      mt_train_epoch data x (fb_accuracy fb, mkExec bs fb idx r).

  (** eval_predict on the pool, one example after the other. *)
  Inductive mt_eval_list : list E -> list (bool * B) * fblock -> list nat * list (bool * B) * fblock -> Prop :=
  | MENil : forall bs fb, mt_eval_list [] (bs, fb) ([], bs, fb)
  | MECons : forall e es bs fb bs1 fb1 ys bs2 fb2,
      phase_steps eval_ex e (queued bs, fb_reset fb) (finished bs1, fb1) ->
      mt_eval_list es (bs1, fb1) (ys, bs2, fb2) ->
      mt_eval_list (e :: es) (bs, fb) (fb_predict fb1 :: ys, bs2, fb2).
End Executor.

Arguments mkExec {B}. Arguments x_blocks {B}. Arguments x_fb {B}. Arguments x_index {B}. Arguments x_rng {B}.
