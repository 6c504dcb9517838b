(** MultiThreadExecutor (src/executor.hpp with BS::thread_pool) on the pool of
    ModelPool.v: the tasks it pushes, action by action, and the calls it makes. *)
From Coq Require Import ZArith List Bool QArith.
From Verif Require Import Base ModelInference ModelFeedback ModelExecutor ModelPool.
Import ListNotations.
Open Scope Z_scope.

(** What a call of the executor answers: train_epoch an accuracy, eval_predict a
    class per example. *)
Inductive answer := Acc (q : Q) | Cls (c : nat).

Section PoolExec.
  (** As in ModelExecutor.v: block state, prepared example, the block's
      train_example, eval_example and train_update, labels and process. *)
  Variables B E : Type.
  Variable train_ex eval_ex : E -> B -> B * list Z.
  Variable update : E -> nat -> Q -> nat -> Q -> B -> B.
  Variable L : Type.
  Variable process : L -> fblock -> fblock.
  (** m_num_classes of the feedback block (feedback_block.hpp:211), set by the
      constructor only. *)
  Variable ncls : nat.

  (** What the threads share: the clause blocks with their trainable flag, the
      feedback block, its mutex m_votes_lock (feedback_block.hpp:231), the example
      the input block has prepared, the answers given so far. *)
  Record xmem := mkMem {
    m_blocks : list (bool * B);
    m_fb : fblock;
    m_lock : bool;
    m_cur : E;
    m_log : list answer
  }.

  (** A task and how far it is.
      [KEx]: ClauseBlock::train_example or eval_example of block [k] (clause_block.hpp:65-77),
      whose work on its own block ends in register_votes (feedback_block.hpp:181-191):
      [KLock] takes m_votes_lock, [KLoad] and [KStore] are the two memory accesses
      of m_votes[i] += votes[i]; [v] are the votes of block [k].
      [KUp]: ClauseBlock::train_update with the arguments bound at the push
      (executor.hpp:135-146). *)
  Inductive ktask :=
  | KEx (ev : bool) (k : nat)
  | KLock (k : nat) (v : list Z)
  | KLoad (k : nat) (v : list Z) (i : nat)
  | KStore (k : nat) (v : list Z) (i : nat) (x : Z)
  | KUp (k p : nat) (pp : Q) (n : nat) (np : Q).

  Definition with_blocks (bs : list (bool * B)) (m : xmem) : xmem := mkMem bs (m_fb m) (m_lock m) (m_cur m) (m_log m).
  Definition with_fb (f : fblock) (m : xmem) : xmem := mkMem (m_blocks m) f (m_lock m) (m_cur m) (m_log m).
  Definition with_lock (b : bool) (m : xmem) : xmem := mkMem (m_blocks m) (m_fb m) b (m_cur m) (m_log m).

  (** Writing one vote. *)
  Definition set_vote (i : nat) (x : Z) (f : fblock) : fblock :=
    mkFb (fb_ncls f) (fb_thr f) (set_nth i x (fb_votes f)) (fb_probs f) (fb_pos f) (fb_neg f)
         (fb_pp f) (fb_np f) (fb_correct f) (fb_total f) (fb_rng f).

  (** One atomic action.  The work of a block on itself is one action: nothing
      else touches the block while its task is queued or running, and the input
      block does not change before the next wait_for_tasks has returned. *)
  Definition act (t : ktask) (m : xmem) : tres xmem ktask :=
    match t with
    | KEx ev k =>
        match nth_error (m_blocks m) k with
        | Some (tr, b) =>
            let '(b1, v) := (if ev then eval_ex else train_ex) (m_cur m) b in
            Next (KLock k v) (with_blocks (set_nth k (tr, b1) (m_blocks m)) m)
        | None => Finished m
        end
    | KLock k v => if m_lock m then Blocked else Next (KLoad k v 0) (with_lock true m)
    | KLoad k v i =>
        if (i <? ncls)%nat then Next (KStore k v i (nth i (fb_votes (m_fb m)) 0)) m
        else Finished (with_lock false m)
    | KStore k v i x => Next (KLoad k v (S i)) (with_fb (set_vote i (wrap16 (x + nth i v 0)) (m_fb m)) m)
    | KUp k p pp n np =>
        match nth_error (m_blocks m) k with
        | Some (tr, b) => Finished (with_blocks (set_nth k (tr, update (m_cur m) p pp n np b) (m_blocks m)) m)
        | None => Finished m
        end
    end.

  (** The executor's own code between the calls of the pool. *)
  (* reset() and prepare_example (executor.hpp:113-116, 173-174) *)
  Definition begin_example (e : E) (m : xmem) : xmem :=
    mkMem (m_blocks m) (fb_reset (m_fb m)) (m_lock m) e (m_log m).
  (* process (executor.hpp:133) *)
  Definition end_example (l : L) (m : xmem) : xmem := with_fb (process l (m_fb m)) m.
  (* output[i] = predict() (executor.hpp:191) *)
  Definition put_class (m : xmem) : xmem :=
    mkMem (m_blocks m) (m_fb m) (m_lock m) (m_cur m) (m_log m ++ [Cls (fb_predict (m_fb m))]).
  (* reset_train_predict_counter and get_train_accuracy (executor.hpp:91, 96) *)
  Definition clear_counter (m : xmem) : xmem := with_fb (fb_reset_counter (m_fb m)) m.
  Definition put_accuracy (m : xmem) : xmem :=
    mkMem (m_blocks m) (m_fb m) (m_lock m) (m_cur m) (m_log m ++ [Acc (fb_accuracy (m_fb m))]).

  Definition push_ex (ev : bool) (k : nat) : op xmem ktask := OPush (fun _ => KEx ev k).
  Definition push_up (k : nat) : op xmem ktask :=
    OPush (fun m => let f := m_fb m in KUp k (fb_pos f) (fb_pp f) (fb_neg f) (fb_np f)).

  (** Positions of the trainable blocks (executor.hpp:82-83, 140-143); the flags do
      not change while the executor works. *)
  Fixpoint trainable_from (k : nat) (flags : list bool) : list nat :=
    match flags with
    | [] => []
    | t :: r => if t then k :: trainable_from (S k) r else trainable_from (S k) r
    end.

  (** One example of train_slice (executor.hpp:111-153) with blocks flagged [flags]. *)
  Definition train_calls (flags : list bool) (d : E * L) : list (op xmem ktask) :=
    [ODo (begin_example (fst d))] ++ map (push_ex false) (seq 0 (length flags)) ++ [OWait] ++
    [ODo (end_example (snd d))] ++ map push_up (trainable_from 0 flags) ++ [OWait].

  (** One example of eval_predict (executor.hpp:171-192). *)
  Definition eval_calls (flags : list bool) (e : E) : list (op xmem ktask) :=
    [ODo (begin_example e)] ++ map (push_ex true) (seq 0 (length flags)) ++ [OWait] ++ [ODo put_class].

  (** What Python asks of the executor, and the calls it makes: train_epoch
      (executor.hpp:89-97, shuffle 103-109) and eval_predict with an array of the
      right length (executor.hpp:157-195). *)
  Inductive request := RTrain (data : list (E * L)) | REval (data : list (E * L)).

  Definition request_calls (flags : list bool) (q : request) (r : irng) : list (op xmem ktask) * irng :=
    match q with
    | RTrain data =>
        let '(idx, r) := shuffle (seq 0 (length data)) r in
        ([ODo clear_counter] ++ flat_map (train_calls flags) (select E L data (firstn (length data) idx)) ++ [ODo put_accuracy], r)
    | REval data => (flat_map (eval_calls flags) (map fst data), r)
    end.
  Fixpoint session_calls (flags : list bool) (qs : list request) (r : irng) : list (op xmem ktask) :=
    match qs with
    | [] => []
    | q :: qs' => let '(ops, r) := request_calls flags q r in ops ++ session_calls flags qs' r
    end.

  (** The memory of an executor that has just been asked; [e0]: whatever example
      the input block last prepared. *)
  Definition start_mem (x : exec B) (e0 : E) : xmem := mkMem (x_blocks x) (x_fb x) false e0 [].
End PoolExec.

Arguments mkMem {B E}. Arguments m_blocks {B E}. Arguments m_fb {B E}. Arguments m_lock {B E}. Arguments m_cur {B E}.
Arguments m_log {B E}. Arguments with_blocks {B E}. Arguments with_fb {B E}. Arguments with_lock {B E}.
Arguments begin_example {B E}. Arguments end_example {B E L}. Arguments put_class {B E}. Arguments clear_counter {B E}.
Arguments put_accuracy {B E}. Arguments push_ex {B E}. Arguments push_up {B E}. Arguments start_mem {B E}.
Arguments RTrain {E L}. Arguments REval {E L}. Arguments session_calls {B E L}. Arguments request_calls {B E L}.
Arguments train_calls {B E L}. Arguments eval_calls {B E}. Arguments act {B E}.
