(** What a session with the executor must answer: the single-thread executor's
    answers, request by request. *)
From Coq Require Import ZArith List Bool QArith.
From Verif Require Import Base ModelInference ModelFeedback ModelExecutor ModelPool ModelPoolExec.
Import ListNotations.
Open Scope Z_scope.

Section Serve.
  Variables B E : Type.
  Variable train_ex eval_ex : E -> B -> B * list Z.
  Variable update : E -> nat -> Q -> nat -> Q -> B -> B.
  Variable L : Type.
  Variable process : L -> fblock -> fblock.

  Fixpoint serve (qs : list (request E L)) (x : exec B) : list answer * exec B :=
    match qs with
    | [] => ([], x)
    | RTrain data :: qs' =>
        let '(a, x) := train_epoch B E train_ex update L process data x in
        let '(l, x) := serve qs' x in (Acc a :: l, x)
    | REval data :: qs' =>
        let '(_, ys, x) := eval_predict B E eval_ex L data (repeat O (length data)) x in
        let '(l, x) := serve qs' x in (map Cls ys ++ l, x)
    end.
End Serve.
Arguments serve {B E} _ _ _ {L}.

(** Number of examples in a session. *)
Definition session_size {E L} (qs : list (request E L)) : nat :=
  list_sum (map (fun q => match q with RTrain d => length d | REval d => length d end) qs).

(** The block a task works on, and whether it is between taking and releasing
    m_votes_lock. *)
Definition kblock (t : ktask) : nat :=
  match t with KEx _ k | KLock k _ | KLoad k _ _ | KStore k _ _ _ | KUp k _ _ _ _ => k end.
Definition kholds (t : ktask) : bool := match t with KLoad _ _ _ | KStore _ _ _ _ => true | _ => false end.

(** The memory answers the session [qs] asked of [x]. *)
Definition served {B E L} train_ex eval_ex update (process : L -> fblock -> fblock) (qs : list (request E L)) (x : exec B) (m : xmem B E) : Prop :=
  m_log m = fst (serve train_ex eval_ex update process qs x) /\
  m_blocks m = x_blocks (snd (serve train_ex eval_ex update process qs x)) /\
  m_fb m = x_fb (snd (serve train_ex eval_ex update process qs x)).
