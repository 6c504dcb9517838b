(** Vocabulary of the thread pool properties. *)
From Coq Require Import ZArith List Bool.
From Verif Require Import Base ModelPool.
Import ListNotations.
Open Scope Z_scope.

(** What an execution shows: the tasks queued, the tasks taken by a worker, both
    in order, and the number of tasks that ended. *)
Definition pushed {T} (l : list (label T)) : list T :=
  flat_map (fun x => match x with LPush t => [t] | _ => [] end) l.
Definition started {T} (l : list (label T)) : list T :=
  flat_map (fun x => match x with LStart t => [t] | _ => [] end) l.
Definition ended {T} (l : list (label T)) : nat :=
  length (filter (fun x => match x with LFinish => true | _ => false end) l).
Definition spurious {T} (l : list (label T)) : nat :=
  length (filter (fun x => match x with LSpurious => true | _ => false end) l).

(** Fewer than 2^64 tasks are queued between two calls of wait_for_tasks ([k]:
    queued so far). *)
Fixpoint fits {M T} (k : Z) (ops : list (op M T)) : Prop :=
  match ops with
  | [] => k < 2 ^ 64
  | OPush _ :: o => fits (k + 1) o
  | OWait :: o => k < 2 ^ 64 /\ fits 0 o
  | ODo _ :: o => fits k o
  | OStop :: _ => k < 2 ^ 64
  end.

(** The threads are stopped at most once, at the end, directly after a
    wait_for_tasks (that is what the destructor does). *)
Fixpoint stops_last {M T} (waited : bool) (ops : list (op M T)) : Prop :=
  match ops with
  | [] => True
  | OPush _ :: o => stops_last false o
  | OWait :: o => stops_last true o
  | ODo _ :: o => stops_last waited o
  | OStop :: o => waited = true /\ o = []
  end.
Definition client {M T} (ops : list (op M T)) : Prop := stops_last true ops /\ fits 0 ops.

(** The client never stops the threads. *)
Definition no_stop {M T} (ops : list (op M T)) : Prop := ~ In OStop ops.
(** The calls made by the destructor. *)
Definition destructor {M T} : list (op M T) := [OWait; OStop].

(** States the pool can be in. *)
Definition reachable {M T} (act : T -> M -> tres M T) (n : nat) (ops : list (op M T)) (m : M) (s : pool M T) : Prop :=
  exists l, pool_run act (pool_start n ops m) l s.

(** Nothing can happen any more, but for a thread waking up without reason. *)
Definition stuck {M T} (act : T -> M -> tres M T) (s : pool M T) : Prop :=
  forall x s', pool_step act s x s' -> x = LSpurious.

(** A thread holds tasks_mutex. *)
Definition worker_holds {T} (w : wpc T) : bool :=
  match w with WTest | WBlock | WCheck | WUnlock _ | WDec | WAsk | WNotify | WRelease => true | _ => false end.
Definition client_holds {T} (p : mpc T) : bool :=
  match p with MPPush _ | MPUnlock | MWTest | MWBlock | MWClear | MWUnlock => true | _ => false end.

(** A worker has a task in hand. *)
Definition has_task {T} (w : wpc T) : bool := match w with WUnlock _ | WRun _ => true | _ => false end.

(** ** Fork and join

    What a user of push_task and wait_for_tasks may rely on: pushed tasks run
    concurrently, each once; wait_for_tasks goes on when there are none left.
    State: calls left, tasks begun or to be begun, shared memory. *)
Section ForkJoin.
  Variables M T : Type.
  Variable act : T -> M -> tres M T.

  Definition fj : Type := (list (op M T) * list T * M)%type.

  Inductive fj_step : fj -> fj -> Prop :=
  | FPush : forall f o k m, fj_step (OPush f :: o, k, m) (o, k ++ [f m], m)
  | FWait : forall o m, fj_step (OWait :: o, [], m) (o, [], m)
  | FDo : forall g o k m, fj_step (ODo g :: o, k, m) (o, k, g m)
  | FStop : forall o k m, fj_step (OStop :: o, k, m) (o, k, m)
  | FAct : forall o k1 t k2 m t' m', act t m = Next t' m' -> fj_step (o, k1 ++ t :: k2, m) (o, k1 ++ t' :: k2, m')
  | FEnd : forall o k1 t k2 m m', act t m = Finished m' -> fj_step (o, k1 ++ t :: k2, m) (o, k1 ++ k2, m').

  Inductive fj_steps : fj -> fj -> Prop :=
  | FNil : forall a, fj_steps a a
  | FSnoc : forall a b c, fj_steps a b -> fj_step b c -> fj_steps a c.
End ForkJoin.
Arguments fj_step {M T}. Arguments fj_steps {M T}.

(** The calls the client has not completed. *)
Definition calls_left {M T} (s : pool M T) : list (op M T) :=
  match p_main s with
  | MWSet | MWLock | MWTest | MWBlock | MWSleep | MWWake | MWClear | MWUnlock => OWait :: p_ops s
  | _ => p_ops s
  end.

(** The tasks pushed and not ended: queued, about to be queued, or in the hands of
    a worker. *)
Definition in_hand {T} (w : wpc T) : list T := match w with WUnlock t | WRun t => [t] | _ => [] end.
Definition outstanding {M T} (s : pool M T) : list T :=
  p_queue s ++ match p_main s with MPLock t | MPPush t => [t] | _ => [] end ++ flat_map in_hand (p_ws s).
