(** Model of src/BS_thread_pool.hpp as far as the executor uses it:
    constructor, push_task, wait_for_tasks, the worker loop and the destructor,
    as a transition system in which every atomic access, every mutex operation
    and every operation on a condition variable is a step of its own.

    Simplifications.  The client is one thread (the executor owns the pool and
    hands it to nobody).  [paused] is false for ever: nothing calls pause,
    unpause or reset; submit, push_loop, parallelize_loop are not called either.
    Accesses are sequentially consistent (all members are std::atomic with the
    default order or guarded by tasks_mutex).  A thread that has been created but
    not yet scheduled is a worker that has not yet taken its first step, so
    create_threads needs no steps of its own.  Tasks do not throw. *)
From Coq Require Import ZArith List Bool.
From Verif Require Import Base.
Import ListNotations.
Open Scope Z_scope.

(** What one atomic action of a running task does: it cannot proceed (a mutex of
    its own is held), goes on as another task, or ends; [M] is the memory the
    tasks and the client share. *)
Inductive tres (M T : Type) :=
| Blocked
| Next (t : T) (s : M)
| Finished (s : M).
Arguments Blocked {M T}. Arguments Next {M T}. Arguments Finished {M T}.

(** The client's calls: push_task of a task made from the current memory (the
    arguments are bound at the call, 427), wait_for_tasks, code of its own, and
    destroy_threads.  The destructor (260-264) is [OWait; OStop]. *)
Inductive op (M T : Type) :=
| OPush (f : M -> T)
| OWait
| ODo (g : M -> M)
| OStop.
Arguments OPush {M T}. Arguments OWait {M T}. Arguments ODo {M T}. Arguments OStop {M T}.

(** Where a worker is (568-587). *)
Inductive wpc (T : Type) :=
| WLoop               (* 570: while (running) *)
| WLock               (* 573: locking tasks_mutex *)
| WTest               (* 574: the predicate, mutex held *)
| WBlock              (* 574: the predicate was false, about to block, mutex held *)
| WSleep              (* 574: blocked on task_available_cv, mutex free *)
| WWake               (* 574: woken, locking the mutex again *)
| WCheck              (* 575: if (running && !paused), mutex held; 577-578 *)
| WUnlock (t : T)     (* 579: task taken, mutex held *)
| WRun (t : T)        (* 580: running; what is left of the task *)
| WRelock             (* 581 *)
| WDec                (* 582, mutex held *)
| WAsk                (* 583: if (waiting), mutex held *)
| WNotify             (* 584, mutex held *)
| WRelease            (* 586: end of scope, mutex held *)
| WExit.              (* the thread has ended *)
Arguments WLoop {T}. Arguments WLock {T}. Arguments WTest {T}. Arguments WBlock {T}. Arguments WSleep {T}.
Arguments WWake {T}. Arguments WCheck {T}. Arguments WUnlock {T}. Arguments WRun {T}. Arguments WRelock {T}.
Arguments WDec {T}. Arguments WAsk {T}. Arguments WNotify {T}. Arguments WRelease {T}. Arguments WExit {T}.

(** Where the client is. *)
Inductive mpc (T : Type) :=
| MNext               (* between calls *)
| MPLock (t : T)      (* 429 *)
| MPPush (t : T)      (* 430, mutex held *)
| MPUnlock            (* 431, mutex held *)
| MPInc               (* 432 *)
| MPNotify            (* 433 *)
| MWSet               (* 510 *)
| MWLock              (* 511 *)
| MWTest              (* 512: the predicate, mutex held *)
| MWBlock             (* 512: it was false, about to block, mutex held *)
| MWSleep             (* 512: blocked on task_done_cv *)
| MWWake              (* 512: woken, locking again *)
| MWClear             (* 513, mutex held *)
| MWUnlock            (* 514, mutex held *)
| MSStore             (* 538 *)
| MSNotify            (* 539 *)
| MSJoin (i : nat).   (* 540-543: joining thread i *)
Arguments MNext {T}. Arguments MPLock {T}. Arguments MPPush {T}. Arguments MPUnlock {T}. Arguments MPInc {T}.
Arguments MPNotify {T}. Arguments MWSet {T}. Arguments MWLock {T}. Arguments MWTest {T}. Arguments MWBlock {T}.
Arguments MWSleep {T}. Arguments MWWake {T}. Arguments MWClear {T}. Arguments MWUnlock {T}. Arguments MSStore {T}.
Arguments MSNotify {T}. Arguments MSJoin {T}.

(** The pool (593-655), its threads, its client and the shared memory. *)
Record pool (M T : Type) := mkPool {
  p_ops : list (op M T);     (* calls the client still has to make *)
  p_main : mpc T;
  p_ws : list (wpc T);
  p_queue : list T;          (* tasks *)
  p_total : Z;               (* tasks_total, size_t *)
  p_mutex : bool;            (* tasks_mutex held *)
  p_waiting : bool;
  p_running : bool;
  p_mem : M
}.
Arguments mkPool {M T}. Arguments p_ops {M T}. Arguments p_main {M T}. Arguments p_ws {M T}. Arguments p_queue {M T}.
Arguments p_total {M T}. Arguments p_mutex {M T}. Arguments p_waiting {M T}. Arguments p_running {M T}. Arguments p_mem {M T}.

(** size_t arithmetic *)
Definition wrap64u (z : Z) : Z := z mod 2 ^ 64.

(** What an observer sees of a step. *)
Inductive label (T : Type) :=
| LTau
| LSpurious          (* a thread wakes up without having been notified *)
| LPush (t : T)      (* push_task queues a task *)
| LStart (t : T)     (* a worker takes a task *)
| LFinish            (* a task ends *)
| LWaited.           (* wait_for_tasks returns *)
Arguments LTau {T}. Arguments LSpurious {T}. Arguments LPush {T}. Arguments LStart {T}. Arguments LFinish {T}. Arguments LWaited {T}.

Section Pool.
  Variables M T : Type.
  (** One atomic action of a task. *)
  Variable act : T -> M -> tres M T.

  (** The constructor (252-255, 524-531): [n] threads about to enter the loop. *)
  Definition pool_start (n : nat) (ops : list (op M T)) (m : M) : pool M T :=
    mkPool ops MNext (repeat WLoop n) [] 0 false false true m.

  (** Updates of the state. *)
  Definition main_at (p : mpc T) (s : pool M T) : pool M T :=
    mkPool (p_ops s) p (p_ws s) (p_queue s) (p_total s) (p_mutex s) (p_waiting s) (p_running s) (p_mem s).
  Definition worker_at (i : nat) (w : wpc T) (s : pool M T) : pool M T :=
    mkPool (p_ops s) (p_main s) (set_nth i w (p_ws s)) (p_queue s) (p_total s) (p_mutex s) (p_waiting s) (p_running s) (p_mem s).
  Definition with_ops (o : list (op M T)) (s : pool M T) : pool M T :=
    mkPool o (p_main s) (p_ws s) (p_queue s) (p_total s) (p_mutex s) (p_waiting s) (p_running s) (p_mem s).
  Definition with_workers (ws : list (wpc T)) (s : pool M T) : pool M T :=
    mkPool (p_ops s) (p_main s) ws (p_queue s) (p_total s) (p_mutex s) (p_waiting s) (p_running s) (p_mem s).
  Definition with_queue (q : list T) (s : pool M T) : pool M T :=
    mkPool (p_ops s) (p_main s) (p_ws s) q (p_total s) (p_mutex s) (p_waiting s) (p_running s) (p_mem s).
  Definition with_total (z : Z) (s : pool M T) : pool M T :=
    mkPool (p_ops s) (p_main s) (p_ws s) (p_queue s) z (p_mutex s) (p_waiting s) (p_running s) (p_mem s).
  Definition with_mutex (b : bool) (s : pool M T) : pool M T :=
    mkPool (p_ops s) (p_main s) (p_ws s) (p_queue s) (p_total s) b (p_waiting s) (p_running s) (p_mem s).
  Definition with_waiting (b : bool) (s : pool M T) : pool M T :=
    mkPool (p_ops s) (p_main s) (p_ws s) (p_queue s) (p_total s) (p_mutex s) b (p_running s) (p_mem s).
  Definition with_running (b : bool) (s : pool M T) : pool M T :=
    mkPool (p_ops s) (p_main s) (p_ws s) (p_queue s) (p_total s) (p_mutex s) (p_waiting s) b (p_mem s).
  Definition with_mem (m : M) (s : pool M T) : pool M T :=
    mkPool (p_ops s) (p_main s) (p_ws s) (p_queue s) (p_total s) (p_mutex s) (p_waiting s) (p_running s) m.

  (** notify_all: every sleeping worker wakes up. *)
  Definition wake (w : wpc T) : wpc T := match w with WSleep => WWake | _ => w end.
  (** notify_one on task_done_cv, where only the client ever waits. *)
  Definition wake_main (p : mpc T) : mpc T := match p with MWSleep => MWWake | _ => p end.

  (** The steps of the client. *)
  Inductive main_step : pool M T -> label T -> pool M T -> Prop :=
  (* push_task (425-434) *)
  | SPush : forall s f o, p_main s = MNext -> p_ops s = OPush f :: o ->
      main_step s LTau (main_at (MPLock (f (p_mem s))) (with_ops o s))
  | SPLock : forall s t, p_main s = MPLock t -> p_mutex s = false ->
      main_step s LTau (main_at (MPPush t) (with_mutex true s))
  | SPPush : forall s t, p_main s = MPPush t ->
      main_step s (LPush t) (main_at MPUnlock (with_queue (p_queue s ++ [t]) s))
  | SPUnlock : forall s, p_main s = MPUnlock ->
      main_step s LTau (main_at MPInc (with_mutex false s))
  | SPInc : forall s, p_main s = MPInc ->
      main_step s LTau (main_at MPNotify (with_total (wrap64u (p_total s + 1)) s))
  | SPNotify : forall s i, p_main s = MPNotify -> nth_error (p_ws s) i = Some WSleep ->
      main_step s LTau (main_at MNext (worker_at i WWake s))
  | SPNobody : forall s, p_main s = MPNotify -> ~ In WSleep (p_ws s) ->
      main_step s LTau (main_at MNext s)
  (* wait_for_tasks (508-514) *)
  | SWait : forall s o, p_main s = MNext -> p_ops s = OWait :: o ->
      main_step s LTau (main_at MWSet (with_ops o s))
  | SWSet : forall s, p_main s = MWSet ->
      main_step s LTau (main_at MWLock (with_waiting true s))
  | SWLock : forall s, p_main s = MWLock -> p_mutex s = false ->
      main_step s LTau (main_at MWTest (with_mutex true s))
  | SWTrue : forall s, p_main s = MWTest -> p_total s = 0 ->
      main_step s LTau (main_at MWClear s)
  | SWFalse : forall s, p_main s = MWTest -> p_total s <> 0 ->
      main_step s LTau (main_at MWBlock s)
  | SWBlock : forall s, p_main s = MWBlock ->
      main_step s LTau (main_at MWSleep (with_mutex false s))
  | SWSpurious : forall s, p_main s = MWSleep ->
      main_step s LSpurious (main_at MWWake s)
  | SWWake : forall s, p_main s = MWWake -> p_mutex s = false ->
      main_step s LTau (main_at MWTest (with_mutex true s))
  | SWClear : forall s, p_main s = MWClear ->
      main_step s LTau (main_at MWUnlock (with_waiting false s))
  | SWUnlock : forall s, p_main s = MWUnlock ->
      main_step s LWaited (main_at MNext (with_mutex false s))
  (* code of the client *)
  | SDo : forall s g o, p_main s = MNext -> p_ops s = ODo g :: o ->
      main_step s LTau (with_mem (g (p_mem s)) (with_ops o s))
  (* destroy_threads (536-544) *)
  | SStop : forall s o, p_main s = MNext -> p_ops s = OStop :: o ->
      main_step s LTau (main_at MSStore (with_ops o s))
  | SSStore : forall s, p_main s = MSStore ->
      main_step s LTau (main_at MSNotify (with_running false s))
  | SSNotify : forall s, p_main s = MSNotify ->
      main_step s LTau (main_at (MSJoin 0) (with_workers (map wake (p_ws s)) s))
  | SSJoin : forall s i, p_main s = MSJoin i -> nth_error (p_ws s) i = Some WExit ->
      main_step s LTau (main_at (MSJoin (i + 1)) s)
  | SSEnd : forall s i, p_main s = MSJoin i -> (length (p_ws s) <= i)%nat ->
      main_step s LTau (main_at MNext s).

  (** The steps of worker [i] (568-587). *)
  Inductive worker_step (i : nat) : pool M T -> label T -> pool M T -> Prop :=
  | WSLoop : forall s, nth_error (p_ws s) i = Some WLoop -> p_running s = true ->
      worker_step i s LTau (worker_at i WLock s)
  | WSExit : forall s, nth_error (p_ws s) i = Some WLoop -> p_running s = false ->
      worker_step i s LTau (worker_at i WExit s)
  | WSLock : forall s, nth_error (p_ws s) i = Some WLock -> p_mutex s = false ->
      worker_step i s LTau (worker_at i WTest (with_mutex true s))
  | WSTrue : forall s, nth_error (p_ws s) i = Some WTest -> p_queue s <> [] \/ p_running s = false ->
      worker_step i s LTau (worker_at i WCheck s)
  | WSFalse : forall s, nth_error (p_ws s) i = Some WTest -> p_queue s = [] -> p_running s = true ->
      worker_step i s LTau (worker_at i WBlock s)
  | WSBlock : forall s, nth_error (p_ws s) i = Some WBlock ->
      worker_step i s LTau (worker_at i WSleep (with_mutex false s))
  | WSSpurious : forall s, nth_error (p_ws s) i = Some WSleep ->
      worker_step i s LSpurious (worker_at i WWake s)
  | WSWake : forall s, nth_error (p_ws s) i = Some WWake -> p_mutex s = false ->
      worker_step i s LTau (worker_at i WTest (with_mutex true s))
  | WSTake : forall s t q, nth_error (p_ws s) i = Some WCheck -> p_running s = true -> p_queue s = t :: q ->
      worker_step i s (LStart t) (worker_at i (WUnlock t) (with_queue q s))
  | WSSkip : forall s, nth_error (p_ws s) i = Some WCheck -> p_running s = false ->
      worker_step i s LTau (worker_at i WRelease s)
  | WSUnlock : forall s t, nth_error (p_ws s) i = Some (WUnlock t) ->
      worker_step i s LTau (worker_at i (WRun t) (with_mutex false s))
  | WSAct : forall s t t' m, nth_error (p_ws s) i = Some (WRun t) -> act t (p_mem s) = Next t' m ->
      worker_step i s LTau (worker_at i (WRun t') (with_mem m s))
  | WSFinish : forall s t m, nth_error (p_ws s) i = Some (WRun t) -> act t (p_mem s) = Finished m ->
      worker_step i s LFinish (worker_at i WRelock (with_mem m s))
  | WSRelock : forall s, nth_error (p_ws s) i = Some WRelock -> p_mutex s = false ->
      worker_step i s LTau (worker_at i WDec (with_mutex true s))
  | WSDec : forall s, nth_error (p_ws s) i = Some WDec ->
      worker_step i s LTau (worker_at i WAsk (with_total (wrap64u (p_total s - 1)) s))
  | WSAsk : forall s, nth_error (p_ws s) i = Some WAsk ->
      worker_step i s LTau (worker_at i (if p_waiting s then WNotify else WRelease) s)
  | WSNotify : forall s, nth_error (p_ws s) i = Some WNotify ->
      worker_step i s LTau (worker_at i WRelease (main_at (wake_main (p_main s)) s))
  | WSRelease : forall s, nth_error (p_ws s) i = Some WRelease ->
      worker_step i s LTau (worker_at i WLoop (with_mutex false s)).

  (** Any thread may move. *)
  Definition pool_step (s : pool M T) (l : label T) (s' : pool M T) : Prop :=
    main_step s l s' \/ exists i, worker_step i s l s'.

  (** Executions with what is seen of them. *)
  Inductive pool_run : pool M T -> list (label T) -> pool M T -> Prop :=
  | RunNil : forall s, pool_run s [] s
  | RunSnoc : forall s l s1 x s2, pool_run s l s1 -> pool_step s1 x s2 -> pool_run s (l ++ [x]) s2.

  (** The client has made all its calls. *)
  Definition pool_finished (s : pool M T) : Prop := p_main s = MNext /\ p_ops s = [].
End Pool.

Arguments pool_start {M T}. Arguments pool_finished {M T}.
Arguments main_at {M T}. Arguments worker_at {M T}. Arguments with_ops {M T}. Arguments with_workers {M T}.
Arguments with_queue {M T}. Arguments with_total {M T}. Arguments with_mutex {M T}. Arguments with_waiting {M T}.
Arguments with_running {M T}. Arguments with_mem {M T}. Arguments wake {T}. Arguments wake_main {T}.
Arguments main_step {M T}. Arguments worker_step {M T}. Arguments pool_step {M T}. Arguments pool_run {M T}.
