(** C92-C95: the thread pool and the executor that runs on it. *)
From Coq Require Import ZArith List Bool QArith Lia Permutation.
From Verif Require Import Base Spec ModelInference ModelDense ModelFeedback ModelExecutor ModelDenseExec
  ProofsExecutor ProofsDenseExec ModelPool SpecPool ModelPoolExec SpecPoolExec ProofsPoolFork ProofsPoolStop ProofsTopPool ProofsTopExecutor
  ModelAvx2 ModelNeon ModelSparse ModelConv ProofsPoolBlocks ExampleData.
From Verif Require PropertiesSparse PropertiesConv PropertiesNeon.
Import ListNotations.
Open Scope Z_scope.

(** ** C92 *)

(** In every execution the tasks pushed are those started, in the same order, and
    those still queued; the tasks started are those ended and those in the hands
    of a worker. *)
Theorem C92_each_once_in_order : forall M T (ac : T -> M -> tres M T) n ops m l s, (0 < n)%nat -> client ops ->
  pool_run ac (pool_start n ops m) l s ->
  pushed l = started l ++ p_queue s /\ length (started l) = (ended l + length (filter has_task (p_ws s)))%nat.
Proof. exact top_trace. Qed.

(** When wait_for_tasks returns, all tasks pushed before have been started and
    have ended. *)
Theorem C92_barrier : forall M T (ac : T -> M -> tres M T) n ops m l s, (0 < n)%nat -> client ops ->
  pool_run ac (pool_start n ops m) (l ++ [LWaited]) s ->
  started l = pushed l /\ ended l = length (pushed l) /\ outstanding s = [].
Proof. exact top_barrier. Qed.

(** tasks_mutex is held by one thread when it is held and by none when it is not. *)
Theorem C92_mutual_exclusion : forall M T (ac : T -> M -> tres M T) n ops m s, (0 < n)%nat -> client ops -> reachable ac n ops m s ->
  ((if client_holds (p_main s) then 1 else 0) + length (filter worker_holds (p_ws s)) = if p_mutex s then 1 else 0)%nat.
Proof. exact top_mutex. Qed.

(** No worker pops from an empty queue (lines 577-578 test only [running]). *)
Theorem C92_never_pops_empty : forall M T (ac : T -> M -> tres M T) n ops m s i, (0 < n)%nat -> client ops -> reachable ac n ops m s ->
  nth_error (p_ws s) i = Some WCheck -> p_running s = true -> p_queue s <> [].
Proof. exact top_nonempty. Qed.

(** Seen from its user the pool is fork and join: every state it reaches is one the
    plain fork/join machine of SpecPool.v reaches with the same calls left, tasks
    outstanding and memory. *)
Theorem C92_fork_join : forall M T (ac : T -> M -> tres M T) n ops m s, (0 < n)%nat -> client ops -> reachable ac n ops m s ->
  exists k, fj_steps ac (ops, [], m) (calls_left s, k, p_mem s) /\ Permutation k (outstanding s).
Proof. exact fork_reachable. Qed.

(** Two threads, two tasks that add to the memory; the first ends before its push
    has counted it, so that the counter wraps around and back. *)
Definition add_task (t m : Z) : tres Z Z := Finished (m + t).
Definition two_tasks : list (op Z Z) := [OPush (fun _ => 1); OPush (fun _ => 4); OWait].
Ltac fields := cbn [main_at worker_at with_ops with_workers with_queue with_total with_mutex with_waiting with_running ModelPool.with_mem
    p_ops p_main p_ws p_queue p_total p_mutex p_waiting p_running p_mem set_nth app add_task].
Ltac client c := eapply run_cons; [left; eapply c; try reflexivity|fields].
Ltac worker i c := eapply run_cons; [right; exists i; eapply c; try reflexivity|fields].
Example C92_case : client two_tasks /\ exists l s, pool_run add_task (pool_start 2 two_tasks 0) (l ++ [LWaited]) s /\
  pushed l = [1; 4] /\ ended l = 2%nat /\ spurious l = O /\ pool_finished s /\ p_mem s = 5.
Proof.
  split; [unfold client, two_tasks; cbn [stops_last fits]; repeat split; lia|].
  eexists (_ :: _ :: _ :: _ :: _ :: _ :: _ :: _ :: _ :: _ :: _ :: _ :: _ :: _ :: _ :: _ :: _ :: _ :: _ :: _ :: _ :: _ :: _ :: _ :: _ :: _ :: _ ::
    _ :: _ :: _ :: _ :: _ :: _ :: _ :: _ :: _ :: _ :: _ :: _ :: _ :: _ :: []), _.
  split; [|split; [|split; [|split; [|split]]]].
  { unfold pool_start, two_tasks. cbn [repeat app].
    client (@SPush Z Z). client (@SPLock Z Z). client (@SPPush Z Z). client (@SPUnlock Z Z).
    worker O (@WSLoop Z Z add_task). worker O (@WSLock Z Z add_task). worker O (@WSTrue Z Z add_task); [left; discriminate|].
    worker O (@WSTake Z Z add_task). worker O (@WSUnlock Z Z add_task). worker O (@WSFinish Z Z add_task).
    worker O (@WSRelock Z Z add_task). worker O (@WSDec Z Z add_task). client (@SPInc Z Z).
    worker O (@WSAsk Z Z add_task). worker O (@WSRelease Z Z add_task).
    client (@SPNobody Z Z); [intros [X|[X|[]]]; discriminate|].
    client (@SPush Z Z). client (@SPLock Z Z). client (@SPPush Z Z). client (@SPUnlock Z Z). client (@SPInc Z Z).
    client (@SPNobody Z Z); [intros [X|[X|[]]]; discriminate|].
    client (@SWait Z Z). client (@SWSet Z Z). client (@SWLock Z Z). client (@SWFalse Z Z); [vm_compute; discriminate|]. client (@SWBlock Z Z).
    worker 1%nat (@WSLoop Z Z add_task). worker 1%nat (@WSLock Z Z add_task). worker 1%nat (@WSTrue Z Z add_task); [left; discriminate|].
    worker 1%nat (@WSTake Z Z add_task). worker 1%nat (@WSUnlock Z Z add_task). worker 1%nat (@WSFinish Z Z add_task).
    worker 1%nat (@WSRelock Z Z add_task). worker 1%nat (@WSDec Z Z add_task). worker 1%nat (@WSAsk Z Z add_task).
    worker 1%nat (@WSNotify Z Z add_task). worker 1%nat (@WSRelease Z Z add_task).
    client (@SWWake Z Z). client (@SWTrue Z Z). client (@SWClear Z Z). client (@SWUnlock Z Z).
    constructor. }
  all: try reflexivity.
  split; reflexivity.
Qed.

(** ** C93 *)

(** The executor on the pool, with any number of threads from one on: as long as
    its work is not done some thread can move (waking up for no reason not
    counted). *)
Theorem C93_never_stuck : forall B E train_ex eval_ex update L (process : L -> fblock -> fblock) ncls (x : exec B) (qs : list (request E L)) e0,
  Z.of_nat (length (x_blocks x)) < 2 ^ 64 ->
  forall n s, (0 < n)%nat ->
  reachable (act train_ex eval_ex update ncls) n (session_calls process (map fst (x_blocks x)) qs (x_rng x)) (start_mem x e0) s ->
  stuck (act train_ex eval_ex update ncls) s -> pool_finished s.
Proof. exact top_stuck. Qed.

(** From every state it can run to the end. *)
Theorem C93_can_finish : forall B E train_ex eval_ex update L (process : L -> fblock -> fblock) ncls (x : exec B) (qs : list (request E L)) e0,
  Z.of_nat (length (x_blocks x)) < 2 ^ 64 ->
  forall n s, (0 < n)%nat ->
  reachable (act train_ex eval_ex update ncls) n (session_calls process (map fst (x_blocks x)) qs (x_rng x)) (start_mem x e0) s ->
  exists l s', pool_run (act train_ex eval_ex update ncls) s l s' /\ spurious l = O /\ pool_finished s'.
Proof. exact top_ends. Qed.

(** And whatever the scheduler does it takes a bounded number of steps, plus six
    per spurious wake-up. *)
Theorem C93_bounded : forall B E train_ex eval_ex update L (process : L -> fblock -> fblock) ncls (x : exec B) (qs : list (request E L)) e0,
  Z.of_nat (length (x_blocks x)) < 2 ^ 64 ->
  forall n l s, (0 < n)%nat ->
  pool_run (act train_ex eval_ex update ncls) (pool_start n (session_calls process (map fst (x_blocks x)) qs (x_rng x)) (start_mem x e0)) l s ->
  Z.of_nat (length l) <= 4 * Z.of_nat n + 2 * Z.of_nat (length qs)
    + Z.of_nat (session_size qs) * (14 + 2 * Z.of_nat (length (x_blocks x)) * (28 + 2 * Z.of_nat ncls)) + 6 * Z.of_nat (spurious l).
Proof. exact top_length. Qed.

(** ** C94 *)

(** Whatever the number of threads and the schedule, when the executor's work is
    done the answers it gave, the blocks and the feedback block are those of the
    single-thread executor: any sequence of epochs and evaluations. *)
Theorem C94_answers : forall B E train_ex eval_ex update L (process : L -> fblock -> fblock) ncls (x : exec B) (qs : list (request E L)) e0,
  Z.of_nat (length (x_blocks x)) < 2 ^ 64 ->
  forall inv : B -> Prop, good_ex B E ncls inv train_ex -> good_ex B E ncls inv eval_ex ->
  (forall e p pp n np b, inv b -> inv (update e p pp n np b)) ->
  (forall l f, fb_ok ncls f -> fb_ok ncls (process l f)) ->
  all_inv B inv (x_blocks x) -> fb_ok ncls (x_fb x) ->
  forall n s, (0 < n)%nat ->
  reachable (act train_ex eval_ex update ncls) n (session_calls process (map fst (x_blocks x)) qs (x_rng x)) (start_mem x e0) s ->
  pool_finished s -> served train_ex eval_ex update process qs x (p_mem s).
Proof. exact top_result. Qed.

(** The same when the executor is destroyed afterwards, from the moment the session
    is over. *)
Theorem C94_answers_before_destruction : forall B E train_ex eval_ex update L (process : L -> fblock -> fblock) ncls (x : exec B) (qs : list (request E L)) e0,
  Z.of_nat (length (x_blocks x)) < 2 ^ 64 ->
  forall inv : B -> Prop, good_ex B E ncls inv train_ex -> good_ex B E ncls inv eval_ex ->
  (forall e p pp n np b, inv b -> inv (update e p pp n np b)) ->
  (forall l f, fb_ok ncls f -> fb_ok ncls (process l f)) ->
  all_inv B inv (x_blocks x) -> fb_ok ncls (x_fb x) ->
  forall n s, (0 < n)%nat ->
  reachable (act train_ex eval_ex update ncls) n (session_calls process (map fst (x_blocks x)) qs (x_rng x) ++ destructor) (start_mem x e0) s ->
  (length (calls_left s) <= 2)%nat -> served train_ex eval_ex update process qs x (p_mem s).
Proof. exact top_result_stop. Qed.

(** The dense blocks. *)
Theorem C94_dense : forall ncls bo boost (x : exec block) (qs : list (request (list Z) nat)) e0 n s, (0 < n)%nat ->
  Z.of_nat (length (x_blocks x)) < 2 ^ 64 -> exec_inv ncls x ->
  reachable (act (dense_train_ex bo) dense_eval_ex (dense_upd bo boost) ncls) n
    (session_calls fb_process (map fst (x_blocks x)) qs (x_rng x)) (start_mem x e0) s ->
  pool_finished s -> served (dense_train_ex bo) dense_eval_ex (dense_upd bo boost) fb_process qs x (p_mem s).
Proof.
  intros ncls bo boost x qs e0 n s N Few [I1 I2] R F.
  exact (top_result _ _ _ _ _ _ _ _ x qs e0 Few (dense_inv ncls) (dense_train_good bo ncls) (dense_eval_good ncls)
    (dense_upd_good bo boost ncls) (fb_process_good ncls) I1 I2 n s N R F).
Qed.

(** The other backends: all they need is that the weight rows are as wide as there
    are classes. *)
Definition blocks_shaped {B} (inv : B -> Prop) (ncls : nat) (x : exec B) : Prop :=
  Z.of_nat (length (x_blocks x)) < 2 ^ 64 /\ Forall (fun tb => inv (snd tb)) (x_blocks x) /\ fb_ok ncls (x_fb x).

Theorem C94_avx2 : forall ncls bo boost (x : exec ablock) (qs : list (request (list Z) nat)) e0 n s, (0 < n)%nat ->
  blocks_shaped (fun b => a_ncls b = ncls /\ rows_of ncls (a_weights b)) ncls x ->
  reachable (act (avx_train_ex bo) avx_eval_ex (avx_upd bo boost) ncls) n
    (session_calls fb_process (map fst (x_blocks x)) qs (x_rng x)) (start_mem x e0) s ->
  pool_finished s -> served (avx_train_ex bo) avx_eval_ex (avx_upd bo boost) fb_process qs x (p_mem s).
Proof.
  intros ncls bo boost x qs e0 n s N [Few [I1 I2]] R F.
  exact (top_result _ _ _ _ _ _ _ _ x qs e0 Few (avx_shape ncls) (avx_train_shape bo ncls) (avx_eval_shape ncls)
    (avx_upd_shape bo boost ncls) (fb_process_good ncls) I1 I2 n s N R F).
Qed.

Theorem C94_neon : forall ncls boost (x : exec ablock) (qs : list (request (list Z) nat)) e0 n s, (0 < n)%nat ->
  blocks_shaped (fun b => a_ncls b = ncls /\ rows_of ncls (a_weights b)) ncls x ->
  reachable (act neon_train_ex neon_eval_ex (neon_upd boost) ncls) n
    (session_calls fb_process (map fst (x_blocks x)) qs (x_rng x)) (start_mem x e0) s ->
  pool_finished s -> served neon_train_ex neon_eval_ex (neon_upd boost) fb_process qs x (p_mem s).
Proof.
  intros ncls boost x qs e0 n s N [Few [I1 I2]] R F.
  exact (top_result _ _ _ _ _ _ _ _ x qs e0 Few (avx_shape ncls) (neon_train_shape ncls) (neon_eval_shape ncls)
    (neon_upd_shape boost ncls) (fb_process_good ncls) I1 I2 n s N R F).
Qed.

Theorem C94_sparse : forall ncls bo boost dynamic (x : exec sblock) (qs : list (request (list nat) nat)) e0 n s, (0 < n)%nat ->
  blocks_shaped (fun b => sp_ncls b = ncls /\ length (sp_weights b) = sp_ncl b /\ rows_of ncls (sp_weights b)) ncls x ->
  reachable (act (sp_train_ex bo) sp_eval_ex (sp_train_update bo boost dynamic) ncls) n
    (session_calls fb_process (map fst (x_blocks x)) qs (x_rng x)) (start_mem x e0) s ->
  pool_finished s -> served (sp_train_ex bo) sp_eval_ex (sp_train_update bo boost dynamic) fb_process qs x (p_mem s).
Proof.
  intros ncls bo boost dynamic x qs e0 n s N [Few [I1 I2]] R F.
  exact (top_result _ _ _ _ _ _ _ _ x qs e0 Few (sp_shape ncls) (sp_train_shape bo ncls) (sp_eval_shape ncls)
    (sp_upd_shape bo boost dynamic ncls) (fb_process_good ncls) I1 I2 n s N R F).
Qed.

Theorem C94_conv : forall ncls bo boost (x : exec cvblock) (qs : list (request (list Z) nat)) e0 n s, (0 < n)%nat ->
  blocks_shaped (fun v => b_ncls (cv_b v) = ncls /\ rows_of ncls (b_weights (cv_b v))) ncls x ->
  reachable (act (conv_train_ex bo) conv_eval_ex (conv_update bo boost) ncls) n
    (session_calls fb_process (map fst (x_blocks x)) qs (x_rng x)) (start_mem x e0) s ->
  pool_finished s -> served (conv_train_ex bo) conv_eval_ex (conv_update bo boost) fb_process qs x (p_mem s).
Proof.
  intros ncls bo boost x qs e0 n s N [Few [I1 I2]] R F.
  exact (top_result _ _ _ _ _ _ _ _ x qs e0 Few (conv_shape ncls) (conv_train_shape bo ncls) (conv_eval_shape ncls)
    (conv_upd_shape bo boost ncls) (fb_process_good ncls) I1 I2 n s N R F).
Qed.

Definition two_of {B} (b : B) : exec B := mkExec [(true, b); (false, b)] (new_fblock 2 (20#1) ex_rng) [] ex_irng.
Example C94_blocks_case :
  blocks_shaped (fun b => a_ncls b = 2%nat /\ rows_of 2 (a_weights b)) 2 (two_of PropertiesNeon.nx_block) /\
  blocks_shaped (fun b => sp_ncls b = 2%nat /\ length (sp_weights b) = sp_ncl b /\ rows_of 2 (sp_weights b)) 2 (two_of PropertiesSparse.sx_block) /\
  blocks_shaped (fun v => b_ncls (cv_b v) = 2%nat /\ rows_of 2 (b_weights (cv_b v))) 2 (two_of PropertiesConv.cx_v).
Proof.
  assert (FB : fb_ok 2 (new_fblock 2 (20#1) ex_rng)) by (split; vm_compute; auto).
  unfold blocks_shaped, two_of, rows_of. cbn [x_blocks x_fb length]. repeat split; auto;
    try (apply Forall_cons; [|apply Forall_cons; [|apply Forall_nil]]; cbn [snd]; repeat split; repeat constructor).
Qed.

(** No two outstanding tasks ever concern the same block, and at most one is inside
    register_votes. *)
Theorem C94_no_sharing : forall B E train_ex eval_ex update L (process : L -> fblock -> fblock) ncls (x : exec B) (qs : list (request E L)) e0,
  Z.of_nat (length (x_blocks x)) < 2 ^ 64 ->
  forall n s, (0 < n)%nat ->
  reachable (act train_ex eval_ex update ncls) n (session_calls process (map fst (x_blocks x)) qs (x_rng x)) (start_mem x e0) s ->
  NoDup (map kblock (outstanding s)) /\ (length (filter kholds (outstanding s)) <= 1)%nat.
Proof. exact top_private. Qed.

(** Three threads, two blocks of two and three clauses: an epoch, an evaluation,
    another epoch.  The session has a finished execution. *)
Definition ex_session : list (request (list Z) nat) := [RTrain ex_data; REval ex_data; RTrain ex_data].
Example C94_case : Z.of_nat (length (x_blocks (ex_exec ex_flats))) < 2 ^ 64 /\ exec_inv 2 (ex_exec ex_flats) /\
  session_size ex_session = 12%nat /\
  length (fst (serve (dense_train_ex true) dense_eval_ex (dense_upd true false) fb_process ex_session (ex_exec ex_flats))) = 6%nat /\
  exists s, reachable (act (dense_train_ex true) dense_eval_ex (dense_upd true false) 2) 3
    (session_calls fb_process (map fst (x_blocks (ex_exec ex_flats))) ex_session (x_rng (ex_exec ex_flats))) (start_mem (ex_exec ex_flats) []) s /\
    pool_finished s.
Proof.
  split; [vm_compute; reflexivity|]. split; [apply ex_exec_inv|]. split; [reflexivity|]. split; [vm_compute; reflexivity|].
  destruct (C93_can_finish block (list Z) (dense_train_ex true) dense_eval_ex (dense_upd true false) nat fb_process 2 (ex_exec ex_flats) ex_session []
    ltac:(vm_compute; reflexivity) 3 (pool_start 3 (session_calls fb_process (map fst (x_blocks (ex_exec ex_flats))) ex_session (x_rng (ex_exec ex_flats)))
      (start_mem (ex_exec ex_flats) [])) ltac:(lia)) as [l [s [R [_ F]]]].
  - exists []. constructor.
  - exists s. split; [exists l; exact R|exact F].
Qed.
Definition C93_case := C94_case.

(** ** C95 *)

(** Destroying the pool does not always return: whatever the number of threads and
    the tasks, a pool destroyed right after its construction has an execution
    without spurious wake-ups to a state from which it never ends. *)
Theorem C95_destructor_returns_refuted : forall M T (ac : T -> M -> tres M T) n m,
  exists l s, pool_run ac (pool_start (S n) destructor m) l s /\ spurious l = O /\
    forall l' s', pool_run ac s l' s' -> spurious l' = O -> ~ pool_finished s'.
Proof. exact top_hang. Qed.

(** The same at the end of any use of the pool. *)
Theorem C95_destructor_after_use_refuted : forall M T (ac : T -> M -> tres M T) n ops m s, client ops -> reachable ac (S n) ops m s ->
  p_main s = MNext -> p_ops s = [OStop] ->
  exists l s', pool_run ac s l s' /\ forall l' s'', pool_run ac s' l' s'' -> spurious l' = O -> ~ pool_finished s''.
Proof. exact top_hang_later. Qed.

(** That is the only way for the executor to hang: a session and the destructor get
    stuck only with the client joining a worker that sleeps. *)
Theorem C95_only_lost_wakeup_partial : forall B E train_ex eval_ex update L (process : L -> fblock -> fblock) ncls (x : exec B) (qs : list (request E L)) e0,
  Z.of_nat (length (x_blocks x)) < 2 ^ 64 ->
  forall n s, (0 < n)%nat ->
  reachable (act train_ex eval_ex update ncls) n (session_calls process (map fst (x_blocks x)) qs (x_rng x) ++ destructor) (start_mem x e0) s ->
  stuck (act train_ex eval_ex update ncls) s ->
  pool_finished s \/ exists i, p_main s = MSJoin i /\ nth_error (p_ws s) i = Some WSleep.
Proof. exact top_stuck_stop. Qed.

(** And it needs a worker between its test of the predicate and its blocking at the
    moment of notify_all (what is missing: a test and notification under the
    mutex): otherwise every execution that ends has returned. *)
Theorem C95_returns_otherwise_partial : forall M T (ac : T -> M -> tres M T) n ops m s l s', (0 < n)%nat -> client ops -> reachable ac n ops m s ->
  p_main s = MSNotify -> ~ In WBlock (p_ws s) -> pool_run ac s l s' -> stuck ac s' -> pool_finished s'.
Proof. exact top_returns. Qed.

(** A pool whose only worker has not begun when it is destroyed: the state at
    notify_all meets the hypotheses. *)
Example C95_case : exists s, reachable add_task 1 destructor 0 s /\ p_main s = MSNotify /\ ~ In WBlock (p_ws s) /\
  exists l s', pool_run add_task s l s' /\ stuck add_task s' /\ pool_finished s'.
Proof.
  eexists. split; [|split; [|split]].
  { eexists. unfold pool_start, destructor. cbn [repeat].
    client (@SWait Z Z). client (@SWSet Z Z). client (@SWLock Z Z). client (@SWTrue Z Z). client (@SWClear Z Z). client (@SWUnlock Z Z).
    client (@SStop Z Z). client (@SSStore Z Z). constructor. }
  - reflexivity.
  - cbn [p_ws]. intros [X|[]]. discriminate.
  - do 2 eexists. split; [|split].
    { client (@SSNotify Z Z). cbn [map wake]. worker O (@WSExit Z Z add_task). client (@SSJoin Z Z). client (@SSEnd Z Z). constructor. }
    + intros y s' [St|[i St]]; inversion St; subst; cbn in *; try discriminate;
        match goal with H : nth_error _ ?i = Some _ |- _ => destruct i as [|[|i']]; cbn in H; discriminate end.
    + split; reflexivity.
Qed.

Print Assumptions C92_each_once_in_order.
Print Assumptions C92_barrier.
Print Assumptions C92_mutual_exclusion.
Print Assumptions C92_never_pops_empty.
Print Assumptions C92_fork_join.
Print Assumptions C93_never_stuck.
Print Assumptions C93_can_finish.
Print Assumptions C93_bounded.
Print Assumptions C94_answers.
Print Assumptions C94_answers_before_destruction.
Print Assumptions C94_dense.
Print Assumptions C94_avx2.
Print Assumptions C94_neon.
Print Assumptions C94_sparse.
Print Assumptions C94_conv.
Print Assumptions C94_no_sharing.
Print Assumptions C95_destructor_returns_refuted.
Print Assumptions C95_destructor_after_use_refuted.
Print Assumptions C95_only_lost_wakeup_partial.
Print Assumptions C95_returns_otherwise_partial.
