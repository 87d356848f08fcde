(** P_WorkPool.v -- property theorems (generated by tools/gen_p.py from WorkPoolPf.v).
    Each statement is repeated in full and closed by [exact]. *)
From Verif Require Import Base Node WorkPool WorkPoolSpec.
Local Open Scope list_scope.
From Verif Require Import WorkPoolPf.

(** C66: at every point of every schedule, the tasks started so far followed by the queued ones are
    the accepted tasks in the order of their acceptance: none is lost, duplicated or overtaken; and
    every started task is finished or being executed, exactly once. *)
Theorem C66_fifo_exactly_once : forall size s, wp_reach size s ->
  w_started s ++ w_queue s = map snd (w_acc s) /\ Permutation (w_started s) (w_done s ++ running s).
Proof. exact C66_fifo_exactly_once_pf. Qed.
Print Assumptions C66_fifo_exactly_once.

(** C66: a run with two workers: three tasks accepted, one finished, one executing, one queued. *)
Theorem C66_example : exists s, wp_reach 2 s /\ w_dead s = false /\
  w_acc s = [(5, 70); (6, 71); (5, 72)] /\ w_done s = [70] /\ running s = [71] /\ w_queue s = [72].
Proof. exact C66_example_pf. Qed.
Print Assumptions C66_example.

(** C67: at most [size] tasks are queued and at most [size] are being executed. *)
Theorem C67_bounds : forall size s, wp_reach size s -> length (w_queue s) <= size /\ length (running s) <= size.
Proof. exact C67_bounds_pf. Qed.
Print Assumptions C67_bounds.

(** C67: a submit waits while the queue is full: as long as [size] tasks are queued, no step of
    anybody adds to the accepted tasks; and a waiting submit goes through as soon as there is room,
    even if the pool is being shut down meanwhile. *)
Theorem C67_submit_blocks : forall size s s', wp_reach size s -> wp_step s s' ->
  (length (w_queue s) = size -> w_acc s' = w_acc s) /\
  (forall i t, w_dead s = false -> w_subs s i = SSend t -> length (w_queue s) < size ->
     exists s1, wp_step s s1 /\ w_acc s1 = w_acc s ++ [(i, t)]).
Proof. exact C67_submit_blocks_pf. Qed.
Print Assumptions C67_submit_blocks.

(** C67: the bounds are reached. *)
Theorem C67_example : exists s, wp_reach 1 s /\ w_queue s = [71] /\ running s = [70] /\ w_subs s 5 = SSend 72.
Proof. exact C67_example_pf. Qed.
Print Assumptions C67_example.

(** C68: once the pool is not running it never runs again, and an AsyncSubmit call that begins after
    that adds nothing: goroutine [i], outside of AsyncSubmit when the pool is not running, never gets
    a task accepted, while each of its calls that ends panics. *)
Theorem C68_no_submit_after_shutdown : forall s s' i, w_status s <> Running -> w_subs s i = SIdle -> wp_steps s s' ->
  w_status s' <> Running /\
  filter (fun x => Nat.eqb (fst x) i) (w_acc s') = filter (fun x => Nat.eqb (fst x) i) (w_acc s) /\
  (forall t, w_subs s' i <> SSend t) /\
  (forall t, w_subs s' i = SBegin t -> w_dead s' = false -> exists s1, wp_step s' s1 /\ w_subpanics s1 = w_subpanics s' ++ [i] /\ w_acc s1 = w_acc s').
Proof. exact C68_no_submit_after_shutdown_pf. Qed.
Print Assumptions C68_no_submit_after_shutdown.

(** C68: if no two Shutdown calls shut the pool down at the same time, the status only moves forward
    and no Shutdown panics. *)
Theorem C68_status_forward : forall size s s', serial_reach size s -> wp_step s s' ->
  stage (w_status s) <= stage (w_status s') /\ (alone_in s' -> forall i, ~ In (i, RPanicked) (w_returns s')).
Proof. exact C68_status_forward_pf. Qed.
Print Assumptions C68_status_forward.

(** C68: without that restriction it is false: with a second Shutdown that has found the pool running,
    the status goes from Shutdowned back to Shutdowning. *)
Theorem C68_status_backwards_refuted : exists s s', wp_reach 1 s /\ wp_step s s' /\ w_status s = Shutdowned /\ w_status s' = Shutdowning.
Proof. exact C68_status_backwards_refuted_pf. Qed.
Print Assumptions C68_status_backwards_refuted.

(** C68: a serial run through all three states, with a submit that panics at the end. *)
Theorem C68_example : exists s, wp_reach 1 s /\ serial_reach 1 s /\ w_status s = Shutdowned /\ w_subpanics s = [7] /\ w_acc s = [].
Proof. exact C68_example_pf. Qed.
Print Assumptions C68_example.

(** C69: what holds: with at least one worker, no worker ever exits and no Shutdown call ever reports
    success - it ends by timeout, by finding the pool not running, or by a panic. *)
Theorem C69_shutdown_never_succeeds : forall size s, 0 < size -> wp_reach size s ->
  length (w_ws s) = size /\ (forall c, In c (w_ws s) -> c <> WExit /\ c <> WGone) /\ forall i, ~ In (i, RSuccess) (w_returns s).
Proof. exact C69_shutdown_never_succeeds_pf. Qed.
Print Assumptions C69_shutdown_never_succeeds.

(** C69: the claim is false: a task accepted before Shutdown is started after Shutdown has returned. *)
Theorem C69_shutdown_stops_workers_refuted : exists s s', wp_reach 1 s /\ w_returns s = [(1, RTimeout)] /\ w_status s = Shutdowned /\ w_started s = [] /\
  worker_steps s s' /\ w_started s' = [70].
Proof. exact C69_shutdown_stops_workers_refuted_pf. Qed.
Print Assumptions C69_shutdown_stops_workers_refuted.

(** C70: false: a Shutdown call and the cancellation of the context at the same time close the
    channel twice; the panic in the pool's own goroutine kills the process.  Two user calls give a
    panic in one of them. *)
Theorem C70_concurrent_shutdown_refuted :
  (exists s, wp_reach 1 s /\ w_dead s = true /\ w_started s = [] /\ w_returns s = []) /\
  (exists s, wp_reach 1 s /\ In (2, RPanicked) (w_returns s)).
Proof. exact C70_concurrent_shutdown_refuted_pf. Qed.
Print Assumptions C70_concurrent_shutdown_refuted.

(** C70: ... and nothing happens any more in a process that was killed so, or by a panicking task. *)
Theorem C70_dead_is_dead : forall s s', w_dead s = true -> ~ wp_step s s'.
Proof. exact C70_dead_is_dead_pf. Qed.
Print Assumptions C70_dead_is_dead.

(** C70: what holds: calls that do not overlap are harmless - nothing panics and only a panicking
    task can kill the process - and a call on a pool that is not running returns at once. *)
Theorem C70_serial_shutdown : forall size s, serial_reach size s ->
  (forall i, ~ In (i, RPanicked) (w_returns s)) /\
  (forall s', wp_step s s' -> alone_in s' -> w_dead s = false -> w_dead s' = true -> exists l1 t l2, w_ws s = l1 ++ WRun t :: l2) /\
  (forall i, w_shuts s i = HBegin -> w_status s <> Running -> w_dead s = false ->
     exists s', wp_step s s' /\ w_shuts s' i = HIdle /\ w_status s' = w_status s /\ w_closed s' = w_closed s /\ w_returns s' = w_returns s ++ [(i, RSkipped)]).
Proof. exact C70_serial_shutdown_pf. Qed.
Print Assumptions C70_serial_shutdown.

(** C71: from every reachable state of a living process - also after Shutdown - the workers alone can
    go on to a state in which every accepted task has been executed to its end, exactly once, and
    nothing is queued: no accepted task is ever stuck because of the pool. *)
Theorem C71_accepted_tasks_can_finish : forall size s, wp_reach size s -> w_dead s = false ->
  exists s', worker_steps s s' /\ wp_reach size s' /\ w_acc s' = w_acc s /\ w_queue s' = [] /\ running s' = [] /\
    w_started s' = map snd (w_acc s) /\ Permutation (w_done s') (map snd (w_acc s)).
Proof. exact C71_accepted_tasks_can_finish_pf. Qed.
Print Assumptions C71_accepted_tasks_can_finish.

(** C71: the state of C69 after Shutdown with one task queued is such a state. *)
Theorem C71_example : exists s, wp_reach 1 s /\ w_dead s = false /\ w_status s = Shutdowned /\ w_acc s = [(5, 70)] /\ w_started s = [].
Proof. exact C71_example_pf. Qed.
Print Assumptions C71_example.

(** C70: in every execution at most one Shutdown call (the listener's included) gets to wait for the
    workers, ever; every other call returns at once or panics. *)
Theorem C70_one_call_waits : forall size s, wp_reach size s ->
  length (waited (w_returns s)) <= 1 /\ (forall i j, closing s i -> closing s j -> i = j) /\
  (forall i r, In r (w_returns s) -> snd r = RTimeout \/ snd r = RSuccess -> ~ closing s i).
Proof. exact C70_one_call_waits_pf. Qed.
Print Assumptions C70_one_call_waits.

(** C99: a pool whose context is not cancelled and on which nobody calls Shutdown stays running: its
    channel stays open and no AsyncSubmit panics. *)
Theorem C99_stays_running : forall size s, wp_reach size s -> w_cancelled s = false -> w_returns s = [] -> (forall i, w_shuts s i = HIdle) ->
  w_status s = Running /\ w_closed s = false /\ w_subpanics s = [] /\ w_listen s = LWait.
Proof. exact C99_stays_running_pf. Qed.
Print Assumptions C99_stays_running.

(** C99: every step of every execution looks to the users of the pool like no step at all, or like one of
    the bounded queue with at most [size] running tasks. *)
Theorem C99_refines_bounded_queue : forall size s s', wp_reach size s -> wp_step s s' ->
  (w_queue s', running s') = (w_queue s, running s) \/ pool_step size (w_queue s, running s) (w_queue s', running s').
Proof. exact C99_refines_bounded_queue_pf. Qed.
Print Assumptions C99_refines_bounded_queue.

(** C99: and each of these can happen whenever the bounded queue allows it, while the pool is running: a
    submission that finds room is accepted, a queued task is begun when fewer than [size] are running,
    a running one can end. *)
Theorem C99_bounded_queue_is_live : forall size s, wp_reach size s -> w_dead s = false ->
  (forall i t, w_status s = Running -> w_subs s i = SIdle -> length (w_queue s) < size -> exists s', wp_steps s s' /\ w_queue s' = w_queue s ++ [t] /\ running s' = running s) /\
  (forall t q, w_queue s = t :: q -> length (running s) < size -> exists s', wp_steps s s' /\ w_queue s' = q /\ Permutation (running s') (t :: running s)) /\
  (forall t, In t (running s) -> exists s', wp_steps s s' /\ w_queue s' = w_queue s /\ Permutation (running s) (t :: running s')).
Proof. exact C99_bounded_queue_is_live_pf. Qed.
Print Assumptions C99_bounded_queue_is_live.

(** C99: a pool of one worker with a running and a queued task, never shut down. *)
Theorem C99_example : exists s, wp_reach 1 s /\ w_dead s = false /\ w_cancelled s = false /\ w_returns s = [] /\ (forall i, w_shuts s i = HIdle) /\ w_queue s = [71] /\ running s = [70].
Proof. exact C99_example_pf. Qed.
Print Assumptions C99_example.

(** C69, C70: a pool of two workers, shut down by one call; a second call, after the first, returns at
    once; the workers are still there. *)
Theorem C69_example : exists s, wp_reach 2 s /\ w_returns s = [(1, RTimeout); (2, RSkipped)] /\ w_status s = Shutdowned /\ length (w_ws s) = 2.
Proof. exact C69_example_pf. Qed.
Print Assumptions C69_example.

Theorem C70_example : exists s, serial_reach 1 s /\ w_status s = Shutdowned /\ length (waited (w_returns s)) = 1.
Proof. exact C70_example_pf. Qed.
Print Assumptions C70_example.
