(** WorkPool.v -- model of misc/workpool.go as a transition system: any number of goroutines call
    AsyncSubmit and Shutdown, [size] workers and the cancel listener run, every interleaving of
    their atomic steps is possible.  Time is not modelled: the timeout of Shutdown may fire at any
    moment after the select began.  Log calls are dropped.  A task is a number; tasks take any
    number of steps and may panic. *)
From Verif Require Import Base Node.
Local Open Scope list_scope.

(** misc/shutdown.go:13-19 *)
Inductive status := Running | Shutdowning | Shutdowned.

(** Program points of misc/workpool.go:34-46: before the select, before the receive (:41), in
    worker() (:42), after the loop (:45), and gone. *)
Inductive wpc := WTop | WRecv | WRun (t : nat) | WExit | WGone.
(** :48-53 of a goroutine: not in a call, before the status check, before the send. *)
Inductive spc := SIdle | SBegin (t : nat) | SSend (t : nat).
(** :55-70: not in a call, before :56, before :60, before :62, in the select of :63, before :69. *)
Inductive hpc := HIdle | HBegin | HPassed | HStored | HWait | HWoken (finished : bool).
(** :85-94: in the select, in the Shutdown call of :89, returned. *)
Inductive lpc := LWait | LShut | LGone.
(** How a call of Shutdown ended. *)
Inductive hret := RSkipped | RTimeout | RSuccess | RPanicked.

(** misc/workpool.go:14-22 and the goroutines.  [w_shuts 0] is the listener's own call.  The
    last seven fields are history: accepted tasks with their submitter, tasks started and
    finished in order, AsyncSubmit calls that panicked, Shutdown calls that returned, and
    whether an unrecovered panic killed the process. *)
Record wp := {
  w_size : nat; w_queue : list nat; w_wg : nat; w_status : status; w_closed : bool; w_cancelled : bool;
  w_ws : list wpc; w_subs : nat -> spc; w_shuts : nat -> hpc; w_listen : lpc;
  w_acc : list (nat * nat); w_started : list nat; w_done : list nat; w_subpanics : list nat; w_returns : list (nat * hret); w_dead : bool }.

(** misc/workpool.go:96-108 and :24-32 for size >= 0 (a negative size panics in make). *)
Definition NewWorkPool (size : nat) : wp :=
  {| w_size := size; w_queue := []; w_wg := size; w_status := Running; w_closed := false; w_cancelled := false;
     w_ws := repeat WTop size; w_subs := fun _ => SIdle; w_shuts := fun _ => HIdle; w_listen := LWait;
     w_acc := []; w_started := []; w_done := []; w_subpanics := []; w_returns := []; w_dead := false |}.

(** Field updates. *)
Definition set_sub (s : wp) (i : nat) (c : spc) (q : list nat) (acc : list (nat * nat)) (ps : list nat) : wp :=
  {| w_size := w_size s; w_queue := q; w_wg := w_wg s; w_status := w_status s; w_closed := w_closed s; w_cancelled := w_cancelled s;
     w_ws := w_ws s; w_subs := upd (w_subs s) i c; w_shuts := w_shuts s; w_listen := w_listen s;
     w_acc := acc; w_started := w_started s; w_done := w_done s; w_subpanics := ps; w_returns := w_returns s; w_dead := w_dead s |}.
Definition set_work (s : wp) (ws : list wpc) (q : list nat) (wg : nat) (st dn : list nat) : wp :=
  {| w_size := w_size s; w_queue := q; w_wg := wg; w_status := w_status s; w_closed := w_closed s; w_cancelled := w_cancelled s;
     w_ws := ws; w_subs := w_subs s; w_shuts := w_shuts s; w_listen := w_listen s;
     w_acc := w_acc s; w_started := st; w_done := dn; w_subpanics := w_subpanics s; w_returns := w_returns s; w_dead := w_dead s |}.
Definition set_shut (s : wp) (i : nat) (c : hpc) (stt : status) (cl : bool) (rs : list (nat * hret)) : wp :=
  {| w_size := w_size s; w_queue := w_queue s; w_wg := w_wg s; w_status := stt; w_closed := cl; w_cancelled := w_cancelled s;
     w_ws := w_ws s; w_subs := w_subs s; w_shuts := upd (w_shuts s) i c; w_listen := w_listen s;
     w_acc := w_acc s; w_started := w_started s; w_done := w_done s; w_subpanics := w_subpanics s; w_returns := rs; w_dead := w_dead s |}.
Definition set_listen (s : wp) (l : lpc) (c : bool) : wp :=
  {| w_size := w_size s; w_queue := w_queue s; w_wg := w_wg s; w_status := w_status s; w_closed := w_closed s; w_cancelled := c;
     w_ws := w_ws s; w_subs := w_subs s; w_shuts := w_shuts s; w_listen := l;
     w_acc := w_acc s; w_started := w_started s; w_done := w_done s; w_subpanics := w_subpanics s; w_returns := w_returns s; w_dead := w_dead s |}.
Definition die (s : wp) : wp :=
  {| w_size := w_size s; w_queue := w_queue s; w_wg := w_wg s; w_status := w_status s; w_closed := w_closed s; w_cancelled := w_cancelled s;
     w_ws := w_ws s; w_subs := w_subs s; w_shuts := w_shuts s; w_listen := w_listen s;
     w_acc := w_acc s; w_started := w_started s; w_done := w_done s; w_subpanics := w_subpanics s; w_returns := w_returns s; w_dead := true |}.

(** One atomic step of a worker.  [work_step s s']: *)
Inductive work_step (s : wp) : wp -> Prop :=
(** :37-38 the break leaves the select, not the loop *)
| ws_select_closed l1 l2 : w_ws s = l1 ++ WTop :: l2 -> w_closed s = true ->
    work_step s (set_work s (l1 ++ WRecv :: l2) (w_queue s) (w_wg s) (w_started s) (w_done s))
(** :39 *)
| ws_select_default l1 l2 : w_ws s = l1 ++ WTop :: l2 -> w_closed s = false ->
    work_step s (set_work s (l1 ++ WRecv :: l2) (w_queue s) (w_wg s) (w_started s) (w_done s))
(** :41 blocks while the queue is empty (nobody closes it) *)
| ws_recv l1 l2 t q : w_ws s = l1 ++ WRecv :: l2 -> w_queue s = t :: q ->
    work_step s (set_work s (l1 ++ WRun t :: l2) q (w_wg s) (w_started s ++ [t]) (w_done s))
(** :42 returns *)
| ws_done l1 l2 t : w_ws s = l1 ++ WRun t :: l2 ->
    work_step s (set_work s (l1 ++ WTop :: l2) (w_queue s) (w_wg s) (w_started s) (w_done s ++ [t]))
(** :45 *)
| ws_exit l1 l2 : w_ws s = l1 ++ WExit :: l2 ->
    work_step s (set_work s (l1 ++ WGone :: l2) (w_queue s) (w_wg s - 1) (w_started s) (w_done s)).

(** One atomic step of the system. *)
Inductive wp_step (s : wp) : wp -> Prop :=
| st_work s' : w_dead s = false -> work_step s s' -> wp_step s s'
(** :42 panics: nothing recovers, the process dies *)
| st_task_panic l1 l2 t : w_dead s = false -> w_ws s = l1 ++ WRun t :: l2 -> wp_step s (die s)
(** AsyncSubmit(t) by goroutine i: the call, :49 with both outcomes, :52 *)
| st_submit i t : w_dead s = false -> w_subs s i = SIdle -> wp_step s (set_sub s i (SBegin t) (w_queue s) (w_acc s) (w_subpanics s))
| st_submit_ok i t : w_dead s = false -> w_subs s i = SBegin t -> w_status s = Running ->
    wp_step s (set_sub s i (SSend t) (w_queue s) (w_acc s) (w_subpanics s))
| st_submit_panic i t : w_dead s = false -> w_subs s i = SBegin t -> w_status s <> Running ->
    wp_step s (set_sub s i SIdle (w_queue s) (w_acc s) (w_subpanics s ++ [i]))
| st_submit_send i t : w_dead s = false -> w_subs s i = SSend t -> length (w_queue s) < w_size s ->
    wp_step s (set_sub s i SIdle (w_queue s ++ [t]) (w_acc s ++ [(i, t)]) (w_subpanics s))
(** Shutdown by goroutine i >= 1: the call *)
| st_shutdown i : w_dead s = false -> w_shuts s (S i) = HIdle -> wp_step s (set_shut s (S i) HBegin (w_status s) (w_closed s) (w_returns s))
(** :56-57 and :56 -> :60 *)
| st_shut_skip i : w_dead s = false -> w_shuts s i = HBegin -> w_status s <> Running ->
    wp_step s (set_shut s i HIdle (w_status s) (w_closed s) (w_returns s ++ [(i, RSkipped)]))
| st_shut_pass i : w_dead s = false -> w_shuts s i = HBegin -> w_status s = Running ->
    wp_step s (set_shut s i HPassed (w_status s) (w_closed s) (w_returns s))
(** :60 *)
| st_shut_store i : w_dead s = false -> w_shuts s i = HPassed -> wp_step s (set_shut s i HStored Shutdowning (w_closed s) (w_returns s))
(** :62 *)
| st_shut_close i : w_dead s = false -> w_shuts s i = HStored -> w_closed s = false ->
    wp_step s (set_shut s i HWait (w_status s) true (w_returns s))
(** :62 on a closed channel panics; in the listener goroutine nobody recovers *)
| st_shut_close_again i : w_dead s = false -> w_shuts s (S i) = HStored -> w_closed s = true ->
    wp_step s (set_shut s (S i) HIdle (w_status s) true (w_returns s ++ [(S i, RPanicked)]))
| st_listen_close_again : w_dead s = false -> w_shuts s 0 = HStored -> w_closed s = true -> wp_step s (die s)
(** :64; :66 with :72-79 *)
| st_shut_timeout i : w_dead s = false -> w_shuts s i = HWait ->
    wp_step s (set_shut s i (HWoken false) (w_status s) (w_closed s) (w_returns s))
| st_shut_finish i : w_dead s = false -> w_shuts s i = HWait -> w_wg s = 0 ->
    wp_step s (set_shut s i (HWoken true) (w_status s) (w_closed s) (w_returns s))
(** :69 *)
| st_shut_return i b : w_dead s = false -> w_shuts s i = HWoken b ->
    wp_step s (set_shut s i HIdle Shutdowned (w_closed s) (w_returns s ++ [(i, if b then RSuccess else RTimeout)]))
(** the context is cancelled; :87-89; :90-92 *)
| st_cancel : w_dead s = false -> wp_step s (set_listen s (w_listen s) true)
| st_listen_shut : w_dead s = false -> w_listen s = LWait -> w_cancelled s = true ->
    wp_step s (set_listen (set_shut s 0 HBegin (w_status s) (w_closed s) (w_returns s)) LShut true)
| st_listen_gone : w_dead s = false -> w_listen s = LWait -> w_closed s = true -> wp_step s (set_listen s LGone (w_cancelled s)).

(** Runs. *)
Inductive wp_steps : wp -> wp -> Prop :=
| wps_refl s : wp_steps s s
| wps_step s s' s'' : wp_steps s s' -> wp_step s' s'' -> wp_steps s s''.
Definition wp_reach (size : nat) (s : wp) : Prop := wp_steps (NewWorkPool size) s.
